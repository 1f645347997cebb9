(** Proofs for the translators of connections and locales. *)
From Verif Require Import Util XDataSpec.
From Verif Require DatasetsProofs ManipProofs2 Scan.
From Coq Require Import Permutation.
Local Open Scope Z_scope.

(** ** Tokens that are conveyed *)
Definition blank_token (t : token) : Prop := exists w, t = TChars w /\ blank w.
Lemma conv_start ts us : forall b n a, conveyed b (TStart n a :: ts) us ->
  exists ws us', us = ws ++ TStart n a :: us' /\ Forall blank_token ws /\ conveyed true ts us' /\ xml_name n = true.
Proof.
  intros b n a H. remember (TStart n a :: ts) as l eqn:E. revert E.
  induction H as [b|b n' a' ts' us Hn Ha H IH|b n' ts' us H IH|b t ts' us Ht Hx H IH|b ts' us H IH|b w n' a' ts' us Hw H IH|w n' ts' us Hw H IH]; intros E; try discriminate E.
  - injection E as -> -> ->. exists [], us. repeat split; [constructor|exact H|exact Hn].
  - destruct (IH E) as (ws & us' & -> & Hb & Hc & Hn). exists (TChars w :: ws), us'. repeat split; [constructor; [exists w; split; [reflexivity|exact Hw]|exact Hb]|exact Hc|exact Hn].
Qed.
Lemma conv_end ts us : forall b n, conveyed b (TEnd n :: ts) us ->
  exists ws us', us = ws ++ TEnd n :: us' /\ Forall blank_token ws /\ (b = true -> ws = []) /\ conveyed false ts us'.
Proof.
  intros b n H. remember (TEnd n :: ts) as l eqn:E. revert E.
  induction H as [b|b n' a' ts' us Hn Ha H IH|b n' ts' us H IH|b t ts' us Ht Hx H IH|b ts' us H IH|b w n' a' ts' us Hw H IH|w n' ts' us Hw H IH]; intros E; try discriminate E.
  - injection E as -> ->. exists [], us. repeat split; [constructor|exact H].
  - destruct (IH E) as (ws & us' & -> & Hb & _ & Hc). exists (TChars w :: ws), us'. repeat split; [constructor; [exists w; split; [reflexivity|exact Hw]|exact Hb]|discriminate|exact Hc].
Qed.
Lemma conv_text t ts us : conveyed true (TChars t :: ts) us ->
  exists us', us = (match t with [] => [] | _ => [TChars t] end) ++ us' /\ conveyed true ts us' \/ (us = [TChars t] ++ us' /\ conveyed true ts us').
Proof.
  intros H. remember true as b eqn:Eb. remember (TChars t :: ts) as l eqn:E. revert E Eb.
  destruct H as [b|b n' a' ts' us Hn Ha H|b n' ts' us H|b t' ts' us Ht Hx H|b ts' us H|b w n' a' ts' us Hw H|w n' ts' us Hw H]; intros E Eb; try discriminate E; subst.
  - injection E as -> ->. exists us. right. split; [reflexivity|exact H].
  - injection E as <- ->. exists us. left. split; [reflexivity|exact H].
Qed.

(** ** Maps *)
Definition put_opt {A} (m : list (bytes * A)) (e : bytes * option A) : list (bytes * A) :=
  match snd e with Some v => kset (fst e) v m | None => m end.
Lemma put_opts {A B} (f : A -> option B) l : forall acc k, NoDup (map fst l) ->
  kget k (fold_left put_opt (map (fun e => (fst e, f (snd e))) l) acc) =
  match kget k l with Some v => match f v with Some t => Some t | None => kget k acc end | None => kget k acc end.
Proof.
  induction l as [|[n v] l IH]; intros acc k Hn; [reflexivity|]. cbn [map fold_left fst snd kget]. inversion Hn as [|x y N1 N2]; subst.
  rewrite IH by exact N2. change (put_opt acc (n, f v)) with (match f v with Some v0 => kset n v0 acc | None => acc end).
  destruct (bytes_eqb k n) eqn:E.
  - apply bytes_eqb_eq in E. subst k.
    assert (K : kget n l = None).
    { destruct (kget n l) eqn:K; [|reflexivity]. exfalso. apply N1. clear -K. induction l as [|[m w] l IH]; [discriminate K|]. cbn [kget] in K.
      destruct (bytes_eqb n m) eqn:E; [apply bytes_eqb_eq in E; left; symmetry; exact E|right; apply IH, K]. }
    rewrite K. destruct (f v); [rewrite kget_kset, bytes_eqb_refl; reflexivity|reflexivity].
  - assert (P : kget k (match f v with Some v0 => kset n v0 acc | None => acc end) = kget k acc) by (destruct (f v); [rewrite kget_kset, E|]; reflexivity).
    destruct (kget k l) as [w|]; [destruct (f w); [reflexivity|exact P]|exact P].
Qed.
Lemma put_opts_perm {A B} (f : A -> option B) (perm : list (bytes * A) -> list (bytes * A)) l k : (forall l, Permutation (perm l) l) -> NoDup (map fst l) ->
  kget k (fold_left put_opt (map (fun e => (fst e, f (snd e))) (perm l)) []) = match kget k l with Some v => f v | None => None end.
Proof.
  intros Hp Hn. rewrite put_opts.
  - rewrite <- (DatasetsProofs.kget_perm l (perm l) k Hn (Permutation_sym (Hp l))). destruct (kget k l) as [v|]; [destruct (f v)|]; reflexivity.
  - eapply Permutation_NoDup; [apply Permutation_map, Permutation_sym, Hp|exact Hn].
Qed.
Lemma put_text_opt k v m : put_text k v m = put_opt m (k, read_text v).
Proof. unfold put_text, put_opt, read_text. cbn [fst snd]. destruct (TrimSpace v); reflexivity. Qed.

(** ** Attributes *)
Lemma last_attr_app k a b old : last_attr k (a ++ b) old = last_attr k b (last_attr k a old).
Proof. apply fold_left_app. Qed.
Lemma last_attr_same k v : forall old, old = [] -> last_attr k (opt_attr k v) old = v.
Proof. intros old ->. destruct v as [|c v]; [reflexivity|]. unfold opt_attr, last_attr. cbn [fold_left fst snd]. rewrite bytes_eqb_refl. reflexivity. Qed.
Lemma last_attr_other k k' v old : bytes_eqb k' k = false -> last_attr k (opt_attr k' v) old = old.
Proof. intros E. destruct v as [|c v]; [reflexivity|]. unfold opt_attr, last_attr. cbn [fold_left fst snd]. rewrite E. reflexivity. Qed.
Lemma last_attr_int k k' z old : bytes_eqb k' k = false -> last_attr k (int_attr k' z) old = old.
Proof. intros E. unfold int_attr. destruct (0 <? z); [|reflexivity]. unfold last_attr. cbn [fold_left fst snd]. rewrite E. reflexivity. Qed.
Lemma last_attr_bool k k' z old : bytes_eqb k' k = false -> last_attr k (bool_attr k' z) old = old.
Proof. intros E. unfold bool_attr. destruct z; [|reflexivity]. unfold last_attr. cbn [fold_left fst snd]. rewrite E. reflexivity. Qed.
Lemma last_int_app k a b old : last_int k (a ++ b) old = last_int k b (last_int k a old).
Proof. apply fold_left_app. Qed.
Lemma last_int_opt k k' v old : bytes_eqb k' k = false -> last_int k (opt_attr k' v) old = old.
Proof. intros E. destruct v as [|c v]; [reflexivity|]. unfold opt_attr, last_int. cbn [fold_left fst snd]. rewrite E. reflexivity. Qed.
Lemma last_int_bool k k' z old : bytes_eqb k' k = false -> last_int k (bool_attr k' z) old = old.
Proof. intros E. unfold bool_attr. destruct z; [|reflexivity]. unfold last_int. cbn [fold_left fst snd]. rewrite E. reflexivity. Qed.
Lemma last_int_same k z : is_int z -> last_int k (int_attr k z) 0 = from_zero z.
Proof.
  intros Hz. unfold int_attr, from_zero. destruct (Z.ltb_spec 0 z) as [L|L]; [|cbn; lia].
  unfold last_int. cbn [fold_left fst snd]. unfold is_int in Hz. rewrite bytes_eqb_refl, (ManipProofs2.atoi_decZ64 z (conj (proj1 Hz) (proj2 Hz))). lia.
Qed.
Lemma last_bool_app k a b old : last_bool k (a ++ b) old = last_bool k b (last_bool k a old).
Proof. apply fold_left_app. Qed.
Lemma last_bool_opt k k' v old : bytes_eqb k' k = false -> last_bool k (opt_attr k' v) old = old.
Proof. intros E. destruct v as [|c v]; [reflexivity|]. unfold opt_attr, last_bool. cbn [fold_left fst snd]. rewrite E. reflexivity. Qed.
Lemma last_bool_int k k' z old : bytes_eqb k' k = false -> last_bool k (int_attr k' z) old = old.
Proof. intros E. unfold int_attr. destruct (0 <? z); [|reflexivity]. unfold last_bool. cbn [fold_left fst snd]. rewrite E. reflexivity. Qed.
Lemma last_bool_other k k' z old : bytes_eqb k' k = false -> last_bool k (bool_attr k' z) old = old.
Proof. intros E. unfold bool_attr. destruct z; [|reflexivity]. unfold last_bool. cbn [fold_left fst snd]. rewrite E. reflexivity. Qed.
Lemma last_bool_same k z : last_bool k (bool_attr k z) false = z.
Proof. unfold bool_attr. destruct z; [|reflexivity]. unfold last_bool. cbn [fold_left fst snd]. rewrite bytes_eqb_refl. reflexivity. Qed.
Ltac attr :=
  rewrite ?last_attr_app, ?last_int_app, ?last_bool_app;
  repeat match goal with
    | |- context [last_attr ?k (opt_attr ?k' ?v) ?o] => rewrite (last_attr_other k k' v o) by reflexivity
    | |- context [last_attr ?k (int_attr ?k' ?v) ?o] => rewrite (last_attr_int k k' v o) by reflexivity
    | |- context [last_attr ?k (bool_attr ?k' ?v) ?o] => rewrite (last_attr_bool k k' v o) by reflexivity
    | |- context [last_int ?k (opt_attr ?k' ?v) ?o] => rewrite (last_int_opt k k' v o) by reflexivity
    | |- context [last_int ?k (bool_attr ?k' ?v) ?o] => rewrite (last_int_bool k k' v o) by reflexivity
    | |- context [last_bool ?k (opt_attr ?k' ?v) ?o] => rewrite (last_bool_opt k k' v o) by reflexivity
    | |- context [last_bool ?k (int_attr ?k' ?v) ?o] => rewrite (last_bool_int k k' v o) by reflexivity
    | |- context [last_bool ?k (bool_attr ?k' ?v) ?o] => rewrite (last_bool_other k k' v o) by reflexivity
    | |- context [last_attr ?k (opt_attr ?k ?v) []] => rewrite (last_attr_same k v [] eq_refl)
    | |- context [last_bool ?k (bool_attr ?k ?v) false] => rewrite (last_bool_same k v)
    | H : is_int ?z |- context [last_int ?k (int_attr ?k ?z) 0] => rewrite (last_int_same k z H)
    end.

Lemma encoded_some l ts : encoded l = Some ts -> ts = l /\ existsb unnamed l = false.
Proof. unfold encoded. destruct (existsb unnamed l); [discriminate|]. intros E. injection E as <-. split; reflexivity. Qed.
Lemma fold_step {S} (f : S -> token -> S) a t b s : fold_left f (a ++ t :: b) s = fold_left f b (f (fold_left f a s) t).
Proof. rewrite fold_left_app. reflexivity. Qed.

(** ** Connections *)
Section Connections.
Context {V : Type} (show : V -> bytes) (perm : list (bytes * V) -> list (bytes * V)) (Hperm : forall l, Permutation (perm l) l).

Lemma c_blank ws : Forall blank_token ws -> forall done cur v iD, exists v', fold_left c_step ws (mkCS done cur v iD) = mkCS done cur v' iD.
Proof.
  induction 1 as [|t ws (w & -> & Hw) H IH]; intros done cur v iD; [exists v; reflexivity|]. cbn [fold_left c_step csDone csCur csValue csIn]. apply IH.
Qed.

(** a property, in the connection or in its description *)
Definition into (iD : bool) (c : connection bytes) (e : bytes * option bytes) : connection bytes :=
  match iD, cDesc c with
  | true, Some d => mkConn (cName c) (cType c) (Some (mkDesc (dRef d) (dSchema d) (dNamespace d) (put_opt (dProps d) e))) (cProps c)
  | _, _ => mkConn (cName c) (cType c) (cDesc c) (put_opt (cProps c) e)
  end.
Lemma not_in_eqb k l : ~ In k l -> existsb (bytes_eqb k) l = false.
Proof.
  intros H. destruct (existsb (bytes_eqb k) l) eqn:E; [|reflexivity]. exfalso. apply H. apply existsb_exists in E as (x & Hx & E).
  apply bytes_eqb_eq in E. subst x. exact Hx.
Qed.
Lemma eqb_false k x l : ~ In k l -> In x l -> bytes_eqb k x = false.
Proof. intros H Hx. destruct (bytes_eqb k x) eqn:E; [|reflexivity]. apply bytes_eqb_eq in E. subst x. contradiction. Qed.
Definition key_ok (iD : bool) (k : bytes) : Prop := if iD then plain_desc_key k else plain_key k.
Lemma key_ok_eqb iD k : key_ok iD k ->
  bytes_eqb k (bs "connectionSet") = false /\ bytes_eqb k (bs "connection") = false /\ bytes_eqb k (bs "dataDescription") = false /\ bytes_eqb k (bs "url") = false /\
  (iD = true -> existsb (bytes_eqb k) known_properties = false).
Proof.
  intros H. assert (P : plain_key k).
  { destruct iD; [|exact H]. intros Q. apply H. cbn [In] in *. tauto. }
  repeat split; try (eapply eqb_false; [exact P|cbn [In]; tauto]).
  intros ->. apply not_in_eqb. intros Q. apply H. unfold known_properties in Q. cbn [In] in *. tauto.
Qed.
Lemma c_property e ts us : forall b done c v iD, conveyed b (property show e ++ ts) us -> key_ok iD (fst e) -> (iD = true -> cDesc c <> None) ->
  exists us' v', fold_left c_step us (mkCS done (Some c) v iD) = fold_left c_step us' (mkCS done (Some (into iD c (fst e, read_text (show (snd e))))) v' iD) /\ conveyed false ts us'.
Proof.
  intros b done c v iD H Hk Hd. destruct e as [k x]. cbn [fst snd] in *. unfold property, element in H. cbn [app fst snd] in H.
  destruct (key_ok_eqb iD k Hk) as (K1 & K2 & K3 & K4 & K5).
  destruct (conv_start _ _ _ _ _ H) as (ws & u1 & -> & Hw & H1 & _).
  rewrite fold_step. destruct (c_blank ws Hw done (Some c) v iD) as (v1 & ->). cbn [c_step]. unfold c_start. rewrite K1, K2, K3.
  assert (G : forall u2 val, conveyed true (TEnd k :: ts) u2 -> val = show x ->
    exists us' v', fold_left c_step u2 (mkCS done (Some c) val iD) = fold_left c_step us' (mkCS done (Some (into iD c (k, read_text (show x)))) v' iD) /\ conveyed false ts us').
  { intros u2 val H2 ->. destruct (conv_end _ _ _ _ H2) as (ws2 & u3 & -> & _ & Hnil & H3). rewrite (Hnil eq_refl). cbn [app fold_left c_step].
    exists u3. unfold c_end. rewrite K2, K3. destruct (existsb (bytes_eqb k) known_properties) eqn:E.
    - rewrite K4. cbn [option_map]. exists (show x). split; [|exact H3]. repeat f_equal. unfold into. destruct iD; [specialize (K5 eq_refl); discriminate K5|]. rewrite put_text_opt. reflexivity.
    - cbn [option_map]. exists []. split; [|exact H3]. repeat f_equal. unfold into. destruct iD; [destruct (cDesc c)|]; rewrite put_text_opt; reflexivity. }
  destruct (conv_text _ _ _ H1) as (u2 & [(-> & H2)|(-> & H2)]).
  - destruct (show x) as [|b0 t0] eqn:Ex.
    + cbn [app]. apply G; [exact H2|reflexivity].
    + cbn [app fold_left c_step csDone csCur csValue csIn]. apply G; [exact H2|reflexivity].
  - cbn [app fold_left c_step csDone csCur csValue csIn]. apply G; [exact H2|reflexivity].
Qed.
Definition texts (l : list (bytes * V)) : list (bytes * option bytes) := map (fun e => (fst e, read_text (show (snd e)))) l.
Lemma into_desc iD c e : (iD = true -> cDesc c <> None) -> iD = true -> cDesc (into iD c e) <> None.
Proof. intros H E. specialize (H E). unfold into. rewrite E. destruct (cDesc c); [discriminate|contradiction]. Qed.
Lemma c_properties l ts : forall b us done c v iD, conveyed b (flat_map (property show) l ++ ts) us -> (forall k, In k (map fst l) -> key_ok iD k) -> (iD = true -> cDesc c <> None) ->
  exists b' us' v', fold_left c_step us (mkCS done (Some c) v iD) = fold_left c_step us' (mkCS done (Some (fold_left (into iD) (texts l) c)) v' iD) /\ conveyed b' ts us'.
Proof.
  induction l as [|e l IH]; intros b us done c v iD H Hk Hd; [exists b, us, v; split; [reflexivity|exact H]|].
  cbn [flat_map] in H. rewrite <- app_assoc in H.
  destruct (c_property e _ us b done c v iD H (Hk _ (or_introl eq_refl)) Hd) as (u1 & v1 & -> & H1).
  cbn [texts map fold_left]. apply (IH false u1 done _ v1 iD H1); [intros k Q; apply Hk; right; exact Q|apply into_desc, Hd].
Qed.
Lemma into_plain l : forall c, fold_left (into false) l c = mkConn (cName c) (cType c) (cDesc c) (fold_left put_opt l (cProps c)).
Proof. induction l as [|e l IH]; intros c; [destruct c; reflexivity|]. cbn [fold_left]. rewrite IH. reflexivity. Qed.
Lemma into_descs l : forall n t r s m ps cp, fold_left (into true) l (mkConn n t (Some (mkDesc r s m ps)) cp) = mkConn n t (Some (mkDesc r s m (fold_left put_opt l ps))) cp.
Proof. induction l as [|e l IH]; intros; [reflexivity|]. cbn [fold_left]. unfold into at 2. cbn [cName cType cDesc cProps dRef dSchema dNamespace dProps]. apply IH. Qed.

Lemma in_perm (l : list (bytes * V)) k : In k (map fst (perm l)) -> In k (map fst l).
Proof. intros H. eapply Permutation_in; [|exact H]. apply Permutation_map, Hperm. Qed.
Definition read_description (d : description V) : description bytes :=
  mkDesc (dRef d) (dSchema d) (dNamespace d) (fold_left put_opt (texts (perm (dProps d))) []).
Definition read_connection (c : connection V) : connection bytes :=
  mkConn (cName c) (cType c) (option_map read_description (cDesc c)) (fold_left put_opt (texts (perm (cProps c))) []).
Lemma c_connection c ts us : forall b done v, conveyed b (encodeConnection show perm c ++ ts) us -> plain_connection c ->
  exists us' v', fold_left c_step us (mkCS done None v false) = fold_left c_step us' (mkCS (done ++ [read_connection c]) None v' false) /\ conveyed false ts us'.
Proof.
  intros b done v H (_ & Hk & Hd). unfold encodeConnection, element in H. cbn [app] in H. rewrite <- !app_assoc in H. cbn [app] in H.
  destruct (conv_start _ _ _ _ _ H) as (ws & u1 & -> & Hw & H1 & _).
  rewrite fold_step. destruct (c_blank ws Hw done None v false) as (v1 & ->). cbn [c_step]. unfold c_start.
  change (bytes_eqb (bs "connection") (bs "connectionSet")) with false. cbn beta iota. rewrite bytes_eqb_refl. attr.
  assert (G : exists b2 u2 v2, fold_left c_step u1 (mkCS done (Some (mkConn (cName c) (cType c) None [])) v1 false) =
      fold_left c_step u2 (mkCS done (Some (mkConn (cName c) (cType c) (option_map read_description (cDesc c)) [])) v2 false) /\
      conveyed b2 (flat_map (property show) (perm (cProps c)) ++ TEnd (bs "connection") :: ts) u2).
  { destruct (cDesc c) as [d|] eqn:Ed; [|exists true, u1, v1; split; [reflexivity|exact H1]].
    destruct (Hd d eq_refl) as (_ & Hdk). unfold encodeDataDescription, element in H1. cbn [app] in H1. rewrite <- !app_assoc in H1. cbn [app] in H1.
    destruct (conv_start _ _ _ _ _ H1) as (ws1 & u2 & -> & Hw1 & H2 & _).
    rewrite fold_step. destruct (c_blank ws1 Hw1 done (Some (mkConn (cName c) (cType c) None [])) v1 false) as (v2 & ->). cbn [c_step]. unfold c_start.
    change (bytes_eqb (bs "dataDescription") (bs "connectionSet")) with false. change (bytes_eqb (bs "dataDescription") (bs "connection")) with false. cbn beta iota. rewrite bytes_eqb_refl.
    cbn [cDesc cName cType cProps dRef dSchema dNamespace dProps]. attr.
    destruct (c_properties (perm (dProps d)) _ true u2 done (mkConn (cName c) (cType c) (Some (mkDesc (dRef d) (dSchema d) (dNamespace d) [])) []) v2 true H2) as (b3 & u3 & v3 & -> & H3).
    { intros k Q. apply Hdk, in_perm, Q. } { discriminate. }
    destruct (conv_end _ _ _ _ H3) as (ws3 & u4 & -> & Hw3 & _ & H4).
    rewrite fold_step, into_descs. destruct (c_blank ws3 Hw3 done (Some (mkConn (cName c) (cType c) (Some (mkDesc (dRef d) (dSchema d) (dNamespace d) (fold_left put_opt (texts (perm (dProps d))) []))) [])) v3 true) as (v4 & ->).
    exists false, u4, v4. split; [reflexivity|exact H4]. }
  destruct G as (b2 & u2 & v2 & -> & H2).
  destruct (c_properties (perm (cProps c)) _ b2 u2 done (mkConn (cName c) (cType c) (option_map read_description (cDesc c)) []) v2 false H2) as (b3 & u3 & v3 & -> & H3).
  { intros k Q. apply Hk, in_perm, Q. } { discriminate. }
  rewrite into_plain. cbn [cName cType cDesc cProps].
  destruct (conv_end _ _ _ _ H3) as (ws3 & u4 & -> & Hw3 & _ & H4).
  rewrite fold_step. edestruct (c_blank ws3 Hw3 done) as (v4 & ->). exists u4, v4. split; [reflexivity|exact H4].
Qed.
Lemma c_connections cs ts : forall b us done v, conveyed b (flat_map (encodeConnection show perm) cs ++ ts) us -> Forall plain_connection cs ->
  exists b' us' v', fold_left c_step us (mkCS done None v false) = fold_left c_step us' (mkCS (done ++ map read_connection cs) None v' false) /\ conveyed b' ts us'.
Proof.
  induction cs as [|c cs IH]; intros b us done v H Hp; [exists b, us, v; rewrite app_nil_r; split; [reflexivity|exact H]|].
  cbn [flat_map] in H. rewrite <- app_assoc in H. inversion Hp as [|x y P1 P2]; subst.
  destruct (c_connection c _ us b done v H P1) as (u1 & v1 & -> & H1). destruct (IH false u1 (done ++ [read_connection c]) v1 H1 P2) as (b2 & u2 & v2 & -> & H2).
  exists b2, u2, v2. rewrite <- app_assoc. split; [reflexivity|exact H2].
Qed.
Lemma read_connection_same c : plain_connection c -> same_connection show c (read_connection c).
Proof.
  intros (Hn & Hk & Hd). unfold same_connection, read_connection. cbn [cName cType cProps cDesc]. repeat split.
  - intros k. unfold texts. apply (put_opts_perm (fun v => read_text (show v)) perm (cProps c) k Hperm Hn).
  - destruct (cDesc c) as [d|]; cbn [option_map]; [|exact I]. destruct (Hd d eq_refl) as (Hdn & _). repeat split.
    intros k. cbn [read_description dProps]. unfold texts. apply (put_opts_perm (fun v => read_text (show v)) perm (dProps d) k Hperm Hdn).
Qed.
Lemma conv_nil b us : conveyed b [] us -> us = [].
Proof. intros H. inversion H. reflexivity. Qed.
Lemma connections_roundtrip cs ts us : ConnectionSetToXFA show perm cs = Some ts -> conveyed false ts us -> Forall plain_connection cs ->
  Forall2 (same_connection show) cs (ParseXFAConnectionSet us).
Proof.
  intros E H Hp. apply encoded_some in E as (-> & _). unfold element in H. cbn [app] in H.
  destruct (conv_start _ _ _ _ _ H) as (ws & u1 & -> & Hw & H1 & _). unfold ParseXFAConnectionSet. rewrite fold_step.
  destruct (c_blank ws Hw [] None [] false) as (v1 & ->). cbn [c_step]. unfold c_start. rewrite bytes_eqb_refl.
  destruct (c_connections cs _ true u1 [] v1 H1 Hp) as (b2 & u2 & v2 & -> & H2).
  destruct (conv_end _ _ _ _ H2) as (ws3 & u4 & -> & Hw3 & _ & H4). rewrite fold_step. edestruct (c_blank ws3 Hw3) as (v4 & ->).
  rewrite (conv_nil _ _ H4). cbn [app fold_left].
  replace (csDone _) with (map read_connection cs) by reflexivity.
  clear -Hp Hperm. induction Hp as [|c cs Hc Hp IH]; [constructor|]. cbn [map]. constructor; [apply read_connection_same, Hc|exact IH].
Qed.
Lemma unnamed_app a b : existsb unnamed (a ++ b) = existsb unnamed a || existsb unnamed b.
Proof. apply existsb_app. Qed.
(** a property without a name is refused *)
Lemma connections_unnamed cs c : In c cs -> In [] (map fst (cProps c)) -> ConnectionSetToXFA show perm cs = None.
Proof.
  intros Hc Hk. unfold ConnectionSetToXFA, encoded. replace (existsb unnamed _) with true; [reflexivity|]. symmetry. apply existsb_exists.
  apply in_map_iff in Hk as ((k & v) & E & Hv). cbn [fst] in E. subst k.
  exists (TStart [] []). split; [|reflexivity]. unfold element. right. apply in_or_app. left. apply in_flat_map. exists c. split; [exact Hc|].
  unfold encodeConnection, element. right. apply in_or_app. left. apply in_or_app. right. apply in_flat_map. exists ([], v).
  split; [eapply Permutation_in; [apply Permutation_sym, Hperm|exact Hv]|]. left. reflexivity.
Qed.
End Connections.
