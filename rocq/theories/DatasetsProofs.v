(** Proofs for the datasets translator. *)
From Verif Require Import Util DatasetsModel DatasetsSpec.
From Verif Require ManipProofs2 Scan.
From Coq Require Import Permutation.
Local Open Scope Z_scope.

Section Floats.
Context {F : Type} (parseF : bytes -> option F) (formatF : F -> bytes).
Notation step := (step parseF).
Notation reread := (reread parseF formatF).
Notation field := (encodeField formatF).

(** ** Inserted character data *)
Fixpoint simple (b : bool) (ts : list token) : Prop :=
  match ts with
  | [] => True
  | TChars _ :: ts => simple b ts
  | TStart n _ :: ts => b = false /\ simple (bytes_eqb n (bs "value")) ts
  | TEnd n :: ts => (if bytes_eqb n (bs "value") then True else b = false) /\ simple false ts
  end.
Lemma simple_app ts us : forall b, simple b ts -> (forall c, simple c us) -> simple b (ts ++ us).
Proof. induction ts as [|[n a|n|x] ts IH]; intros b; cbn [simple app]; intros; intuition. Qed.

Lemma spaced_same b ts us : spaced b ts us -> simple b ts -> forall s, (b = false -> psInValue s = false) -> fold_left step us s = fold_left step ts s.
Proof.
  induction 1 as [b|b t ts us H IH|b ts us H IH|x ts us H IH]; intros Hs s Hv; cbn [fold_left].
  - reflexivity.
  - apply IH.
    + destruct t; cbn [simple after_token] in *; tauto.
    + destruct t as [n a|n|x]; cbn [simple after_token step] in *.
      * intros Hn. destruct Hs as [-> _]. specialize (Hv eq_refl). destruct s as [d cur st nm v iD iF iV iG]. cbn [psInValue] in *. subst iV.
        unfold on_start. rewrite Hn. destruct (bytes_eqb n (bs "data")); [reflexivity|]. destruct (bytes_eqb n (bs "field")); [reflexivity|].
        destruct (iD && _); reflexivity.
      * intros _. destruct s as [d cur st nm v iD iF iV iG]. cbn [psInValue] in *. unfold on_end.
        destruct (bytes_eqb n (bs "value")) eqn:E.
        -- apply bytes_eqb_eq in E. subst n. reflexivity.
        -- destruct Hs as [-> _]. rewrite (Hv eq_refl). destruct (bytes_eqb n (bs "data")); [reflexivity|]. destruct (bytes_eqb n (bs "field")); [destruct nm; [reflexivity|destruct cur; reflexivity]|].
           destruct cur; [|reflexivity]. destruct (iG && _); [|reflexivity]. destruct st; reflexivity.
      * intros Hb. specialize (Hv Hb). destruct s as [d cur st nm v iD iF iV iG]. cbn [psInValue] in *. subst iV. reflexivity.
  - rewrite IH; [|exact Hs|exact Hv]. f_equal. cbn [DatasetsModel.step]. destruct s as [d cur st nm v iD iF iV iG]. unfold on_chars. rewrite app_nil_r. destruct (iV && iF); reflexivity.
  - cbn [DatasetsModel.step]. replace (on_chars s x) with s; [apply IH; assumption|].
    specialize (Hv eq_refl). destruct s as [d cur st nm v iD iF iV iG]. cbn [psInValue] in Hv. subst iV. reflexivity.
Qed.

Lemma simple_fields l : forall b us, b = false -> (forall c, c = false -> simple c us) -> simple b (flat_map field l ++ us).
Proof.
  induction l as [|e l IH]; intros b us -> H; [apply H; reflexivity|]. cbn [flat_map encodeField app simple].
  repeat split. apply IH; [reflexivity|exact H].
Qed.

Fixpoint group_ind2 (P : group F -> Prop) (H : forall n fs gs, Forall P gs -> P (Group n fs gs)) (g : group F) : P g :=
  match g with
  | Group n fs gs => H n fs gs ((fix go (l : list (group F)) : Forall P l := match l with [] => Forall_nil P | x :: l => Forall_cons x (group_ind2 P H x) (go l) end) gs)
  end.

Lemma not_reserved n : ~ In (ToLower n) reserved_names -> isStandardXFAElement n = false.
Proof.
  intros H. destruct (isStandardXFAElement n) eqn:E; [|reflexivity]. apply existsb_exists in E as (x & Hx & E). apply bytes_eqb_eq in E. subst x. contradiction.
Qed.
Lemma standard_not n : isStandardXFAElement n = false -> bytes_eqb n (bs "data") = false /\ bytes_eqb n (bs "field") = false /\ bytes_eqb n (bs "value") = false.
Proof.
  intros H. repeat split; match goal with |- bytes_eqb n ?x = false => destruct (bytes_eqb n x) eqn:E; [|reflexivity] end; apply bytes_eqb_eq in E; subst n; vm_compute in H; discriminate H.
Qed.

Lemma simple_group perm g : plain_group g -> forall us, (forall c, c = false -> simple c us) -> simple false (encodeFieldGroup formatF perm g ++ us).
Proof.
  revert g. apply (group_ind2 (fun g => plain_group g -> forall us, (forall c, c = false -> simple c us) -> simple false (encodeFieldGroup formatF perm g ++ us))).
  intros n fs gs IH Hp us H. inversion Hp as [n' fs' gs' Hn Hgs]; subst. apply not_reserved in Hn. destruct (standard_not n Hn) as (E1 & E2 & E3).
  cbn [encodeFieldGroup app simple]. rewrite E3. split; [reflexivity|]. rewrite <- !app_assoc. apply simple_fields; [reflexivity|]. intros c ->.
  assert (G : forall us, (forall c, c = false -> simple c us) -> simple false (flat_map (encodeFieldGroup formatF perm) gs ++ us)).
  { clear Hp H. induction IH as [|g gs Hg IHg IH]; intros vs Hv; [apply Hv; reflexivity|]. inversion Hgs as [|x y G1 G2]; subst.
    cbn [flat_map]. rewrite <- app_assoc. apply Hg; [exact G1|]. intros c ->. apply IH; assumption. }
  apply G. intros c ->. cbn [app simple]. rewrite E3. split; [reflexivity|]. apply H. reflexivity.
Qed.
Lemma simple_groups perm gs : Forall plain_group gs -> forall us, (forall c, c = false -> simple c us) -> simple false (flat_map (encodeFieldGroup formatF perm) gs ++ us).
Proof.
  induction 1 as [|g gs Hg Hgs IH]; intros us H; [apply H; reflexivity|]. cbn [flat_map]. rewrite <- app_assoc. apply simple_group; [exact Hg|].
  intros c ->. apply IH, H.
Qed.
Lemma simple_doc perm d : Forall plain_group (dsGroups d) -> simple false (DatasetsToXFA formatF perm d).
Proof.
  intros H. unfold DatasetsToXFA. cbn [simple app]. split; [reflexivity|]. apply simple_fields; [reflexivity|]. intros c ->.
  apply simple_groups; [exact H|]. intros c ->. repeat split.
Qed.

(** ** Fields *)
Definition add_field (l : list (bytes * fval F)) (e : bytes * fval F) : list (bytes * fval F) :=
  match fst e with [] => l | n => kset n (reread (snd e)) l end.
Lemma field_top d st v0 iD iG e :
  fold_left step (field e) (mkPS d None st [] v0 iD false false iG) =
  mkPS (mkDS (add_field (dsFields d) e) (dsGroups d)) None st [] [] iD false false iG.
Proof.
  destruct e as [n v]. unfold add_field. destruct n as [|c n]; [destruct d; reflexivity|]. reflexivity.
Qed.
Lemma fields_top l : forall d st v0 iD iG, exists v1,
  fold_left step (flat_map field l) (mkPS d None st [] v0 iD false false iG) =
  mkPS (mkDS (fold_left add_field l (dsFields d)) (dsGroups d)) None st [] v1 iD false false iG.
Proof.
  induction l as [|e l IH]; intros d st v0 iD iG; [exists v0; destruct d; reflexivity|].
  cbn [flat_map]. rewrite fold_left_app, field_top. destruct (IH (mkDS (add_field (dsFields d) e) (dsGroups d)) st [] iD iG) as [v1 E]. exists v1. exact E.
Qed.
Lemma field_in d n fs gs st v0 iD iG e :
  fold_left step (field e) (mkPS d (Some (Group n fs gs)) st [] v0 iD false false iG) =
  mkPS d (Some (Group n (add_field fs e) gs)) st [] [] iD false false iG.
Proof. destruct e as [k v]. unfold add_field. destruct k as [|c k]; reflexivity. Qed.
Lemma fields_in l : forall d n fs gs st v0 iD iG, exists v1,
  fold_left step (flat_map field l) (mkPS d (Some (Group n fs gs)) st [] v0 iD false false iG) =
  mkPS d (Some (Group n (fold_left add_field l fs) gs)) st [] v1 iD false false iG.
Proof.
  induction l as [|e l IH]; intros d n fs gs st v0 iD iG; [exists v0; reflexivity|].
  cbn [flat_map]. rewrite fold_left_app, field_in. apply IH.
Qed.

(** ** Groups *)
Definition nested_state (d : datasets F) (s : pstate) : Prop :=
  exists g st v, s = mkPS d (Some g) st [] v true false false false.
Lemma group_nested perm g : plain_group g -> forall d p st v iG, nested_state d (fold_left step (encodeFieldGroup formatF perm g) (mkPS d (Some p) st [] v true false false iG)).
Proof.
  revert g. apply (group_ind2 (fun g => plain_group g -> forall d p st v iG, nested_state d (fold_left step (encodeFieldGroup formatF perm g) (mkPS d (Some p) st [] v true false false iG)))).
  intros n fs gs IH Hp d p st v iG. inversion Hp as [n' fs' gs' Hn Hgs]; subst. apply not_reserved in Hn. destruct (standard_not n Hn) as (E1 & E2 & E3).
  cbn [encodeFieldGroup fold_left]. unfold DatasetsModel.step at 2, on_start. rewrite E1, E2, E3, Hn. cbn [negb andb].
  rewrite !fold_left_app. destruct (fields_in (perm fs) d n [] [] (p :: st) v true true) as [v1 ->].
  destruct gs as [|g gs].
  - cbn [flat_map fold_left]. unfold DatasetsModel.step, on_end. rewrite E1, E2, E3. cbn [g_name andb]. rewrite bytes_eqb_refl.
    eexists _, _, _. reflexivity.
  - assert (G : nested_state d (fold_left step (flat_map (encodeFieldGroup formatF perm) (g :: gs)) (mkPS d (Some (Group n (fold_left add_field (perm fs) []) [])) (p :: st) [] v1 true false false true))).
    { inversion IH as [|x y I1 I2]; subst. inversion Hgs as [|x y G1 G2]; subst. cbn [flat_map]. rewrite fold_left_app.
      pose proof (I1 G1 d (Group n (fold_left add_field (perm fs) []) []) (p :: st) v1 true) as N. revert N. generalize (fold_left step (encodeFieldGroup formatF perm g) (mkPS d (Some (Group n (fold_left add_field (perm fs) []) [])) (p :: st) [] v1 true false false true)).
      clear I1 G1 Hp Hgs IH. induction I2 as [|h gs Ih I2 IHs]; intros s N; [exact N|]. inversion G2 as [|x y G3 G4]; subst. cbn [flat_map]. rewrite fold_left_app.
      apply (IHs G4). destruct N as (g' & st' & v' & ->). apply Ih; assumption. }
    destruct G as (g' & st' & v' & ->). cbn [fold_left]. unfold DatasetsModel.step, on_end. rewrite E1, E2, E3. cbn [andb]. eexists _, _, _. reflexivity.
Qed.
Lemma groups_nested perm gs : Forall plain_group gs -> forall d s, nested_state d s -> nested_state d (fold_left step (flat_map (encodeFieldGroup formatF perm) gs) s).
Proof.
  induction 1 as [|g gs Hg Hgs IH]; intros d s N; [exact N|]. cbn [flat_map]. rewrite fold_left_app. apply IH.
  destruct N as (g' & st' & v' & ->). apply group_nested. exact Hg.
Qed.

Definition leaf_read (perm : list (bytes * fval F) -> list (bytes * fval F)) (g : group F) : group F :=
  match g with Group n fs _ => Group n (fold_left add_field (perm fs) []) [] end.
Lemma groups_read perm gs : Forall plain_group gs -> forall d v iG,
  let s := fold_left step (flat_map (encodeFieldGroup formatF perm) gs) (mkPS d None [] [] v true false false iG) in
  psData s = mkDS (dsFields d) (dsGroups d ++ map (leaf_read perm) (leading gs)).
Proof.
  induction 1 as [|g gs Hg Hgs IH]; intros d v iG; cbv zeta in *; [cbn [flat_map fold_left leading map]; rewrite app_nil_r; destruct d; reflexivity|].
  destruct g as [n fs ngs]. inversion Hg as [n' fs' gs' Hn Hngs]; subst. apply not_reserved in Hn. destruct (standard_not n Hn) as (E1 & E2 & E3).
  cbn [flat_map encodeFieldGroup]. rewrite <- app_comm_cons. cbn [fold_left]. unfold DatasetsModel.step at 2, on_start. rewrite E1, E2, E3, Hn. cbn [negb andb].
  rewrite <- !app_assoc. rewrite fold_left_app. destruct (fields_in (perm fs) d n [] [] [] v true true) as [v1 ->].
  rewrite fold_left_app. destruct ngs as [|h ngs].
  - cbn [flat_map fold_left app]. unfold DatasetsModel.step at 2, on_end. rewrite E1, E2, E3. cbn [g_name andb]. rewrite bytes_eqb_refl.
    rewrite IH. cbn [dsFields dsGroups leading map leaf_read]. rewrite <- app_assoc. reflexivity.
  - cbn [leading map]. rewrite app_nil_r.
    assert (N : nested_state d (fold_left step (flat_map (encodeFieldGroup formatF perm) (h :: ngs)) (mkPS d (Some (Group n (fold_left add_field (perm fs) []) [])) [] [] v1 true false false true))).
    { cbn [flat_map]. rewrite fold_left_app. inversion Hngs; subst. apply groups_nested; [assumption|]. apply group_nested. assumption. }
    destruct N as (g' & st' & v' & ->). cbn [app fold_left]. unfold DatasetsModel.step at 2, on_end. rewrite E1, E2, E3. cbn [andb].
    assert (N : nested_state d (fold_left step (flat_map (encodeFieldGroup formatF perm) gs) (mkPS d (Some g') st' [] v' true false false false))).
    { apply groups_nested; [exact Hgs|]. eexists _, _, _. reflexivity. }
    destruct N as (g2 & st2 & v2 & ->). destruct d; reflexivity.
Qed.

Lemma doc_read perm d : Forall plain_group (dsGroups d) ->
  ParseXFADatasets parseF (DatasetsToXFA formatF perm d) =
  mkDS (fold_left add_field (perm (dsFields d)) []) (map (leaf_read perm) (leading (dsGroups d))).
Proof.
  intros H. unfold ParseXFADatasets, DatasetsToXFA. cbn [fold_left]. unfold start_state. unfold DatasetsModel.step at 2, on_start.
  rewrite bytes_eqb_refl. rewrite !fold_left_app. destruct (fields_top (perm (dsFields d)) (mkDS [] []) [] [] true false) as [v1 ->]. cbn [dsFields dsGroups].
  pose proof (groups_read perm (dsGroups d) H (mkDS (fold_left add_field (perm (dsFields d)) []) []) v1 false) as G. cbv zeta in G. cbn [dsFields dsGroups app] in G.
  cbn [fold_left]. rewrite <- G. generalize (fold_left step (flat_map (encodeFieldGroup formatF perm) (dsGroups d))
     (mkPS (mkDS (fold_left add_field (perm (dsFields d)) []) []) None [] [] v1 true false false false)).
  intros [x cur st nm v iD iF iV iG]. cbn [DatasetsModel.step]. unfold on_end. rewrite bytes_eqb_refl. reflexivity.
Qed.

(** ** Maps *)
Lemma add_fields_get l : forall acc k, k <> [] -> NoDup (map fst l) ->
  kget k (fold_left add_field l acc) = match kget k l with Some v => Some (reread v) | None => kget k acc end.
Proof.
  induction l as [|[n v] l IH]; intros acc k Hk Hd; [reflexivity|]. cbn [map fst] in Hd. inversion Hd as [|x y D1 D2]; subst.
  cbn [fold_left kget]. rewrite IH by assumption.
  assert (NI : forall w, kget n l = Some w -> False).
  { intros w Hw. apply D1. clear -Hw. induction l as [|[a b] l IH]; [discriminate Hw|]. cbn [kget map fst] in *. destruct (bytes_eqb n a) eqn:E; [left; apply bytes_eqb_eq in E; auto|right; auto]. }
  destruct (bytes_eqb k n) eqn:E.
  - apply bytes_eqb_eq in E. subst n. destruct (kget k l) as [w|] eqn:Q; [destruct (NI w eq_refl)|].
    unfold add_field. cbn [fst snd]. destruct k as [|c k]; [congruence|]. rewrite kget_kset, bytes_eqb_refl. reflexivity.
  - destruct (kget k l); [reflexivity|]. unfold add_field. cbn [fst snd]. destruct n as [|c n]; [reflexivity|]. rewrite kget_kset, E. reflexivity.
Qed.
Lemma kget_perm {A} (l l' : list (bytes * A)) n : NoDup (map fst l) -> Permutation l l' -> kget n l = kget n l'.
Proof.
  intros Hd Hp. induction Hp as [|[a b] l l' Hp IH|[a b] [c d] l|l l' l'' H1 IH1 H2 IH2]; [reflexivity| | |].
  - cbn [map fst] in Hd. inversion Hd; subst. cbn [kget]. rewrite IH by assumption. reflexivity.
  - cbn [map fst] in Hd. inversion Hd as [|x y D1 D2]; subst. cbn [kget]. destruct (bytes_eqb n a) eqn:E1, (bytes_eqb n c) eqn:E2; try reflexivity.
    apply bytes_eqb_eq in E1, E2. subst. exfalso. apply D1. left. reflexivity.
  - rewrite IH1 by exact Hd. apply IH2. eapply Permutation_NoDup; [|exact Hd]. apply Permutation_map. exact H1.
Qed.
Lemma map_read perm fs k : (forall l, Permutation (perm l) l) -> NoDup (map fst fs) -> k <> [] ->
  kget k (fold_left add_field (perm fs) []) = option_map reread (kget k fs).
Proof.
  intros Hp Hd Hk. rewrite add_fields_get; [|exact Hk|eapply Permutation_NoDup; [|exact Hd]; apply Permutation_map, Permutation_sym, Hp].
  rewrite <- (kget_perm fs (perm fs) k Hd (Permutation_sym (Hp fs))). destruct (kget k fs); reflexivity.
Qed.

Theorem datasets_roundtrip perm d us : (forall l, Permutation (perm l) l) -> NoDup (map fst (dsFields d)) ->
  Forall plain_group (dsGroups d) -> Forall (fun g => NoDup (map fst (group_fields g))) (dsGroups d) ->
  spaced false (DatasetsToXFA formatF perm d) us ->
  (forall k, k <> [] -> kget k (dsFields (ParseXFADatasets parseF us)) = option_map reread (kget k (dsFields d))) /\
  Forall2 (same_group parseF formatF) (leading (dsGroups d)) (dsGroups (ParseXFADatasets parseF us)).
Proof.
  intros Hp Hd Hg Hn Hs.
  assert (E : ParseXFADatasets parseF us = ParseXFADatasets parseF (DatasetsToXFA formatF perm d)).
  { unfold ParseXFADatasets. f_equal. eapply spaced_same; [exact Hs|apply simple_doc; exact Hg|reflexivity]. }
  rewrite E, doc_read by exact Hg. cbn [dsFields dsGroups]. split.
  - intros k Hk. apply map_read; assumption.
  - clear -Hp Hn. induction (dsGroups d) as [|[n fs ngs] gs IH]; [constructor|]. inversion Hn as [|x y N1 N2]; subst. cbn [group_fields] in N1.
    destruct ngs; cbn [leading map]; [|constructor]. constructor; [|apply IH, N2]. cbn [leaf_read same_group]. split; [reflexivity|]. split; [reflexivity|].
    intros k Hk. apply map_read; assumption.
Qed.

(** A group with a reserved name is dissolved. *)
Theorem reserved_dissolved n k v : In (ToLower n) reserved_names -> ~ In n [bs "data"; bs "field"; bs "value"] -> k <> [] ->
  ParseXFADatasets parseF (DatasetsToXFA formatF (fun l => l) (mkDS [] [Group n [(k, v)] []])) = mkDS [(k, reread v)] [].
Proof.
  intros Hr Hn Hk.
  assert (Hs : isStandardXFAElement n = true) by (apply existsb_exists; exists (ToLower n); split; [exact Hr|apply bytes_eqb_refl]).
  assert (N : forall x, In x [bs "data"; bs "field"; bs "value"] -> bytes_eqb n x = false).
  { intros x Hx. destruct (bytes_eqb n x) eqn:Q; [|reflexivity]. apply bytes_eqb_eq in Q. subst x. contradiction. }
  assert (E1 := N _ (or_introl eq_refl)). assert (E2 := N _ (or_intror (or_introl eq_refl))). assert (E3 := N _ (or_intror (or_intror (or_introl eq_refl)))).
  unfold ParseXFADatasets, DatasetsToXFA. cbn [dsFields dsGroups flat_map app encodeFieldGroup encodeField fst snd fold_left].
  change (DatasetsModel.step parseF start_state (TStart (bs "data") [])) with (mkPS (F := F) (mkDS [] []) None [] [] [] true false false false).
  replace (DatasetsModel.step parseF (mkPS (mkDS [] []) None [] [] [] true false false false) (TStart n [])) with (mkPS (F := F) (mkDS [] []) None [] [] [] true false false false)
    by (cbn [DatasetsModel.step]; unfold on_start; rewrite E1, E2, E3, Hs; reflexivity).
  change (DatasetsModel.step parseF (mkPS (mkDS [] []) None [] [] [] true false false false) (TStart (bs "field") [(bs "name", k)])) with (mkPS (F := F) (mkDS [] []) None [] k [] true true false false).
  change (DatasetsModel.step parseF (mkPS (mkDS [] []) None [] k [] true true false false) (TStart (bs "value") [])) with (mkPS (F := F) (mkDS [] []) None [] k [] true true true false).
  change (DatasetsModel.step parseF (mkPS (mkDS [] []) None [] k [] true true true false) (TChars (formatFieldValue formatF v))) with (mkPS (F := F) (mkDS [] []) None [] k (formatFieldValue formatF v) true true true false).
  change (DatasetsModel.step parseF (mkPS (mkDS [] []) None [] k (formatFieldValue formatF v) true true true false) (TEnd (bs "value"))) with (mkPS (F := F) (mkDS [] []) None [] k (formatFieldValue formatF v) true true false false).
  replace (DatasetsModel.step parseF (mkPS (mkDS [] []) None [] k (formatFieldValue formatF v) true true false false) (TEnd (bs "field"))) with (mkPS (mkDS [(k, reread v)] []) None [] [] [] true false false false)
    by (destruct k; [congruence|reflexivity]).
  replace (DatasetsModel.step parseF (mkPS (mkDS [(k, reread v)] []) None [] [] [] true false false false) (TEnd n)) with (mkPS (mkDS [(k, reread v)] []) None [] [] [] true false false false)
    by (cbn [DatasetsModel.step]; unfold on_end; rewrite E1, E2, E3; reflexivity).
  reflexivity.
Qed.

(** ** Values *)
Theorem reread_bool b : reread (FBool b) = FBool b.
Proof. destruct b; reflexivity. Qed.
Lemma cut_solid ps (t : bytes) : Forall (fun p => p <> []) ps -> (forall b, In b t -> existsb (existsb (beqb b)) ps = false) -> cut ps t = None.
Proof.
  induction 1 as [|p ps Hp _ IH]; intros Ht; [reflexivity|]. cbn [cut].
  destruct p as [|c p]; [congruence|]. destruct t as [|b t].
  - cbn [prefixb]. apply IH. intros b [].
  - cbn [prefixb]. assert (B := Ht b (or_introl eq_refl)). cbn [existsb] in B. apply orb_false_iff in B as [B1 B2]. apply orb_false_iff in B1 as [B1 B3].
    destruct (beqb c b) eqn:Q; [rewrite beqb_sym, Q in B1; discriminate|]. cbn [andb]. apply IH. intros b' Hb'. specialize (Ht b' Hb'). cbn [existsb] in Ht.
    apply orb_false_iff in Ht. apply Ht.
Qed.
Lemma trim_solid (t : bytes) : forallb solid t = true -> TrimSpace t = t.
Proof.
  intros H. assert (L : forall b, In b t -> existsb (existsb (beqb b)) space_chars = false).
  { intros b Hb. rewrite forallb_forall in H. specialize (H b Hb). unfold solid in H. apply negb_true_iff in H. exact H. }
  assert (R : forall b, In b (rev t) -> existsb (existsb (beqb b)) (map (@rev byte) space_chars) = false).
  { intros b Hb. apply in_rev in Hb. specialize (L b Hb). revert L. generalize space_chars. induction l as [|p l IH]; [reflexivity|]. cbn [existsb map].
    intros Q. apply orb_false_iff in Q as [Q1 Q2]. rewrite (IH Q2), orb_false_r. destruct (existsb (beqb b) (rev p)) eqn:E; [|reflexivity].
    apply existsb_exists in E as (x & Hx & Ex). apply in_rev in Hx. assert (existsb (beqb b) p = true) by (apply existsb_exists; eauto). congruence. }
  assert (T : TrimLeft t = t).
  { unfold TrimLeft. destruct (length t); [reflexivity|]. cbn [cut_all]. rewrite cut_solid; [reflexivity| |exact L]. unfold space_chars. repeat (constructor; [discriminate|]). constructor. }
  unfold TrimSpace. rewrite T. cbn zeta. destruct (length t); [apply rev_involutive|]. cbn [cut_all]. rewrite cut_solid; [apply rev_involutive| |exact R].
  unfold space_chars. cbn [map]. repeat (constructor; [discriminate|]). constructor.
Qed.
Lemma digit_solid b : is_digit b = true -> solid b = true.
Proof. destruct b; intros H; try discriminate H; reflexivity. Qed.
Lemma decZ_solid z : forallb solid (decZ z) = true.
Proof.
  assert (G : forall n, forallb solid (dec n) = true).
  { intros n. apply forallb_forall. intros b Hb. apply digit_solid. pose proof (dec_digits n) as D. rewrite forallb_forall in D. apply D, Hb. }
  destruct z; cbn [decZ]; [apply G|apply G|]. cbn [forallb]. rewrite G. reflexivity.
Qed.
Lemma parse_number (t : bytes) z : atoi t = Some z -> t <> bs "1" -> t <> bs "0" -> parseFieldValue parseF t = FInt z.
Proof.
  intros Ha H1 H0. unfold parseFieldValue.
  destruct (bytes_eqb t (bs "true")) eqn:E; [apply bytes_eqb_eq in E; subst t; discriminate Ha|].
  destruct (bytes_eqb t (bs "1")) eqn:E1; [apply bytes_eqb_eq in E1; contradiction|].
  destruct (bytes_eqb t (bs "false")) eqn:E2; [apply bytes_eqb_eq in E2; subst t; discriminate Ha|].
  destruct (bytes_eqb t (bs "0")) eqn:E3; [apply bytes_eqb_eq in E3; contradiction|].
  cbn [orb]. destruct t as [|c t]; [discriminate Ha|]. rewrite Ha. reflexivity.
Qed.
Theorem reread_int z : - 2 ^ 63 <= z < 2 ^ 63 -> reread (FInt z) = if z =? 0 then FBool false else if z =? 1 then FBool true else FInt z.
Proof.
  intros Hz. unfold DatasetsSpec.reread. cbn [formatFieldValue]. rewrite trim_solid by apply decZ_solid.
  destruct (Z.eqb_spec z 0) as [->|H0]; [reflexivity|]. destruct (Z.eqb_spec z 1) as [->|H1]; [reflexivity|].
  assert (A : atoi (decZ z) = Some z) by (apply ManipProofs2.atoi_decZ64; exact Hz).
  apply parse_number; [exact A| |]; intros Q; rewrite Q in A; vm_compute in A; congruence.
Qed.
Theorem reread_str s : reread (FStr s) = FStr s <->
  TrimSpace s = s /\ s <> bs "true" /\ s <> bs "false" /\ atoi s = None /\ (s = [] \/ parseF s = None).
Proof.
  unfold DatasetsSpec.reread. cbn [formatFieldValue]. unfold parseFieldValue. split.
  - remember (TrimSpace s) as t eqn:Ht0. destruct (bytes_eqb t (bs "true")) eqn:E1; [discriminate|]. destruct (bytes_eqb t (bs "1")) eqn:E2; [discriminate|].
    destruct (bytes_eqb t (bs "false")) eqn:E3; [discriminate|]. destruct (bytes_eqb t (bs "0")) eqn:E4; [discriminate|]. cbn [orb].
    assert (N : forall x, bytes_eqb t x = false -> t <> x) by (intros x Hx Q; subst x; rewrite bytes_eqb_refl in Hx; discriminate).
    destruct t as [|c r] eqn:Et; [intros Q; injection Q as Q; subst s; repeat split; auto; discriminate|].
    destruct (atoi (c :: r)) eqn:Ea; [discriminate|]. destruct (parseF (c :: r)) eqn:Ef; [discriminate|]. intros Q. injection Q as Q. rewrite <- Q.
    repeat split; auto.
  - intros (H1 & H2 & H3 & H4 & H5). rewrite H1.
    assert (N : forall x, s <> x -> bytes_eqb s x = false) by (intros x Hx; destruct (bytes_eqb s x) eqn:Q; [apply bytes_eqb_eq in Q; contradiction|reflexivity]).
    rewrite (N _ H2), (N _ H3). rewrite (N (bs "1")), (N (bs "0")); [|intros ->; discriminate H4|intros ->; discriminate H4]. cbn [orb].
    destruct s as [|c r]; [reflexivity|]. rewrite H4. destruct H5 as [H5|H5]; [discriminate H5|]. rewrite H5. reflexivity.
Qed.
Theorem reread_float f : forallb solid (formatF f) = true -> In "."%byte (formatF f) -> parseF (formatF f) = Some f -> reread (FFloat f) = FFloat f.
Proof.
  intros Hs Hd Hp. unfold DatasetsSpec.reread. cbn [formatFieldValue]. rewrite trim_solid by exact Hs. unfold parseFieldValue.
  assert (N : forall x, ~ In "."%byte x -> bytes_eqb (formatF f) x = false).
  { intros x Hx. destruct (bytes_eqb (formatF f) x) eqn:Q; [apply bytes_eqb_eq in Q; subst x; contradiction|reflexivity]. }
  rewrite !N by (intros Q; cbn in Q; repeat (destruct Q as [Q|Q]; [discriminate Q|]); exact Q). cbn [orb].
  assert (A : atoi (formatF f) = None).
  { assert (G : forall t, In "."%byte t -> forallb is_digit t = false).
    { intros t Ht. destruct (forallb is_digit t) eqn:Q; [|reflexivity]. rewrite forallb_forall in Q. specialize (Q _ Ht). discriminate Q. }
    destruct (formatF f) as [|c r] eqn:E; [destruct Hd|]. unfold atoi. destruct (beqb c "-") eqn:Em.
    - apply beqb_eq in Em. subst c. destruct Hd as [Hd|Hd]; [discriminate Hd|]. destruct r as [|c r]; [destruct Hd|]. rewrite (G _ Hd). reflexivity.
    - destruct (beqb c "+") eqn:Ep.
      + apply beqb_eq in Ep. subst c. destruct Hd as [Hd|Hd]; [discriminate Hd|]. destruct r as [|c r]; [destruct Hd|]. rewrite (G _ Hd). reflexivity.
      + rewrite (G _ Hd). reflexivity. }
  destruct (formatF f) as [|c r] eqn:E; [destruct Hd|]. rewrite A, Hp. reflexivity.
Qed.
End Floats.
