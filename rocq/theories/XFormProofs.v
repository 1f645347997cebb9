(** Proofs about the form translator. *)
From Verif Require Import Util XFormModel XFormSpec.
From Verif Require DatasetsProofs ManipProofs2 CompareProofs4.
From Coq Require Import Permutation.
Local Open Scope Z_scope.

(* ---------------------------------------------------------------- *)
(** Identifiers *)
Lemma id_chars name : forallb id_byte (flat_map id_char name) = true.
Proof.
  induction name as [|b name IH]; [reflexivity|]. cbn [flat_map]. rewrite forallb_app, IH, andb_true_r.
  destruct b; reflexivity.
Qed.
Lemma digit_id b : is_digit b = true -> id_byte b = true.
Proof. destruct b; intros H; try discriminate H; reflexivity. Qed.
Lemma dec_id z : 0 <= z -> forallb id_byte (decZ z) = true.
Proof.
  intros Hz. assert (G : forall n, forallb id_byte (dec n) = true).
  { intros n. apply forallb_forall. intros b Hb. apply digit_id. pose proof (dec_digits n) as D. rewrite forallb_forall in D. apply D, Hb. }
  destruct z; cbn [decZ]; [apply G|apply G|lia].
Qed.
Theorem sanitized name i : 0 <= i -> identifier (sanitizeFieldID name i).
Proof.
  intros Hi. assert (D : identifier (bs "field_" ++ decZ i)).
  { split; [rewrite forallb_app, (dec_id i Hi); reflexivity|]. eexists _, _. split; reflexivity. }
  unfold sanitizeFieldID. destruct name as [|b name]; [exact D|]. pose proof (id_chars (b :: name)) as C.
  destruct (flat_map id_char (b :: name)) as [|c r]; [exact D|]. destruct (is_digit c) eqn:E.
  - split; [rewrite forallb_app, C; reflexivity|]. eexists _, _. split; reflexivity.
  - split; [exact C|]. exists c, r. auto.
Qed.

Section Floats.
Context {F : Type} (parseF : bytes -> option F) (showF : F -> bytes).
Notation step := (xstep parseF).
Notation run := (fold_left step).

(* ---------------------------------------------------------------- *)
(** Inserted character data has no effect. *)
Definition quiet (s : state F) : Prop := inValue s = false /\ inLabel s = false /\ inDesc s = false.
Inductive neat : list token -> Prop :=
| ne_nil : neat []
| ne_start n a ts : tight n = false -> neat ts -> neat (TStart n a :: ts)
| ne_end n ts : neat ts -> neat (TEnd n :: ts)
| ne_chars x ts : neat ts -> neat (TChars x :: ts)
| ne_tight n a x ts : tight n = true -> neat ts -> neat (TStart n a :: TChars x :: TEnd n :: ts).
Lemma neat_app ts us : neat ts -> neat us -> neat (ts ++ us).
Proof. induction 1; intros; cbn [app]; [assumption|apply ne_start|apply ne_end|apply ne_chars|apply ne_tight]; auto. Qed.

Lemma tight_names n : tight n = false -> bytes_eqb n (bs "value") = false /\ bytes_eqb n (bs "label") = false /\ is_desc n = false.
Proof.
  unfold tight, is_desc. cbn [existsb]. intros H. repeat (apply orb_false_iff in H as [? H]). rewrite H0, H1, H2, H3. auto.
Qed.
Ltac cases s :=
  repeat match goal with
  | |- context [if ?c then _ else _] => destruct c; cbn [inValue inLabel inDesc]
  | |- context [match ?c with _ => _ end] => destruct c; cbn [inValue inLabel inDesc]
  end.
Lemma start_quiet n a s : tight n = false -> quiet s -> quiet (step s (TStart n a)).
Proof.
  intros H Q. destruct (tight_names n H) as (H1 & H2 & H3). destruct s as [ti fs sub cur bv bl bd iv il id ii]. destruct Q as (Q1 & Q2 & Q3).
  cbn [inValue inLabel inDesc] in Q1, Q2, Q3. subst. cbn [xstep]. unfold xon_start. rewrite H1, H2, H3. unfold quiet. cases s; auto.
Qed.
Lemma end_quiet n s : quiet s -> quiet (step s (TEnd n)).
Proof.
  intros Q. destruct s as [ti fs sub cur bv bl bd iv il id ii]. destruct Q as (Q1 & Q2 & Q3).
  cbn [inValue inLabel inDesc] in Q1, Q2, Q3. subst. cbn [xstep]. unfold xon_end, quiet. cases s; auto.
Qed.
Lemma chars_quiet x s : quiet s -> step s (TChars x) = s.
Proof.
  intros Q. destruct s as [ti fs sub cur bv bl bd iv il id ii]. destruct Q as (Q1 & Q2 & Q3).
  cbn [inValue inLabel inDesc] in Q1, Q2, Q3. subst. cbn [xstep]. unfold xon_chars. destruct cur; reflexivity.
Qed.
Lemma chars_empty s : step s (TChars []) = s.
Proof.
  destruct s as [ti fs sub cur bv bl bd iv il id ii]. cbn [xstep]. unfold xon_chars. rewrite !app_nil_r. cases s; reflexivity.
Qed.
Lemma tight_quiet n a x s : tight n = true -> quiet s -> quiet (run [TStart n a; TChars x; TEnd n] s).
Proof.
  intros H Q. destruct s as [ti fs sub cur bv bl bd iv il id ii]. destruct Q as (Q1 & Q2 & Q3).
  cbn [inValue inLabel inDesc] in Q1, Q2, Q3. subst. unfold tight in H. cbn [existsb] in H. apply orb_true_iff in H.
  destruct H as [H|H]; [|apply orb_true_iff in H as [H|H]; [|apply orb_true_iff in H as [H|H]; [|apply orb_true_iff in H as [H|H]; [|discriminate H]]]];
    apply bytes_eqb_eq in H; subst n; unfold quiet; cbn [fold_left xstep]; unfold xon_start, xon_end, xon_chars; cbn [bytes_eqb beqb is_desc];
    destruct cur; split; try split; vm_compute; reflexivity.
Qed.
Lemma indented_same k : forall ts us s, (length ts + length us <= k)%nat -> neat ts -> indented false ts us -> quiet s -> run us s = run ts s.
Proof.
  induction k as [|k IH]; intros ts us s Hk N H Q.
  - destruct us; [|cbn [length] in Hk; lia]. destruct ts; [reflexivity|cbn [length] in Hk; lia].
  - inversion H as [b|b t ts1 us1 K1|b ts1 us1 K1|x ts1 us1 K1]; subst; cbn [length] in Hk.
    + reflexivity.
    + inversion N; subst; cbn [fold_left].
      * apply IH; [lia|assumption| |apply start_quiet; assumption]. cbn [inside] in K1. congruence.
      * apply IH; [lia|assumption|exact K1|apply end_quiet; assumption].
      * apply IH; [lia|assumption|exact K1|rewrite chars_quiet; assumption].
      * cbn [inside] in K1. match goal with T : tight n = true |- _ => rewrite T in K1; pose proof (tight_quiet n a x s T Q) as TQ end.
        cbn [fold_left] in TQ. inversion K1 as [|b t ts2 us2 K2|b ts2 us2 K2|]; subst; cbn [fold_left].
        -- cbn [inside] in K2. inversion K2 as [|b t ts3 us3 K3| |]; subst. cbn [fold_left inside length] in *. apply IH; [lia|assumption|exact K3|exact TQ].
        -- inversion K2 as [|b t ts3 us3 K3| |]; subst. cbn [fold_left inside length] in *. rewrite chars_empty in TQ |- *. apply IH; [lia|assumption|exact K3|exact TQ].
    + inversion N; subst. cbn [fold_left]. rewrite chars_empty. apply IH; [lia|assumption|exact K1|exact Q].
    + cbn [fold_left]. rewrite chars_quiet by exact Q. apply IH; [lia|assumption|exact K1|exact Q].
Qed.
(* ---------------------------------------------------------------- *)
(** The document that is written is neat. *)
Lemma neat_element n a body : tight n = false -> neat body -> neat (element n a body).
Proof. intros. apply ne_start; [assumption|]. apply neat_app; [assumption|]. apply ne_end, ne_nil. Qed.
Lemma neat_text n t : neat (text_element n t).
Proof.
  destruct (tight n) eqn:E; [exact (ne_tight n [] t [] E ne_nil)|]. apply neat_element; [exact E|]. apply ne_chars, ne_nil.
Qed.
Lemma neat_flat {A} (f : A -> list token) l : (forall x, neat (f x)) -> neat (flat_map f l).
Proof. intros H. induction l; [apply ne_nil|]. apply neat_app; auto. Qed.
Lemma neat_question perm q : neat (encodeQuestion showF perm q).
Proof.
  apply neat_element; [reflexivity|]. repeat apply neat_app.
  - destruct (qLabel q); [apply ne_nil|apply neat_text].
  - destruct (qDescription q); [apply ne_nil|apply neat_text].
  - destruct (qDefault q); [apply neat_text|apply ne_nil].
  - destruct (qOptions q); [apply ne_nil|]. apply neat_element; [reflexivity|]. apply neat_flat. intros x. apply neat_text.
  - destruct (qValidation q) as [v|]; [|apply ne_nil]. apply neat_element; [reflexivity|]. destruct (vPattern v); [apply ne_nil|apply neat_text].
Qed.
Lemma neat_rule r : neat (encodeRule r).
Proof.
  apply neat_element; [reflexivity|]. destruct (rActions r) as [|a l]; [apply ne_nil|]. apply neat_element; [reflexivity|].
  destruct (flat_map action_text (a :: l)); [apply ne_nil|apply ne_chars, ne_nil].
Qed.
Lemma neat_form perm (s : schema F) : neat (FormToXFA showF perm s).
Proof.
  apply neat_element; [reflexivity|]. apply neat_app; apply neat_flat; [apply neat_question|apply neat_rule].
Qed.

(* ---------------------------------------------------------------- *)
(** One question *)
Notation idle ti fs := (mkState (F := F) ti fs None None [] [] [] false false false false).
Notation busy ti fs f bv bl bd := (mkState (F := F) ti fs None (Some f) bv bl bd false false false false).

Lemma run_app ts us s : run (ts ++ us) s = run us (run ts s).
Proof. apply fold_left_app. Qed.
Lemma label_read ti fs f bv bl bd t :
  run (text_element (bs "label") t) (busy ti fs f bv bl bd) = busy ti fs (set_label (TrimSpace t) f) bv t bd.
Proof. reflexivity. Qed.
Lemma desc_read ti fs f bv bl bd t :
  run (text_element (bs "desc") t) (busy ti fs f bv bl bd) = busy ti fs (set_desc (TrimSpace t) f) bv bl t.
Proof. reflexivity. Qed.
Lemma value_read ti fs f bv bl bd t :
  run (text_element (bs "value") t) (busy ti fs f bv bl bd) = busy ti fs (match TrimSpace t with [] => f | v => set_value v f end) t bl bd.
Proof.
  transitivity (mkState ti fs None (match TrimSpace t with [] => Some f | v => Some (set_value v f) end) t bl bd false false false false);
    [reflexivity|destruct (TrimSpace t); reflexivity].
Qed.
Definition add_blanks {A} (os : list A) (f : xfield F) : xfield F := fold_left (fun f _ => add_option [] f) os f.
Lemma options_read ti fs (os : list foption) : forall f bv bl bd, exists bv',
  run (flat_map (fun o => text_element (bs "text") (oValue o)) os) (mkState ti fs None (Some f) bv bl bd false false false true) =
  mkState ti fs None (Some (add_blanks os f)) bv' bl bd false false false true /\ (os <> [] -> bv' = []).
Proof.
  induction os as [|o os IH]; intros f bv bl bd; [exists bv; split; [reflexivity|congruence]|]. cbn [flat_map]. rewrite run_app.
  destruct (IH (add_option [] f) [] bl bd) as (bv' & E & H). exists bv'. split; [|destruct os; [cbn in E; injection E as E; intros _; symmetry; exact E|intros _; apply H; discriminate]].
  etransitivity; [|exact E]. f_equal.
Qed.
Lemma items_read ti fs (os : list foption) f bv bl bd : os <> [] ->
  run (element (bs "items") [] (flat_map (fun o => text_element (bs "text") (oValue o)) os)) (busy ti fs f bv bl bd) =
  busy ti fs (add_blanks os f) [] bl bd.
Proof.
  intros H. destruct (options_read ti fs os f bv bl bd) as (bv' & E & H'). specialize (H' H). subst bv'.
  unfold element. change (TStart (bs "items") [] :: ?x) with ([TStart (bs "items") []] ++ x). rewrite !run_app.
  change (run [TStart (bs "items") []] (busy ti fs f bv bl bd)) with (mkState ti fs None (Some f) bv bl bd false false false true).
  rewrite E. reflexivity.
Qed.
Lemma add_blanks_eq {A} (os : list A) : forall nm ty va de la ds rq ro hi pg xs vd ps ev,
  add_blanks os (mkXF nm ty va de la ds rq ro hi pg xs vd ps ev) = mkXF nm ty va de la ds rq ro hi pg (xs ++ map (fun _ => []) os) vd ps ev.
Proof.
  induction os as [|o os IH]; intros; [cbn [map]; rewrite app_nil_r; reflexivity|]. unfold add_blanks. cbn [fold_left add_option]. fold (@add_blanks A).
  etransitivity; [apply IH|]. cbn [map]. rewrite <- app_assoc. reflexivity.
Qed.
Lemma last_attr_app k a b old : last_attr k (a ++ b) old = last_attr k b (last_attr k a old).
Proof. apply fold_left_app. Qed.
Lemma validate_read ti fs (v : validation F) nm ty va de la ds rq ro hi pg xs ps ev bv bl bd :
  run (encodeValidation v) (busy ti fs (mkXF nm ty va de la ds rq ro hi pg xs None ps ev) bv bl bd) =
  busy ti fs (mkXF nm ty va de la ds rq ro hi pg xs (Some (mkXV [] (vScript v) (vMessage v))) ps ev) (match vPattern v with [] => bv | _ => [] end) bl bd.
Proof.
  destruct v as [a b c d p sc ms]. unfold encodeValidation. cbn [vPattern vScript vMessage].
  destruct p as [|p0 p]; destruct sc as [|s0 sc]; destruct ms as [|m0 ms]; reflexivity.
Qed.

(* ---------------------------------------------------------------- *)
(** The attributes of a field *)
Definition read_props (l : list (bytes * prop F)) (acc : list (bytes * prop F)) : list (bytes * prop F) :=
  fold_left (fun ps e => kset (fst e) (reread_prop parseF showF (snd e)) ps) l acc.
Lemma layout_not k : layout_key k = true -> bytes_eqb k (bs "name") = false /\ bytes_eqb k (bs "type") = false /\ bytes_eqb k (bs "required") = false /\ bytes_eqb k (bs "access") = false.
Proof.
  intros H. unfold layout_key in H. cbn [existsb] in H.
  destruct (bytes_eqb k (bs "x")) eqn:E1; [apply bytes_eqb_eq in E1; subst k; repeat split; reflexivity|].
  destruct (bytes_eqb k (bs "y")) eqn:E2; [apply bytes_eqb_eq in E2; subst k; repeat split; reflexivity|].
  destruct (bytes_eqb k (bs "w")) eqn:E3; [apply bytes_eqb_eq in E3; subst k; repeat split; reflexivity|].
  destruct (bytes_eqb k (bs "h")) eqn:E4; [apply bytes_eqb_eq in E4; subst k; repeat split; reflexivity|discriminate H].
Qed.
Lemma layout_read l : (forall e, In e l -> layout_key (fst e) = true) -> forall nm ty va de la ds rq ro hi pg os vd ps ev,
  fold_left (field_attr parseF) (map (fun e => (fst e, showV showF (snd e))) l) (mkXF nm ty va de la ds rq ro hi pg os vd ps ev) =
  mkXF nm ty va de la ds rq ro hi pg os vd (read_props l ps) ev.
Proof.
  induction l as [|[k v] l IH]; intros Hl; intros; [reflexivity|]. cbn [map fold_left fst snd].
  destruct (layout_not k (Hl _ (or_introl eq_refl))) as (E1 & E2 & E3 & E4). assert (E5 := Hl _ (or_introl eq_refl)). cbn [fst] in E5.
  cbn [field_attr]. rewrite E1, E2, E3, E4, E5. etransitivity; [apply IH; intros e He; apply Hl; right; exact He|]. reflexivity.
Qed.
Definition layout_of (perm : list (bytes * prop F) -> list (bytes * prop F)) (q : question F) : list (bytes * prop F) :=
  filter (fun e => layout_key (fst e)) (perm (qProperties q)).
Lemma attrs_read perm q : page_property q < 2 ^ 63 ->
  fold_left (field_attr parseF) (field_attrs showF perm q) new_field =
  mkXF (qName q) (match qType q with [] => [] | _ => mapResponseTypeToXFA (qType q) end) [] [] [] []
    (qRequired q) (qReadOnly q) (negb (qReadOnly q) && qHidden q) (page_property q) [] None (read_props (layout_of perm q) []) [].
Proof.
  intros Hp. unfold field_attrs. rewrite !fold_left_app.
  match goal with |- fold_left _ ?c (fold_left _ ?b ?a) = _ =>
    assert (A : a = mkXF (qName q) (match qType q with [] => [] | _ => mapResponseTypeToXFA (qType q) end) [] [] [] []
    (qRequired q) (qReadOnly q) (negb (qReadOnly q) && qHidden q) 1 [] None [] []) end.
  { destruct (qType q) as [|c t]; [|remember (mapResponseTypeToXFA (c :: t)) as T]; destruct (qRequired q), (qReadOnly q), (qHidden q); reflexivity. }
  rewrite A. rewrite layout_read by (intros e He; apply filter_In in He; apply He). fold (layout_of perm q).
  revert Hp. unfold page_property. destruct (kget (bs "page_number") (qProperties q)) as [[f|z|t]|]; intros Hp; try reflexivity.
  revert Hp. destruct (0 <? z) eqn:Ez; intros Hp; [|reflexivity]. cbn [fold_left field_attr]. apply Z.ltb_lt in Ez.
  change (bytes_eqb (bs "page") (bs "name")) with false. change (bytes_eqb (bs "page") (bs "type")) with false.
  change (bytes_eqb (bs "page") (bs "required")) with false. change (bytes_eqb (bs "page") (bs "access")) with false.
  change (layout_key (bs "page")) with false. change (bytes_eqb (bs "page") (bs "page")) with true. cbv iota.
  rewrite ManipProofs2.atoi_decZ64; [reflexivity|]. split; [apply Z.le_trans with 0; [vm_compute; discriminate|apply Z.lt_le_incl, Ez]|exact Hp].
Qed.

Definition default_of (q : question F) : bytes := match qDefault q with Some t => TrimSpace t | None => [] end.
Definition field_of perm (q : question F) : xfield F :=
  mkXF (qName q) (match qType q with [] => [] | _ => mapResponseTypeToXFA (qType q) end) (default_of q) (default_of q) (TrimSpace (qLabel q)) (TrimSpace (qDescription q))
    (qRequired q) (qReadOnly q) (negb (qReadOnly q) && qHidden q) (page_property q) (map (fun _ => []) (qOptions q))
    (option_map (fun v => mkXV [] (vScript v) (vMessage v)) (qValidation q)) (read_props (layout_of perm q) []) [].
Lemma close_read bv bl bd nm ty V L D rq ro hi pg os vd ps ev :
  (bv <> [] -> TrimSpace bv = V) -> (bl <> [] -> TrimSpace bl = L) -> (bd <> [] -> TrimSpace bd = D) ->
  close_field bv bl bd (mkXF (F := F) nm ty V V L D rq ro hi pg os vd ps ev) = mkXF nm ty V V L D rq ro hi pg os vd ps ev.
Proof.
  intros H1 H2 H3. unfold close_field.
  assert (E1 : match bv with [] => mkXF (F := F) nm ty V V L D rq ro hi pg os vd ps ev | _ => set_value (TrimSpace bv) (mkXF nm ty V V L D rq ro hi pg os vd ps ev) end
    = mkXF nm ty V V L D rq ro hi pg os vd ps ev).
  { destruct bv; [reflexivity|]. rewrite H1 by discriminate. cbn [set_value]. destruct V; reflexivity. }
  rewrite E1.
  assert (E2 : match bl with [] => mkXF (F := F) nm ty V V L D rq ro hi pg os vd ps ev | _ => set_label (TrimSpace bl) (mkXF nm ty V V L D rq ro hi pg os vd ps ev) end
    = mkXF nm ty V V L D rq ro hi pg os vd ps ev).
  { destruct bl; [reflexivity|]. rewrite H2 by discriminate. reflexivity. }
  rewrite E2. destruct bd; [reflexivity|]. rewrite H3 by discriminate. reflexivity.
Qed.
Section Body.
Variables (ti : bytes) (fs : list (xfield F)) (nm ty : bytes) (rq ro hi : bool) (pg : Z) (ps : list (bytes * prop F)).
Notation fld va la ds os vd := (mkXF nm ty va va la ds rq ro hi pg os vd ps []).
Lemma body_label l : run (match l with [] => [] | b :: l1 => text_element (bs "label") (b :: l1) end) (busy ti fs (fld [] [] [] [] None) [] [] []) =
  busy ti fs (fld [] (TrimSpace l) [] [] None) [] l [].
Proof. destruct l; [reflexivity|]. apply label_read. Qed.
Lemma body_desc L l d : run (match d with [] => [] | b :: d1 => text_element (bs "desc") (b :: d1) end) (busy ti fs (fld [] L [] [] None) [] l []) =
  busy ti fs (fld [] L (TrimSpace d) [] None) [] l d.
Proof. destruct d; [reflexivity|]. apply desc_read. Qed.
Lemma body_value L D l d (v : option bytes) : exists bv,
  run (match v with None => [] | Some t => text_element (bs "value") t end) (busy ti fs (fld [] L D [] None) [] l d) =
  busy ti fs (fld (match v with Some t => TrimSpace t | None => [] end) L D [] None) bv l d /\
  (bv <> [] -> TrimSpace bv = match v with Some t => TrimSpace t | None => [] end).
Proof.
  destruct v as [t|]; [|exists []; split; [reflexivity|congruence]]. exists t. split; [|reflexivity]. rewrite value_read. destruct (TrimSpace t) eqn:E; reflexivity.
Qed.
Lemma body_items V L D bv l d (os : list foption) : exists bv',
  run (match os with [] => [] | o1 :: os1 => element (bs "items") [] (flat_map (fun o => text_element (bs "text") (oValue o)) (o1 :: os1)) end) (busy ti fs (fld V L D [] None) bv l d) =
  busy ti fs (fld V L D (map (fun _ => []) os) None) bv' l d /\ (bv' = bv \/ bv' = []).
Proof.
  destruct os as [|o os]; [exists bv; auto|]. exists []. split; [|auto]. rewrite items_read by discriminate. rewrite add_blanks_eq. reflexivity.
Qed.
Lemma body_validate V L D bv l d os (v : option (validation F)) : exists bv',
  run (match v with None => [] | Some v => encodeValidation v end) (busy ti fs (fld V L D os None) bv l d) =
  busy ti fs (fld V L D os (option_map (fun v => mkXV [] (vScript v) (vMessage v)) v)) bv' l d /\ (bv' = bv \/ bv' = []).
Proof.
  destruct v as [v|]; [|exists bv; auto]. eexists. split; [apply validate_read|]. destruct (vPattern v); auto.
Qed.
End Body.
Lemma question_read perm q ti fs : page_property q < 2 ^ 63 ->
  run (encodeQuestion showF perm q) (idle ti fs) = idle ti (fs ++ [field_of perm q]).
Proof.
  intros Hp. unfold encodeQuestion. unfold element at 1.
  change (TStart (bs "field") ?a :: ?x) with ([TStart (bs "field") a] ++ x). rewrite !run_app.
  change (run [TStart (bs "field") ?a] (idle ti fs)) with (busy ti fs (fold_left (field_attr parseF) a new_field) [] [] []).
  rewrite attrs_read by exact Hp.
  rewrite body_label, body_desc.
  match goal with |- context [run (match qDefault q with None => _ | _ => _ end) (busy ti fs (mkXF ?a ?b [] [] ?L ?D ?rq ?ro ?hi ?pg [] None ?ps []) [] ?l ?d)] =>
    destruct (body_value ti fs a b rq ro hi pg ps L D l d (qDefault q)) as (b1 & E1 & H1); rewrite E1;
    destruct (body_items ti fs a b rq ro hi pg ps (match qDefault q with Some t => TrimSpace t | None => [] end) L D b1 l d (qOptions q)) as (b2 & E2 & H2) end.
  rewrite E2.
  match goal with |- context [busy ti fs (mkXF ?a ?b ?V ?V ?L ?D ?rq ?ro ?hi ?pg ?os None ?ps []) b2 ?l ?d] =>
    destruct (body_validate ti fs a b rq ro hi pg ps V L D b2 l d os (qValidation q)) as (b3 & E3 & H3); rewrite E3 end.
  assert (H4 : b3 <> [] -> TrimSpace b3 = match qDefault q with Some t => TrimSpace t | None => [] end).
  { intros H. destruct H3 as [->|H3]; [|congruence]. destruct H2 as [->|H2]; [|congruence]. apply H1, H. }
  match goal with |- run [TEnd (bs "field")] (busy ti fs ?f b3 ?l ?d) = _ => change (run [TEnd (bs "field")] (busy ti fs f b3 l d)) with (idle ti (fs ++ [close_field b3 l d f])) end.
  rewrite close_read; [reflexivity|exact H4|reflexivity|reflexivity].
Qed.
Lemma questions_read perm qs ti : Forall (fun q => page_property q < 2 ^ 63) qs -> forall fs,
  run (flat_map (encodeQuestion showF perm) qs) (idle ti fs) = idle ti (fs ++ map (field_of perm) qs).
Proof.
  induction 1 as [|q qs Hq _ IH]; intros fs; [cbn [flat_map map]; rewrite app_nil_r; reflexivity|]. cbn [flat_map map]. rewrite run_app, question_read by exact Hq.
  rewrite IH, <- app_assoc. reflexivity.
Qed.
Lemma rule_read r ti fs : run (encodeRule r) (idle ti fs) = idle ti fs.
Proof.
  unfold encodeRule. destruct (rActions r) as [|a l]; [reflexivity|]. destruct (flat_map action_text (a :: l)); reflexivity.
Qed.
Lemma rules_read rs ti fs : run (flat_map encodeRule rs) (idle ti fs) = idle ti fs.
Proof. induction rs as [|r rs IH]; [reflexivity|]. cbn [flat_map]. rewrite run_app, rule_read. exact IH. Qed.
Lemma form_read perm (s : schema F) : Forall (fun q => page_property q < 2 ^ 63) (sQuestions s) ->
  parseXFAStructure parseF (FormToXFA showF perm s) = idle (sTitle s) (map (field_of perm) (sQuestions s)).
Proof.
  intros H. unfold parseXFAStructure, FormToXFA, element. change (TStart (bs "template") ?a :: ?x) with ([TStart (bs "template") a] ++ x). rewrite !run_app.
  match goal with |- context [run [TStart (bs "template") ?a] state0] => assert (E : run [TStart (bs "template") a] state0 = idle (sTitle s) []) by (destruct (sTitle s); reflexivity); rewrite E end.
  rewrite questions_read by exact H. rewrite rules_read. reflexivity.
Qed.

(* ---------------------------------------------------------------- *)
(** The round trip *)
Lemma type_back t : mapXFAType (match t with [] => [] | _ => mapResponseTypeToXFA t end) = if existsb (bytes_eqb t) kept_types then t else bs "text".
Proof.
  destruct t as [|c t]; [reflexivity|]. unfold mapResponseTypeToXFA, kept_types. cbn [existsb].
  repeat match goal with |- context [if bytes_eqb (c :: t) ?x then _ else _] => let E := fresh "E" in destruct (bytes_eqb (c :: t) x) eqn:E; [apply bytes_eqb_eq in E; rewrite E; reflexivity|] end.
  cbn [orb]. reflexivity.
Qed.
Lemma existsb_in (t : bytes) l : existsb (bytes_eqb t) l = true <-> In t l.
Proof.
  rewrite existsb_exists. split.
  - intros (x & Hx & E). apply bytes_eqb_eq in E. subst x. exact Hx.
  - intros H. exists t. split; [exact H|apply bytes_eqb_refl].
Qed.
Lemma read_props_get l : NoDup (map fst l) -> forall acc k,
  kget k (read_props l acc) = match kget k l with Some v => Some (reread_prop parseF showF v) | None => kget k acc end.
Proof.
  induction l as [|[n v] l IH]; intros Hd acc k; [reflexivity|]. cbn [map fst] in Hd. inversion Hd as [|x y D1 D2]; subst.
  unfold read_props. cbn [fold_left fst snd]. fold (read_props l (kset n (reread_prop parseF showF v) acc)). rewrite IH by exact D2. cbn [kget]. rewrite kget_kset.
  destruct (bytes_eqb k n) eqn:E; [|reflexivity]. apply bytes_eqb_eq in E. subst n.
  destruct (kget k l) eqn:G; [|reflexivity]. exfalso. apply D1. apply CompareProofs3.kget_In in G. apply (in_map fst) in G. exact G.
Qed.
Lemma kget_filter k l : kget k (filter (fun e : bytes * prop F => layout_key (fst e)) l) = if layout_key k then kget k l else None.
Proof.
  induction l as [|[n v] l IH]; [destruct (layout_key k); reflexivity|]. cbn [filter fst]. destruct (layout_key n) eqn:E; cbn [kget].
  - destruct (bytes_eqb k n) eqn:Q; [apply bytes_eqb_eq in Q; subst n; rewrite E; reflexivity|exact IH].
  - rewrite IH. destruct (bytes_eqb k n) eqn:Q; [apply bytes_eqb_eq in Q; subst n; rewrite E; reflexivity|reflexivity].
Qed.
Lemma layout_get perm q k : (forall l, Permutation (perm l) l) -> NoDup (map fst (qProperties q)) ->
  kget k (read_props (layout_of perm q) []) = if layout_key k then option_map (reread_prop parseF showF) (kget k (qProperties q)) else None.
Proof.
  intros Hp Hd. assert (D : NoDup (map fst (perm (qProperties q)))) by (eapply Permutation_NoDup; [|exact Hd]; apply Permutation_map, Permutation_sym, Hp).
  assert (D2 : forall l : list (bytes * prop F), NoDup (map fst l) -> NoDup (map fst (filter (fun e => layout_key (fst e)) l))).
  { induction l as [|e l IH]; intros N; [exact N|]. cbn [map] in N. inversion N as [|x y N1 N2]; subst. cbn [filter]. destruct (layout_key (fst e)); [|apply IH, N2].
    cbn [map]. constructor; [|apply IH, N2]. intros Q. apply N1. apply in_map_iff in Q as (z & Q1 & Q2). apply filter_In in Q2 as [Q2 _]. rewrite <- Q1. apply in_map, Q2. }
  unfold layout_of. rewrite read_props_get by (apply D2, D). rewrite kget_filter.
  rewrite (DatasetsProofs.kget_perm (perm (qProperties q)) (qProperties q) k D (Hp _)).
  destruct (layout_key k); [|reflexivity]. destruct (kget k (qProperties q)); reflexivity.
Qed.
Lemma convert_length fs : forall i, length (convertFields (F := F) i fs) = length fs.
Proof. induction fs; intros; cbn [convertFields length]; auto. Qed.
Lemma convert_Forall2 {A} (R : A -> question F -> Prop) (g : A -> xfield F) l : (forall x i, In x l -> R x (convertField (g x) i)) ->
  forall i, Forall2 R l (convertFields i (map g l)).
Proof. induction l as [|x l IH]; intros H i; cbn [map convertFields]; constructor; [apply H; left; reflexivity|apply IH; intros; apply H; right; assumption]. Qed.

Definition question_ok (q : question F) : Prop := NoDup (map fst (qProperties q)) /\ page_property q < 2 ^ 63.
Lemma convert_kept perm q i : (forall l, Permutation (perm l) l) -> question_ok q -> kept parseF showF q (convertField (field_of perm q) i).
Proof.
  intros Hp [Hd _]. constructor; cbn [convertField field_of qName qLabel qDescription qType qRequired qReadOnly qHidden qDefault qProperties qValidation qOptions
    xName xLabel xDescription xType xRequired xReadOnly xHidden xDefault xValue xProps xValid xOptions]; try reflexivity.
  - intros H. rewrite type_back. apply existsb_in in H. rewrite H. reflexivity.
  - intros ->. reflexivity.
  - unfold default_of. destruct (qDefault q) as [t|]; [|reflexivity]. destruct (TrimSpace t); reflexivity.
  - intros k Hk. rewrite layout_get by assumption. unfold layout_key. apply existsb_in in Hk. rewrite Hk. reflexivity.
  - destruct (qValidation q); reflexivity.
  - destruct (qValidation q); reflexivity.
  - rewrite !map_length. reflexivity.
Qed.
Lemma convert_lost perm q i : (forall l, Permutation (perm l) l) -> question_ok q -> lost q (convertField (field_of perm q) i).
Proof.
  intros Hp [Hd _]. constructor; cbn [convertField field_of qName qLabel qDescription qType qRequired qReadOnly qHidden qDefault qProperties qValidation qOptions qPage
    xName xLabel xDescription xType xRequired xReadOnly xHidden xDefault xValue xProps xValid xOptions xPage]; try reflexivity.
  - intros H. rewrite type_back. destruct (existsb (bytes_eqb (qType q)) kept_types) eqn:E; [apply existsb_in in E; contradiction|reflexivity].
  - intros ->. reflexivity.
  - rewrite map_map. apply Forall_forall. intros o Ho. apply in_map_iff in Ho as (x & <- & _). reflexivity.
  - intros v Hv. destruct (qValidation q); [|discriminate Hv]. injection Hv as <-. cbn. auto 10.
  - intros k Hk. rewrite layout_get by assumption. unfold layout_key. destruct (existsb _ _) eqn:E; [apply existsb_in in E; contradiction|reflexivity].
Qed.
Theorem form_roundtrip perm (s : schema F) us : (forall l, Permutation (perm l) l) ->
  Forall (fun q => NoDup (map fst (qProperties q)) /\ page_property q < 2 ^ 63) (sQuestions s) ->
  indented false (FormToXFA showF perm s) us ->
  let s' := ParseXFAForm parseF us in
  sTitle s' = sTitle s /\ Forall2 (kept parseF showF) (sQuestions s) (sQuestions s') /\ Forall2 lost (sQuestions s) (sQuestions s') /\ sRules s' = [].
Proof.
  intros Hp Hq Hi s'. assert (E : parseXFAStructure parseF us = idle (sTitle s) (map (field_of perm) (sQuestions s))).
  { transitivity (parseXFAStructure parseF (FormToXFA showF perm s)).
    - eapply indented_same; [apply le_n|apply neat_form|exact Hi|repeat split].
    - apply form_read. eapply Forall_impl; [|exact Hq]. intros q [_ H]. exact H. }
  unfold s', ParseXFAForm. cbv zeta. rewrite E. cbn [sTitleR sFields sTitle sQuestions sRules]. rewrite Forall_forall in Hq.
  split; [reflexivity|]. split; [|split].
  - apply convert_Forall2. intros q i Hin. apply convert_kept; [exact Hp|apply Hq, Hin].
  - apply convert_Forall2. intros q i Hin. apply convert_lost; [exact Hp|apply Hq, Hin].
  - assert (N : flat_map (fun f : xfield F => map (pair (xName f)) (xEvents f)) (map (field_of perm) (sQuestions s)) = []) by (clear; induction (sQuestions s) as [|q l IH]; [reflexivity|exact IH]).
    rewrite N. reflexivity.
Qed.
Theorem ids_good ts q : In q (sQuestions (ParseXFAForm parseF ts)) -> identifier (qID q).
Proof.
  unfold ParseXFAForm. cbn [sQuestions]. generalize (sFields (parseXFAStructure parseF ts)). intros fs.
  assert (G : forall i, 0 <= i -> In q (convertFields i fs) -> identifier (qID q)).
  { induction fs as [|f fs IH]; intros i Hi H; [destruct H|]. cbn [convertFields In] in H. destruct H as [<-|H]; [apply sanitized, Hi|]. apply (IH (i + 1)); [lia|exact H]. }
  apply G. lia.
Qed.

(* ---------------------------------------------------------------- *)
(** Any template whose subforms are not nested *)
Definition between (s : state F) : Prop := sSub s = None /\ sCur s = None.
Lemma other_step s t : no_field t -> sSub (step s t) = sSub s /\ sFields (step s t) = sFields s /\ option_map xName (sCur (step s t)) = option_map xName (sCur s).
Proof.
  assert (N : forall (n x : bytes), n <> x -> bytes_eqb n x = false) by (intros n x H; destruct (bytes_eqb n x) eqn:E; [apply bytes_eqb_eq in E; contradiction|reflexivity]).
  assert (B : forall l f, xName (fold_left (bind_attr (F := F)) l f) = xName f).
  { induction l as [|a l IH]; intros f; [reflexivity|]. cbn [fold_left]. rewrite IH. destruct f. cbn [bind_attr]. destruct (_ && _); reflexivity. }
  destruct s as [ti fs sub cur bv bl bd iv il id ii]. destruct t as [n a|n|x]; cbn [no_field xstep].
  - intros [H1 H2]. unfold xon_start. rewrite (N _ _ H1), (N _ _ H2).
    repeat match goal with
    | |- context [if ?c then _ else _] => destruct c
    | |- context [match ?c with _ => _ end] => destruct c eqn:?
    end; cbn [sSub sFields sCur option_map]; rewrite ?B; subst; auto; destruct x; auto.
  - intros [H1 H2]. unfold xon_end. rewrite (N _ _ H1), (N _ _ H2).
    repeat match goal with
    | |- context [if ?c then _ else _] => destruct c
    | |- context [match ?c with _ => _ end] => destruct c eqn:?
    end; cbn [sSub sFields sCur option_map]; subst; auto; destruct x; auto.
  - intros _. unfold xon_chars. destruct cur; auto. destruct iv; auto. destruct il; auto. destruct id; auto.
Qed.
Lemma other_run body : Forall no_field body -> forall s, sSub (run body s) = sSub s /\ sFields (run body s) = sFields s /\ option_map xName (sCur (run body s)) = option_map xName (sCur s).
Proof.
  induction 1 as [|t body Ht _ IH]; intros s; [auto|]. cbn [fold_left]. destruct (IH (step s t)) as (A & B & C). destruct (other_step s t Ht) as (A' & B' & C').
  rewrite A, B, C. auto.
Qed.
Lemma attr_names l : forall f : xfield F, xName (fold_left (field_attr parseF) l f) = last_attr (bs "name") l (xName f).
Proof.
  induction l as [|[k v] l IH]; intros f; [reflexivity|]. cbn [fold_left]. rewrite IH. unfold last_attr at 2. cbn [fold_left fst snd]. fold (last_attr (bs "name") l).
  unfold last_attr. f_equal. destruct f. cbn [field_attr].
  repeat match goal with
  | |- context [if ?c then _ else _] => destruct c eqn:?
  | |- context [match ?c with _ => _ end] => destruct c eqn:?
  end; reflexivity.
Qed.
Lemma field_top f s : Forall no_field (snd f) -> between s -> let s' := run (field_tokens f) s in
  between s' /\ map xName (sFields s') = map xName (sFields s) ++ [last_attr (bs "name") (fst f) []].
Proof.
  destruct f as [a body]. cbn [fst snd]. intros Hb [Q1 Q2]. unfold field_tokens, element. cbn [fst snd].
  change (TStart (bs "field") a :: ?x) with ([TStart (bs "field") a] ++ x). rewrite !run_app. cbv zeta.
  remember (run [TStart (bs "field") a] s) as s1 eqn:E1.
  assert (A : sSub s1 = None /\ sFields s1 = sFields s /\ option_map xName (sCur s1) = Some (last_attr (bs "name") a [])).
  { subst s1. destruct s as [ti fs sub cur bv bl bd iv il id ii]. cbn [sSub sCur] in Q1, Q2. subst. cbn [fold_left xstep]. unfold xon_start.
    change (bytes_eqb (bs "field") (bs "template")) with false. change (bytes_eqb (bs "field") (bs "subform")) with false. change (bytes_eqb (bs "field") (bs "field")) with true.
    cbn [sSub sFields sCur option_map]. rewrite attr_names. auto. }
  destruct A as (A1 & A2 & A3). destruct (other_run body Hb s1) as (B1 & B2 & B3). rewrite A1 in B1. rewrite A2 in B2. rewrite A3 in B3.
  destruct (run body s1) as [ti fs sub cur bv bl bd iv il id ii]. cbn [sSub sFields sCur] in B1, B2, B3. subst. destruct cur as [f|]; [|discriminate B3]. cbn [option_map] in B3.
  injection B3 as B3. cbn [fold_left xstep]. unfold xon_end. change (bytes_eqb (bs "field") (bs "field")) with true. cbv iota zeta. split; [split; reflexivity|]. cbn [sFields].
  rewrite map_app. cbn [map]. do 2 f_equal. rewrite <- B3. unfold close_field. destruct f, bv, bl, bd; reflexivity.
Qed.
Lemma field_sub f s l : Forall no_field (snd f) -> sSub s = Some l -> sCur s = None -> let s' := run (field_tokens f) s in
  (exists f', sSub s' = Some (l ++ [f']) /\ xName f' = last_attr (bs "name") (fst f) []) /\ sCur s' = None /\ sFields s' = sFields s.
Proof.
  destruct f as [a body]. cbn [fst snd]. intros Hb Q1 Q2. unfold field_tokens, element. cbn [fst snd].
  change (TStart (bs "field") a :: ?x) with ([TStart (bs "field") a] ++ x). rewrite !run_app. cbv zeta.
  remember (run [TStart (bs "field") a] s) as s1 eqn:E1.
  assert (A : sSub s1 = Some l /\ sFields s1 = sFields s /\ option_map xName (sCur s1) = Some (last_attr (bs "name") a [])).
  { subst s1. destruct s as [ti fs sub cur bv bl bd iv il id ii]. cbn [sSub sCur] in Q1, Q2. subst. cbn [fold_left xstep]. unfold xon_start.
    change (bytes_eqb (bs "field") (bs "template")) with false. change (bytes_eqb (bs "field") (bs "subform")) with false. change (bytes_eqb (bs "field") (bs "field")) with true.
    cbn [sSub sFields sCur option_map]. rewrite attr_names. auto. }
  destruct A as (A1 & A2 & A3). destruct (other_run body Hb s1) as (B1 & B2 & B3). rewrite A1 in B1. rewrite A2 in B2. rewrite A3 in B3.
  destruct (run body s1) as [ti fs sub cur bv bl bd iv il id ii]. cbn [sSub sFields sCur] in B1, B2, B3. subst. destruct cur as [f|]; [|discriminate B3]. cbn [option_map] in B3.
  injection B3 as B3. cbn [fold_left xstep]. unfold xon_end. change (bytes_eqb (bs "field") (bs "field")) with true. cbv iota zeta. split; [|split; reflexivity]. cbn [sSub].
  eexists. split; [reflexivity|]. rewrite <- B3. unfold close_field. destruct f, bv, bl, bd; reflexivity.
Qed.
Lemma fields_sub fs : Forall (fun f => Forall no_field (snd f)) fs -> forall s l, sSub s = Some l -> sCur s = None -> let s' := run (flat_map field_tokens fs) s in
  (exists l', sSub s' = Some (l ++ l') /\ map xName l' = map (fun f => last_attr (bs "name") (fst f) []) fs) /\ sCur s' = None /\ sFields s' = sFields s.
Proof.
  induction 1 as [|f fs Hf _ IH]; intros s l Q1 Q2; cbv zeta; cbn [flat_map].
  - split; [exists []; rewrite app_nil_r; auto|auto].
  - rewrite run_app. destruct (field_sub f s l Hf Q1 Q2) as ((f' & A1 & A2) & A3 & A4). destruct (IH _ _ A1 A3) as ((l' & B1 & B2) & B3 & B4).
    split; [|rewrite B4, A4; auto]. exists (f' :: l'). rewrite <- app_assoc in B1. split; [exact B1|]. cbn [map]. rewrite A2, B2. reflexivity.
Qed.
Lemma item_run i s : item_ok i -> between s -> let s' := run (item_tokens i) s in between s' /\ map xName (sFields s') = map xName (sFields s) ++ item_names i.
Proof.
  destruct i as [a b|a l|t]; cbn [item_ok item_tokens item_names]; intros H Q.
  - apply (field_top (a, b)); assumption.
  - destruct Q as [Q1 Q2]. unfold element. change (TStart (bs "subform") a :: ?x) with ([TStart (bs "subform") a] ++ x). rewrite !run_app. cbv zeta.
    remember (run [TStart (bs "subform") a] s) as s1 eqn:E1.
    assert (A : sSub s1 = Some [] /\ sCur s1 = None /\ sFields s1 = sFields s).
    { subst s1. destruct s as [ti fs sub cur bv bl bd iv il id ii]. cbn [sSub sCur] in Q1, Q2. subst. repeat split. }
    destruct A as (A1 & A2 & A3). destruct (fields_sub l H s1 [] A1 A2) as ((l' & B1 & B2) & B3 & B4). rewrite A3 in B4.
    destruct (run (flat_map field_tokens l) s1) as [ti fs sub cur bv bl bd iv il id ii]. cbn [sSub sFields sCur] in B1, B3, B4. subst. cbn [app].
    split; [split; reflexivity|]. rewrite <- B2. cbn [fold_left xstep]. unfold xon_end. change (bytes_eqb (bs "subform") (bs "field")) with false. change (bytes_eqb (bs "subform") (bs "subform")) with true.
    cbn [sFields]. apply map_app.
  - cbv zeta. cbn [fold_left]. destruct (other_step s t H) as (A & B & C). destruct Q as [Q1 Q2]. rewrite B, app_nil_r. split; [|reflexivity].
    split; [congruence|]. rewrite Q2 in C. destruct (sCur (step s t)); [discriminate C|reflexivity].
Qed.
Theorem template_names items : Forall item_ok items ->
  map qName (sQuestions (ParseXFAForm parseF (flat_map item_tokens items))) = flat_map item_names items.
Proof.
  intros H. assert (G : forall s, between s -> let s' := run (flat_map item_tokens items) s in between s' /\ map xName (sFields s') = map xName (sFields s) ++ flat_map item_names items).
  { induction H as [|i items Hi _ IH]; intros s Q; cbv zeta; cbn [flat_map]; [rewrite app_nil_r; auto|]. rewrite run_app. destruct (item_run i s Hi Q) as [A B].
    destruct (IH _ A) as [C D]. split; [exact C|]. rewrite D, B, <- app_assoc. reflexivity. }
  destruct (G state0 (conj eq_refl eq_refl)) as [_ E]. cbn [sFields state0 map app] in E.
  unfold ParseXFAForm. cbn [sQuestions]. unfold parseXFAStructure. rewrite <- E. generalize (sFields (run (flat_map item_tokens items) state0)). generalize 1.
  intros k l. revert k. induction l as [|f l IH]; intros k; [reflexivity|]. cbn [convertFields map]. rewrite IH. reflexivity.
Qed.
End Floats.
