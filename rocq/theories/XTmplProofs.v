(** Proofs about templates: questions and rules. *)
From Verif Require Import Util XFormModel XFormSpec XTmplSpec.
Local Open Scope Z_scope.

Lemma neq_eqb (n x : bytes) : n <> x -> bytes_eqb n x = false.
Proof. intros H. destruct (bytes_eqb n x) eqn:E; [apply bytes_eqb_eq in E; contradiction|reflexivity]. Qed.
Lemma kget_not {A} k (l : list (bytes * A)) : ~ In k (map fst l) -> kget k l = None.
Proof.
  induction l as [|[k' v] l IH]; intros H; [reflexivity|]. cbn [kget map fst In] in *. rewrite neq_eqb; [apply IH; tauto|].
  intros E. apply H. left. congruence.
Qed.
Lemma eqb_comm a b : bytes_eqb a b = bytes_eqb b a.
Proof. destruct (bytes_eqb a b) eqn:E; symmetry; [apply bytes_eqb_eq in E; subst; apply bytes_eqb_eq; reflexivity|]. apply neq_eqb. intros ->. rewrite (proj2 (bytes_eqb_eq a a) eq_refl) in E. discriminate. Qed.

Section Floats.
Context {F : Type} (parseF : bytes -> option F).
Notation step := (xstep parseF).
Notation run := (fold_left step).

(** What is seen of a field *)
Record view := mkView { vwName : bytes; vwType : bytes; vwReq : bool; vwRO : bool; vwHid : bool; vwPage : Z; vwProps : list (bytes * prop F); vwActs : list bytes }.
Definition see (f : xfield F) : view := mkView (xName f) (xType f) (xRequired f) (xReadOnly f) (xHidden f) (xPage f) (xProps f) (map eType (xEvents f)).
Definition cuts (a : list (bytes * bytes)) : bool := existsb (fun e => bytes_eqb (fst e) (bs "match") && bytes_eqb (snd e) (bs "none")) a.
Definition upd (v : view) (t : token) : view :=
  match v with mkView nm ty rq ro hi pg ps ac =>
    match t with
    | TStart n a =>
        if bytes_eqb n (bs "event") then mkView nm ty rq ro hi pg ps (ac ++ [last_attr (bs "activity") a []])
        else if bytes_eqb n (bs "bind") then mkView nm ty (rq && negb (cuts a)) ro hi pg ps ac else v
    | _ => v
    end
  end.
Lemma see_bind l : forall f : xfield F, see (fold_left (@bind_attr F) l f) =
  mkView (xName f) (xType f) (xRequired f && negb (cuts l)) (xReadOnly f) (xHidden f) (xPage f) (xProps f) (map eType (xEvents f)).
Proof.
  induction l as [|a l IH]; intros f.
  - cbn [fold_left]. unfold see. cbn [cuts existsb negb]. rewrite andb_true_r. reflexivity.
  - cbn [fold_left]. rewrite IH. destruct f as [nm ty va de la ds rq ro hi pg os vd ps ev]. cbn [bind_attr]. unfold cuts. cbn [existsb].
    destruct (bytes_eqb (fst a) (bs "match") && bytes_eqb (snd a) (bs "none")); cbn [xName xType xRequired xReadOnly xHidden xPage xProps xEvents orb negb andb]; [|reflexivity].
    rewrite andb_false_r. reflexivity.
Qed.
Lemma script_types t l : map eType (script_last t l) = map eType l.
Proof. induction l as [|e l IH]; [reflexivity|]. destruct l as [|e' l]; [reflexivity|]. change (script_last t (e :: e' :: l)) with (e :: script_last t (e' :: l)). cbn [map]. f_equal. exact IH. Qed.
Lemma see_step s t : no_field t -> sSub (step s t) = sSub s /\ sFields (step s t) = sFields s /\
  option_map see (sCur (step s t)) = option_map (fun f => upd (see f) t) (sCur s).
Proof.
  destruct s as [ti fs sub cur bv bl bd iv il id ii]. destruct t as [n a|n|x]; cbn [no_field xstep].
  - intros [H1 H2]. unfold xon_start. rewrite (neq_eqb _ _ H1), (neq_eqb _ _ H2).
    destruct cur as [f|]; [|destruct (bytes_eqb n (bs "template")); auto].
    assert (U : bytes_eqb n (bs "event") = false -> bytes_eqb n (bs "bind") = false -> upd (see f) (TStart n a) = see f).
    { intros X Y. unfold upd. destruct f as [nm ty va de la ds rq ro hi pg os vd ps ev]. cbn [see]. rewrite X, Y. reflexivity. }
    destruct (bytes_eqb n (bs "template")) eqn:E0; [apply bytes_eqb_eq in E0; subst n; cbn [sSub sFields sCur option_map]; rewrite U by reflexivity; auto|].
    destruct (bytes_eqb n (bs "value")) eqn:E1; [apply bytes_eqb_eq in E1; subst n; cbn [sSub sFields sCur option_map]; rewrite U by reflexivity; auto|].
    destruct (bytes_eqb n (bs "label")) eqn:E2; [apply bytes_eqb_eq in E2; subst n; cbn [sSub sFields sCur option_map]; rewrite U by reflexivity; auto|].
    destruct (is_desc n) eqn:E3.
    { unfold is_desc in E3. apply orb_true_iff in E3. destruct E3 as [E3|E3]; apply bytes_eqb_eq in E3; subst n; cbn [sSub sFields sCur option_map]; rewrite U by reflexivity; auto. }
    destruct (bytes_eqb n (bs "items")) eqn:E4; [apply bytes_eqb_eq in E4; subst n; cbn [sSub sFields sCur option_map]; rewrite U by reflexivity; auto|].
    destruct (bytes_eqb n (bs "text")) eqn:E5; [apply bytes_eqb_eq in E5; subst n; destruct ii; cbn [sSub sFields sCur option_map]; rewrite U by reflexivity; auto|].
    destruct (bytes_eqb n (bs "event")) eqn:E6.
    { apply bytes_eqb_eq in E6; subst n. cbn [sSub sFields sCur option_map]. split; [reflexivity|]. split; [reflexivity|]. f_equal. destruct f as [nm ty va de la ds rq ro hi pg os vd ps ev]. unfold see; cbn [add_event event_of upd xName xType xRequired xReadOnly xHidden xPage xProps xEvents].
      rewrite map_app. reflexivity. }
    destruct (bytes_eqb n (bs "script")) eqn:E7; [apply bytes_eqb_eq in E7; subst n; destruct (xEvents f) eqn:Ev; cbn [sSub sFields sCur option_map]; rewrite U by reflexivity; auto|].
    destruct (bytes_eqb n (bs "validate")) eqn:E8.
    { apply bytes_eqb_eq in E8; subst n. cbn [sSub sFields sCur option_map]. rewrite U by reflexivity. split; [reflexivity|]. split; [reflexivity|]. f_equal. destruct f as [nm ty va de la ds rq ro hi pg os vd ps ev]. reflexivity. }
    destruct (bytes_eqb n (bs "pattern")) eqn:E9; [apply bytes_eqb_eq in E9; subst n; destruct (xValid f) eqn:Ev; cbn [sSub sFields sCur option_map]; rewrite U by reflexivity; auto|].
    destruct (bytes_eqb n (bs "bind")) eqn:E10.
    { apply bytes_eqb_eq in E10; subst n. cbn [sSub sFields sCur option_map]. split; [reflexivity|]. split; [reflexivity|]. f_equal. rewrite see_bind. destruct f as [nm ty va de la ds rq ro hi pg os vd ps ev]. reflexivity. }
    cbn [sSub sFields sCur option_map]. rewrite U by reflexivity. auto.
  - intros [H1 H2]. unfold xon_end. rewrite (neq_eqb _ _ H1), (neq_eqb _ _ H2).
    assert (U : forall f, upd (see f) (TEnd n) = see f) by (intros []; reflexivity).
    repeat match goal with
    | |- context [if ?c then _ else _] => destruct c
    | |- context [match ?c with _ => _ end] => destruct c eqn:?
    end; cbn [sSub sFields sCur option_map]; rewrite ?U; subst; auto;
      (split; [reflexivity|]; split; [reflexivity|]; f_equal;
       match goal with f : xfield F |- _ => destruct f as [nm ty va de la ds rq ro hi pg os vd ps ev]; unfold see; cbn [set_value set_label set_desc add_option set_script set_pattern xName xType xRequired xReadOnly xHidden xPage xProps xEvents]; rewrite ?script_types; reflexivity end).
  - intros _. assert (U : forall f, upd (see f) (TChars x) = see f) by (intros []; reflexivity).
    unfold xon_chars. destruct cur; [|auto]. destruct iv; [|destruct il; [|destruct id]]; cbn [sSub sFields sCur option_map]; rewrite ?U; auto.
Qed.
Lemma see_run body : Forall no_field body -> forall s, sSub (run body s) = sSub s /\ sFields (run body s) = sFields s /\
  option_map see (sCur (run body s)) = option_map (fun f => fold_left upd body (see f)) (sCur s).
Proof.
  induction 1 as [|t body Ht _ IH]; intros s; [cbn [fold_left]; destruct (sCur s); auto|]. cbn [fold_left]. destruct (IH (step s t)) as (A & B & C). destruct (see_step s t Ht) as (A' & B' & C').
  rewrite A, B. split; [exact A'|]. split; [exact B'|]. rewrite C. destruct (sCur (step s t)) as [g|], (sCur s) as [f|]; cbn [option_map] in *; try discriminate; [|reflexivity].
  injection C' as ->. reflexivity.
Qed.
Definition seen (f : tfield) : view := fold_left upd (snd f) (see (fold_left (field_attr parseF) (fst f) (@new_field F))).
Definition between (s : state F) : Prop := sSub s = None /\ sCur s = None.
Lemma run_app a b s : run (a ++ b) s = run b (run a s). Proof. apply fold_left_app. Qed.
Lemma see_close bv bl bd f : see (close_field bv bl bd f) = see f.
Proof. unfold close_field. destruct f, bv, bl, bd; reflexivity. Qed.
Lemma field_seen f s : Forall no_field (snd f) -> sCur s = None -> exists g, see g = seen f /\
  sCur (run (field_tokens f) s) = None /\
  (sSub s = None -> sSub (run (field_tokens f) s) = None /\ sFields (run (field_tokens f) s) = sFields s ++ [g]) /\
  (forall l, sSub s = Some l -> sSub (run (field_tokens f) s) = Some (l ++ [g]) /\ sFields (run (field_tokens f) s) = sFields s).
Proof.
  destruct f as [a body]. cbn [fst snd]. intros Hb Q. unfold field_tokens, element. cbn [fst snd].
  change (TStart (bs "field") a :: ?x) with ([TStart (bs "field") a] ++ x). rewrite !run_app.
  remember (run [TStart (bs "field") a] s) as s1 eqn:E1.
  assert (A : sSub s1 = sSub s /\ sFields s1 = sFields s /\ sCur s1 = Some (fold_left (field_attr parseF) a (@new_field F))).
  { subst s1. destruct s as [ti fs sub cur bv bl bd iv il id ii]. cbn [fold_left xstep]. unfold xon_start.
    change (bytes_eqb (bs "field") (bs "template")) with false. change (bytes_eqb (bs "field") (bs "subform")) with false. change (bytes_eqb (bs "field") (bs "field")) with true. auto. }
  destruct A as (A1 & A2 & A3). destruct (see_run body Hb s1) as (B1 & B2 & B3). rewrite A1 in B1. rewrite A2 in B2. rewrite A3 in B3.
  destruct (run body s1) as [ti fs sub cur bv bl bd iv il id ii]. cbn [sSub sFields sCur] in B1, B2, B3. destruct cur as [f|]; [|discriminate B3]. cbn [option_map] in B3.
  injection B3 as B3. exists (close_field bv bl bd f). rewrite see_close. split; [exact B3|].
  cbn [fold_left xstep]. unfold xon_end. change (bytes_eqb (bs "field") (bs "field")) with true. cbv iota zeta. subst sub fs.
  destruct (sSub s) as [l|]; (split; [reflexivity|]; split; [intros E; try discriminate; split; reflexivity|intros l' E; try discriminate]).
  injection E as <-. split; reflexivity.
Qed.
Lemma fields_seen fs : Forall (fun f => Forall no_field (snd f)) fs -> forall s l, sSub s = Some l -> sCur s = None ->
  (exists l', sSub (run (flat_map field_tokens fs) s) = Some (l ++ l') /\ map see l' = map seen fs) /\
  sCur (run (flat_map field_tokens fs) s) = None /\ sFields (run (flat_map field_tokens fs) s) = sFields s.
Proof.
  induction 1 as [|f fs Hf _ IH]; intros s l Q1 Q2; cbn [flat_map].
  - split; [exists []; rewrite app_nil_r; auto|auto].
  - rewrite run_app. destruct (field_seen f s Hf Q2) as (g & A1 & A2 & _ & A3). destruct (A3 l Q1) as [A4 A5]. destruct (IH _ _ A4 A2) as ((l' & B1 & B2) & B3 & B4).
    split; [|rewrite B4, A5; auto]. exists (g :: l'). rewrite <- app_assoc in B1. split; [exact B1|]. cbn [map]. rewrite A1, B2. reflexivity.
Qed.
Lemma item_seen i s : item_ok i -> between s ->
  between (run (item_tokens i) s) /\ map see (sFields (run (item_tokens i) s)) = map see (sFields s) ++ map seen (item_fields i).
Proof.
  destruct i as [a b|a l|t]; cbn [item_ok item_tokens item_fields]; intros H [Q1 Q2].
  - destruct (field_seen (a, b) s H Q2) as (g & A1 & A2 & A3 & _). destruct (A3 Q1) as [A4 A5]. split; [split; assumption|]. rewrite A5, map_app. cbn [map]. rewrite A1. reflexivity.
  - unfold element. change (TStart (bs "subform") a :: ?x) with ([TStart (bs "subform") a] ++ x). rewrite !run_app.
    remember (run [TStart (bs "subform") a] s) as s1 eqn:E1.
    assert (A : sSub s1 = Some [] /\ sCur s1 = None /\ sFields s1 = sFields s).
    { subst s1. destruct s as [ti fs sub cur bv bl bd iv il id ii]. cbn [sSub sCur] in Q1, Q2. subst. repeat split. }
    destruct A as (A1 & A2 & A3). destruct (fields_seen l H s1 [] A1 A2) as ((l' & B1 & B2) & B3 & B4). rewrite A3 in B4.
    destruct (run (flat_map field_tokens l) s1) as [ti fs sub cur bv bl bd iv il id ii]. cbn [sSub sFields sCur] in B1, B3, B4. subst. cbn [app].
    split; [split; reflexivity|]. rewrite <- B2. cbn [fold_left xstep]. unfold xon_end. change (bytes_eqb (bs "subform") (bs "field")) with false. change (bytes_eqb (bs "subform") (bs "subform")) with true.
    cbn [sFields]. apply map_app.
  - cbn [fold_left]. destruct (see_step s t H) as (A & B & C). rewrite B. cbn [map]. rewrite app_nil_r. split; [|reflexivity].
    split; [congruence|]. rewrite Q2 in C. destruct (sCur (step s t)); [discriminate C|reflexivity].
Qed.
Lemma template_seen items : Forall item_ok items ->
  map see (sFields (parseXFAStructure parseF (flat_map item_tokens items))) = map seen (flat_map item_fields items).
Proof.
  intros H. assert (G : forall s, between s -> between (run (flat_map item_tokens items) s) /\
     map see (sFields (run (flat_map item_tokens items) s)) = map see (sFields s) ++ map seen (flat_map item_fields items)).
  { induction H as [|i items Hi _ IH]; intros s Q; cbn [flat_map]; [cbn [map fold_left]; rewrite app_nil_r; auto|]. rewrite run_app. destruct (item_seen i s Hi Q) as [A B].
    destruct (IH _ A) as [C D]. split; [exact C|]. rewrite D, B, map_app, <- app_assoc. reflexivity. }
  exact (proj2 (G state0 (conj eq_refl eq_refl))).
Qed.

(* ---------------- attributes ---------------- *)
Definition given_or {A} (o : option A) (d : A) : A := match o with Some x => x | None => d end.
Definition layout_value (v : bytes) : prop F := match parseF (TrimSpace v) with Some x => PFloat x | None => PStr v end.
Lemma attr_view l : NoDup (map fst l) -> forall f : xfield F, let f' := fold_left (field_attr parseF) l f in
  xName f' = given_or (kget (bs "name") l) (xName f) /\ xType f' = given_or (kget (bs "type") l) (xType f) /\
  xRequired f' = given_or (option_map parseBool (kget (bs "required") l)) (xRequired f) /\
  xReadOnly f' = (xReadOnly f || match kget (bs "access") l with Some v => bytes_eqb v (bs "readOnly") | None => false end) /\
  xHidden f' = (xHidden f || match kget (bs "access") l with Some v => bytes_eqb v (bs "hidden") | None => false end) /\
  xPage f' = match kget (bs "page") l with Some v => given_or (atoi v) (xPage f) | None => xPage f end /\
  xEvents f' = xEvents f /\
  (forall k, layout_key k = true -> kget k (xProps f') = given_or (option_map (fun v => Some (layout_value v)) (kget k l)) (kget k (xProps f))) /\
  (forall k, layout_key k = false -> kget k (xProps f') = kget k (xProps f)).
Proof.
  induction l as [|[k v] l IH]; intros Hd f; cbv zeta; cbn [fold_left].
  - cbn [kget option_map given_or]. rewrite !orb_false_r. repeat split; auto.
  - cbn [map fst] in Hd. inversion Hd as [|x y Hk Hd']; subst. specialize (IH Hd' (field_attr parseF f (k, v))). cbv zeta in IH.
    destruct IH as (I1 & I2 & I3 & I4 & I5 & I6 & I7 & I8 & I9). rewrite I1, I2, I3, I4, I5, I6, I7.
    assert (K : kget k l = None) by (apply kget_not, Hk).
    assert (R : forall q, kget q ((k, v) :: l) = if bytes_eqb q k then Some v else kget q l) by reflexivity.
    destruct f as [nm ty va de la ds rq ro hi pg os vd ps ev]. cbn [field_attr] in *.
    destruct (bytes_eqb k (bs "name")) eqn:E1.
    { apply bytes_eqb_eq in E1. subst k. cbn [xName xType xRequired xReadOnly xHidden xPage xProps xEvents] in *. rewrite !R, K. cbn [given_or].
      repeat split; auto. intros q Hq. rewrite I8, R by exact Hq. destruct (bytes_eqb q (bs "name")) eqn:E; [apply bytes_eqb_eq in E; subst q; discriminate|reflexivity]. }
    destruct (bytes_eqb k (bs "type")) eqn:E2.
    { apply bytes_eqb_eq in E2. subst k. cbn [xName xType xRequired xReadOnly xHidden xPage xProps xEvents] in *. rewrite !R, K. cbn [given_or].
      repeat split; auto. intros q Hq. rewrite I8, R by exact Hq. destruct (bytes_eqb q (bs "type")) eqn:E; [apply bytes_eqb_eq in E; subst q; discriminate|reflexivity]. }
    destruct (bytes_eqb k (bs "required")) eqn:E3.
    { apply bytes_eqb_eq in E3. subst k. cbn [xName xType xRequired xReadOnly xHidden xPage xProps xEvents] in *. rewrite !R, K. cbn [given_or option_map].
      repeat split; auto. intros q Hq. rewrite I8, R by exact Hq. destruct (bytes_eqb q (bs "required")) eqn:E; [apply bytes_eqb_eq in E; subst q; discriminate|reflexivity]. }
    destruct (bytes_eqb k (bs "access")) eqn:E4.
    { apply bytes_eqb_eq in E4. subst k. rewrite !R, K.
      assert (L : forall q, layout_key q = true -> bytes_eqb q (bs "access") = false).
      { intros q Hq. destruct (bytes_eqb q (bs "access")) eqn:E; [apply bytes_eqb_eq in E; subst q; discriminate|reflexivity]. }
      change (bytes_eqb (bs "access") (bs "access")) with true. change (bytes_eqb (bs "name") (bs "access")) with false. change (bytes_eqb (bs "type") (bs "access")) with false.
      change (bytes_eqb (bs "required") (bs "access")) with false. change (bytes_eqb (bs "page") (bs "access")) with false.
      destruct (bytes_eqb v (bs "readOnly")) eqn:V1; [|destruct (bytes_eqb v (bs "hidden")) eqn:V2]; cbn [xName xType xRequired xReadOnly xHidden xPage xProps xEvents] in *; rewrite ?orb_true_r, ?orb_false_r;
        (repeat split; auto; try (intros q Hq; rewrite I8, R, (L q Hq) by exact Hq; reflexivity)).
      apply bytes_eqb_eq in V1. subst v. change (bytes_eqb (bs "readOnly") (bs "hidden")) with false. rewrite orb_false_r. reflexivity. }
    destruct (layout_key k) eqn:E5.
    { assert (L : forall q, layout_key q = false -> bytes_eqb q k = false).
      { intros q Hq. destruct (bytes_eqb q k) eqn:E; [apply bytes_eqb_eq in E; subst q; congruence|reflexivity]. }
      cbn [xName xType xRequired xReadOnly xHidden xPage xProps xEvents] in *. rewrite !R. rewrite !L by reflexivity.
      repeat split; auto.
      - intros q Hq. rewrite I8, R by exact Hq. rewrite kget_kset. destruct (bytes_eqb q k) eqn:E; [|reflexivity]. apply bytes_eqb_eq in E. subst q. rewrite K. reflexivity.
      - intros q Hq. rewrite I9 by exact Hq. rewrite kget_kset, L by exact Hq. reflexivity. }
    destruct (bytes_eqb k (bs "page")) eqn:E6.
    { apply bytes_eqb_eq in E6. subst k. rewrite !R, K.
      assert (L : forall q, layout_key q = true -> bytes_eqb q (bs "page") = false).
      { intros q Hq. destruct (bytes_eqb q (bs "page")) eqn:E; [apply bytes_eqb_eq in E; subst q; discriminate|reflexivity]. }
      change (bytes_eqb (bs "page") (bs "page")) with true. change (bytes_eqb (bs "name") (bs "page")) with false. change (bytes_eqb (bs "type") (bs "page")) with false.
      change (bytes_eqb (bs "required") (bs "page")) with false. change (bytes_eqb (bs "access") (bs "page")) with false.
      destruct (atoi v) as [z|] eqn:Ez; cbn [xName xType xRequired xReadOnly xHidden xPage xProps xEvents given_or] in *;
        (repeat split; auto; try (intros q Hq; rewrite I8, R, (L q Hq) by exact Hq; reflexivity)). all: rewrite Ez; reflexivity. }
    cbn [xName xType xRequired xReadOnly xHidden xPage xProps xEvents] in *. rewrite !R.
    rewrite (eqb_comm (bs "name") k), (eqb_comm (bs "type") k), (eqb_comm (bs "required") k), (eqb_comm (bs "access") k), (eqb_comm (bs "page") k), E1, E2, E3, E4, E6.
    repeat split; auto. intros q Hq. rewrite I8, R by exact Hq. destruct (bytes_eqb q k) eqn:E; [apply bytes_eqb_eq in E; subst q; congruence|reflexivity].
Qed.
(** The body *)
Lemma upd_body body : forall v, fold_left upd body v =
  mkView (vwName v) (vwType v) (vwReq v && negb (existsb (fun t => match t with TStart n a => bytes_eqb n (bs "bind") && cuts a | _ => false end) body))
    (vwRO v) (vwHid v) (vwPage v) (vwProps v) (vwActs v ++ activities body).
Proof.
  induction body as [|t body IH]; intros v.
  - cbn [fold_left existsb negb activities flat_map]. rewrite andb_true_r, app_nil_r. destruct v. reflexivity.
  - cbn [fold_left]. rewrite IH. destruct v as [nm ty rq ro hi pg ps ac]. destruct t as [n a|n|x]; cbn [upd existsb activities flat_map]; try reflexivity.
    destruct (bytes_eqb n (bs "event")) eqn:E1.
    + apply bytes_eqb_eq in E1. subst n. change (bytes_eqb (bs "event") (bs "bind")) with false. cbn [andb orb vwName vwType vwReq vwRO vwHid vwPage vwProps vwActs]. rewrite <- app_assoc. reflexivity.
    + destruct (bytes_eqb n (bs "bind")) eqn:E2; cbn [andb orb vwName vwType vwReq vwRO vwHid vwPage vwProps vwActs app]; [|reflexivity].
      rewrite negb_orb, andb_assoc. reflexivity.
Qed.
Lemma cuts_in a : cuts a = true <-> In (bs "match", bs "none") a.
Proof.
  unfold cuts. rewrite existsb_exists. split.
  - intros ([k v] & I & E). apply andb_true_iff in E. cbn [fst snd] in E. destruct E as [E1 E2]. apply bytes_eqb_eq in E1. apply bytes_eqb_eq in E2. subst. exact I.
  - intros I. eexists. split; [exact I|reflexivity].
Qed.
Lemma unbound_exists body : existsb (fun t => match t with TStart n a => bytes_eqb n (bs "bind") && cuts a | _ => false end) body = true <-> unbound body.
Proof.
  rewrite existsb_exists. split.
  - intros ([n a|n|x] & I & E); try discriminate. apply andb_true_iff in E. destruct E as [E1 E2]. apply bytes_eqb_eq in E1. subst n. exists a. split; [exact I|apply cuts_in, E2].
  - intros (a & I & J). exists (TStart (bs "bind") a). split; [exact I|]. apply cuts_in in J. rewrite J. reflexivity.
Qed.
Lemma yes_bool v : parseBool v = true <-> yes v.
Proof.
  unfold parseBool, yes. rewrite existsb_exists. split.
  - intros (x & I & E). apply bytes_eqb_eq in E. rewrite E. exact I.
  - intros I. exists (ToLower (TrimSpace v)). split; [exact I|apply bytes_eqb_eq; reflexivity].
Qed.
Lemma kinds_map t : kind_of t (mapXFAType t).
Proof.
  unfold kind_of, mapXFAType. generalize (ToLower t). intros x.
  assert (D : forall k l, In (k, l) kinds -> forall y, In y l -> kget y response_types = Some k).
  { intros k l H. vm_compute in H. repeat (destruct H as [H|H]; [injection H as <- <-; intros y Hy; vm_compute in Hy; repeat (destruct Hy as [<-|Hy]; [reflexivity|]); destruct Hy|]). destruct H. }
  destruct (kget x response_types) as [r|] eqn:E.
  - left. assert (I : In (x, r) response_types).
    { clear D. revert E. generalize response_types. induction l as [|[k v] l IH]; [discriminate|]. cbn [kget]. destruct (bytes_eqb x k) eqn:K; [|intros H; right; exact (IH H)].
      intros H. injection H as ->. apply bytes_eqb_eq in K. subst. left. reflexivity. }
    assert (G : forallb (fun e => existsb (fun g => bytes_eqb (fst g) (snd e) && existsb (bytes_eqb (fst e)) (snd g)) kinds) response_types = true) by (vm_compute; reflexivity).
    rewrite forallb_forall in G. specialize (G _ I). cbn [fst snd] in G. apply existsb_exists in G. destruct G as ([k l] & J & G). cbn [fst snd] in G.
    apply andb_true_iff in G. destruct G as [G1 G2]. apply bytes_eqb_eq in G1. subst k. exists l. split; [exact J|]. apply existsb_exists in G2. destruct G2 as (y & Y1 & Y2).
    apply bytes_eqb_eq in Y2. subst y. exact Y1.
  - right. split; [reflexivity|]. intros k l H I. rewrite (D k l H x I) in E. discriminate.
Qed.
Lemma asked_seen f x i : NoDup (map fst (fst f)) -> see x = seen f -> asked parseF f (convertField x i).
Proof.
  intros Hd E. unfold seen in E. rewrite upd_body in E. destruct (attr_view (fst f) Hd (@new_field F)) as (A1 & A2 & A3 & A4 & A5 & A6 & A7 & A8 & A9). cbv zeta in *.
  unfold see in E at 1. remember (fold_left (field_attr parseF) (fst f) new_field) as f0 eqn:E0. unfold see in E. cbn [vwName vwType vwReq vwRO vwHid vwPage vwProps vwActs] in E.
  injection E as B1 B2 B3 B4 B5 B6 B7 B8. unfold convertField. split; cbn [qName qType qRequired qReadOnly qHidden qPage qProperties].
  - rewrite B1, A1. unfold attribute. destruct (kget (bs "name") (fst f)); reflexivity.
  - rewrite B2, A2. unfold attribute. replace (given_or (kget (bs "type") (fst f)) (xType (@new_field F))) with (match kget (bs "type") (fst f) with Some v => v | None => [] end) by (destruct (kget (bs "type") (fst f)); reflexivity). apply kinds_map.
  - rewrite B3, A3, andb_true_iff, negb_true_iff. split.
    + intros [H1 H2]. split; [|rewrite <- unbound_exists, H2; discriminate]. destruct (kget (bs "required") (fst f)) as [v|]; [|discriminate]. exists v. split; [reflexivity|]. apply yes_bool, H1.
    + intros [(v & -> & H) H2]. split; [apply yes_bool, H|]. rewrite <- unbound_exists in H2. destruct (existsb _ _); congruence.
  - rewrite B4, A4. cbn [xReadOnly new_field orb]. destruct (kget (bs "access") (fst f)) as [v|]; [|split; discriminate].
    split; [intros H; apply bytes_eqb_eq in H; subst; reflexivity|intros H; injection H as ->; reflexivity].
  - rewrite B5, A5. cbn [xHidden new_field orb]. destruct (kget (bs "access") (fst f)) as [v|]; [|split; discriminate].
    split; [intros H; apply bytes_eqb_eq in H; subst; reflexivity|intros H; injection H as ->; reflexivity].
  - rewrite B6, A6. cbn [xPage new_field]. destruct (kget (bs "page") (fst f)) as [v|]; [|reflexivity]. destruct (atoi v); reflexivity.
  - intros k Hk. rewrite B7, A8; [destruct (kget k (fst f)); reflexivity|]. destruct Hk as [<-|[<-|[<-|[<-|[]]]]]; reflexivity.
  - intros k Hk. rewrite B7, A9; [reflexivity|]. destruct (layout_key k) eqn:L; [|reflexivity]. unfold layout_key in L. apply existsb_exists in L. destruct L as (y & Y1 & Y2).
    apply bytes_eqb_eq in Y2. subst y. destruct (Hk Y1).
Qed.
Lemma tidy_fields items : Forall tidy items -> Forall item_ok items /\ Forall (fun f => NoDup (map fst (fst f))) (flat_map item_fields items).
Proof.
  induction 1 as [|i l [H1 H2] _ [I1 I2]]; [split; constructor|]. split; [constructor; assumption|]. cbn [flat_map]. apply Forall_app. split; assumption.
Qed.
Lemma questions_asked items : Forall tidy items ->
  Forall2 (asked parseF) (flat_map item_fields items) (sQuestions (ParseXFAForm parseF (flat_map item_tokens items))).
Proof.
  intros H. apply tidy_fields in H. destruct H as [H1 H2]. pose proof (template_seen items H1) as E. unfold ParseXFAForm. cbn [sQuestions].
  revert E H2. generalize (sFields (parseXFAStructure parseF (flat_map item_tokens items))). generalize (flat_map item_fields items). generalize 1.
  intros i fs xs. revert i fs. induction xs as [|x xs IH]; intros i [|f fs] E Hn; try discriminate; [constructor|]. cbn [map] in E. injection E as E1 E2.
  inversion Hn as [|y z N1 N2]; subst. cbn [convertFields]. constructor; [apply asked_seen; assumption|apply IH; assumption].
Qed.
Lemma kind_rule act : rule_kind act (event_rule act).
Proof.
  unfold rule_kind, event_rule. generalize (ToLower act). intros x.
  destruct (bytes_eqb x (bs "initialize")) eqn:E1; [apply bytes_eqb_eq in E1; subst; left; split; [left; reflexivity|reflexivity]|].
  destruct (bytes_eqb x (bs "enter")) eqn:E2; [apply bytes_eqb_eq in E2; subst; left; split; [right; left; reflexivity|reflexivity]|]. cbn [orb].
  assert (N : x <> bs "validate" -> ~ In x [bs "initialize"; bs "enter"; bs "validate"]).
  { intros Nv [X|[X|[X|[]]]]; subst x; [discriminate|discriminate|apply Nv; reflexivity]. }
  destruct (bytes_eqb x (bs "change") || bytes_eqb x (bs "exit")) eqn:E3.
  - right. right. split; [|reflexivity]. apply N. intros ->. discriminate.
  - destruct (bytes_eqb x (bs "validate")) eqn:E4; [apply bytes_eqb_eq in E4; subst; right; left; split; reflexivity|].
    right. right. split; [|reflexivity]. apply N. intros ->. discriminate.
Qed.
Lemma rules_made items : Forall tidy items ->
  ruled 1 (flat_map events_of (flat_map item_fields items)) (sRules (ParseXFAForm parseF (flat_map item_tokens items))).
Proof.
  intros H. apply tidy_fields in H. destruct H as [H1 H2]. pose proof (template_seen items H1) as E. unfold ParseXFAForm. cbn [sRules].
  assert (G : forall xs fs, map see xs = map seen fs -> Forall (fun f => NoDup (map fst (fst f))) fs ->
     map (fun e => (fst e, eType (snd e))) (flat_map (fun f : xfield F => map (pair (xName f)) (xEvents f)) xs) = flat_map events_of fs).
  { clear. induction xs as [|x xs IH]; intros [|f fs] E Hn; try discriminate; [reflexivity|]. cbn [map] in E. injection E as E1 E2. inversion Hn as [|y z N1 N2]; subst.
    cbn [flat_map]. rewrite map_app, (IH fs E2 N2). f_equal. unfold seen in E1. rewrite upd_body in E1. unfold see in E1 at 1.
    destruct (attr_view (fst f) N1 (@new_field F)) as (A1 & _ & _ & _ & _ & _ & A7 & _). cbv zeta in *.
    remember (fold_left (field_attr parseF) (fst f) new_field) as f0 eqn:E0. unfold see in E1. cbn [vwName vwType vwReq vwRO vwHid vwPage vwProps vwActs] in E1.
    injection E1 as B1 _ _ _ _ _ _ B8. rewrite A7 in B8. cbn [new_field xEvents map app] in B8. rewrite map_map. cbn [fst snd].
    rewrite <- (map_map eType (pair (xName x))), B8. unfold events_of, attribute. rewrite B1, A1. destruct (kget (bs "name") (fst f)); reflexivity. }
  rewrite <- (G _ _ E H2). generalize (flat_map (fun f : xfield F => map (pair (xName f)) (xEvents f)) (sFields (parseXFAStructure parseF (flat_map item_tokens items)))).
  generalize 1. intros i l. revert i. induction l as [|[s e] l IH]; intros i; [exact I|]. cbn [map fst snd convertEvents ruled].
  split; [reflexivity|]. split; [reflexivity|]. split; [apply kind_rule|apply IH].
Qed.
End Floats.
