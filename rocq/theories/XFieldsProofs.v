(** Proofs about XFieldsModel. *)
From Verif Require Import Util XFieldsSpec.
Local Open Scope Z_scope.

(** ** Identifiers *)
Lemma id_chars name : forallb id_byte (flat_map id_char name) = true.
Proof. induction name as [|b name IH]; [reflexivity|]. cbn [flat_map]. rewrite forallb_app, IH, andb_true_r. destruct b; reflexivity. Qed.
Lemma digit_id b : is_digit b = true -> id_byte b = true.
Proof. destruct b; intros H; try discriminate H; reflexivity. Qed.
Lemma dec_id z : 0 <= z -> forallb id_byte (decZ z) = true.
Proof.
  intros Hz. assert (G : forall n, forallb id_byte (dec n) = true).
  { intros n. apply forallb_forall. intros b Hb. apply digit_id. pose proof (dec_digits n) as D. rewrite forallb_forall in D. apply D, Hb. }
  destruct z; cbn [decZ]; [apply G|apply G|lia].
Qed.
Lemma numbered_id i : 0 <= i -> identifier (numbered i).
Proof. intros Hi. split; [unfold numbered; rewrite forallb_app, (dec_id i Hi); reflexivity|]. eexists _, _. split; reflexivity. Qed.
Theorem sanitized name : identifier (sanitizeFieldID name).
Proof.
  unfold sanitizeFieldID. pose proof (id_chars name) as C. destruct (flat_map id_char name) as [|c r].
  - split; [reflexivity|]. eexists _, _. split; reflexivity.
  - destruct (is_digit c) eqn:E; [split; [rewrite forallb_app, C; reflexivity|]; eexists _, _; split; reflexivity|]. split; [exact C|]. exists c, r. auto.
Qed.
Lemma id_keeps name : forallb id_byte name = true -> flat_map id_char name = name.
Proof.
  induction name as [|b name IH]; [reflexivity|]. cbn [forallb flat_map]. intros H. apply andb_true_iff in H as [H1 H2]. rewrite IH by exact H2.
  assert (E : id_char b = [b]) by (destruct b; try discriminate H1; reflexivity). rewrite E. reflexivity.
Qed.
Theorem sanitized_same name : identifier name -> sanitizeFieldID name = name.
Proof. intros [H (c & r & -> & D)]. unfold sanitizeFieldID. rewrite id_keeps by exact H. rewrite D. reflexivity. Qed.

(** ** Types *)
Lemma kget_in {A} k (m : list (bytes * A)) v : kget k m = Some v -> In (k, v) m.
Proof.
  induction m as [|[k' v'] m IH]; [discriminate|]. cbn [kget]. destruct (bytes_eqb k k') eqn:E; [|right; auto].
  intros H. injection H as ->. apply bytes_eqb_eq in E as ->. left. reflexivity.
Qed.
Lemma kget_notin {A} k (m : list (bytes * A)) : kget k m = None -> ~ In k (map fst m).
Proof.
  induction m as [|[k' v'] m IH]; [intros _ []|]. cbn [kget map fst In]. destruct (bytes_eqb k k') eqn:E; [discriminate|].
  intros H [<-|C]; [rewrite bytes_eqb_refl in E; discriminate|exact (IH H C)].
Qed.
Lemma type_kind t : kind_of t (mapXFATypeToFieldType t).
Proof.
  unfold mapXFATypeToFieldType, kind_of. destruct (kget (ToLower t) xfa_types) as [k|] eqn:E.
  - left. apply kget_in in E. revert E. generalize (ToLower t). intros x H. unfold xfa_types in H.
    repeat (destruct H as [H|H]; [injection H as <- <-; eexists; split; [unfold kinds; cbn [In]; repeat (try (left; reflexivity); right)|cbn [In]; tauto]|]). destruct H.
  - right. split; [reflexivity|]. apply kget_notin in E. revert E. generalize (ToLower t). intros x N k' l H C. apply N. clear N. unfold kinds in H.
    repeat (destruct H as [H|H]; [injection H as <- <-; cbn [In] in C; unfold xfa_types; cbn [map fst In]; tauto|]). destruct H.
Qed.
Lemma type_known t : In (mapXFATypeToFieldType t) (map fst kinds).
Proof.
  unfold mapXFATypeToFieldType. destruct (kget (ToLower t) xfa_types) as [k|] eqn:E; [|left; reflexivity].
  apply kget_in in E. revert E. generalize (ToLower t). intros x H. unfold xfa_types in H.
  repeat (destruct H as [H|H]; [injection H as <- <-; unfold kinds; cbn [map fst In]; repeat (try (left; reflexivity); right)|]). destruct H.
Qed.

(** ** Attributes *)
Definition odef (o : option bytes) (d : bytes) : bytes := match o with Some x => x | None => d end.
Definition layout (k : bytes) : bool := existsb (bytes_eqb k) [bs "h"; bs "w"; bs "x"; bs "y"].
Definition ro_attr (a : bytes * bytes) : bool := bytes_eqb (fst a) (bs "access") && bytes_eqb (snd a) (bs "readOnly").
Lemma beq_sym a b : bytes_eqb a b = bytes_eqb b a.
Proof. destruct (bytes_eqb a b) eqn:E; symmetry. - apply bytes_eqb_eq in E as ->. apply bytes_eqb_refl. - destruct (bytes_eqb b a) eqn:F; [|reflexivity]. apply bytes_eqb_eq in F as ->. rewrite bytes_eqb_refl in E. discriminate. Qed.
Lemma attrs_spec attrs : forall f0 nm0 rq0 f nm rq, fold_left f_attr attrs (f0, nm0, rq0) = (f, nm, rq) ->
  nm = odef (last_attr_of (bs "name") attrs) nm0 /\ ffName f = odef (last_attr_of (bs "name") attrs) (ffName f0) /\
  ffID f = match last_attr_of (bs "name") attrs with Some n => sanitizeFieldID n | None => ffID f0 end /\
  ffType f = match last_attr_of (bs "type") attrs with Some t => mapXFATypeToFieldType t | None => ffType f0 end /\
  rq = odef (last_attr_of (bs "required") attrs) rq0 /\ ffReadOnly f = ffReadOnly f0 || existsb ro_attr attrs /\ ffDefault f = ffDefault f0 /\
  forall k, kget k (ffProps f) = if layout k then match last_attr_of k attrs with Some v => Some v | None => kget k (ffProps f0) end else kget k (ffProps f0).
Proof.
  induction attrs as [|[k v] l IH]; intros f0 nm0 rq0 f nm rq E.
  { cbn [fold_left] in E. injection E as <- <- <-. cbn [last_attr_of odef existsb]. rewrite orb_false_r. repeat split. intros k. destruct (layout k); reflexivity. }
  cbn [fold_left] in E. destruct (f_attr (f0, nm0, rq0) (k, v)) as [[f1 nm1] rq1] eqn:A.
  destruct (IH f1 nm1 rq1 f nm rq E) as (H1 & H2 & H3 & H4 & H5 & H6 & H7 & H8). clear IH E.
  cbn [last_attr_of existsb]. unfold ro_attr at 1. cbn [fst snd]. unfold f_attr in A.
  destruct (bytes_eqb k (bs "name")) eqn:K1.
  { apply bytes_eqb_eq in K1 as ->. injection A as <- <- <-.
    change (bytes_eqb (bs "name") (bs "type")) with false. change (bytes_eqb (bs "name") (bs "required")) with false. change (bytes_eqb (bs "name") (bs "access")) with false. cbn [andb orb].
    repeat split; try assumption.
    - rewrite H1. destruct (last_attr_of (bs "name") l); reflexivity.
    - rewrite H2. destruct (last_attr_of (bs "name") l); reflexivity.
    - rewrite H3. destruct (last_attr_of (bs "name") l); reflexivity.
    - rewrite H4. destruct (last_attr_of (bs "type") l); reflexivity.
    - rewrite H5. destruct (last_attr_of (bs "required") l); reflexivity.
    - intros j. rewrite H8. destruct (layout j) eqn:Lj; [|reflexivity]. destruct (last_attr_of j l); [reflexivity|].
      destruct (bytes_eqb (bs "name") j) eqn:Q; [apply bytes_eqb_eq in Q as <-; discriminate Lj|reflexivity]. }
  destruct (bytes_eqb k (bs "type")) eqn:K2.
  { apply bytes_eqb_eq in K2 as ->. injection A as <- <- <-.
    change (bytes_eqb (bs "type") (bs "required")) with false. change (bytes_eqb (bs "type") (bs "access")) with false. cbn [andb orb].
    repeat split; try assumption.
    - rewrite H1. destruct (last_attr_of (bs "name") l); reflexivity.
    - rewrite H2. destruct (last_attr_of (bs "name") l); reflexivity.
    - rewrite H3. destruct (last_attr_of (bs "name") l); reflexivity.
    - rewrite H4. destruct (last_attr_of (bs "type") l); reflexivity.
    - rewrite H5. destruct (last_attr_of (bs "required") l); reflexivity.
    - intros j. rewrite H8. destruct (layout j) eqn:Lj; [|reflexivity]. destruct (last_attr_of j l); [reflexivity|].
      destruct (bytes_eqb (bs "type") j) eqn:Q; [apply bytes_eqb_eq in Q as <-; discriminate Lj|reflexivity]. }
  destruct (bytes_eqb k (bs "required")) eqn:K3.
  { apply bytes_eqb_eq in K3 as ->. injection A as <- <- <-. change (bytes_eqb (bs "required") (bs "access")) with false. cbn [andb orb].
    repeat split; try assumption.
    - rewrite H1. destruct (last_attr_of (bs "name") l); reflexivity.
    - rewrite H2. destruct (last_attr_of (bs "name") l); reflexivity.
    - rewrite H3. destruct (last_attr_of (bs "name") l); reflexivity.
    - rewrite H4. destruct (last_attr_of (bs "type") l); reflexivity.
    - rewrite H5. destruct (last_attr_of (bs "required") l); reflexivity.
    - intros j. rewrite H8. destruct (layout j) eqn:Lj; [|reflexivity]. destruct (last_attr_of j l); [reflexivity|].
      destruct (bytes_eqb (bs "required") j) eqn:Q; [apply bytes_eqb_eq in Q as <-; discriminate Lj|reflexivity]. }
  assert (R : nm1 = nm0 /\ rq1 = rq0 /\ ffName f1 = ffName f0 /\ ffID f1 = ffID f0 /\ ffType f1 = ffType f0 /\ ffDefault f1 = ffDefault f0 /\
    ffReadOnly f1 = ffReadOnly f0 || (bytes_eqb k (bs "access") && bytes_eqb v (bs "readOnly")) /\
    ffProps f1 = (if layout k then kset k v (ffProps f0) else ffProps f0)).
  { destruct (bytes_eqb k (bs "access")) eqn:K4.
    - apply bytes_eqb_eq in K4 as ->. change (layout (bs "access")) with false. cbn [andb].
      destruct (bytes_eqb v (bs "readOnly")); injection A as <- <- <-; cbn [ffName ffID ffType ffDefault ffReadOnly ffProps]; rewrite ?orb_true_r, ?orb_false_r; repeat split.
    - cbn [andb]. rewrite orb_false_r. unfold layout. destruct (existsb (bytes_eqb k) _); injection A as <- <- <-; repeat split. }
  destruct R as (R1 & R2 & R3 & R4 & R5 & R6 & R7 & R8). subst nm1 rq1.
  rewrite H1, H2, H3, H4, H5, H6, H7, R3, R4, R5, R6, R7. rewrite <- orb_assoc. repeat split.
  - destruct (last_attr_of (bs "name") l); reflexivity.
  - destruct (last_attr_of (bs "name") l); reflexivity.
  - destruct (last_attr_of (bs "name") l); reflexivity.
  - destruct (last_attr_of (bs "type") l); reflexivity.
  - destruct (last_attr_of (bs "required") l); reflexivity.
  - intros j. rewrite H8, R8. destruct (layout j) eqn:Lj.
    + destruct (last_attr_of j l); [reflexivity|]. destruct (bytes_eqb k j) eqn:Q.
      * apply bytes_eqb_eq in Q as ->. rewrite Lj, kget_kset, bytes_eqb_refl. reflexivity.
      * destruct (layout k); [|reflexivity]. rewrite kget_kset, beq_sym, Q. reflexivity.
    + destruct (layout k) eqn:Lk; [|reflexivity]. rewrite kget_kset. destruct (bytes_eqb j k) eqn:Q; [|reflexivity]. apply bytes_eqb_eq in Q as ->. congruence.
Qed.

(** ** The parts of a field *)
Notation run := (fold_left f_step).
Lemma own_eqb n : ~ own n -> bytes_eqb n (bs "field") = false /\ bytes_eqb n (bs "value") = false /\ bytes_eqb n (bs "name") = false /\ bytes_eqb n (bs "label") = false.
Proof.
  intros H. unfold own in H. cbn [In] in H. repeat split;
  match goal with |- bytes_eqb n ?x = false => destruct (bytes_eqb n x) eqn:E; [apply bytes_eqb_eq in E; exfalso; apply H; subst; tauto|reflexivity] end.
Qed.
Lemma foreign_skip s t : foreign t -> match t with TChars _ => True | _ => f_step s t = s end.
Proof.
  destruct s as [dn i cur nm va rq la iV iN iL]. destruct t as [n a|n|x]; intros H; [| |exact I]; apply own_eqb in H as (E1 & E2 & E3 & E4); cbn [f_step f_start f_end]; rewrite E1, E2, E3, E4; [destruct cur|]; reflexivity.
Qed.
Section Field.
Variables (dn : list ffield) (i : Z) (rq : bytes).
Notation st f nm va la iV iN iL := (mkFS dn i (Some f) nm va rq la iV iN iL).
Lemma run_value ts : Forall foreign ts -> forall f nm va la, run ts (st f nm va la true false false) = st f nm (va ++ text ts) la true false false.
Proof.
  induction 1 as [|t ts H _ IH]; intros f nm va la; [unfold text; cbn; rewrite app_nil_r; reflexivity|]. cbn [fold_left].
  destruct t as [n a|n|x]; [rewrite (foreign_skip _ (TStart n a) H), IH; reflexivity|rewrite (foreign_skip _ (TEnd n) H), IH; reflexivity|].
  cbn [f_step f_chars]. rewrite IH, <- app_assoc. reflexivity.
Qed.
Lemma run_label ts : Forall foreign ts -> forall f nm va la, run ts (st f nm va la false false true) = st f nm va (la ++ text ts) false false true.
Proof.
  induction 1 as [|t ts H _ IH]; intros f nm va la; [unfold text; cbn; rewrite app_nil_r; reflexivity|]. cbn [fold_left].
  destruct t as [n a|n|x]; [rewrite (foreign_skip _ (TStart n a) H), IH; reflexivity|rewrite (foreign_skip _ (TEnd n) H), IH; reflexivity|].
  cbn [f_step f_chars]. rewrite IH, <- app_assoc. reflexivity.
Qed.
Definition rename (f : ffield) (n : bytes) : ffield := match n with [] => f | c :: r => named (c :: r) f end.
Lemma run_name ts : Forall foreign ts -> forall f nm va la, (ffName f = [] -> nm = []) ->
  exists nm', run ts (st f nm va la false true false) = st (fold_left rename (map TrimSpace (flat_map chunk ts)) f) nm' va la false true false /\
    (ffName (fold_left rename (map TrimSpace (flat_map chunk ts)) f) = [] -> nm' = []).
Proof.
  induction 1 as [|t ts H _ IH]; intros f nm va la J; [exists nm; split; [reflexivity|exact J]|]. cbn [fold_left].
  destruct t as [n a|n|x]; [rewrite (foreign_skip _ (TStart n a) H); exact (IH f nm va la J)|rewrite (foreign_skip _ (TEnd n) H); exact (IH f nm va la J)|].
  cbn [f_step f_chars flat_map chunk app map fold_left].
  change (match TrimSpace x with [] => f | c :: r => named (c :: r) f end) with (rename f (TrimSpace x)).
  apply IH. unfold rename. destruct (TrimSpace x) as [|c r] eqn:E; [reflexivity|]. cbn [named ffName]. discriminate.
Qed.
(** the value element is closed *)
Definition put_value (f : ffield) (t : bytes) : ffield := set_default t f.
Definition part_field (f : ffield) (p : part) : ffield :=
  match p with Val _ ts => set_default (text ts) f | Nam _ ts => fold_left rename (map TrimSpace (flat_map chunk ts)) f | _ => f end.
Definition part_label (p : part) : bytes := match p with Lab _ ts => text ts | _ => [] end.
Definition inv (f : ffield) (nm va : bytes) : Prop := (ffName f = [] -> nm = []) /\ (va <> [] -> ffDefault f = Some (TrimSpace va)).
Lemma rename_default l : forall f, ffDefault (fold_left rename l f) = ffDefault f.
Proof. induction l as [|n l IH]; intros f; [reflexivity|]. cbn [fold_left]. rewrite IH. destruct n; reflexivity. Qed.
Lemma run_part p : part_ok p -> forall f nm va la, inv f nm va ->
  exists nm' va', run (part_tokens p) (st f nm va la false false false) = st (part_field f p) nm' va' (la ++ part_label p) false false false /\ inv (part_field f p) nm' va'.
Proof.
  destruct p as [a ts|a ts|a ts|t]; intros H f nm va la [J1 J2]; cbn [part_ok part_tokens part_field part_label] in *; unfold elem; cbn [fold_left].
  - exists nm, (text ts). rewrite app_nil_r. change (f_step (st f nm va la false false false) (TStart (bs "value") a)) with (st f nm [] la true false false).
    rewrite fold_left_app, run_value by exact H. cbn [fold_left app]. split; [reflexivity|]. split.
    + unfold set_default. destruct (text ts); exact J1.
    + intros N. unfold set_default. destruct (text ts); [congruence|reflexivity].
  - exists nm, va. change (f_step (st f nm va la false false false) (TStart (bs "label") a)) with (st f nm va la false false true).
    rewrite fold_left_app, run_label by exact H. split; [reflexivity|]. split; assumption.
  - change (f_step (st f nm va la false false false) (TStart (bs "name") a)) with (st f nm va la false true false). rewrite fold_left_app.
    destruct (run_name ts H f nm va la J1) as (nm' & E & J'). rewrite E. exists nm', va. rewrite app_nil_r. split; [reflexivity|]. split; [exact J'|]. rewrite rename_default. exact J2.
  - exists nm, va. rewrite app_nil_r. split; [|split; assumption].
    destruct t as [n b|n|x]; [exact (foreign_skip _ (TStart n b) H)|exact (foreign_skip _ (TEnd n) H)|reflexivity].
Qed.
Lemma run_parts ps : Forall part_ok ps -> forall f nm va la, inv f nm va ->
  exists nm' va', run (flat_map part_tokens ps) (st f nm va la false false false) =
    st (fold_left part_field ps f) nm' va' (la ++ flat_map part_label ps) false false false /\ inv (fold_left part_field ps f) nm' va'.
Proof.
  induction 1 as [|p ps H _ IH]; intros f nm va la J; [exists nm, va; cbn; rewrite app_nil_r; auto|]. cbn [flat_map]. rewrite fold_left_app.
  destruct (run_part p H f nm va la J) as (nm1 & va1 & E & J1). rewrite E. destruct (IH _ nm1 va1 (la ++ part_label p) J1) as (nm2 & va2 & E2 & J2).
  exists nm2, va2. rewrite E2, <- app_assoc. auto.
Qed.
End Field.
(** what the parts do to the field *)
Definition ren_id (f : ffield) : Prop := ffName f <> [] -> ffID f = sanitizeFieldID (ffName f).
Lemma last_full_app a b : last_full (a ++ b) = match last_full b with Some x => Some x | None => last_full a end.
Proof. induction a as [|x a IH]; [cbn; destruct (last_full b); reflexivity|]. cbn [app last_full]. rewrite IH. destruct (last_full b); reflexivity. Qed.
Lemma last_full_some l x : last_full l = Some x -> x <> [].
Proof. induction l as [|y l IH]; [discriminate|]. cbn [last_full]. destruct (last_full l); [intros E; injection E as ->; apply IH; reflexivity|]. destruct y; [discriminate|]. intros E; injection E as <-. discriminate. Qed.
Lemma renames l : forall f, ren_id f -> let f' := fold_left rename l f in
  ffName f' = odef (last_full l) (ffName f) /\ ren_id f' /\ ffType f' = ffType f /\ ffRequired f' = ffRequired f /\ ffReadOnly f' = ffReadOnly f /\ ffProps f' = ffProps f.
Proof.
  induction l as [|n l IH]; intros f J; [cbn; auto 9|]. cbn [fold_left]. cbv zeta in IH.
  assert (J1 : ren_id (rename f n)) by (unfold rename; destruct n; [exact J|intros _; reflexivity]).
  destruct (IH _ J1) as (H1 & H2 & H3 & H4 & H5 & H6). cbv zeta. rewrite H1, H3, H4, H5, H6. cbn [last_full]. destruct n as [|c n].
  - cbn [rename]. destruct (last_full l); auto 9.
  - cbn [rename named ffName ffType ffRequired ffReadOnly ffProps]. destruct (last_full l); auto 9.
Qed.
Lemma parts_spec ps : forall f, ren_id f -> let f' := fold_left part_field ps f in
  ffName f' = odef (last_full (names ps)) (ffName f) /\ ren_id f' /\ ffType f' = ffType f /\ ffReadOnly f' = ffReadOnly f /\ ffProps f' = ffProps f /\
  ffDefault f' = match last_full (values ps) with Some v => Some (TrimSpace v) | None => ffDefault f end.
Proof.
  induction ps as [|p ps IH]; intros f J; [cbn; auto 9|]. cbn [fold_left]. cbv zeta in *.
  unfold names, values. cbn [flat_map]. fold (names ps) (values ps). rewrite !last_full_app.
  destruct p as [a ts|a ts|a ts|t]; cbn [part_field last_full app].
  - assert (J1 : ren_id (set_default (text ts) f)) by (unfold set_default; destruct (text ts); exact J).
    destruct (IH _ J1) as (H1 & H2 & H3 & H4 & H5 & H6). rewrite H1, H3, H4, H5, H6. unfold set_default.
    destruct (text ts); cbn [ffName ffType ffReadOnly ffProps ffDefault]; destruct (last_full (names ps)), (last_full (values ps)); auto 9.
  - destruct (IH _ J) as (H1 & H2 & H3 & H4 & H5 & H6). rewrite H1, H3, H4, H5, H6. destruct (last_full (names ps)), (last_full (values ps)); auto 9.
  - destruct (renames (map TrimSpace (flat_map chunk ts)) f J) as (R1 & R2 & R3 & R4 & R5 & R6). destruct (IH _ R2) as (H1 & H2 & H3 & H4 & H5 & H6).
    rewrite H1, H3, H4, H5, H6, R1, R3, R5, R6, rename_default.
    destruct (last_full (names ps)), (last_full (values ps)); auto 9.
  - destruct (IH _ J) as (H1 & H2 & H3 & H4 & H5 & H6). rewrite H1, H3, H4, H5, H6. destruct (last_full (names ps)), (last_full (values ps)); auto 9.
Qed.
Lemma labels_concat ps : flat_map part_label ps = labels ps.
Proof. unfold labels. induction ps as [|p ps IH]; [reflexivity|]. cbn [flat_map]. rewrite concat_app, <- IH. destruct p; cbn [part_label concat app]; rewrite ?app_nil_r; reflexivity. Qed.

(** ** A field *)
Lemma in_layout k : layout k = true <-> In k [bs "h"; bs "w"; bs "x"; bs "y"].
Proof.
  unfold layout. rewrite existsb_exists. split.
  - intros (x & H & E). apply bytes_eqb_eq in E as ->. exact H.
  - intros H. exists k. split; [exact H|apply bytes_eqb_refl].
Qed.
Lemma finish_described i attrs ps f0 nm0 rq nm va : 0 <= i -> fold_left f_attr attrs (new_ff i, [], []) = (f0, nm0, rq) ->
  inv (fold_left part_field ps f0) nm va -> described i attrs ps (finish_field i nm va rq (labels ps) (fold_left part_field ps f0)).
Proof.
  intros Hi EA [J1 J2]. destruct (attrs_spec _ _ _ _ _ _ _ EA) as (_ & A2 & A3 & A4 & A5 & A6 & A7 & A8). cbn [new_ff ffName ffID ffType ffReadOnly ffDefault ffProps] in *.
  assert (R0 : ren_id f0). { intros N. rewrite A2 in *. rewrite A3. destruct (last_attr_of (bs "name") attrs); [reflexivity|cbn in N; congruence]. }
  destruct (parts_spec ps f0 R0) as (P1 & P2 & P3 & P4 & P5 & P6). cbv zeta in *. set (f := fold_left part_field ps f0) in *. clearbody f.
  assert (G : given_name attrs ps = ffName f). { unfold given_name. rewrite P1, A2. destruct (last_full (names ps)); [reflexivity|]. destruct (last_attr_of _ _); reflexivity. }
  unfold finish_field. set (g := match ffName f with [] => _ | _ => f end).
  assert (G1 : ffName g = match given_name attrs ps with [] => bs "field_" ++ decZ i | n => n end).
  { rewrite G. unfold g. destruct (ffName f) as [|c r] eqn:E; [rewrite (J1 eq_refl); reflexivity|exact E]. }
  assert (G2 : identifier (ffID g) /\ (identifier (ffName g) -> ffID g = ffName g)).
  { unfold g. destruct (ffName f) as [|c r] eqn:E.
    - rewrite (J1 eq_refl). cbn [ffID ffName]. split; [apply numbered_id, Hi|reflexivity].
    - rewrite P2 by congruence. split; [apply sanitized|]. apply sanitized_same. }
  assert (G3 : ffType g = ffType f /\ ffReadOnly g = ffReadOnly f /\ ffProps g = ffProps f /\ ffDefault g = ffDefault f).
  { unfold g. destruct (ffName f) eqn:E; [rewrite (J1 eq_refl)|]; repeat split. }
  clearbody g. destruct G2 as [G2 G2'], G3 as (G3 & G4 & G5 & G6).
  set (h := set_default va g).
  assert (H1 : ffName h = ffName g /\ ffID h = ffID g /\ ffType h = ffType g /\ ffReadOnly h = ffReadOnly g /\ ffProps h = ffProps g) by (unfold h, set_default; destruct va; repeat split).
  assert (H2 : ffDefault h = ffDefault f). { unfold h, set_default. destruct va as [|c r]; [exact G6|]. cbn [ffDefault]. rewrite (J2 ltac:(discriminate)). reflexivity. }
  clearbody h. destruct H1 as (H1 & H1a & H1b & H1c & H1d).
  assert (T : ffType h <> []).
  { rewrite H1b, G3, P3, A4. destruct (last_attr_of (bs "type") attrs) as [t|]; [|discriminate]. pose proof (type_known t) as K. intros E. rewrite E in K. revert K. unfold kinds. cbn [map fst In]. intros K. repeat (destruct K as [K|K]; [discriminate K|]). exact K. }
  constructor; cbn [ffName ffID ffType ffRequired ffReadOnly ffDefault ffProps].
  - rewrite H1. exact G1.
  - rewrite H1a. exact G2.
  - rewrite H1, H1a. exact G2'.
  - replace (match ffType h with [] => bs "text" | (_ :: _) as t => t end) with (ffType h) by (destruct (ffType h); [congruence|reflexivity]).
    rewrite H1b, G3, P3, A4. destruct (last_attr_of (bs "type") attrs) as [t|]; [apply type_kind|reflexivity].
  - rewrite A5. unfold is_required. destruct (last_attr_of (bs "required") attrs) as [v|]; cbn [odef].
    + rewrite !orb_true_iff, !bytes_eqb_eq. split; [intros H; exists v; tauto|]. intros (v' & E & H). injection E as <-. tauto.
    + split; [discriminate|]. intros (v' & E & _). discriminate.
  - rewrite H1c, G4, P4, A6. cbn [orb]. rewrite existsb_exists. unfold ro_attr. split.
    + intros ([k v] & H & E). cbn [fst snd] in E. apply andb_true_iff in E as [E1 E2]. apply bytes_eqb_eq in E1 as ->. apply bytes_eqb_eq in E2 as ->. exact H.
    + intros H. exists (bs "access", bs "readOnly"). split; [exact H|reflexivity].
  - rewrite H2, P6, A7. destruct (last_full (values ps)); reflexivity.
  - intros k Hk. assert (Lk : layout k = true) by (apply in_layout, Hk). specialize (A8 k). rewrite Lk in A8. cbn [kget] in A8.
    assert (Q : kget k (ffProps h) = last_attr_of k attrs) by (rewrite H1d, G5, P5, A8; destruct (last_attr_of k attrs); reflexivity).
    destruct (labels ps); [exact Q|]. rewrite kget_kset. destruct (bytes_eqb k (bs "label")) eqn:E; [apply bytes_eqb_eq in E as ->; discriminate Lk|exact Q].
  - assert (Q : kget (bs "label") (ffProps h) = None) by (rewrite H1d, G5, P5, A8; reflexivity). destruct (labels ps); [exact Q|]. rewrite kget_kset. reflexivity.
  - intros k Hk. assert (Q : kget k (ffProps h) = None).
    { rewrite H1d, G5, P5, A8. destruct (layout k) eqn:Lk; [|reflexivity]. apply in_layout in Lk. exfalso. apply Hk. cbn [In] in *. tauto. }
    destruct (labels ps); [exact Q|]. rewrite kget_kset. destruct (bytes_eqb k (bs "label")) eqn:E; [|exact Q]. apply bytes_eqb_eq in E as ->. exfalso. apply Hk. cbn [In]. tauto.
Qed.

(** ** A template *)
Definition idle (dn : list ffield) (i : Z) : fstate := mkFS dn i None [] [] [] [] false false false.
Lemma idle_skip dn i t : not_field t -> f_step (idle dn i) t = idle dn i.
Proof.
  intros H. destruct t as [n a|n|x]; [| |reflexivity]; cbn [f_step idle f_start f_end not_field] in *.
  - destruct (bytes_eqb n (bs "field")) eqn:E; [apply bytes_eqb_eq in E; congruence|reflexivity].
  - destruct (bytes_eqb n (bs "field")) eqn:E; [apply bytes_eqb_eq in E; congruence|]. destruct (bytes_eqb n (bs "value")), (bytes_eqb n (bs "name")), (bytes_eqb n (bs "label")); reflexivity.
Qed.
Lemma run_items l : Forall item_ok l -> forall dn i, 0 <= i -> exists fs, run (flat_map item_tokens l) (idle dn i) = idle (dn ++ fs) (i + Z.of_nat (length fs)) /\ all_described i (fields_of l) fs.
Proof.
  induction 1 as [|x l H _ IH]; intros dn i Hi; [exists []; cbn; rewrite app_nil_r, Z.add_0_r; auto|]. cbn [flat_map]. rewrite fold_left_app. destruct x as [[a ps]|t]; cbn [item_ok item_tokens] in *.
  - unfold elem. cbn [fold_left]. rewrite fold_left_app. destruct (fold_left f_attr a (new_ff i, [], [])) as [[f0 nm0] rq] eqn:EA.
    assert (E0 : f_step (idle dn i) (TStart (bs "field") a) = mkFS dn i (Some f0) nm0 [] rq [] false false false).
    { transitivity (let '(f, nm, rq) := fold_left f_attr a (new_ff i, [], []) in mkFS dn i (Some f) nm [] rq [] false false false); [reflexivity|rewrite EA; reflexivity]. }
    rewrite E0. destruct (attrs_spec _ _ _ _ _ _ _ EA) as (A1 & A2 & _). cbn [new_ff ffName] in A2.
    destruct (run_parts dn i rq ps H f0 nm0 [] []) as (nm & va & E & J). { split; [|congruence]. rewrite A1, A2. auto. }
    rewrite E. cbn [fold_left app].
    destruct (IH (dn ++ [finish_field i nm va rq (labels ps) (fold_left part_field ps f0)]) (i + 1) ltac:(lia)) as (fs & E2 & D).
    exists (finish_field i nm va rq (labels ps) (fold_left part_field ps f0) :: fs). rewrite labels_concat.
    change (f_step (mkFS dn i (Some (fold_left part_field ps f0)) nm va rq (labels ps) false false false) (TEnd (bs "field")))
      with (idle (dn ++ [finish_field i nm va rq (labels ps) (fold_left part_field ps f0)]) (i + 1)). rewrite E2. split.
    + rewrite <- app_assoc. cbn [app length]. f_equal. lia.
    + cbn [fields_of flat_map app all_described]. split; [|exact D]. exact (finish_described i a ps f0 nm0 rq nm va Hi EA J).
  - cbn [fold_left]. rewrite idle_skip by exact H. exact (IH dn i Hi).
Qed.
Theorem fields_described xml l : contains (bs "<field") xml = true -> Forall item_ok l -> all_described 1 (fields_of l) (ParseXFAFields xml (flat_map item_tokens l)).
Proof. intros C H. unfold ParseXFAFields. rewrite C. destruct (run_items l H [] 1 ltac:(lia)) as (fs & E & D). unfold idle in E. unfold fstate0. rewrite E. exact D. Qed.

(** ** Any sequence of tokens *)
Definition good (f : ffield) : Prop := identifier (ffID f) /\ In (ffType f) (map fst kinds).
Definition state_ok (s : fstate) : Prop :=
  0 <= fsIndex s /\ Forall (fun f => good f /\ ffName f <> []) (fsDone s) /\ (forall f, fsCur s = Some f -> good f).
Lemma attrs_good attrs : forall f0 nm0 rq0, good f0 -> good (fst (fst (fold_left f_attr attrs (f0, nm0, rq0)))).
Proof.
  induction attrs as [|[k v] l IH]; intros f0 nm0 rq0 H; [exact H|]. cbn [fold_left].
  assert (S : exists f1 nm1 rq1, f_attr (f0, nm0, rq0) (k, v) = (f1, nm1, rq1) /\ good f1).
  { unfold f_attr. destruct H as [H1 H2]. destruct (bytes_eqb k (bs "name")); [eexists _, _, _; split; [reflexivity|]; split; [apply sanitized|exact H2]|].
    destruct (bytes_eqb k (bs "type")); [eexists _, _, _; split; [reflexivity|]; split; [exact H1|apply type_known]|].
    destruct (bytes_eqb k (bs "required")); [eexists _, _, _; split; [reflexivity|]; split; assumption|].
    destruct (bytes_eqb k (bs "access")); [eexists _, _, _; split; [reflexivity|]; destruct (bytes_eqb v (bs "readOnly")); split; assumption|].
    destruct (existsb (bytes_eqb k) _); eexists _, _, _; (split; [reflexivity|]; split; assumption). }
  destruct S as (f1 & nm1 & rq1 & -> & G). apply IH, G.
Qed.
Lemma default_good v f : good f -> good (set_default v f).
Proof. intros [H1 H2]. unfold set_default. destruct v; split; assumption. Qed.
Lemma finish_good i nm va rq la f : 0 <= i -> good f -> good (finish_field i nm va rq la f) /\ ffName (finish_field i nm va rq la f) <> [].
Proof.
  intros Hi [H1 H2]. unfold finish_field. set (g := match ffName f with [] => _ | _ => f end).
  assert (G : good g /\ ffName g <> []).
  { unfold g. destruct (ffName f) eqn:E; [|split; [split; assumption|congruence]]. destruct nm; [split; [split; [apply numbered_id, Hi|exact H2]|discriminate]|split; [split; [apply sanitized|exact H2]|discriminate]]. }
  clearbody g. destruct G as [G N]. pose proof (default_good va g G) as [D1 D2]. assert (Ns : ffName (set_default va g) = ffName g) by (unfold set_default; destruct va; reflexivity).
  split; [split; cbn [ffID ffType]; [exact D1|destruct (ffType (set_default va g)); [left; reflexivity|exact D2]]|]. cbn [ffName]. rewrite Ns. exact N.
Qed.
Lemma step_ok s t : state_ok s -> state_ok (f_step s t).
Proof.
  intros (H1 & H2 & H3). destruct s as [dn i cur nm va rq la iV iN iL]. cbn [fsIndex fsDone fsCur] in *. destruct t as [n a|n|x]; cbn [f_step].
  - cbn [f_start]. destruct (bytes_eqb n (bs "field")).
    + pose proof (attrs_good a (new_ff i) nm rq (conj (numbered_id i H1) (or_introl eq_refl))) as G. destruct (fold_left f_attr a (new_ff i, nm, rq)) as [[f nm'] rq']. cbn [fst] in G.
      repeat split; cbn [fsIndex fsDone fsCur]; try assumption; injection H as <-; apply G.
    + destruct cur as [f|]; [|repeat split; auto; discriminate]. destruct (bytes_eqb n (bs "value")), (bytes_eqb n (bs "name")), (bytes_eqb n (bs "label")); (split; [exact H1|split; [exact H2|exact H3]]).
  - cbn [f_end]. destruct (bytes_eqb n (bs "field")).
    + destruct cur as [f|]; cbn [f_end].
      * split; [cbn [fsIndex]; lia|]. split; [|intros f' E; discriminate E]. cbn [fsDone]. apply Forall_app. split; [exact H2|]. constructor; [|constructor]. apply finish_good; [exact H1|apply H3; reflexivity].
      * split; [exact H1|]. split; [exact H2|]. intros f' E; discriminate E.
    + destruct (bytes_eqb n (bs "value")).
      * split; [exact H1|]. split; [exact H2|]. cbn [fsCur]. intros f E. destruct cur as [f0|]; [|discriminate]. injection E as <-. apply default_good, H3. reflexivity.
      * destruct (bytes_eqb n (bs "name")), (bytes_eqb n (bs "label")); (split; [exact H1|split; [exact H2|exact H3]]).
  - cbn [f_chars]. destruct cur as [f|]; [|split; [exact H1|split; [exact H2|exact H3]]].
    destruct iV; [split; [exact H1|split; [exact H2|exact H3]]|]. destruct iN; [|destruct iL; (split; [exact H1|split; [exact H2|exact H3]])].
    split; [exact H1|split; [exact H2|]]. cbn [fsCur]. intros f' E. injection E as <-. specialize (H3 f eq_refl). destruct (TrimSpace x); [exact H3|]. split; [apply sanitized|exact (proj2 H3)].
Qed.
Theorem any_good xml ts : Forall (fun f => identifier (ffID f) /\ ffName f <> [] /\ In (ffType f) (map fst kinds)) (ParseXFAFields xml ts).
Proof.
  unfold ParseXFAFields. destruct (contains _ _); [|constructor].
  assert (G : state_ok (run ts fstate0)).
  { assert (K : forall s, state_ok s -> state_ok (run ts s)) by (induction ts as [|t ts' IH]; intros s H; [exact H|]; cbn [fold_left]; apply IH, step_ok, H).
    apply K. split; [cbn; lia|]. split; [constructor|]. intros f E. discriminate E. }
  destruct G as (_ & G & _). eapply Forall_impl; [|exact G]. intros f [[A B] C]. auto.
Qed.
Definition pending (s : fstate) : nat := match fsCur s with Some _ => 1 | None => 0 end.
Lemma step_count s t : (length (fsDone (f_step s t)) + pending (f_step s t) <= length (fsDone s) + pending s + (if field_start t then 1 else 0))%nat /\
  (length (fsDone (f_step s t)) <= length (fsDone s) + (if field_end t then 1 else 0))%nat.
Proof.
  destruct s as [dn i cur nm va rq la iV iN iL]. destruct t as [n a|n|x]; cbn [f_step f_start f_end f_chars field_start field_end].
  - destruct (bytes_eqb n (bs "field")).
    + destruct (fold_left f_attr a (new_ff i, nm, rq)) as [[f nm'] rq']. unfold pending. cbn [fsDone fsCur]. destruct cur; lia.
    + destruct cur as [f|]; [destruct (bytes_eqb n (bs "value")), (bytes_eqb n (bs "name")), (bytes_eqb n (bs "label"))|]; unfold pending; cbn [fsDone fsCur]; lia.
  - destruct (bytes_eqb n (bs "field")).
    + destruct cur; unfold pending; cbn [fsDone fsCur]; rewrite ?app_length; cbn [length]; lia.
    + destruct (bytes_eqb n (bs "value")), (bytes_eqb n (bs "name")), (bytes_eqb n (bs "label")), cur; unfold pending; cbn [option_map fsDone fsCur]; lia.
  - destruct cur; [destruct iV; [|destruct iN; [|destruct iL]]|]; unfold pending; cbn [fsDone fsCur]; lia.
Qed.
Theorem any_count xml ts : (length (ParseXFAFields xml ts) <= count field_start ts)%nat /\ (length (ParseXFAFields xml ts) <= count field_end ts)%nat.
Proof.
  unfold ParseXFAFields. destruct (contains _ _); [|cbn; lia].
  assert (K : forall s, (length (fsDone (run ts s)) <= length (fsDone s) + pending s + count field_start ts)%nat /\ (length (fsDone (run ts s)) <= length (fsDone s) + count field_end ts)%nat).
  { unfold count. induction ts as [|t ts' IH]; intros s; [cbn; unfold pending; destruct (fsCur s); lia|]. cbn [fold_left List.filter]. specialize (IH (f_step s t)). pose proof (step_count s t) as C.
    destruct (field_start t), (field_end t); cbn [length]; lia. }
  specialize (K fstate0). cbn [fsDone fstate0 length pending fsCur] in K. exact K.
Qed.
(** ** What goes wrong *)
Lemma prefix_none xml ts : contains (bs "<field") xml = false -> ParseXFAFields xml ts = [].
Proof. intros H. unfold ParseXFAFields. rewrite H. reflexivity. Qed.
Lemma nested_one xml a b : contains (bs "<field") xml = true ->
  length (ParseXFAFields xml [TStart (bs "field") a; TStart (bs "field") b; TEnd (bs "field"); TEnd (bs "field")]) = 1%nat.
Proof.
  intros H. unfold ParseXFAFields. rewrite H. cbn [fold_left]. unfold fstate0.
  assert (E : forall nm rq la a, exists f nm' rq', f_step (mkFS [] 1 la nm [] rq [] false false false) (TStart (bs "field") a) = mkFS [] 1 (Some f) nm' [] rq' [] false false false).
  { intros nm rq la c. destruct (fold_left f_attr c (new_ff 1, nm, rq)) as [[f nm'] rq'] eqn:Q. exists f, nm', rq'.
    transitivity (let '(f, nm, rq) := fold_left f_attr c (new_ff 1, nm, rq) in mkFS [] 1 (Some f) nm [] rq [] false false false); [reflexivity|rewrite Q; reflexivity]. }
  destruct (E [] [] None a) as (f1 & n1 & r1 & ->). destruct (E n1 r1 (Some f1) b) as (f2 & n2 & r2 & ->). reflexivity.
Qed.
Lemma caption_default xml c : contains (bs "<field") xml = true -> c <> [] ->
  map ffDefault (ParseXFAFields xml
    [TStart (bs "field") []; TStart (bs "caption") []; TStart (bs "value") []; TChars c; TEnd (bs "value"); TEnd (bs "caption");
     TStart (bs "value") []; TEnd (bs "value"); TEnd (bs "field")]) = [Some (TrimSpace c)].
Proof.
  intros H N.
  pose proof (fields_described xml [inl ([], [Oth (TStart (bs "caption") []); Val [] [TChars c]; Oth (TEnd (bs "caption")); Val [] []])] H) as D.
  cbn [flat_map item_tokens part_tokens elem app fields_of] in D. unfold elem in D. cbn [app] in D.
  assert (O : ~ own (bs "caption")) by (intros O; unfold own in O; cbn [In] in O; decompose [or] O; [discriminate ..|contradiction]).
  specialize (D ltac:(constructor; [|constructor]; cbn [item_ok]; constructor; [exact O|constructor; [cbn [part_ok]; constructor; [exact I|constructor]|constructor; [exact O|constructor; [constructor|constructor]]]])).
  destruct (ParseXFAFields xml _) as [|f [|g r]]; cbn [all_described] in D; [destruct D| |destruct D as [_ []]]. destruct D as [D _]. cbn [map]. f_equal. rewrite (d_default _ _ _ _ D).
  unfold values. cbn [flat_map app last_full text concat chunk]. rewrite app_nil_r. destruct c; [congruence|reflexivity].
Qed.
