(** Proofs about forms: validation, lookup, flags. *)
From Verif Require Import Util Scan WriterModel ParseModel TextModel FormsModel FormsSpec.
From Coq Require Import Permutation.
Local Open Scope Z_scope.

(* ---------------- flags ---------------- *)

Lemma bit_testbit fl k : 0 <= k -> bit fl (2 ^ k) = Z.testbit fl k.
Proof.
  intros Hk. unfold bit.
  destruct (Z.testbit fl k) eqn:E.
  - destruct (Z.land fl (2 ^ k) =? 0) eqn:F; [|reflexivity].
    apply Z.eqb_eq in F. assert (H : Z.testbit (Z.land fl (2 ^ k)) k = false) by (rewrite F; apply Z.bits_0).
    rewrite Z.land_spec, E, Z.pow2_bits_true in H by lia. discriminate.
  - assert (F : Z.land fl (2 ^ k) = 0); [|rewrite F; reflexivity].
    apply Z.bits_inj. intros i. rewrite Z.land_spec, Z.bits_0.
    destruct (Z.eq_dec i k) as [->|N]; [rewrite E; reflexivity|].
    rewrite Z.pow2_bits_false by lia. apply andb_false_r.
Qed.
Lemma bit2 fl : bit fl 2 = Z.testbit fl 1. Proof. apply (bit_testbit fl 1). lia. Qed.
Lemma bit1 fl : bit fl 1 = Z.testbit fl 0. Proof. apply (bit_testbit fl 0). lia. Qed.
Lemma bit15 fl : bit fl 0x8000 = Z.testbit fl 15. Proof. apply (bit_testbit fl 15). lia. Qed.
Lemma bit16 fl : bit fl 0x10000 = Z.testbit fl 16. Proof. apply (bit_testbit fl 16). lia. Qed.

Definition set_bit (b : bool) (fl m : Z) : Z := if b then Z.lor fl m else Z.ldiff fl m.
Lemma set_bit_spec b fl k i : 0 <= k ->
  Z.testbit (set_bit b fl (2 ^ k)) i = if i =? k then b else Z.testbit fl i.
Proof.
  intros Hk. destruct (Z.eqb_spec i k) as [->|N].
  - unfold set_bit; destruct b; rewrite ?Z.lor_spec, ?Z.ldiff_spec, Z.pow2_bits_true by lia;
      [apply orb_true_r|apply andb_false_r].
  - unfold set_bit; destruct b; rewrite ?Z.lor_spec, ?Z.ldiff_spec, Z.pow2_bits_false by lia;
      [apply orb_false_r|apply andb_true_r].
Qed.
Lemma run_flags_spec l : forall d,
  Z.testbit (dFlags (run_flags d l)) required_bit = last_required (Z.testbit (dFlags d) required_bit) l /\
  Z.testbit (dFlags (run_flags d l)) read_only_bit = last_read_only (Z.testbit (dFlags d) read_only_bit) l /\
  (forall i, i <> required_bit -> i <> read_only_bit ->
     Z.testbit (dFlags (run_flags d l)) i = Z.testbit (dFlags d) i) /\
  run_flags d l = with_flags d (dFlags (run_flags d l)).
Proof.
  induction l as [|c l IH]; intros d.
  - cbn. repeat split. destruct d; reflexivity.
  - destruct c as [b|b].
    + change (run_flags d (CRequired b :: l)) with (run_flags (SetRequired b d) l).
      destruct (IH (SetRequired b d)) as (R & O & X & E).
      change (dFlags (SetRequired b d)) with (set_bit b (dFlags d) (2 ^ 1)) in *.
      repeat split.
      * rewrite R, set_bit_spec by lia. reflexivity.
      * rewrite O, set_bit_spec by lia. reflexivity.
      * intros i H1 H2. rewrite X, set_bit_spec by (assumption || lia).
        destruct (Z.eqb_spec i 1); [unfold required_bit in H1; congruence|reflexivity].
      * rewrite E at 1. reflexivity.
    + change (run_flags d (CReadOnly b :: l)) with (run_flags (SetReadOnly b d) l).
      destruct (IH (SetReadOnly b d)) as (R & O & X & E).
      change (dFlags (SetReadOnly b d)) with (set_bit b (dFlags d) (2 ^ 0)) in *.
      repeat split.
      * rewrite R, set_bit_spec by lia. reflexivity.
      * rewrite O, set_bit_spec by lia. reflexivity.
      * intros i H1 H2. rewrite X, set_bit_spec by (assumption || lia).
        destruct (Z.eqb_spec i 0); [unfold read_only_bit in H2; congruence|reflexivity].
      * rewrite E at 1. reflexivity.
Qed.

(* ---------------- one field ---------------- *)

Lemma missing_spec v : missing v = true <-> absent v.
Proof.
  unfold absent. split.
  - destruct v as [|[|]| | | | |]; cbn; auto; discriminate.
  - intros [->| ->]; reflexivity.
Qed.
Lemma in_options_spec a v : in_options a v = true <-> In (show v) (aOpt a).
Proof.
  unfold in_options. rewrite existsb_exists. split.
  - intros (o & I & E). apply bytes_eqb_eq in E. subst. exact I.
  - intros I. exists (show v). split; [exact I|apply bytes_eqb_eq; reflexivity].
Qed.
Lemma has_options_spec a : has_options a = true <-> aOpt a <> [].
Proof. unfold has_options. destruct (aOpt a); split; congruence. Qed.
Lemma standard_state_spec t : standard_state t = true <-> In t check_states.
Proof.
  unfold standard_state, check_states. rewrite !orb_true_iff, !bytes_eqb_eq. cbn [In]. intuition congruence.
Qed.

Ltac types :=
  repeat match goal with
  | |- context [bytes_eqb ?a ?b] =>
      let E := fresh "E" in destruct (bytes_eqb a b) eqn:E;
      [apply bytes_eqb_eq in E|]
  end.
Lemma bytes_neqb a b : bytes_eqb a b = false -> a <> b.
Proof. intros E ->. rewrite (proj2 (bytes_eqb_eq b b) eq_refl) in E. discriminate. Qed.

Lemma tx_ok a v : validateTextField a v = true <-> (0 < aMaxLen a -> Z.of_nat (length (show v)) <= aMaxLen a).
Proof.
  unfold validateTextField. rewrite negb_true_iff, andb_false_iff, !Z.ltb_ge. lia.
Qed.
Lemma ch_ok a v : validateChoiceField a v = true <-> (aOpt a <> [] -> In (show v) (aOpt a)).
Proof.
  unfold validateChoiceField. destruct (has_options a) eqn:E.
  - apply has_options_spec in E. rewrite in_options_spec. tauto.
  - assert (~ aOpt a <> []) by (rewrite <- has_options_spec; congruence). tauto.
Qed.
Lemma btn_ok a v : validateButtonField a v = true <->
  (Z.testbit (aFf a) flag16 = true -> aOpt a <> [] ->
     In (show v) (aOpt a) \/ (Z.testbit (aFf a) flag15 = true /\ ~ In (show v) check_states)).
Proof.
  unfold validateButtonField, flag15, flag16. rewrite bit15, bit16, <- standard_state_spec, <- has_options_spec, <- in_options_spec.
  destruct (Z.testbit (aFf a) 15), (Z.testbit (aFf a) 16), (standard_state (show v)), (has_options a), (in_options a v);
    cbn; intuition congruence.
Qed.

Lemma validate_field_spec a v : ValidateField a v = true <-> accepts a v.
Proof.
  unfold ValidateField, accepts, required_bit, validateSignatureField, required. rewrite <- (bit2 (aFf a)), <- (missing_spec v).
  destruct (bit (aFf a) 2 && missing v) eqn:R.
  - apply andb_true_iff in R as [R1 R2]. rewrite R1, R2. split; [discriminate|]. intros (H & _). exfalso. apply H; reflexivity.
  - assert (R' : bit (aFf a) 2 = true -> missing v <> true)
      by (intros H; rewrite H in R; cbn in R; congruence).
    types; try rewrite E; try rewrite E0; try rewrite E1; try rewrite E2.
    + rewrite tx_ok. split; [|tauto]. intros H. repeat split; auto; discriminate.
    + rewrite btn_ok. split; [|tauto]. intros H. repeat split; auto; discriminate.
    + rewrite ch_ok. split; [|tauto]. intros H. repeat split; auto; discriminate.
    + split; [intros _; repeat split; auto; discriminate|]. intros _. rewrite andb_comm, R. reflexivity.
    + apply bytes_neqb in E, E0, E1, E2. split; [intros _|reflexivity]. repeat split; auto; congruence.
Qed.

(* ---------------- names ---------------- *)

Lemma dotted_cons_nil p : dotted ([] :: p) = dotted p.
Proof. reflexivity. Qed.
Lemma join_snoc sep l x : l <> [] -> join sep (l ++ [x]) = join sep l ++ sep ++ x.
Proof.
  induction l as [|a l IH]; [congruence|]. intros _. destruct l as [|b l].
  - reflexivity.
  - change (join sep ((a :: b :: l) ++ [x])) with (a ++ sep ++ join sep ((b :: l) ++ [x])).
    rewrite IH by discriminate. change (join sep (a :: b :: l)) with (a ++ sep ++ join sep (b :: l)).
    rewrite <- !app_assoc. reflexivity.
Qed.
Lemma dotted_join a p : a <> [] -> dotted (a :: p) = join (bs ".") (a :: p).
Proof. destruct a; [congruence|reflexivity]. Qed.
Lemma dotted_snoc p t : dotted (p ++ [t]) = match dotted p with [] => t | q => q ++ bs "." ++ t end.
Proof.
  induction p as [|a p IH].
  - cbn [app dotted]. destruct t; reflexivity.
  - destruct a as [|c a].
    + rewrite <- app_comm_cons, !dotted_cons_nil. exact IH.
    + rewrite <- app_comm_cons, !dotted_join by discriminate.
      change ((c :: a) :: p ++ [t]) with (((c :: a) :: p) ++ [t]).
      rewrite join_snoc by discriminate.
      assert (N : join (bs ".") ((c :: a) :: p) <> []) by (destruct p; discriminate).
      destruct (join (bs ".") ((c :: a) :: p)); [congruence|reflexivity].
Qed.
Lemma full_name_dotted p f : full_name (dotted p) f = dotted (p ++ [aT (f_attrs f)]).
Proof. rewrite dotted_snoc. unfold full_name. destruct (dotted p); reflexivity. Qed.
Lemma full_names_dotted l : forall p,
  fold_left full_name l (dotted p) = dotted (p ++ map (fun f => aT (f_attrs f)) l).
Proof.
  induction l as [|f l IH]; intros p; cbn [fold_left map]; [rewrite app_nil_r; reflexivity|].
  rewrite full_name_dotted, IH, <- app_assoc. reflexivity.
Qed.
Lemma get_full_name anc f : GetFullName anc f = dotted (map (fun f => aT (f_attrs f)) (anc ++ [f])).
Proof.
  unfold GetFullName. change (@nil byte) with (dotted []).
  rewrite full_names_dotted, full_name_dotted, map_app. reflexivity.
Qed.

(* ---------------- lookup ---------------- *)

Lemma all_below_unfold path f :
  all_below path f = (path ++ [aT (f_attrs f)], f_attrs f) :: flat_map (all_below (path ++ [aT (f_attrs f)])) (f_kids f).
Proof. destruct f; reflexivity. Qed.
Lemma all_two f : (forall k, In k (f_kids f) -> f_kids k = []) ->
  all_below [] f = ([aT (f_attrs f)], f_attrs f) ::
                   map (fun k => ([aT (f_attrs f); aT (f_attrs k)], f_attrs k)) (f_kids f).
Proof.
  intros H. rewrite all_below_unfold. f_equal. cbn [app].
  induction (f_kids f) as [|k ks IH]; [reflexivity|]. cbn [flat_map map].
  rewrite all_below_unfold, (H k) by (left; reflexivity). cbn [flat_map app].
  rewrite IH by (intros; apply H; right; assumption). reflexivity.
Qed.
Lemma named_spec name p f : named name (dotted p) f = has_name name (p ++ [aT (f_attrs f)], f_attrs f).
Proof. unfold named, has_name, full_name_of. rewrite full_name_dotted. reflexivity. Qed.
Lemma full_name_root f : full_name [] f = dotted [aT (f_attrs f)].
Proof. exact (full_name_dotted [] f). Qed.

Lemma find_app {A} (p : A -> bool) l1 l2 :
  List.find p (l1 ++ l2) = match List.find p l1 with Some x => Some x | None => List.find p l2 end.
Proof. induction l1 as [|a l1 IH]; [reflexivity|]. cbn. destruct (p a); [reflexivity|exact IH]. Qed.
Lemma find_map {A B} (g : A -> B) (p : B -> bool) l :
  List.find p (map g l) = option_map g (List.find (fun x => p (g x)) l).
Proof. induction l as [|a l IH]; [reflexivity|]. cbn. destruct (p (g a)); [reflexivity|exact IH]. Qed.
Lemma find_ext {A} (p q : A -> bool) l : (forall x, p x = q x) -> List.find p l = List.find q l.
Proof. intros H. induction l as [|a l IH]; [reflexivity|]. cbn. rewrite H, IH. reflexivity. Qed.

Lemma find_field_spec fs name : two_levels fs ->
  match first_named fs name with
  | Some e => found_path fs name e
  | None => FindFieldByName fs name = None
  end.
Proof.
  unfold first_named, all_fields, found_path. intros T.
  induction fs as [|f fs IH]; [reflexivity|]. cbn [flat_map FindFieldByName].
  rewrite all_two by (intros k; apply T; left; reflexivity).
  rewrite <- app_comm_cons. cbn [List.find].
  pose proof (named_spec name [] f) as NS. cbn [app dotted] in NS. rewrite <- NS.
  destruct (named name [] f) eqn:N.
  - exists f, []. repeat split. exact (full_name_root f).
  - rewrite find_app, find_map.
    rewrite (find_ext _ (named name (full_name [] f)))
      by (intros k; rewrite full_name_root, named_spec; reflexivity).
    destruct (List.find (named name (full_name [] f)) (f_kids f)) as [k|] eqn:K; cbn [option_map].
    + exists k, (full_name [] f). repeat split. rewrite full_name_root. apply full_name_dotted.
    + apply IH. intros g k G. apply T. right. exact G.
Qed.

Lemma find_field_exact fs e : two_levels fs -> In e (all_fields fs) ->
  (forall e', In e' (all_fields fs) -> has_name (full_name_of e) e' = true -> e' = e) ->
  found_path fs (full_name_of e) e.
Proof.
  intros T I U. pose proof (find_field_spec fs (full_name_of e) T) as F.
  destruct (first_named fs (full_name_of e)) as [e'|] eqn:N.
  - unfold first_named in N. apply List.find_some in N as [N1 N2]. rewrite (U e' N1 N2) in F. exact F.
  - exfalso. unfold first_named in N. eapply List.find_none in N; [|exact I].
    unfold has_name in N. rewrite (proj2 (bytes_eqb_eq _ _) eq_refl) in N. discriminate.
Qed.

(* ---------------- form data ---------------- *)

Lemma flat_map_nil {A B} (f : A -> list B) l : flat_map f l = [] <-> forall x, In x l -> f x = [].
Proof.
  induction l as [|a l IH]; [cbn; tauto|]. cbn [flat_map In]. split.
  - intros H. apply app_eq_nil in H as [H1 H2]. intros x [<-|I]; [exact H1|]. apply IH; assumption.
  - intros H. rewrite (H a) by (left; reflexivity). apply IH. intros x I. apply H. right. exact I.
Qed.
Lemma supplied_spec {A} (data : list (bytes * A)) n : supplied data n = true <-> In n (map fst data).
Proof.
  unfold supplied. rewrite existsb_exists, in_map_iff. split.
  - intros (e & I & E). apply bytes_eqb_eq in E. exists e. auto.
  - intros (e & E & I). exists e. split; [exact I|]. apply bytes_eqb_eq. exact E.
Qed.
Lemma check_required_spec data p f :
  check_required data p f = [] <->
  (Z.testbit (aFf (f_attrs f)) required_bit = true -> In (full_name p f) (map fst data)).
Proof.
  unfold check_required, required, required_bit. rewrite bit2, <- supplied_spec.
  destruct (Z.testbit (aFf (f_attrs f)) 1), (supplied data (full_name p f)); cbn; intuition congruence.
Qed.
Lemma check_entry_spec fs name v : two_levels fs ->
  check_entry fs (name, v) = [] <-> exists e, first_named fs name = Some e /\ accepts (snd e) v.
Proof.
  intros T. pose proof (find_field_spec fs name T) as F. unfold check_entry. cbn [fst snd].
  destruct (first_named fs name) as [e|].
  - destruct F as (f & p & -> & A & _). rewrite A.
    split.
    + destruct (ValidateField (snd e) v) eqn:V; [|discriminate]. intros _. exists e.
      split; [reflexivity|]. apply validate_field_spec. exact V.
    + intros (e' & E & H). injection E as <-. apply validate_field_spec in H. rewrite H. reflexivity.
  - rewrite F. split; [discriminate|]. intros (e & E & _). discriminate.
Qed.
Lemma validate_form_data_spec fs data : two_levels fs ->
  ValidateFormData fs data = [] <-> valid_data fs data.
Proof.
  intros T. unfold ValidateFormData, valid_data. split.
  - intros H. apply app_eq_nil in H as [H1 H2]. split.
    + intros name v I. apply check_entry_spec; [exact T|]. rewrite flat_map_nil in H1. apply H1. exact I.
    + intros e I R. unfold all_fields in I. apply in_flat_map in I as (f & If & Ie).
      rewrite flat_map_nil in H2. specialize (H2 f If). apply app_eq_nil in H2 as [H2 H3].
      rewrite all_two in Ie by (intros k; apply T; exact If). destruct Ie as [<-|Ie].
      * rewrite check_required_spec in H2. rewrite full_name_root in H2. apply H2. exact R.
      * apply in_map_iff in Ie as (k & <- & Ik). rewrite flat_map_nil in H3. specialize (H3 k Ik).
        rewrite check_required_spec, full_name_root, full_name_dotted in H3. apply H3. exact R.
  - intros (H1 & H2). rewrite (proj2 (flat_map_nil _ data)).
    + cbn [app]. apply flat_map_nil. intros f If.
      rewrite (proj2 (check_required_spec data [] f)).
      * cbn [app]. apply flat_map_nil. intros k Ik. apply check_required_spec.
        rewrite full_name_root, full_name_dotted. intros R.
        apply (H2 ([aT (f_attrs f); aT (f_attrs k)], f_attrs k)); [|exact R].
        unfold all_fields. apply in_flat_map. exists f. split; [exact If|].
        rewrite all_two by (intros k'; apply T; exact If). right. apply in_map_iff. exists k. auto.
      * rewrite full_name_root. intros R. apply (H2 ([aT (f_attrs f)], f_attrs f)); [|exact R].
        unfold all_fields. apply in_flat_map. exists f. split; [exact If|].
        rewrite all_two by (intros k; apply T; exact If). left. reflexivity.
    + intros [name v] I. apply check_entry_spec; [exact T|]. apply H1. exact I.
Qed.

(** The order of the map iteration only permutes the errors. *)
Lemma supplied_perm {A} (d1 d2 : list (bytes * A)) n : Permutation d1 d2 -> supplied d1 n = supplied d2 n.
Proof.
  intros P. destruct (supplied d1 n) eqn:E.
  - symmetry. apply supplied_spec. apply supplied_spec in E. eapply Permutation_in; [|exact E]. apply Permutation_map. exact P.
  - symmetry. apply not_true_is_false. intros F. apply supplied_spec in F.
    eapply Permutation_in in F; [|apply Permutation_map, Permutation_sym; exact P].
    apply supplied_spec in F. congruence.
Qed.
Lemma check_required_perm d1 d2 p f : Permutation d1 d2 -> check_required d1 p f = check_required d2 p f.
Proof. intros P. unfold check_required. rewrite (supplied_perm d1 d2) by exact P. reflexivity. Qed.
Lemma validate_form_data_perm fs d1 d2 : Permutation d1 d2 ->
  Permutation (ValidateFormData fs d1) (ValidateFormData fs d2).
Proof.
  intros P. unfold ValidateFormData. apply Permutation_app.
  - apply Permutation_flat_map. exact P.
  - erewrite flat_map_ext; [reflexivity|]. intros f. cbn beta.
    rewrite (check_required_perm d1 d2) by exact P. f_equal.
    apply flat_map_ext. intros k. apply check_required_perm. exact P.
Qed.

(* ---------------- schemas ---------------- *)

Lemma at_least_spec o z : at_least o z = true <-> forall m, o = Some m -> m <= z.
Proof.
  destruct o as [m|]; cbn.
  - rewrite Z.leb_le. split; [intros H m' E; injection E as <-; exact H|auto].
  - split; [discriminate|reflexivity].
Qed.
Lemma at_most_spec o z : at_most o z = true <-> forall m, o = Some m -> z <= m.
Proof.
  destruct o as [m|]; cbn.
  - rewrite Z.leb_le. split; [intros H m' E; injection E as <-; exact H|auto].
  - split; [discriminate|reflexivity].
Qed.
Lemma pattern_spec (matches : bytes -> bytes -> option bool) p t :
  (match p with [] => true | c :: p' => match matches (c :: p') t with Some b => b | None => false end end) = true <->
  (p <> [] -> matches p t = Some true).
Proof.
  destruct p as [|c p].
  - split; [congruence|reflexivity].
  - destruct (matches (c :: p) t) as [[|]|].
    + split; reflexivity.
    + split; [discriminate|]. intros H. specialize (H ltac:(discriminate)). discriminate.
    + split; [discriminate|]. intros H. specialize (H ltac:(discriminate)). discriminate.
Qed.
Lemma validate_value_spec matches parse q v :
  ValidateFieldValue matches parse q v = true <-> valid_answer matches parse q v.
Proof.
  unfold ValidateFieldValue, valid_answer. destruct (vqRules q) as [r|].
  - rewrite !andb_true_iff, at_least_spec, at_most_spec.
    rewrite (pattern_spec matches (rPattern r) (rule_text v)).
    assert (N : (if vqNumber q then match parse (rule_text v) with
                   | Some x => at_least (rMin r) x && at_most (rMax r) x | None => true end else true) = true <->
                (vqNumber q = true -> forall x, parse (rule_text v) = Some x ->
                   (forall m, rMin r = Some m -> m <= x) /\ (forall m, rMax r = Some m -> x <= m))).
    { destruct (vqNumber q); [|split; [discriminate|reflexivity]].
      destruct (parse (rule_text v)) as [x|].
      - rewrite andb_true_iff, at_least_spec, at_most_spec. split.
        + intros H _ x' E. injection E as <-. exact H.
        + intros H. apply (H eq_refl x eq_refl).
      - split; [discriminate|reflexivity]. }
    rewrite N. split.
    + intros (((H1 & H2) & H3) & H4) r' E. injection E as <-. auto.
    + intros H. destruct (H r eq_refl) as (H1 & H2 & H3 & H4). auto.
  - split; [intros _ r E; discriminate|reflexivity].
Qed.

Lemma find_rev_last {A} (p : A -> bool) l x :
  List.find p (rev l) = Some x <->
  exists b a, l = b ++ x :: a /\ p x = true /\ forall y, In y a -> p y = false.
Proof.
  split.
  - revert x. induction l as [|c l IH] using rev_ind; intros x; [discriminate|].
    rewrite rev_app_distr. cbn [rev app List.find]. destruct (p c) eqn:P.
    + intros E. injection E as <-. exists l, []. repeat split; [exact P|intros y []].
    + intros E. apply IH in E as (b & a & -> & H1 & H2). exists b, (a ++ [c]).
      rewrite <- app_assoc. repeat split; [exact H1|]. intros y I. apply in_app_or in I as [I|[<-|[]]]; auto.
  - intros (b & a & -> & H1 & H2). rewrite rev_app_distr. cbn [rev]. rewrite <- app_assoc, find_app.
    destruct (List.find p (rev a)) as [y|] eqn:E.
    + apply List.find_some in E as [I Py]. rewrite (H2 y) in Py; [discriminate|]. apply in_rev. exact I.
    + cbn. rewrite H1. reflexivity.
Qed.
Lemma validate_schema_spec matches parse qs data :
  ValidateFormSchema matches parse qs data = [] <-> valid_answers matches parse qs data.
Proof.
  unfold ValidateFormSchema, valid_answers.
  assert (Q : forall name q, last_question qs name = Some q <->
    exists b a, qs = b ++ q :: a /\ vqName q = name /\ forall q', In q' a -> vqName q' <> name).
  { intros name q. unfold last_question. rewrite find_rev_last. split.
    - intros (b & a & E & H1 & H2). exists b, a. apply bytes_eqb_eq in H1. repeat split; auto.
      intros q' I. apply bytes_neqb. apply H2. exact I.
    - intros (b & a & E & H1 & H2). exists b, a. repeat split; [exact E|apply bytes_eqb_eq; exact H1|].
      intros q' I. destruct (bytes_eqb (vqName q') name) eqn:F; [|reflexivity].
      apply bytes_eqb_eq in F. destruct (H2 q' I F). }
  split.
  - intros H. apply app_eq_nil in H as [H1 H2]. rewrite flat_map_nil in H1; rewrite flat_map_nil in H2. split.
    + intros name v I. specialize (H1 (name, v) I). cbn [fst snd] in H1.
      destruct (last_question qs name) as [q|] eqn:L; [|discriminate].
      destruct (ValidateFieldValue matches parse q v) eqn:V; [|discriminate].
      apply Q in L as (b & a & E & N & U). exists b, q, a.
      split; [exact E|]. split; [exact N|]. split; [exact U|]. apply validate_value_spec. exact V.
    + intros q I R. specialize (H2 q I). cbn beta in H2. rewrite R in H2. cbn [andb] in H2.
      destruct (supplied data (vqName q)) eqn:S; [|discriminate]. apply supplied_spec. exact S.
  - intros (H1 & H2). rewrite (proj2 (flat_map_nil _ data)).
    + cbn [app]. apply flat_map_nil. intros q I. destruct (vqRequired q) eqn:R; [|reflexivity].
      rewrite (proj2 (supplied_spec data (vqName q))); [reflexivity|]. apply H2; assumption.
    + intros [name v] I. cbn [fst snd]. destruct (H1 name v I) as (b & q & a & E & N & U & V).
      rewrite (proj2 (Q name q)) by (exists b, a; auto).
      apply validate_value_spec in V. rewrite V. reflexivity.
Qed.

(* ---------------- values ---------------- *)

Definition entry_of (e : list bytes * attrs) : list (bytes * fvalue) :=
  if negb (bytes_eqb (full_name_of e) []) && given (aV (snd e)) then [(full_name_of e, aV (snd e))] else [].
Lemma value_entries_two f : (forall k, In k (f_kids f) -> f_kids k = []) ->
  value_entry [] f ++ flat_map (value_entry (full_name [] f)) (f_kids f) =
  flat_map entry_of (all_below [] f).
Proof.
  intros H. rewrite all_two by exact H. cbn [flat_map]. f_equal.
  - unfold value_entry. rewrite full_name_root. reflexivity.
  - rewrite full_name_root. induction (f_kids f) as [|k ks IH]; [reflexivity|]. cbn [flat_map map].
    rewrite IH by (intros; apply H; right; assumption). f_equal.
    unfold value_entry. rewrite full_name_dotted. reflexivity.
Qed.
Lemma flat_map_flat_map {A B C} (g : B -> list C) (f : A -> list B) l :
  flat_map g (flat_map f l) = flat_map (fun x => flat_map g (f x)) l.
Proof. induction l as [|a l IH]; [reflexivity|]. cbn [flat_map]. rewrite flat_map_app, IH. reflexivity. Qed.
Lemma kget_fold {A} n (l : list (bytes * A)) : forall m,
  kget n (fold_left (fun m e => kset (fst e) (snd e) m) l m) =
  match List.find (fun e => bytes_eqb (fst e) n) (rev l) with
  | Some e => Some (snd e)
  | None => kget n m
  end.
Proof.
  induction l as [|e l IH]; intros m; [reflexivity|]. cbn [fold_left rev]. rewrite IH, find_app.
  destruct (List.find _ (rev l)); [reflexivity|]. cbn [List.find].
  rewrite kget_kset. destruct (bytes_eqb (fst e) n) eqn:E.
  - apply bytes_eqb_eq in E. rewrite E, (proj2 (bytes_eqb_eq n n) eq_refl). reflexivity.
  - destruct (bytes_eqb n (fst e)) eqn:F; [|reflexivity]. apply bytes_eqb_eq in F. subst.
    rewrite (proj2 (bytes_eqb_eq _ _) eq_refl) in E. discriminate.
Qed.
Lemma find_entries n l : n <> [] ->
  option_map snd (List.find (fun e : bytes * fvalue => bytes_eqb (fst e) n) (rev (flat_map entry_of l))) =
  option_map (fun e => aV (snd e)) (List.find (valued n) (rev l)).
Proof.
  intros N. induction l as [|e l IH]; [reflexivity|]. cbn [flat_map rev].
  rewrite rev_app_distr, !find_app. cbn [List.find].
  destruct (List.find _ (rev (flat_map entry_of l))) as [x|]; destruct (List.find (valued n) (rev l)) as [y|];
    cbn [option_map] in *; try discriminate; [exact IH|].
  clear IH. unfold entry_of, valued.
  destruct (bytes_eqb (full_name_of e) n) eqn:E.
  - apply bytes_eqb_eq in E. rewrite E.
    destruct (bytes_eqb n []) eqn:F; [apply bytes_eqb_eq in F; congruence|].
    change (match aV (snd e) with FNil => false | _ => true end) with (given (aV (snd e))).
    destruct (given (aV (snd e))); cbn; rewrite ?E, ?(proj2 (bytes_eqb_eq n n) eq_refl); reflexivity.
  - destruct (negb (bytes_eqb (full_name_of e) []) && given (aV (snd e))); cbn; rewrite ?E; reflexivity.
Qed.
Lemma find_entries_nil l :
  List.find (fun e : bytes * fvalue => bytes_eqb (fst e) []) (rev (flat_map entry_of l)) = None.
Proof.
  destruct (List.find _ _) as [e|] eqn:F; [|reflexivity]. exfalso.
  apply List.find_some in F as [I E]. apply in_rev in I. apply in_flat_map in I as (x & _ & I).
  unfold entry_of in I. destruct (bytes_eqb (full_name_of x) []) eqn:G; [destruct I|].
  destruct (given (aV (snd x))); [|destruct I]. destruct I as [<-|[]]. cbn [fst] in E. congruence.
Qed.
Lemma get_values_spec fs n : two_levels fs -> kget n (GetFieldValues fs) = current_value fs n.
Proof.
  intros T. unfold GetFieldValues, current_value.
  assert (E : flat_map (fun f => value_entry [] f ++ flat_map (value_entry (full_name [] f)) (f_kids f)) fs =
              flat_map entry_of (all_fields fs)).
  { unfold all_fields. rewrite flat_map_flat_map. induction fs as [|f fs IH]; [reflexivity|].
    cbn [flat_map]. rewrite value_entries_two by (intros k; apply T; left; reflexivity).
    rewrite IH; [reflexivity|]. intros g k G. apply T. right. exact G. }
  rewrite E, kget_fold. cbn [kget]. destruct n as [|c n].
  - rewrite find_entries_nil. reflexivity.
  - rewrite <- find_entries by discriminate. destruct (List.find _ _); reflexivity.
Qed.
