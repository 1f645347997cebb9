(** Proofs about normalisation, forms, keyed comparison and whole documents. *)
From Verif Require Import MetaProofs CompareModel CompareSpec CompareProofs CompareProofs2.
Local Open Scope Z_scope.

(* ---------------------------------------------------------------- *)
(** Change ratio *)
Lemma count_diffs_sym a b : count_diffs a b = count_diffs b a.
Proof.
  revert b. induction a as [|x a IH]; intros [|y b]; try reflexivity. cbn. rewrite IH, (beqb_sym x y). reflexivity.
Qed.
Lemma count_diffs_bound a b : 0 <= count_diffs a b <= Z.min (Z.of_nat (length a)) (Z.of_nat (length b)).
Proof.
  revert b. induction a as [|x a IH]; intros [|y b]; cbn [count_diffs length]; try lia.
  specialize (IH b). destruct (beqb x y); lia.
Qed.
Lemma ratio_sym a b : changeRatio a b = changeRatio b a.
Proof.
  unfold changeRatio. rewrite (andb_comm (Z.of_nat (length a) =? 0)), count_diffs_sym.
  replace (Z.abs (Z.of_nat (length a) - Z.of_nat (length b))) with (Z.abs (Z.of_nat (length b) - Z.of_nat (length a))) by lia.
  rewrite Z.max_comm. reflexivity.
Qed.
Lemma ratio_bound a b : 0 <= fst (changeRatio a b) <= snd (changeRatio a b) /\ 0 < snd (changeRatio a b).
Proof.
  unfold changeRatio. pose proof (count_diffs_bound a b).
  destruct (Z.eqb_spec (Z.of_nat (length a)) 0), (Z.eqb_spec (Z.of_nat (length b)) 0); cbn [andb fst snd]; lia.
Qed.
Lemma count_zero a b : length a = length b -> count_diffs a b = 0 -> a = b.
Proof.
  revert b. induction a as [|x a IH]; intros [|y b] L H; try discriminate; [reflexivity|]. cbn in *.
  pose proof (count_diffs_bound a b). destruct (beqb x y) eqn:E; [|lia].
  f_equal; [apply beqb_eq, E|apply IH; lia].
Qed.
Lemma count_self a : count_diffs a a = 0.
Proof. induction a as [|x a IH]; [reflexivity|]. cbn. rewrite IH, beqb_refl. reflexivity. Qed.
Lemma ratio_zero a b : fst (changeRatio a b) = 0 <-> a = b.
Proof.
  split.
  - unfold changeRatio. pose proof (count_diffs_bound a b).
    destruct (Z.eqb_spec (Z.of_nat (length a)) 0), (Z.eqb_spec (Z.of_nat (length b)) 0); cbn [andb fst]; intros H0.
    1: destruct a, b; cbn in *; try lia; reflexivity.
    all: apply count_zero; lia.
  - intros <-. unfold changeRatio. rewrite count_self, Z.sub_diag. destruct (_ && _); reflexivity.
Qed.

(* ---------------------------------------------------------------- *)
(** Normalisation *)
Lemma decode_valid s : valid_rune (fst (decode_rune s)) = true.
Proof.
  unfold decode_rune. destruct s as [|b0 s]; [reflexivity|].
  destruct (b2n b0 <? 128)%N eqn:E0. { cbn [fst]. unfold valid_rune. apply N.ltb_lt in E0. lia. }
  destruct s as [|b1 s]; [reflexivity|].
  destruct (in_range 194 223 b0 && cont b1) eqn:E1.
  { cbn [fst]. unfold valid_rune, cont, in_range in *. lia. }
  destruct s as [|b2 s]; [reflexivity|]. cbv zeta.
  destruct (in_range 224 239 b0 && _ && cont b2) eqn:E2.
  { cbn [fst]. unfold valid_rune, cont, in_range in *.
    destruct (b2n b0 =? 224)%N eqn:?, (b2n b0 =? 237)%N eqn:?; lia. }
  destruct s as [|b3 s]; [reflexivity|].
  destruct (in_range 240 244 b0 && _ && cont b2 && cont b3) eqn:E3; [|reflexivity].
  cbn [fst]. unfold valid_rune, cont, in_range in *.
  destruct (b2n b0 =? 240)%N eqn:?, (b2n b0 =? 244)%N eqn:?; lia.
Qed.
Lemma runes_valid s : forallb valid_rune (runes s) = true.
Proof.
  unfold runes. generalize 0%nat as k. induction s as [|b s IH]; intros k; [reflexivity|]. cbn [runes_aux].
  destruct k as [|k]; [|apply IH]. pose proof (decode_valid (b :: s)) as V. destruct (decode_rune (b :: s)) as [r k].
  cbn [forallb fst] in *. rewrite V. apply IH.
Qed.
Lemma lower_lower r : lower_rune (lower_rune r) = lower_rune r.
Proof. unfold lower_rune. destruct ((65 <=? r) && (r <=? 90))%N eqn:E; [|rewrite E; reflexivity].
  apply andb_true_iff in E. rewrite !N.leb_le in E. destruct (N.leb_spec 65 (r + 32)), (N.leb_spec (r + 32) 90); cbn [andb]; lia. Qed.
Lemma lower_valid r : valid_rune r = true -> valid_rune (lower_rune r) = true.
Proof. unfold valid_rune, lower_rune. destruct ((65 <=? r) && (r <=? 90))%N eqn:E; lia. Qed.
Lemma lowers_valid l : forallb valid_rune l = true -> forallb valid_rune (map lower_rune l) = true.
Proof. intros H. rewrite forallb_forall in *. intros r Hr. apply in_map_iff in Hr. destruct Hr as (x & <- & Hx). auto using lower_valid. Qed.
Lemma filter_valid f l : forallb valid_rune l = true -> forallb valid_rune (List.filter f l) = true.
Proof. intros H. rewrite forallb_forall in *. intros r Hr. apply filter_In in Hr. apply H, Hr. Qed.
Lemma lower_fixed f l : map lower_rune (List.filter f (map lower_rune l)) = List.filter f (map lower_rune l).
Proof. induction l as [|x l IH]; [reflexivity|]. cbn. destruct (f (lower_rune x)); cbn; rewrite ?lower_lower; congruence. Qed.
Lemma filter_filter {A} (f : A -> bool) l : List.filter f (List.filter f l) = List.filter f l.
Proof. induction l as [|x l IH]; [reflexivity|]. cbn. destruct (f x) eqn:E; cbn; rewrite ?E; congruence. Qed.

Lemma normalize_idem o t : normalize o (normalize o t) = normalize o t.
Proof.
  unfold normalize. pose proof (runes_valid t) as V.
  destruct (oIgnoreCase o), (oIgnoreWhitespace o); [| | |reflexivity].
  - rewrite !runes_utf8 by auto using lowers_valid, filter_valid, runes_valid. rewrite lower_fixed, filter_filter. reflexivity.
  - rewrite !runes_utf8 by auto using lowers_valid, runes_valid. f_equal. rewrite map_map. apply map_ext. apply lower_lower.
  - rewrite !runes_utf8 by auto using filter_valid, runes_valid. rewrite filter_filter. reflexivity.
Qed.

(* ---------------------------------------------------------------- *)
(** Sensitivity *)

Lemma sensitivity_ok o s t1 t2 : exists d, compareText (with_sensitivity Normal o) t1 t2 = Ok d /\
  exists d', compareText (with_sensitivity s o) t1 t2 = Ok d' /\
  dAdded (diff_of d') = dAdded (diff_of d) /\ dRemoved (diff_of d') = dRemoved (diff_of d) /\
  dModified (diff_of d') =
    match s with Relaxed => List.filter (substantial o) (dModified (diff_of d)) | _ => dModified (diff_of d) end.
Proof.
  unfold compareText.
  change (exact_pred (with_sensitivity Normal o)) with (exact_pred o). change (exact_pred (with_sensitivity s o)) with (exact_pred o).
  change (place_pred (with_sensitivity Normal o)) with (place_pred o). change (place_pred (with_sensitivity s o)) with (place_pred o).
  change (move_pred (with_sensitivity Normal o)) with (move_pred o). change (move_pred (with_sensitivity s o)) with (move_pred o).
  change (oDetectMoves (with_sensitivity Normal o)) with (oDetectMoves o). change (oDetectMoves (with_sensitivity s o)) with (oDetectMoves o).
  destruct (phase (exact_pred o) _ _) as [[f1 f2] ms1].
  destruct (phase (place_pred o) _ _) as [[g1 g2] m2].
  destruct (if oDetectMoves o then phase (move_pred o) g1 g2 else (g1, g2, [])) as [[h1 h2] m3].
  change (oGranularity (with_sensitivity Normal o)) with (oGranularity o). change (oGranularity (with_sensitivity s o)) with (oGranularity o).
  change (wordLevelDiff (with_sensitivity Normal o)) with (wordLevelDiff o). change (wordLevelDiff (with_sensitivity s o)) with (wordLevelDiff o).
  change (charLevelDiff (with_sensitivity Normal o)) with (charLevelDiff o). change (charLevelDiff (with_sensitivity s o)) with (charLevelDiff o).
  change (myersDiff (with_sensitivity Normal o)) with (myersDiff o). change (myersDiff (with_sensitivity s o)) with (myersDiff o).
  assert (Fin : forall d : textdiff, exists x : option textdiff,
    (let d0 := applySensitivityFilter (with_sensitivity Normal o) d in Ok (if empty_diff d0 then None else Some d0)) = Ok x /\
    exists x', (let d0 := applySensitivityFilter (with_sensitivity s o) d in Ok (if empty_diff d0 then None else Some d0)) = Ok x' /\
    dAdded (diff_of x') = dAdded (diff_of x) /\ dRemoved (diff_of x') = dRemoved (diff_of x) /\
    dModified (diff_of x') =
      match s with Relaxed => List.filter (substantial o) (dModified (diff_of x)) | _ => dModified (diff_of x) end).
  { intros d. cbv zeta. eexists. split; [reflexivity|]. eexists. split; [reflexivity|]. rewrite !empty_diff_of.
    unfold applySensitivityFilter. cbn [oSensitivity with_sensitivity]. destruct s; repeat split. }
  destruct (unmatched h1) as [|x u1] eqn:U1; destruct (unmatched h2) as [|y u2] eqn:U2; [apply Fin|..].
  all: destruct (oGranularity o); try apply Fin.
  all: match goal with |- context [myersDiff ?oo ?a ?b] => destruct (myers_some oo a b ltac:(first [left; discriminate | right; discriminate])) as [td Em]; rewrite Em end.
  all: apply Fin.
Qed.
Lemma threshold_ignored o x t1 t2 : compareText (with_threshold x o) t1 t2 = compareText o t1 t2.
Proof. reflexivity. Qed.

(* ---------------------------------------------------------------- *)
(** Forms *)
Lemma kget_none {A} k (l : list (bytes * A)) : kget k l = None <-> ~ In k (map fst l).
Proof.
  induction l as [|[k' v] l IH]; cbn [kget map fst In]; [intuition congruence|].
  destruct (bytes_eqb k k') eqn:E.
  - apply bytes_eqb_eq in E. subst. intuition congruence.
  - apply bytes_eqb_neq in E. rewrite IH. intuition congruence.
Qed.
Lemma kget_In {A} k (v : A) l : kget k l = Some v -> In (k, v) l.
Proof.
  induction l as [|[k' v'] l IH]; cbn [kget]; [discriminate|]. destruct (bytes_eqb k k') eqn:E.
  - intros [= ->]. apply bytes_eqb_eq in E. subst. left. reflexivity.
  - intros H. right. auto.
Qed.
Lemma valuesEqual_eq a b : valuesEqual a b = true <-> a = b.
Proof. destruct a, b; cbn; rewrite ?bytes_eqb_eq; intuition congruence. Qed.

(** The names in the output of a loop that keeps some of the entries. *)
Lemma nodup_flat {A B} (l : list (bytes * A)) (g : bytes * A -> list (bytes * B)) :
  (forall kv, g kv = [] \/ exists y, g kv = [(fst kv, y)]) -> NoDup (map fst l) -> NoDup (map fst (flat_map g l)).
Proof.
  intros Hg. induction l as [|[k v] l IH]; intros H; [constructor|]. cbn [map fst] in H. apply NoDup_cons_iff in H. destruct H as [H1 H2].
  cbn [flat_map]. destruct (Hg (k, v)) as [E|[y E]]; rewrite E; cbn [app map fst]; [auto|]. constructor; [|auto].
  intros Hi. apply in_map_iff in Hi. destruct Hi as ([k' y'] & E1 & Hi). cbn [fst] in E1. subst k'. apply in_flat_map in Hi.
  destruct Hi as ([k2 v2] & Hi & Hy). apply H1. apply in_map_iff. exists (k2, v2). split; [|exact Hi].
  destruct (Hg (k2, v2)) as [E2|[y2 E2]]; rewrite E2 in Hy; [destruct Hy|]. destruct Hy as [Hy|[]]. injection Hy as -> _. reflexivity.
Qed.
Lemma nodup_app {A} (a b : list A) : NoDup a -> (forall x, In x a -> In x b -> False) -> NoDup b -> NoDup (a ++ b).
Proof.
  induction a as [|x a IH]; intros Na Hd Nb; [exact Nb|]. apply NoDup_cons_iff in Na. destruct Na as [N1 N2]. cbn. constructor.
  - rewrite in_app_iff. intros [H|H]; [auto|]. apply (Hd x); [left; reflexivity|exact H].
  - apply IH; [exact N2| |exact Nb]. intros y H1. apply Hd. right. exact H1.
Qed.

Lemma forms_ok a b : fType a = fType b -> NoDup (map fst (fValues a)) -> NoDup (map fst (fValues b)) ->
  let d := form_out (compareForms (Some a) (Some b)) in
  (forall n x y, In (change n x y) (fdAdded d) <-> x = None /\ In (n, y) (fValues b) /\ ~ In n (map fst (fValues a))) /\
  (forall n x y, In (change n x y) (fdRemoved d) <-> y = None /\ In (n, x) (fValues a) /\ ~ In n (map fst (fValues b))) /\
  (forall n x y, In (change n x y) (fdModified d) <-> In (n, x) (fValues a) /\ In (n, y) (fValues b) /\ x <> y) /\
  NoDup (names (fdAdded d) ++ names (fdRemoved d) ++ names (fdModified d)) /\ fdType d = None /\
  (compareForms (Some a) (Some b) = None <-> forall n x, In (n, x) (fValues a) <-> In (n, x) (fValues b)).
Proof.
  intros T Na Nb. cbv zeta. unfold compareForms. rewrite T, bytes_eqb_refl. cbn [negb].
  set (added := flat_map _ (fValues b)). set (removed := flat_map _ (fValues a)). set (modified := flat_map _ (fValues a)).
  assert (E : forall P : formdiff -> Prop, P (mkFD added removed modified None) ->
    P (form_out (match added, removed, modified with [], [], [] => None | _, _, _ => Some (mkFD added removed modified None) end))).
  { intros P HP. destruct added, removed, modified; exact HP. }
  assert (HA : forall n x y, In (change n x y) added <-> x = None /\ In (n, y) (fValues b) /\ ~ In n (map fst (fValues a))).
  { intros n x y. unfold added. rewrite in_flat_map. split.
    - intros ([k v] & Hi & Hk). cbn [fst snd] in Hk. destruct (kget k (fValues a)) eqn:G; [destruct Hk|]. destruct Hk as [Hk|[]].
      injection Hk as -> <- ->. apply kget_none in G. auto.
    - intros (-> & Hi & Hn). exists (n, y). split; [exact Hi|]. cbn [fst snd]. apply kget_none in Hn. rewrite Hn. left. reflexivity. }
  assert (HR : forall n x y, In (change n x y) removed <-> y = None /\ In (n, x) (fValues a) /\ ~ In n (map fst (fValues b))).
  { intros n x y. unfold removed. rewrite in_flat_map. split.
    - intros ([k v] & Hi & Hk). cbn [fst snd] in Hk. destruct (kget k (fValues b)) eqn:G; [destruct Hk|]. destruct Hk as [Hk|[]].
      injection Hk as -> -> <-. apply kget_none in G. auto.
    - intros (-> & Hi & Hn). exists (n, x). split; [exact Hi|]. cbn [fst snd]. apply kget_none in Hn. rewrite Hn. left. reflexivity. }
  assert (HM : forall n x y, In (change n x y) modified <-> In (n, x) (fValues a) /\ In (n, y) (fValues b) /\ x <> y).
  { intros n x y. unfold modified. rewrite in_flat_map. split.
    - intros ([k v] & Hi & Hk). cbn [fst snd] in Hk. destruct (kget k (fValues b)) eqn:G; [|destruct Hk].
      destruct (valuesEqual v o) eqn:V; [destruct Hk|]. destruct Hk as [Hk|[]]. injection Hk as -> -> ->.
      apply kget_In in G. split; [exact Hi|]. split; [exact G|]. intros ->. assert (valuesEqual y y = true) by (apply valuesEqual_eq; reflexivity). congruence.
    - intros (H1 & H2 & H3). exists (n, x). split; [exact H1|]. cbn [fst snd]. apply (kget_in _ _ _ Nb) in H2. rewrite H2.
      destruct (valuesEqual x y) eqn:V; [apply valuesEqual_eq in V; congruence|]. left. reflexivity. }
  assert (N1 : NoDup (names added) /\ NoDup (names removed) /\ NoDup (names modified)).
  { unfold names. rewrite <- !(map_map fst fst).
    set (strip := fun c : fchange => (fst (fst c), (snd (fst c), snd c))).
    assert (S : forall l : list fchange, map fst (map fst l) = map fst (map strip l)).
    { intros l. rewrite !map_map. reflexivity. }
    rewrite !S. unfold added, removed, modified.
    assert (FM : forall (l : list (bytes * option bytes)) (g : bytes * option bytes -> list fchange), map strip (flat_map g l) = flat_map (fun x => map strip (g x)) l).
    { intros l g. induction l as [|z l IH]; [reflexivity|]. cbn [flat_map]. rewrite map_app, IH. reflexivity. }
    rewrite !FM. split; [|split]; apply nodup_flat; try assumption; intros [k v]; cbn [fst snd].
    - destruct (kget k (fValues a)); [left; reflexivity|right; eexists; reflexivity].
    - destruct (kget k (fValues b)); [left; reflexivity|right; eexists; reflexivity].
    - destruct (kget k (fValues b)) as [v'|]; [|left; reflexivity]. destruct (valuesEqual v v'); [left; reflexivity|right; eexists; reflexivity]. }
  assert (INN : forall l n, In n (names l) -> exists x y, In (change n x y) l).
  { intros l n Hi. unfold names in Hi. apply in_map_iff in Hi. destruct Hi as ([[m x] y] & <- & Hi). exists x, y. exact Hi. }
  assert (KEY : forall (A : Type) (n : bytes) (x : A) l, In (n, x) l -> In n (map fst l)).
  { intros A n x l Hi. apply in_map_iff. exists (n, x). auto. }
  split; [apply (E (fun d => forall n x y, In (change n x y) (fdAdded d) <-> _)); exact HA|].
  split; [apply (E (fun d => forall n x y, In (change n x y) (fdRemoved d) <-> _)); exact HR|].
  split; [apply (E (fun d => forall n x y, In (change n x y) (fdModified d) <-> _)); exact HM|].
  split; [apply (E (fun d => NoDup (names (fdAdded d) ++ names (fdRemoved d) ++ names (fdModified d)))); cbn [fdAdded fdRemoved fdModified]|].
  { destruct N1 as (M1 & M2 & M3). apply nodup_app; [exact M1| |].
    - intros n H1 H2. apply INN in H1. destruct H1 as (x1 & y1 & H1). apply HA in H1. destruct H1 as (-> & H1 & Hn).
      apply in_app_iff in H2. destruct H2 as [H2|H2]; apply INN in H2; destruct H2 as (x2 & y2 & H2).
      + apply HR in H2. destruct H2 as (_ & H2 & _). apply Hn, (KEY _ _ _ _ H2).
      + apply HM in H2. destruct H2 as (H2 & _). apply Hn, (KEY _ _ _ _ H2).
    - apply nodup_app; [exact M2| |exact M3]. intros n H1 H2. apply INN in H1, H2. destruct H1 as (x1 & y1 & H1), H2 as (x2 & y2 & H2).
      apply HR in H1. apply HM in H2. destruct H1 as (_ & _ & Hn), H2 as (_ & H2 & _). apply Hn, (KEY _ _ _ _ H2). }
  split; [destruct added, removed, modified; reflexivity|]. split.
  - intros Hnone. assert (added = [] /\ removed = [] /\ modified = []) as (Ea & Er & Em).
    { destruct added, removed, modified; try discriminate. auto. }
    rewrite Ea in HA. rewrite Er in HR. rewrite Em in HM. intros n x. split; intros Hi.
    + destruct (kget n (fValues b)) as [y|] eqn:G.
      * apply kget_In in G. destruct (valuesEqual x y) eqn:V; [apply valuesEqual_eq in V; subst; exact G|].
        exfalso. apply (HM n x y). split; [exact Hi|]. split; [exact G|]. intros ->.
        assert (valuesEqual y y = true) by (apply valuesEqual_eq; reflexivity). congruence.
      * exfalso. apply (HR n x None). apply kget_none in G. auto.
    + destruct (kget n (fValues a)) as [y|] eqn:G.
      * apply kget_In in G. destruct (valuesEqual y x) eqn:V; [apply valuesEqual_eq in V; subst; exact G|].
        exfalso. apply (HM n y x). split; [exact G|]. split; [exact Hi|]. intros ->.
        assert (valuesEqual x x = true) by (apply valuesEqual_eq; reflexivity). congruence.
      * exfalso. apply (HA n None x). apply kget_none in G. auto.
  - intros Heq.
    assert (Ea : added = []).
    { destruct added as [|[[n x] y] l] eqn:Ea; [reflexivity|]. exfalso. destruct (proj1 (HA n x y) (or_introl eq_refl)) as (_ & Hi & Hn).
      apply Heq in Hi. apply Hn, (KEY _ _ _ _ Hi). }
    assert (Er : removed = []).
    { destruct removed as [|[[n x] y] l] eqn:Er; [reflexivity|]. exfalso. destruct (proj1 (HR n x y) (or_introl eq_refl)) as (_ & Hi & Hn).
      apply Heq in Hi. apply Hn, (KEY _ _ _ _ Hi). }
    assert (Em : modified = []).
    { destruct modified as [|[[n x] y] l] eqn:Em; [reflexivity|]. exfalso. destruct (proj1 (HM n x y) (or_introl eq_refl)) as (Hi & Hj & Hn).
      apply Heq in Hi. apply (kget_in _ _ _ Nb) in Hi, Hj. congruence. }
    rewrite Ea, Er, Em. reflexivity.
Qed.
