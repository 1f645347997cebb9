(** Proofs: greedy matching is symmetric, and so is the comparison. *)
From Verif Require Import CompareModel CompareSpec CompareProofs CompareProofs2 CompareProofs3 CompareProofs4 CmpSymSpec.
Local Open Scope Z_scope.

(* ---------------------------------------------------------------- *)
(** Floats *)
Lemma aux_opp m e l : binary_round_aux 53 1024 true m e l = SFopp (binary_round_aux 53 1024 false m e l).
Proof.
  unfold binary_round_aux. destruct (shr_fexp 53 1024 m e l) as [r e1].
  destruct (shr_fexp 53 1024 _ e1 loc_Exact) as [r2 e2]. destruct (shr_m r2); [reflexivity| |reflexivity].
  destruct (Zle_bool e2 _); reflexivity.
Qed.
Lemma opp_opp x : SFopp (SFopp x) = x.
Proof. destruct x; cbn; rewrite ?negb_involutive; reflexivity. Qed.
Lemma round_opp m e : binary_round 53 1024 true m e = SFopp (binary_round 53 1024 false m e).
Proof. unfold binary_round. destruct (shl_align m e _) as [mz ez]. apply aux_opp. Qed.
Definition is_zero (x : float) : bool := match x with S754_zero _ => true | _ => false end.
Definition opposite (a b : float) : Prop := b = SFopp a \/ (is_zero a = true /\ is_zero b = true).
Lemma normalize_opp m e : opposite (binary_normalize 53 1024 m e false) (binary_normalize 53 1024 (- m) e false).
Proof.
  unfold opposite. destruct m as [|p|p]; cbn [binary_normalize Z.opp]; [right; auto| |]; left.
  - apply round_opp.
  - rewrite round_opp. symmetry. apply opp_opp.
Qed.
Lemma fsub_opp x y : opposite (fsub x y) (fsub y x).
Proof.
  unfold opposite, fsub. destruct x as [sx|sx| |sx mx ex], y as [sy|sy| |sy my ey];
    try (left; reflexivity); try (left; cbn; rewrite ?negb_involutive; reflexivity);
    try (destruct sx, sy; cbn; auto; fail).
  unfold SFsub. rewrite (Z.min_comm ey ex). cbv zeta.
  set (a := cond_Zopp sx _). set (b := cond_Zopp sy _).
  replace (b - a) with (- (a - b)) by lia. exact (normalize_opp (a - b) (Z.min ex ey)).
Qed.
Lemma fabs_opposite a b : opposite a b -> fabs b = fabs a \/ (is_zero (fabs a) = true /\ is_zero (fabs b) = true).
Proof.
  intros [->|[H1 H2]].
  - destruct a as [s|s| |s m e]; try destruct s; cbn; auto.
  - right. destruct a as [s|s| |]; try discriminate. destruct b as [s'|s'| |]; try discriminate. destruct s, s'; auto.
Qed.
Lemma flt_dist x y t : flt (fabs (fsub x y)) t = flt (fabs (fsub y x)) t.
Proof.
  destruct (fabs_opposite _ _ (fsub_opp x y)) as [->|[H1 H2]]; [reflexivity|].
  destruct (fabs (fsub x y)); try discriminate. destruct (fabs (fsub y x)); try discriminate. destruct t; reflexivity.
Qed.
Lemma fle_dist x y t : fle t (fabs (fsub x y)) = fle t (fabs (fsub y x)).
Proof.
  destruct (fabs_opposite _ _ (fsub_opp x y)) as [->|[H1 H2]]; [reflexivity|].
  destruct (fabs (fsub x y)); try discriminate. destruct (fabs (fsub y x)); try discriminate. destruct t; reflexivity.
Qed.
Lemma feq_sym x y : feq x y = feq y x.
Proof.
  unfold feq, SFeqb. destruct x as [s|s| |s m e], y as [s'|s'| |s' m' e']; try reflexivity;
    try (destruct s; reflexivity); try (destruct s'; reflexivity); try (destruct s, s'; reflexivity).
  destruct s, s'; try reflexivity; cbn [SFcompare]; rewrite (Z.compare_antisym e e'); destruct (e ?= e'); cbn [CompOpp]; try reflexivity;
    pose proof (Pos.compare_cont_antisym m m' Eq) as Hm; cbn [CompOpp] in Hm; rewrite <- Hm;
    destruct (Pos.compare_cont Eq m m'); reflexivity.
Qed.

Lemma bytes_eqb_sym a b : bytes_eqb a b = bytes_eqb b a.
Proof. destruct (bytes_eqb a b) eqn:E, (bytes_eqb b a) eqn:F; try reflexivity; apply bytes_eqb_eq in E || apply bytes_eqb_eq in F; subst; rewrite bytes_eqb_refl in *; discriminate. Qed.
Lemma place_sym tol a b : same_place tol a b = same_place tol b a.
Proof. unfold same_place, positionsMatch. rewrite (flt_dist (eX a)), (flt_dist (eY a)). reflexivity. Qed.
Lemma text_sym o a b : same_text o a b = same_text o b a.
Proof. apply bytes_eqb_sym. Qed.
Lemma font_sym a b : same_font a b = same_font b a.
Proof. unfold same_font. rewrite bytes_eqb_sym, flt_dist. reflexivity. Qed.
Lemma elements_sym o a b : elementsEqual o a b = elementsEqual o b a.
Proof. unfold elementsEqual. rewrite text_sym, place_sym, (bytes_eqb_sym (eFont a)), fle_dist. reflexivity. Qed.
Lemma words_sym a : forall b, wordsEqual a b = wordsEqual b a.
Proof. induction a as [|x a IH]; intros [|y b]; try reflexivity. cbn. rewrite bytes_eqb_sym, IH. reflexivity. Qed.
Lemma images_sym a b : imagesEqual a b = imagesEqual b a.
Proof.
  unfold imagesEqual. rewrite (Z.eqb_sym (imWidth a)), (Z.eqb_sym (imHeight a)), (bytes_eqb_sym (imFormat a)), (bytes_eqb_sym (imSpace a)), (bytes_eqb_sym (imData a)).
  f_equal. destruct (imData a), (imData b); reflexivity.
Qed.

(* ---------------------------------------------------------------- *)
(** Greedy matching *)
Section greedy.
  Context {A B : Type}.
  Lemma claim_index (f : B -> bool) l : forall i, claim (fun _ => f) i l = claim (fun _ => f) 0 l.
  Proof.
    induction l as [|[b m] l IH]; intros i; cbn [claim]; [reflexivity|]. destruct (negb m && f b); [reflexivity|].
    rewrite (IH (S i)), (IH 1%nat). reflexivity.
  Qed.
  Lemma claim_skip (f : B -> bool) b m l : negb m && f b = false ->
    claim (fun _ => f) 0 ((b, m) :: l) = match claim (fun _ => f) 0 l with Some (x, l') => Some (x, (b, m) :: l') | None => None end.
  Proof. intros H. cbn [claim]. rewrite H, claim_index. reflexivity. Qed.
End greedy.

Section both.
  Context {A B : Type} (q : A -> B -> bool).
  Notation there := (phase (fun _ a _ b => q a b)).
  Notation back := (phase (fun _ b _ a => q a b)).

  (** An element that cannot be claimed stays at the head. *)
  Lemma back_skip a m l2 : forall r, (m = true \/ forall b, In (b, false) l2 -> q a b = false) ->
    forall x y z, back l2 r = (x, y, z) -> back l2 ((a, m) :: r) = (x, (a, m) :: y, z).
  Proof.
    induction l2 as [|[b n] l2 IH]; intros r Hm x y z H; cbn [phase] in H |- *.
    { injection H as <- <- <-. reflexivity. }
    assert (Hm' : m = true \/ forall b, In (b, false) l2 -> q a b = false)
      by (destruct Hm as [Hm|Hm]; [left; exact Hm|right; intros c Hc; apply Hm; right; exact Hc]).
    destruct n.
    - destruct (back l2 r) as [[x1 y1] z1] eqn:E. injection H as <- <- <-. rewrite (IH r Hm' _ _ _ E). reflexivity.
    - rewrite (claim_skip (fun a' => q a' b)).
      2: { destruct Hm as [->|Hm]; [reflexivity|]. rewrite (Hm b (or_introl eq_refl)). apply andb_false_r. }
      destruct (claim (fun _ a' => q a' b) 0 r) as [[c r']|] eqn:C.
      + destruct (back l2 r') as [[x1 y1] z1] eqn:E. injection H as <- <- <-. rewrite (IH r' Hm' _ _ _ E). reflexivity.
      + destruct (back l2 r) as [[x1 y1] z1] eqn:E. injection H as <- <- <-. rewrite (IH r Hm' _ _ _ E). reflexivity.
  Qed.

  (** The first element for which the head qualifies claims it. *)
  Lemma back_take a b post pre : forall r x y z, (forall c, In (c, false) pre -> q a c = false) -> q a b = true ->
    back (pre ++ (b, true) :: post) r = (x, y, z) ->
    exists z', back (pre ++ (b, false) :: post) ((a, false) :: r) = (x, (a, true) :: y, z') /\ Permutation z' ((b, a) :: z).
  Proof.
    induction pre as [|[c n] pre IH]; intros r x y z Hp Hq H.
    - cbn [app phase] in H |- *. destruct (back post r) as [[x1 y1] z1] eqn:E. injection H as <- <- <-.
      cbn [claim negb]. rewrite Hq. cbn [andb]. rewrite (back_skip a true post r (or_introl eq_refl) _ _ _ E).
      exists ((b, a) :: z1). split; reflexivity.
    - assert (Hp' : forall c, In (c, false) pre -> q a c = false) by (intros d Hd; apply Hp; right; exact Hd).
      cbn [app phase] in H |- *. destruct n.
      + destruct (back (pre ++ (b, true) :: post) r) as [[x1 y1] z1] eqn:E. injection H as <- <- <-.
        destruct (IH r _ _ _ Hp' Hq E) as (z' & -> & P). exists z'. split; [reflexivity|exact P].
      + rewrite (claim_skip (fun a' => q a' c)) by (rewrite (Hp c (or_introl eq_refl)); reflexivity).
        destruct (claim (fun _ a' => q a' c) 0 r) as [[d r']|] eqn:C.
        * destruct (back (pre ++ (b, true) :: post) r') as [[x1 y1] z1] eqn:E. injection H as <- <- <-.
          destruct (IH r' _ _ _ Hp' Hq E) as (z' & -> & P). exists ((c, d) :: z'). split; [reflexivity|].
          rewrite P. apply perm_swap.
        * destruct (back (pre ++ (b, true) :: post) r) as [[x1 y1] z1] eqn:E. injection H as <- <- <-.
          destruct (IH r _ _ _ Hp' Hq E) as (z' & -> & P). exists z'. split; [reflexivity|exact P].
  Qed.

  Lemma back_nil l2 : back l2 [] = (l2, [], []).
  Proof. induction l2 as [|[b [|]] l2 IH]; cbn [phase claim]; [reflexivity| |]; rewrite IH; reflexivity. Qed.

  Lemma greedy_sym l1 : forall l2 r1 r2 ms, there l1 l2 = (r1, r2, ms) ->
    exists ms', back l2 l1 = (r2, r1, ms') /\ Permutation ms' (map turned ms).
  Proof.
    induction l1 as [|[a m] r IH]; intros l2 r1 r2 ms H; cbn [phase] in H.
    { injection H as <- <- <-. exists []. split; [apply back_nil|constructor]. }
    destruct m.
    - destruct (there r l2) as [[x y] z] eqn:E. injection H as <- <- <-. destruct (IH _ _ _ _ E) as (ms' & Hb & P).
      exists ms'. split; [|exact P]. apply back_skip; [left; reflexivity|exact Hb].
    - destruct (claim (fun _ b => q a b) 0 l2) as [[b l2']|] eqn:C.
      + destruct (there r l2') as [[x y] z] eqn:E. injection H as <- <- <-. destruct (IH _ _ _ _ E) as (ms' & Hb & P).
        assert (C' : exists pre post, l2 = pre ++ (b, false) :: post /\ l2' = pre ++ (b, true) :: post /\
                       (forall c, In (c, false) pre -> q a c = false) /\ q a b = true).
        { clear - C. revert b l2' C. induction l2 as [|[c n] l2 IH]; intros b l2' C; [discriminate|]. cbn [claim] in C.
          destruct (negb n && q a c) eqn:Ec.
          - injection C as <- <-. apply andb_true_iff in Ec. destruct Ec as [En Eq]. apply negb_true_iff in En. subst n.
            exists [], l2. repeat split; auto. intros ? [].
          - rewrite claim_index in C. destruct (claim (fun _ b => q a b) 0 l2) as [[d l']|] eqn:C1; [|discriminate].
            injection C as <- <-. destruct (IH _ _ eq_refl) as (pre & post & -> & -> & Hp & Hq).
            exists ((c, n) :: pre), post. repeat split; auto. intros e [Ee|He]; [|apply Hp, He]. injection Ee as -> ->. exact Ec. }
        destruct C' as (pre & post & -> & -> & Hp & Hq).
        destruct (back_take a b post pre r _ _ _ Hp Hq Hb) as (z' & Hz & Pz). exists z'. split; [exact Hz|].
        rewrite Pz. cbn [map turned fst snd]. apply perm_skip. exact P.
      + destruct (there r l2) as [[x y] z] eqn:E. injection H as <- <- <-. destruct (IH _ _ _ _ E) as (ms' & Hb & P).
        exists ms'. split; [|exact P]. apply back_skip; [|exact Hb]. right. intros c Hc. apply in_split in Hc.
        destruct Hc as (pre & post & ->). exact (claim_none _ _ _ C pre c post eq_refl).
  Qed.
End both.

(** The form used below: any predicate that is the given one turned round. *)
Lemma phase_ext {A B} (p p' : A -> B -> bool) l1 : (forall a b, p a b = p' a b) ->
  forall l2, phase (fun _ a _ b => p a b) l1 l2 = phase (fun _ a _ b => p' a b) l1 l2.
Proof.
  intros H.
  assert (HC : forall a l i, claim (fun _ b => p a b) i l = claim (fun _ b => p' a b) i l).
  { intros a l. induction l as [|[b m] l IH]; intros i; cbn [claim]; [reflexivity|]. rewrite H, IH. reflexivity. }
  induction l1 as [|[a [|]] r IH]; intros l2; cbn [phase]; [reflexivity| |].
  - rewrite IH. reflexivity.
  - rewrite HC. destruct (claim (fun _ b => p' a b) 0 l2) as [[b l2']|]; rewrite IH; reflexivity.
Qed.
Lemma greedy_turn {A} (p p' : A -> A -> bool) l1 l2 r1 r2 ms : (forall a b, p' b a = p a b) ->
  phase (fun _ a _ b => p a b) l1 l2 = (r1, r2, ms) ->
  exists ms', phase (fun _ a _ b => p' a b) l2 l1 = (r2, r1, ms') /\ Permutation ms' (map turned ms).
Proof.
  intros Hs H. destruct (greedy_sym p _ _ _ _ _ H) as (ms' & Hb & P). exists ms'. split; [|exact P].
  rewrite <- Hb. apply (phase_ext p' (fun b a => p a b)). intros a b. apply Hs.
Qed.

(* ---------------------------------------------------------------- *)
(** The text of a page *)
Lemma phase_void {A B} (p : list (B * bool) -> A -> nat -> B -> bool) l1 l2 :
  (forall l a i b, In a (unmatched l1) -> In b (unmatched l2) -> p l a i b = false) -> phase p l1 l2 = (l1, l2, []).
Proof.
  induction l1 as [|[a m] r IH]; intros H; cbn [phase]; [reflexivity|].
  assert (Hr : phase p r l2 = (r, l2, [])).
  { apply IH. intros l x i b Hx Hb. apply H; [|exact Hb]. unfold unmatched. cbn [List.filter snd]. destruct (negb m); [right|]; exact Hx. }
  destruct m; [rewrite Hr; reflexivity|].
  destruct (claim (p l2 a) 0 l2) as [[b l']|] eqn:C; [|rewrite Hr; reflexivity].
  destruct (claim_some _ _ _ _ _ C) as (pre & post & E & _ & Hp). exfalso.
  rewrite (H l2 a (0 + length pre)%nat b) in Hp; [discriminate|left; reflexivity|].
  rewrite E. rewrite unmatched_app. apply in_or_app. right. left. reflexivity.
Qed.

Lemma common_turned {A B} (eq : A -> B -> bool) eq' l1 l2 ms : (forall a b, eq' b a = eq a b) ->
  common_subsequence eq l1 l2 ms -> common_subsequence eq' l2 l1 (map turned ms).
Proof.
  intros He [F S]. split.
  - apply Forall_forall. intros [i j] Hi. apply in_map_iff in Hi. destruct Hi as ([i' j'] & [= <- <-] & Hi).
    rewrite Forall_forall in F. destruct (F _ Hi) as (a & b & H1 & H2 & H3). exists b, a. cbn in *. rewrite He. auto.
  - clear F. induction ms as [|[i j] ms IH]; cbn [map]; [constructor|]. inversion S as [|x y S1 F1]; subst. constructor; [apply IH, S1|].
    apply Forall_forall. intros [i' j'] Hi. apply in_map_iff in Hi. destruct Hi as ([i2 j2] & [= <- <-] & Hi).
    rewrite Forall_forall in F1. destruct (F1 _ Hi) as [B1 B2]. split; cbn in *; assumption.
Qed.
Lemma lcs_length_turn {A} (eq : A -> A -> bool) l1 l2 : (forall a b, eq b a = eq a b) ->
  length (findLCSMatches eq l1 l2) = length (findLCSMatches eq l2 l1).
Proof.
  intros He. destruct (lcs_ok eq l1 l2) as [C1 M1]. destruct (lcs_ok eq l2 l1) as [C2 M2].
  pose proof (M2 _ (common_turned eq eq l1 l2 _ He C1)) as L1. pose proof (M1 _ (common_turned eq eq l2 l1 _ He C2)) as L2.
  rewrite map_length in L1, L2. lia.
Qed.

(** Without two elements at the same place with different texts only the
    longest common subsequence is left to report. *)
Definition apart (o : options) (t1 t2 : list elem) : Prop :=
  forall a b, In a t1 -> In b t2 -> place_pred o [] a 0 b = false.
Lemma apart_turn o t1 t2 : apart o t1 t2 -> apart o t2 t1.
Proof. intros H a b Ha Hb. unfold apart, place_pred in *. rewrite place_sym, bytes_eqb_sym. apply (H b a Hb Ha). Qed.
Lemma text_eq_same o a b : bytes_eqb (eText a) (eText b) = true -> same_text o a b = true.
Proof. intros H. apply bytes_eqb_eq in H. unfold same_text. rewrite H. apply bytes_eqb_refl. Qed.

Definition all_same (o : options) (l : list (elem * elem)) : Prop := forall a b, In (a, b) l -> same_text o a b = true.

(** What myersDiff does on such texts. *)
Lemma myers_apart o x t1 y t2 : apart o (x :: t1) (y :: t2) ->
  exists f1 f2 ms, phase (fun _ a _ b => elementsEqual o a b) (fresh_flags (x :: t1)) (fresh_flags (y :: t2)) = (f1, f2, ms) /\
  let u1 := unmatched f1 in let u2 := unmatched f2 in
  let n := length (findLCSMatches (textEqual o) u1 u2) in
  exists d, myersDiff o (x :: t1) (y :: t2) = Some d /\
    (length (dAdded d) + n = length u2 /\ length (dRemoved d) + n = length u1 /\ length (dModified d) = n)%nat /\
    all_same o (dModified d).
Proof.
  intros Ha. unfold myersDiff. set (l1 := x :: t1) in *. set (l2 := y :: t2) in *.
  destruct (phase (fun _ a _ b => elementsEqual o a b) (fresh_flags l1) (fresh_flags l2)) as [[f1 f2] ms] eqn:E1.
  exists f1, f2, ms. split; [reflexivity|]. cbv zeta.
  set (u1 := unmatched f1). set (u2 := unmatched f2). set (n := length (findLCSMatches (textEqual o) u1 u2)).
  pose proof (phase_max (elementsEqual o) _ _ _ _ _ E1) as M1.
  apply phase_spec in E1. rewrite !unmatched_fresh in E1. destruct E1 as (_ & _ & S1 & S2 & _).
  rewrite (phase_void (phase2_pred o) f1 f2).
  2: { intros l a i b H1 H2. apply (subseq_in _ _ _ S1) in H1. apply (subseq_in _ _ _ S2) in H2.
       pose proof (Ha a b H1 H2) as P. unfold place_pred in P. unfold phase2_pred.
       destruct (same_place (oTolerance o) a b); [|reflexivity]. cbn [andb] in P |- *.
       apply negb_false_iff in P. rewrite (text_eq_same o a b P). reflexivity. }
  fold u1 u2. set (lc := findLCSMatches (textEqual o) u1 u2) in *.
  destruct (lcs_ok (textEqual o) u1 u2) as [L _]. fold lc in L. destruct (lcs_split u1 u2 lc L) as [R1 R2].
  destruct L as [L _].
  assert (Hall : forall a b, In (a, b) (flat_map (pair_at u1 u2) lc) -> In a u1 /\ In b u2 /\ textEqual o a b = true)
    by (intros a b Hi; apply (pair_at_in u1 u2 lc a b L Hi)).
  assert (Hf : forall l, (forall a b, In (a, b) l -> In a u1 /\ In b u2 /\ textEqual o a b = true) ->
    List.filter (fun ab => negb (elementsEqual o (fst ab) (snd ab))) l = l).
  { clear - M1. intros l H. induction l as [|[a b] l IH]; [reflexivity|]. cbn [List.filter fst snd].
    destruct (H a b (or_introl eq_refl)) as (H1 & H2 & _). rewrite (M1 a b H1 H2). cbn [negb]. f_equal. apply IH.
    intros a' b' Hi. apply H. right. exact Hi. }
  rewrite (Hf _ Hall). cbn [app].
  eexists. split; [reflexivity|]. cbn [dAdded dRemoved dModified].
  assert (Hn : length (flat_map (pair_at u1 u2) lc) = n).
  { unfold n. clear - L. induction lc as [|[i j] lc IH]; [reflexivity|]. inversion L as [|z w (a & b & H1 & H2 & _) L']; subst.
    cbn [flat_map length]. rewrite app_length, (IH L'). unfold pair_at. cbn [fst snd] in *. rewrite H1, H2. reflexivity. }
  apply Permutation_length in R1, R2. rewrite app_length, map_length in R1, R2.
  split; [lia|]. intros a b Hi. destruct (Hall a b Hi) as (_ & _ & H). unfold textEqual in H. apply andb_true_iff in H. apply H.
Qed.

Lemma textEqual_sym o a b : textEqual o b a = textEqual o a b.
Proof. unfold textEqual. rewrite (text_sym o b a), (font_sym b a). reflexivity. Qed.

Lemma myers_turn o t1 t2 d : apart o t1 t2 -> myersDiff o t1 t2 = Some d ->
  exists d', myersDiff o t2 t1 = Some d' /\ mirrored_counts d d' /\ all_same o (dModified d) /\ all_same o (dModified d').
Proof.
  intros Ha H. destruct t1 as [|x t1], t2 as [|y t2].
  - discriminate.
  - injection H as <-. eexists. split; [reflexivity|]. repeat split; intros ? ? [].
  - injection H as <-. eexists. split; [reflexivity|]. repeat split; intros ? ? [].
  - destruct (myers_apart o x t1 y t2 Ha) as (f1 & f2 & ms & E & d1 & H1 & (A1 & A2 & A3) & S1).
    destruct (myers_apart o y t2 x t1 (apart_turn _ _ _ Ha)) as (g1 & g2 & ms' & E' & d2 & H2 & (B1 & B2 & B3) & S2).
    assert (d1 = d) by congruence. subst d1.
    destruct (greedy_turn (elementsEqual o) (elementsEqual o) _ _ _ _ _ (fun a b => elements_sym o b a) E) as (m & E2 & _).
    rewrite E' in E2. injection E2 as <- <- _.
    rewrite (lcs_length_turn (textEqual o) (unmatched g1) (unmatched g2) (textEqual_sym o)) in B1, B2, B3.
    exists d2. split; [exact H2|]. split; [|auto]. unfold mirrored_counts. repeat split; lia.
Qed.

(** Words and characters *)
Lemma filter_turned (f g : elem * elem -> bool) m m' : (forall p, g (turned p) = f p) ->
  Permutation m' (map turned m) -> Permutation (List.filter g m') (map turned (List.filter f m)).
Proof.
  intros Hg P. assert (E : map turned (List.filter f m) = List.filter g (map turned m)).
  { clear P. induction m as [|p m IH]; [reflexivity|]. cbn [map List.filter]. rewrite Hg. destruct (f p); cbn [map]; rewrite IH; reflexivity. }
  rewrite E. clear E. induction P as [|x a b P IH|x y a|a b c P1 IH1 P2 IH2]; cbn [List.filter].
  - constructor.
  - destruct (g x); [apply perm_skip|]; exact IH.
  - destruct (g x), (g y); try reflexivity. apply perm_swap.
  - etransitivity; eassumption.
Qed.
Lemma place_turn o same t1 t2 : (forall a b, same a b = same b a) -> mirrored (place_diff o same t1 t2) (place_diff o same t2 t1).
Proof.
  intros Hs. unfold place_diff. destruct (phase _ (fresh_flags t1) _) as [[f1 f2] ms] eqn:E.
  destruct (greedy_turn (same_place (oTolerance o)) (same_place (oTolerance o)) _ _ _ _ _ (fun a b => place_sym (oTolerance o) b a) E) as (ms' & -> & P).
  split; [reflexivity|]. split; [reflexivity|]. cbn [dModified]. apply filter_turned; [|exact P].
  intros [a b]. cbn. rewrite Hs. reflexivity.
Qed.
Lemma mirrored_count d d' : mirrored d d' -> mirrored_counts d d'.
Proof. intros (H1 & H2 & P). unfold mirrored_counts. rewrite H1, H2, (Permutation_length P), map_length. auto. Qed.

(** The sensitivity filter and the final test for nothing to report. *)
Definition outcome (o : options) (d : textdiff) : option textdiff :=
  let d := applySensitivityFilter o d in if empty_diff d then None else Some d.
Lemma empty_counts d : empty_diff d = true <-> length (dAdded d) = 0%nat /\ length (dRemoved d) = 0%nat /\ length (dModified d) = 0%nat.
Proof. destruct d as [[|] [|] [|]]; cbn; split; intros H; try discriminate; try (destruct H as (? & ? & ?); discriminate); auto. Qed.
Lemma outcome_counts o d d' : mirrored_counts (applySensitivityFilter o d) (applySensitivityFilter o d') ->
  (oGranularity o <> GElement -> mirrored (applySensitivityFilter o d) (applySensitivityFilter o d')) ->
  mirrored_opt (mirrored_text o) (outcome o d) (outcome o d').
Proof.
  intros Hc Hm. unfold outcome. set (e := applySensitivityFilter o d) in *. set (e' := applySensitivityFilter o d') in *.
  destruct (empty_diff e) eqn:E, (empty_diff e') eqn:E'.
  - constructor.
  - exfalso. apply empty_counts in E. rewrite <- not_true_iff_false, empty_counts in E'. apply E'. destruct Hc as (H1 & H2 & H3). rewrite H1, H2, H3. tauto.
  - exfalso. apply empty_counts in E'. rewrite <- not_true_iff_false, empty_counts in E. apply E. destruct Hc as (H1 & H2 & H3). rewrite H1, H2, H3 in E'. tauto.
  - constructor. split; assumption.
Qed.
Lemma substantial_turn o p : substantial o (turned p) = substantial o p.
Proof. destruct p as [a b]. unfold substantial, turned. cbn [fst snd]. rewrite ratio_sym. reflexivity. Qed.
Lemma substantial_same o l : all_same o l -> List.filter (substantial o) l = [].
Proof.
  intros H. induction l as [|[a b] l IH]; [reflexivity|]. cbn [List.filter].
  assert (E : substantial o (a, b) = false).
  { unfold substantial. cbn [fst snd]. pose proof (H a b (or_introl eq_refl)) as T. apply bytes_eqb_eq in T. rewrite T.
    unfold ratio_gt_tenth. pose proof (proj2 (ratio_zero _ _) (eq_refl (normalize o (eText b)))) as Z0.
    destruct (ratio_bound (normalize o (eText b)) (normalize o (eText b))) as [_ Hp]. apply Z.ltb_ge. rewrite Z0. lia. }
  rewrite E. apply IH. intros a' b' Hi. apply H. right. exact Hi.
Qed.

(** Added and removed as given, after modifications found earlier. *)
Definition with_mods (m : list (elem * elem)) (d : textdiff) : textdiff := mkDiff (dAdded d) (dRemoved d) (m ++ dModified d).
Lemma with_exact o m m' d d' : Permutation m' (map turned m) -> mirrored d d' ->
  mirrored_opt (mirrored_text o) (outcome o (with_mods m d)) (outcome o (with_mods m' d')).
Proof.
  intros P (H1 & H2 & H3).
  assert (M : mirrored (applySensitivityFilter o (with_mods m d)) (applySensitivityFilter o (with_mods m' d'))).
  { unfold applySensitivityFilter. destruct (oSensitivity o); unfold with_mods, mirrored; cbn [dAdded dRemoved dModified];
      (split; [exact H1|]; split; [exact H2|]); try (apply filter_turned; [intros p; apply (substantial_turn o p)|]);
      rewrite map_app; apply Permutation_app; assumption. }
  apply outcome_counts; [apply mirrored_count, M|intros _; exact M].
Qed.
Lemma with_counts o m m' d d' : oGranularity o = GElement -> Permutation m' (map turned m) -> mirrored_counts d d' ->
  all_same o (dModified d) -> all_same o (dModified d') ->
  mirrored_opt (mirrored_text o) (outcome o (with_mods m d)) (outcome o (with_mods m' d')).
Proof.
  intros G P (H1 & H2 & H3) S S'. apply outcome_counts; [|intros H; congruence].
  unfold applySensitivityFilter. destruct (oSensitivity o); unfold with_mods, mirrored_counts; cbn [dAdded dRemoved dModified];
    (split; [exact H1|]; split; [exact H2|]).
  1,2: rewrite !app_length, (Permutation_length P), map_length, H3; reflexivity.
  change (fun ab : elem * elem => ratio_gt_tenth (changeRatio (normalize o (eText (fst ab))) (normalize o (eText (snd ab)))))
    with (substantial o). rewrite !filter_app, (substantial_same o _ S), (substantial_same o _ S'), !app_nil_r.
  rewrite (Permutation_length (filter_turned _ (substantial o) _ _ (substantial_turn o) P)), map_length. reflexivity.
Qed.

Lemma words_same_sym o a b : words_same o a b = words_same o b a.
Proof. apply words_sym. Qed.
Lemma move_sym o a b : move_pred o [] b 0 a = move_pred o [] a 0 b.
Proof. unfold move_pred. rewrite (text_sym o b a), (font_sym b a), (place_sym _ b a). reflexivity. Qed.
Lemma exact_sym o a b : exact_pred o [] b 0 a = exact_pred o [] a 0 b.
Proof. unfold exact_pred. rewrite (bytes_eqb_sym (eText b)), (font_sym b a), (place_sym _ b a). reflexivity. Qed.
Lemma place_pred_sym o a b : place_pred o [] b 0 a = place_pred o [] a 0 b.
Proof. unfold place_pred. rewrite (bytes_eqb_sym (eText b)), (place_sym _ b a). reflexivity. Qed.

(** compareText, its last step named. *)
Definition last_step (o : options) (m : list (elem * elem)) (u1 u2 : list elem) : result (option textdiff) :=
  match u1, u2 with
  | [], [] => Ok (outcome o (with_mods m (mkDiff [] [] [])))
  | _, _ =>
      match oGranularity o with
      | GWord => Ok (outcome o (with_mods m (wordLevelDiff o u1 u2)))
      | GChar => Ok (outcome o (with_mods m (charLevelDiff o u1 u2)))
      | GElement => match myersDiff o u1 u2 with Some td => Ok (outcome o (with_mods m td)) | None => Panic end
      end
  end.
Lemma compareText_steps o t1 t2 : compareText o t1 t2 =
  let '(f1, f2, _) := phase (exact_pred o) (fresh_flags t1) (fresh_flags t2) in
  let '(f1, f2, m2) := phase (place_pred o) f1 f2 in
  let '(f1, f2, m3) := if oDetectMoves o then phase (move_pred o) f1 f2 else (f1, f2, []) in
  last_step o (m2 ++ m3) (unmatched f1) (unmatched f2).
Proof.
  unfold compareText. destruct (phase (exact_pred o) _ _) as [[f1 f2] m1]. destruct (phase (place_pred o) f1 f2) as [[g1 g2] m2].
  destruct (if oDetectMoves o then phase (move_pred o) g1 g2 else (g1, g2, [])) as [[h1 h2] m3].
  unfold last_step, outcome, with_mods. destruct (unmatched h1), (unmatched h2); cbn [dAdded dRemoved dModified];
    rewrite ?app_nil_r; try reflexivity;
    destruct (oGranularity o); try (destruct (myersDiff _ _ _)); cbn [dAdded dRemoved dModified]; rewrite <- ?app_assoc; reflexivity.
Qed.

Lemma mirrored_nil : mirrored (mkDiff [] [] []) (mkDiff [] [] []).
Proof. repeat split; constructor. Qed.
Lemma last_turn o m m' u1 u2 : Permutation m' (map turned m) -> apart o u1 u2 ->
  exists d d', last_step o m u1 u2 = Ok d /\ last_step o m' u2 u1 = Ok d' /\ mirrored_opt (mirrored_text o) d d'.
Proof.
  intros P Ha.
  assert (G : (u1 = [] /\ u2 = []) \/ (u1 <> [] \/ u2 <> [])) by (destruct u1, u2; [left; auto|right; right; discriminate|right; left; discriminate|right; left; discriminate]).
  destruct G as [[-> ->]|G].
  { eexists. eexists. split; [reflexivity|]. split; [reflexivity|]. apply with_exact; [exact P|apply mirrored_nil]. }
  assert (E : forall m u1 u2, u1 <> [] \/ u2 <> [] -> last_step o m u1 u2 =
      match oGranularity o with
      | GWord => Ok (outcome o (with_mods m (wordLevelDiff o u1 u2)))
      | GChar => Ok (outcome o (with_mods m (charLevelDiff o u1 u2)))
      | GElement => match myersDiff o u1 u2 with Some td => Ok (outcome o (with_mods m td)) | None => Panic end
      end) by (clear; intros m [|a u1] [|b u2] [H|H]; try congruence; reflexivity).
  rewrite (E m u1 u2 G), (E m' u2 u1) by (destruct G; auto). clear E. destruct (oGranularity o) eqn:Go.
  - destruct (myers_some o u1 u2 G) as [d Hd]. destruct (myers_turn o u1 u2 d Ha Hd) as (d' & Hd' & Hc & S & S').
    rewrite Hd, Hd'. eexists. eexists. split; [reflexivity|]. split; [reflexivity|]. apply with_counts; assumption.
  - eexists. eexists. split; [reflexivity|]. split; [reflexivity|]. apply with_exact; [exact P|]. apply place_turn, words_same_sym.
  - eexists. eexists. split; [reflexivity|]. split; [reflexivity|]. apply with_exact; [exact P|]. apply place_turn, text_sym.
Qed.

Lemma text_turn o t1 t2 : exists d d', compareText o t1 t2 = Ok d /\ compareText o t2 t1 = Ok d' /\ mirrored_opt (mirrored_text o) d d'.
Proof.
  rewrite !compareText_steps.
  destruct (phase (exact_pred o) (fresh_flags t1) (fresh_flags t2)) as [[f1 f2] m1] eqn:E1.
  destruct (greedy_turn (fun a b => exact_pred o [] a 0 b) (fun a b => exact_pred o [] a 0 b) _ _ _ _ _ (exact_sym o) E1) as (m1' & E1' & _).
  change (phase (exact_pred o) (fresh_flags t2) (fresh_flags t1) = (f2, f1, m1')) in E1'. rewrite E1'.
  destruct (phase (place_pred o) f1 f2) as [[g1 g2] m2] eqn:E2.
  destruct (greedy_turn (fun a b => place_pred o [] a 0 b) (fun a b => place_pred o [] a 0 b) _ _ _ _ _ (place_pred_sym o) E2) as (m2' & E2' & P2).
  change (phase (place_pred o) f2 f1 = (g2, g1, m2')) in E2'. rewrite E2'.
  pose proof (phase_max (fun a b => place_pred o [] a 0 b) _ _ _ _ _ E2) as M2.
  destruct (oDetectMoves o).
  - destruct (phase (move_pred o) g1 g2) as [[h1 h2] m3] eqn:E3.
    destruct (greedy_turn (fun a b => move_pred o [] a 0 b) (fun a b => move_pred o [] a 0 b) _ _ _ _ _ (move_sym o) E3) as (m3' & E3' & P3).
    change (phase (move_pred o) g2 g1 = (h2, h1, m3')) in E3'. rewrite E3'.
    apply last_turn; [rewrite map_app; apply Permutation_app; assumption|].
    apply phase_spec in E3. destruct E3 as (_ & _ & S1 & S2 & _). intros a b H1 H2.
    apply M2; [apply (subseq_in _ _ _ S1), H1|apply (subseq_in _ _ _ S2), H2].
  - apply last_turn; [rewrite !app_nil_r; exact P2|]. exact M2.
Qed.

(* ---------------------------------------------------------------- *)
(** Images, graphics, forms, metadata *)
Lemma refs_sym a b : ref_pred [] b 0 a = ref_pred [] a 0 b.
Proof. unfold ref_pred, positionsMatch. rewrite (bytes_eqb_sym (irID b)), (flt_dist (irX b)), (flt_dist (irY b)). reflexivity. Qed.
Lemma moved_sym m1 m2 a b : moved_pred m2 m1 [] b 0 a = moved_pred m1 m2 [] a 0 b.
Proof. unfold moved_pred. destruct (has_data m2 b), (has_data m1 a); try reflexivity. apply images_sym. Qed.
Lemma changed_sym m1 m2 p : ref_changed m2 m1 (turned p) = ref_changed m1 m2 p.
Proof. destruct p as [a b]. unfold ref_changed, turned. cbn [fst snd]. destruct (kget (irID b) m2), (kget (irID a) m1); try reflexivity. rewrite images_sym. reflexivity. Qed.
Lemma filter_turned_ref (f g : imageref * imageref -> bool) m m' : (forall p, g (turned p) = f p) ->
  Permutation m' (map turned m) -> Permutation (List.filter g m') (map turned (List.filter f m)).
Proof.
  intros Hg P. assert (E : map turned (List.filter f m) = List.filter g (map turned m)).
  { clear P. induction m as [|p m IH]; [reflexivity|]. cbn [map List.filter]. rewrite Hg. destruct (f p); cbn [map]; rewrite IH; reflexivity. }
  rewrite E. clear E. induction P as [|x a b P IH|x y a|a b c P1 IH1 P2 IH2]; cbn [List.filter].
  - constructor.
  - destruct (g x); [apply perm_skip|]; exact IH.
  - destruct (g x), (g y); try reflexivity. apply perm_swap.
  - etransitivity; eassumption.
Qed.

Lemma perm_nil_iff {A B} (l' : list B) (f : A -> B) l : Permutation l' (map f l) -> (l' = [] <-> l = []).
Proof.
  intros P. split; intros ->.
  - apply Permutation_nil in P. destruct l; [reflexivity|discriminate].
  - cbn in P. apply Permutation_sym, Permutation_nil in P. exact P.
Qed.

Definition image_out (a r : list imageref) (md mv : list (imageref * imageref)) : option imagediff :=
  match a, r, md, mv with [], [], [], [] => None | _, _, _, _ => Some (mkIDiff a r md mv) end.
Lemma image_out_turn a r md mv md' mv' : Permutation md' (map turned md) -> Permutation mv' (map turned mv) ->
  mirrored_opt mirrored_images (image_out a r md mv) (image_out r a md' mv').
Proof.
  intros P1 P2. pose proof (perm_nil_iff _ _ _ P1) as N1. pose proof (perm_nil_iff _ _ _ P2) as N2.
  assert (M : mirrored_images (mkIDiff a r md mv) (mkIDiff r a md' mv')) by (repeat split; assumption).
  unfold image_out. destruct a as [|x a], r as [|y r]; try (constructor; exact M).
  destruct md as [|p md].
  - rewrite (proj2 N1 eq_refl) in *. destruct mv as [|p' mv].
    + rewrite (proj2 N2 eq_refl). constructor.
    + destruct mv' as [|q mv']; [discriminate (proj1 N2 eq_refl)|]. constructor; exact M.
  - destruct md' as [|q md']; [discriminate (proj1 N1 eq_refl)|]. constructor; exact M.
Qed.
Lemma compareImages_out m1 m2 l1 l2 : compareImages m1 m2 l1 l2 =
  let '(f1, f2, ms) := phase ref_pred (fresh_flags l1) (fresh_flags l2) in
  let '(f1, f2, moved) := phase (moved_pred m1 m2) f1 f2 in
  image_out (unmatched f2) (unmatched f1) (List.filter (ref_changed m1 m2) ms) moved.
Proof.
  unfold compareImages. destruct (phase ref_pred _ _) as [[f1 f2] ms]. destruct (phase (moved_pred m1 m2) f1 f2) as [[g1 g2] mv].
  unfold image_out. destruct (unmatched g2), (unmatched g1), (List.filter (ref_changed m1 m2) ms), mv; reflexivity.
Qed.
Lemma image_turn m1 m2 l1 l2 : mirrored_opt mirrored_images (compareImages m1 m2 l1 l2) (compareImages m2 m1 l2 l1).
Proof.
  rewrite !compareImages_out.
  destruct (phase ref_pred (fresh_flags l1) (fresh_flags l2)) as [[f1 f2] ms] eqn:E1.
  destruct (greedy_turn (fun a b => ref_pred [] a 0 b) (fun a b => ref_pred [] a 0 b) _ _ _ _ _ refs_sym E1) as (ms' & E1' & P1).
  change (phase ref_pred (fresh_flags l2) (fresh_flags l1) = (f2, f1, ms')) in E1'. rewrite E1'.
  destruct (phase (moved_pred m1 m2) f1 f2) as [[g1 g2] mv] eqn:E2.
  destruct (greedy_turn (fun a b => moved_pred m1 m2 [] a 0 b) (fun a b => moved_pred m2 m1 [] a 0 b) _ _ _ _ _ (moved_sym m1 m2) E2) as (mv' & E2' & P2).
  change (phase (moved_pred m2 m1) f2 f1 = (g2, g1, mv')) in E2'. rewrite E2'.
  apply image_out_turn; [|exact P2]. apply filter_turned_ref; [apply changed_sym|exact P1].
Qed.

Lemma keyed_turn {A} (key : A -> bytes) l1 l2 : NoDup (map key l1) -> NoDup (map key l2) ->
  compareKeyed key l2 l1 = option_map turned (compareKeyed key l1 l2).
Proof.
  intros N1 N2. destruct (keyed_ok key l1 l2 N1 N2) as [E1 I1]. destruct (keyed_ok key l2 l1 N2 N1) as [E2 I2].
  destruct (compareKeyed key l1 l2) as [[a r]|], (compareKeyed key l2 l1) as [[a' r']|]; try reflexivity.
  - cbn in E1, E2 |- *. unfold turned. cbn [fst snd]. rewrite E2. injection E1 as -> ->. reflexivity.
  - exfalso. assert (Some (a, r) = None) by (apply I1; intros k; symmetry; apply (proj1 I2 eq_refl)). discriminate.
  - exfalso. assert (Some (a', r') = None) by (apply I2; intros k; symmetry; apply (proj1 I1 eq_refl)). discriminate.
Qed.

Lemma metadata_turn o m1 m2 : compareMetadata o m2 m1 = compareMetadata o m1 m2.
Proof.
  unfold compareMetadata. destruct (oIgnoreMetadata o); [reflexivity|]. destruct m1 as [a|], m2 as [b|]; try reflexivity.
  rewrite (bytes_eqb_sym (mTitle b)), (bytes_eqb_sym (mAuthor b)), (bytes_eqb_sym (mSubject b)), (bytes_eqb_sym (mKeywords b)),
    (bytes_eqb_sym (mCreator b)), (bytes_eqb_sym (mProducer b)), (bytes_eqb_sym (mCreation b)), (bytes_eqb_sym (mMod b)),
    (bytes_eqb_sym (mVersion b)), (Z.eqb_sym (mPages b)).
  replace (Bool.eqb (mEncrypted b) (mEncrypted a)) with (Bool.eqb (mEncrypted a) (mEncrypted b)) by (destruct (mEncrypted a), (mEncrypted b); reflexivity).
  reflexivity.
Qed.

(** Forms *)
Lemma turned_change_invol c : turned_change (turned_change c) = c.
Proof. destruct c as [[n x] y]. reflexivity. Qed.
Lemma nodup_changes l : NoDup (names l) -> NoDup l.
Proof. apply NoDup_map_inv. Qed.
Lemma nodup_turned l : NoDup l -> NoDup (map turned_change l).
Proof.
  induction 1 as [|c l H _ IH]; cbn [map]; constructor; [|exact IH]. intros Hi. apply in_map_iff in Hi. destruct Hi as (d & E & Hd).
  apply (f_equal turned_change) in E. rewrite !turned_change_invol in E. subst d. exact (H Hd).
Qed.
Lemma changes_turn l l' : NoDup (names l) -> NoDup (names l') ->
  (forall n x y, In (change n x y) l' <-> In (change n y x) l) -> Permutation l' (map turned_change l).
Proof.
  intros N N' H. apply NoDup_Permutation; [apply nodup_changes, N'|apply nodup_turned, nodup_changes, N|].
  intros [[n x] y]. rewrite in_map_iff. split.
  - intros Hi. exists (change n y x). split; [reflexivity|]. apply H, Hi.
  - intros ([[n' x'] y'] & E & Hi). unfold turned_change, change in E. cbn in E. injection E as <- <- <-. apply H. exact Hi.
Qed.
Lemma nodup_split {A} (a b : list A) : NoDup (a ++ b) -> NoDup a /\ NoDup b.
Proof.
  induction a as [|x a IH]; cbn [app]; intros H; [split; [constructor|exact H]|]. inversion H as [|y z H1 H2]; subst.
  destruct (IH H2) as [Ha Hb]. split; [|exact Hb]. constructor; [|exact Ha]. intros Hi. apply H1, in_or_app. left. exact Hi.
Qed.
Lemma nodup_three {A} (a b c : list A) : NoDup (a ++ b ++ c) -> NoDup a /\ NoDup b /\ NoDup c.
Proof.
  intros H. apply nodup_split in H. destruct H as [H1 H]. apply nodup_split in H. tauto.
Qed.
Lemma added_turned f : map turned_change (all_removed f) = all_added f.
Proof. unfold all_removed, all_added. rewrite map_map. apply map_ext. reflexivity. Qed.
Lemma removed_turned f : map turned_change (all_added f) = all_removed f.
Proof. unfold all_removed, all_added. rewrite map_map. apply map_ext. reflexivity. Qed.

Lemma forms_turn f1 f2 : is_map f1 -> is_map f2 -> mirrored_opt mirrored_forms (compareForms f1 f2) (compareForms f2 f1).
Proof.
  intros N1 N2. destruct f1 as [a|], f2 as [b|]; cbn [is_map] in N1, N2.
  - destruct (bytes_eqb (fType a) (fType b)) eqn:Et.
    + apply bytes_eqb_eq in Et. destruct (forms_ok a b Et N1 N2) as (A1 & R1 & M1 & D1 & T1 & X1).
      destruct (forms_ok b a (eq_sym Et) N2 N1) as (A2 & R2 & M2 & D2 & T2 & X2).
      unfold names in D1, D2. apply nodup_three in D1, D2. destruct D1 as (D11 & D12 & D13). destruct D2 as (D21 & D22 & D23).
      assert (P : mirrored_forms (form_out (compareForms (Some a) (Some b))) (form_out (compareForms (Some b) (Some a)))).
      { unfold mirrored_forms. split; [|split; [|split]].
        - apply changes_turn; [exact D12|exact D21|]. intros n x y. rewrite A2, R1. reflexivity.
        - apply changes_turn; [exact D11|exact D22|]. intros n x y. rewrite R2, A1. reflexivity.
        - apply changes_turn; [exact D13|exact D23|]. intros n x y. rewrite M2, M1. intuition congruence.
        - rewrite T1, T2. reflexivity. }
      destruct (compareForms (Some a) (Some b)) as [d|], (compareForms (Some b) (Some a)) as [d'|].
      * constructor. exact P.
      * exfalso. assert (Some d = None) by (apply X1; intros n x; symmetry; apply (proj1 X2 eq_refl)). discriminate.
      * exfalso. assert (Some d' = None) by (apply X2; intros n x; symmetry; apply (proj1 X1 eq_refl)). discriminate.
      * constructor.
    + cbn [compareForms]. rewrite (bytes_eqb_sym (fType b)), Et. cbn [negb]. constructor. unfold mirrored_forms. cbn [fdAdded fdRemoved fdModified fdType].
      rewrite added_turned, removed_turned. repeat split; constructor || reflexivity.
  - cbn [compareForms]. constructor. unfold mirrored_forms. cbn [fdAdded fdRemoved fdModified fdType]. rewrite added_turned. repeat split; constructor || reflexivity.
  - cbn [compareForms]. constructor. unfold mirrored_forms. cbn [fdAdded fdRemoved fdModified fdType]. rewrite removed_turned. repeat split; constructor || reflexivity.
  - constructor.
Qed.

(* ---------------------------------------------------------------- *)
(** Pages and documents *)
Lemma forall2_len {A B} (r : A -> B -> Prop) l l' : Forall2 r l l' -> length l = length l'.
Proof. induction 1; cbn; congruence. Qed.

Lemma page_turn fmt1 all1 all2 iter1 iter2 o n p q : distinct_shapes fmt1 p -> distinct_shapes fmt1 q ->
  exists d d', compareSinglePage fmt1 all1 all2 iter1 iter2 o n p q = Ok d /\
    compareSinglePage fmt1 all2 all1 iter2 iter1 o n q p = Ok d' /\ Forall2 (mirrored_entry o) d d'.
Proof.
  intros [G1 A1] [G2 A2]. unfold compareSinglePage.
  destruct (text_turn o (pText p) (pText q)) as (td & td' & -> & -> & Mt).
  eexists. eexists. split; [reflexivity|]. split; [reflexivity|].
  rewrite (feq_sym (pWidth q)), (feq_sym (pHeight q)), (Z.eqb_sym (pRotation q)).
  rewrite (keyed_turn _ _ _ G1 G2), (keyed_turn _ _ _ A1 A2), (Nat.eqb_sym (length (pImages q))).
  repeat apply Forall2_app.
  - destruct (feq (pWidth p) _ && _); repeat constructor.
  - destruct (pRotation p =? _); repeat constructor.
  - destruct Mt as [|a b Mt]; cbn; [constructor|]. constructor; [constructor; exact Mt|constructor].
  - destruct (compareKeyed _ (pGraphics p) _) as [[a r]|]; repeat constructor.
  - destruct (image_turn (page_images (iter1 n) all1 p) (page_images (iter2 n) all2 q) (pImages p) (pImages q)) as [|a b Mi].
    + destruct (length (pImages p) =? _)%nat; repeat constructor.
    + constructor; [constructor; exact Mi|constructor].
  - destruct (compareKeyed _ (pAnnots p) _) as [[a r]|]; repeat constructor.
Qed.

Lemma extra_turn o d d' l : mirrored_entry o d d' -> forall n, Forall2 (mirrored_page o) (extra_pages d n l) (extra_pages d' n l).
Proof. intros H. induction l as [|p l IH]; intros n; cbn [extra_pages]; constructor; [|apply IH]. split; [reflexivity|]. constructor; [exact H|constructor]. Qed.

Lemma pages_turn fmt1 all1 all2 iter1 iter2 o l1 : forall l2 n, Forall (distinct_shapes fmt1) l1 -> Forall (distinct_shapes fmt1) l2 ->
  exists d d', comparePages fmt1 all1 all2 iter1 iter2 o n l1 l2 = Ok d /\
    comparePages fmt1 all2 all1 iter2 iter1 o n l2 l1 = Ok d' /\ Forall2 (mirrored_page o) d d'.
Proof.
  induction l1 as [|p l1 IH]; intros [|q l2] n F1 F2.
  - exists [], []. repeat split; constructor.
  - eexists. eexists. split; [reflexivity|]. split; [reflexivity|]. apply (extra_turn o). constructor.
  - eexists. eexists. split; [reflexivity|]. split; [reflexivity|]. apply (extra_turn o). constructor.
  - inversion F1; subst. inversion F2; subst. cbn [comparePages].
    destruct (page_turn fmt1 all1 all2 iter1 iter2 o n p q) as (d & d' & E & E' & M); [assumption..|].
    destruct (IH l2 (S n)) as (r & r' & Er & Er' & Mr); [assumption..|]. rewrite E, E', Er, Er'.
    destruct M as [|x y d d' Mx M]; eexists; eexists; (split; [reflexivity|]); (split; [reflexivity|]); [exact Mr|].
    constructor; [|exact Mr]. split; [reflexivity|]. constructor; assumption.
Qed.

Definition form_kept (f : option formdiff) : option formdiff :=
  match f with
  | Some f => match fdAdded f, fdRemoved f, fdModified f, fdType f with [], [], [], None => None | _, _, _, _ => Some f end
  | None => None
  end.
Lemma kept_turn f f' : mirrored_opt mirrored_forms f f' -> mirrored_opt mirrored_forms (form_kept f) (form_kept f').
Proof.
  intros [|a b M]; [constructor|]. destruct a as [aa ar am at_], b as [ba br bm bt]. pose proof M as (H1 & H2 & H3 & H4).
  cbn [fdAdded fdRemoved fdModified fdType] in *. pose proof (perm_nil_iff _ _ _ H1) as N1. pose proof (perm_nil_iff _ _ _ H2) as N2. pose proof (perm_nil_iff _ _ _ H3) as N3.
  cbn [form_kept fdAdded fdRemoved fdModified fdType].
  destruct aa as [|? ?], br as [|? ?]; try (discriminate (proj1 N2 eq_refl)); try (discriminate (proj2 N2 eq_refl));
  destruct ar as [|? ?], ba as [|? ?]; try (discriminate (proj1 N1 eq_refl)); try (discriminate (proj2 N1 eq_refl));
  destruct am as [|? ?], bm as [|? ?]; try (discriminate (proj1 N3 eq_refl)); try (discriminate (proj2 N3 eq_refl));
  destruct at_, bt; try discriminate; constructor; exact M.
Qed.

Lemma docs_turn {B} (deq : list B -> list B -> bool) fmt1 all1 all2 iter1 iter2 o d1 d2 :
  (forall a b, deq a b = deq b a) ->
  Forall (distinct_shapes fmt1) (dPages d1) -> Forall (distinct_shapes fmt1) (dPages d2) -> is_map (dForm d1) -> is_map (dForm d2) ->
  exists c c', compareDocs deq fmt1 all1 all2 iter1 iter2 o d1 d2 = Ok c /\
    compareDocs deq fmt1 all2 all1 iter2 iter1 o d2 d1 = Ok c' /\ mirrored_comparison o c c'.
Proof.
  intros Hd F1 F2 N1 N2. unfold compareDocs.
  destruct (pages_turn fmt1 all1 all2 iter1 iter2 o (dPages d1) (dPages d2) 0 F1 F2) as (pd & pd' & -> & -> & Mp).
  rewrite (metadata_turn o (dMeta d1) (dMeta d2)), (Nat.eqb_sym (length (dPages d2))), (Nat.eqb_sym (length (dMarks d2))), (Hd (dMarks d2)).
  fold (form_kept (compareForms (dForm d1) (dForm d2))) (form_kept (compareForms (dForm d2) (dForm d1))).
  pose proof (kept_turn _ _ (forms_turn _ _ N1 N2)) as Mf.
  set (fd := form_kept (compareForms (dForm d1) (dForm d2))) in *. set (fd' := form_kept (compareForms (dForm d2) (dForm d1))) in *.
  assert (Es : fold_right Z.add 0 (map (fun p : nat * list pdiff => Z.of_nat (length (snd p))) pd') =
               fold_right Z.add 0 (map (fun p : nat * list pdiff => Z.of_nat (length (snd p))) pd)).
  { clear - Mp. induction Mp as [|x y a b [_ H] _ IH]; [reflexivity|]. cbn [map fold_right]. rewrite IH, (forall2_len _ _ _ H). reflexivity. }
  assert (Ef : match fd' with Some _ => true | None => false end = match fd with Some _ => true | None => false end) by (destruct Mf; reflexivity).
  eexists. eexists. split; [reflexivity|]. split; [reflexivity|].
  unfold mirrored_comparison. cbn [cIdentical cTotal cMeta cPageCount cPages cMarks cForm].
  rewrite Es, Ef. repeat split; assumption.
Qed.
