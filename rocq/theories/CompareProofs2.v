(** Proofs about the text comparison, continued: accounting. *)
From Verif Require Import CompareModel CompareSpec CompareProofs.
Local Open Scope Z_scope.

Lemma filter_split {A} (f : A -> bool) l : Permutation l (List.filter (fun x => negb (f x)) l ++ List.filter f l).
Proof.
  induction l as [|x l IH]; cbn; [constructor|]. destruct (f x); cbn; [|constructor; exact IH].
  rewrite <- Permutation_middle. constructor. exact IH.
Qed.

Definition at_index {A} (l : list A) (i : nat) : list A := match nth_error l i with Some x => [x] | None => [] end.
Lemma drop_used_split {A} (l : list A) : forall k idx, StronglySorted lt idx -> Forall (fun i => (k <= i < k + length l)%nat) idx ->
  Permutation l (flat_map (fun i => at_index l (i - k)) idx ++ drop_used idx k l).
Proof.
  induction l as [|a l IH]; intros k idx Hs Hf.
  - destruct idx as [|i idx]; [constructor|]. apply Forall_inv in Hf. cbn in Hf. lia.
  - assert (Hshift : forall js, Forall (fun i => (S k <= i)%nat) js ->
      flat_map (fun i => at_index (a :: l) (i - k)) js = flat_map (fun i => at_index l (i - S k)) js).
    { induction 1 as [|j js Hj _ IHj]; [reflexivity|]. cbn [flat_map]. f_equal; [|exact IHj].
      replace (j - k)%nat with (S (j - S k)) by lia. reflexivity. }
    assert (Hno : forall js, Forall (fun i => (S k <= i)%nat) js -> existsb (Nat.eqb k) js = false).
    { induction 1 as [|j js Hj _ IHj]; [reflexivity|]. cbn [existsb]. rewrite IHj. destruct (Nat.eqb_spec k j); [lia|reflexivity]. }
    assert (Hir : forall js n (x : list A), Forall (fun i => (S k <= i)%nat) js -> (S k <= n)%nat -> drop_used (k :: js) n x = drop_used js n x).
    { intros js n x. revert n. induction x as [|y x IHx]; intros n Hj Hn; [reflexivity|]. cbn [drop_used existsb].
      destruct (Nat.eqb_spec n k); [lia|]. cbn [orb]. rewrite IHx by (try assumption; lia). reflexivity. }
    destruct idx as [|i idx].
    + specialize (IH (S k) [] Hs (Forall_nil _)). cbn in IH |- *. constructor. exact IH.
    + inversion Hs as [|? ? Hs' Hlt]; subst. apply Forall_inv in Hf as Hi. apply Forall_inv_tail in Hf. cbn [length] in Hi, Hf.
      destruct (Nat.eq_dec i k) as [->|Hne].
      * assert (Hk : Forall (fun i => (S k <= i)%nat) idx) by (eapply Forall_impl; [|exact Hlt]; cbn; lia).
        cbn [flat_map drop_used existsb]. rewrite Nat.eqb_refl, Nat.sub_diag. cbn [orb at_index nth_error app]. constructor.
        rewrite (Hshift idx Hk), (Hir idx (S k) l Hk) by lia. apply IH; [exact Hs'|].
        rewrite Forall_forall in *. intros j Hj. specialize (Hf j Hj). specialize (Hk j Hj). lia.
      * assert (Hk : Forall (fun i => (S k <= i)%nat) (i :: idx)).
        { constructor; [lia|]. eapply Forall_impl; [|exact Hlt]. cbn. lia. }
        rewrite (Hshift _ Hk). cbn [drop_used]. rewrite (Hno _ Hk). rewrite <- Permutation_middle. constructor.
        apply IH; [exact Hs|]. rewrite Forall_forall in *. intros j Hj. specialize (Hk j Hj).
        destruct Hj as [<-|Hj]; [lia|]. specialize (Hf j Hj). lia.
Qed.
Lemma drop_used_subseq {A} (l : list A) idx : forall k, subseq (drop_used idx k l) l.
Proof. induction l as [|a l IH]; intros k; cbn; [constructor|]. destruct (existsb _ idx); [apply sub_skip|apply sub_keep]; apply IH. Qed.

Lemma pair_at_fst {eq} (l1 l2 : list elem) ms : Forall (related eq l1 l2) ms ->
  map fst (flat_map (pair_at l1 l2) ms) = flat_map (fun i => at_index l1 (i - 0)) (map fst ms) /\
  map snd (flat_map (pair_at l1 l2) ms) = flat_map (fun i => at_index l2 (i - 0)) (map snd ms).
Proof.
  induction 1 as [|[i j] ms (a & b & Ha & Hb & E) _ [IH1 IH2]]; [split; reflexivity|].
  cbn [fst snd flat_map map] in *. rewrite !map_app, IH1, IH2, !Nat.sub_0_r.
  unfold pair_at, at_index. cbn [fst snd]. rewrite Ha, Hb. split; reflexivity.
Qed.
Lemma pair_at_in {eq} (l1 l2 : list elem) ms a b : Forall (related eq l1 l2) ms -> In (a, b) (flat_map (pair_at l1 l2) ms) ->
  In a l1 /\ In b l2 /\ eq a b = true.
Proof.
  intros H Hi. apply in_flat_map in Hi. destruct Hi as ([i j] & Hm & Hp). rewrite Forall_forall in H.
  destruct (H _ Hm) as (x & y & Hx & Hy & E). unfold pair_at in Hp. cbn [fst snd] in *. rewrite Hx, Hy in Hp.
  destruct Hp as [Hp|[]]. injection Hp as <- <-. split; [eapply nth_error_In, Hx|]. split; [eapply nth_error_In, Hy|exact E].
Qed.
Lemma sorted_proj ms : StronglySorted before ms -> StronglySorted lt (map fst ms) /\ StronglySorted lt (map snd ms).
Proof.
  induction 1 as [|p ms _ [IH1 IH2] Hp]; [split; constructor|]. cbn [map]. split; constructor; try assumption;
  rewrite Forall_forall in *; intros i Hi; apply in_map_iff in Hi; destruct Hi as (q & <- & Hq); specialize (Hp q Hq); apply Hp.
Qed.
Lemma lcs_split {eq} (l1 l2 : list elem) ms : common_subsequence eq l1 l2 ms ->
  Permutation l1 (map fst (flat_map (pair_at l1 l2) ms) ++ drop_used (map fst ms) 0 l1) /\
  Permutation l2 (map snd (flat_map (pair_at l1 l2) ms) ++ drop_used (map snd ms) 0 l2).
Proof.
  intros [H1 H2]. destruct (pair_at_fst l1 l2 ms H1) as [-> ->]. destruct (sorted_proj ms H2) as [S1 S2].
  split; apply drop_used_split; try assumption; rewrite Forall_forall in *; intros i Hi; apply in_map_iff in Hi;
  destruct Hi as (p & <- & Hp); destruct (H1 p Hp) as (a & b & Ha & Hb & _); (split; [lia|]; cbn [Nat.add]; apply nth_error_Some; congruence).
Qed.

(* ---------------------------------------------------------------- *)
(** Exactness *)
Lemma SFcompare_lt x y : SFcompare x y = Some Lt -> SFcompare y x = Some Gt.
Proof.
  destruct x as [[|]|[|]| |[|] m e]; destruct y as [[|]|[|]| |[|] m' e']; cbn [SFcompare]; try congruence.
  all: rewrite (Z.compare_antisym e' e); destruct (e' ?= e); cbn; try congruence.
  all: change (Pos.compare_cont Eq m' m) with (m' ?= m)%positive; change (Pos.compare_cont Eq m m') with (m ?= m')%positive;
    rewrite (Pos.compare_antisym m m'); destruct (m ?= m')%positive; cbn; congruence.
Qed.
Lemma exact_elements o a b : exactly_equal o a b = true -> elementsEqual o a b = true.
Proof.
  unfold exactly_equal, elementsEqual, same_font. rewrite !andb_true_iff. intros [[H1 H2] [H3 H4]].
  repeat split; try assumption.
  - unfold same_text. apply bytes_eqb_eq in H1. rewrite H1. apply bytes_eqb_refl.
  - unfold flt, fle, SFltb, SFleb in *. destruct (SFcompare _ f01) as [c|] eqn:E; [|discriminate].
    destruct c; try discriminate. rewrite (SFcompare_lt _ _ E). reflexivity.
Qed.
Lemma exact_text o a b : exactly_equal o a b = true -> same_text o a b = true.
Proof.
  unfold exactly_equal. rewrite !andb_true_iff. intros [[H1 _] _]. unfold same_text. apply bytes_eqb_eq in H1. rewrite H1. apply bytes_eqb_refl.
Qed.
Lemma wordsEqual_refl l : wordsEqual l l = true.
Proof. induction l as [|x l IH]; [reflexivity|]. cbn. rewrite bytes_eqb_refl. exact IH. Qed.
Lemma text_words o a b : same_text o a b = true -> words_same o a b = true.
Proof. unfold same_text, words_same. intros H. apply bytes_eqb_eq in H. rewrite H. apply wordsEqual_refl. Qed.

(* ---------------------------------------------------------------- *)
(** What a diff of unmatched elements guarantees. *)
Definition good_diff (o : options) (t1 t2 : list elem) (d : textdiff) : Prop :=
  (exists kept, accounts t1 t2 kept d /\ Forall (fun ab => unchanged o (fst ab) (snd ab)) kept) /\
  subseq (dRemoved d) t1 /\ subseq (dAdded d) t2 /\
  (forall a b, In (a, b) (dModified d) -> In a t1 /\ In b t2 /\ exactly_equal o a b = false).

Lemma good_empty o t1 t2 : t1 = [] \/ t2 = [] -> good_diff o t1 t2 (mkDiff t2 t1 []).
Proof.
  intros H. split; [|split; [apply subseq_refl|split; [apply subseq_refl|intros a b []]]].
  exists []. split; [|constructor]. split; reflexivity.
Qed.

Lemma elements_unchanged o a b : elementsEqual o a b = true -> unchanged o a b.
Proof. unfold elementsEqual. rewrite !andb_true_iff. intros [[[H1 H2] _] _]. left. auto. Qed.

Lemma perm_shuffle {A} (u u1 u2 rem k m k2 m2 : list A) :
  Permutation u (k ++ u1) -> Permutation u1 (m ++ u2) -> Permutation u2 ((k2 ++ m2) ++ rem) ->
  Permutation u ((k ++ k2) ++ (m ++ m2) ++ rem).
Proof.
  intros -> -> ->. rewrite <- !app_assoc. apply Permutation_app_head. apply Permutation_app_swap_app.
Qed.

Lemma myers_good o t1 t2 d : myersDiff o t1 t2 = Some d -> good_diff o t1 t2 d.
Proof.
  unfold myersDiff. destruct t1 as [|x t1]; [destruct t2; [discriminate|]|destruct t2 as [|y t2]].
  - intros [= <-]. apply good_empty. auto.
  - intros [= <-]. apply good_empty. auto.
  - destruct (phase _ _ _) as [[f1 f2] ms1] eqn:E1. destruct (phase (phase2_pred o) _ _) as [[g1 g2] ms2] eqn:E2. intros [= <-].
    apply phase_spec in E1. rewrite !unmatched_fresh in E1. destruct E1 as (P1 & P2 & S1 & S2 & F1).
    apply phase_spec in E2. destruct E2 as (Q1 & Q2 & S3 & S4 & F2).
    set (u1 := unmatched g1) in *. set (u2 := unmatched g2) in *. set (ms := findLCSMatches (textEqual o) u1 u2).
    destruct (lcs_ok (textEqual o) u1 u2) as [L _]. fold ms in L. destruct (lcs_split u1 u2 ms L) as [R1 R2].
    set (ps := flat_map (pair_at u1 u2) ms) in *.
    pose proof (filter_split (fun ab => negb (elementsEqual o (fst ab) (snd ab))) ps) as FS.
    set (mods2 := List.filter (fun ab => negb (elementsEqual o (fst ab) (snd ab))) ps) in *.
    set (kept2 := List.filter (fun x => negb (negb (elementsEqual o (fst x) (snd x)))) ps) in *.
    split; [|split; [|split]].
    + exists (ms1 ++ kept2). split; [split; cbn [dModified dRemoved dAdded]|].
      * rewrite !map_app. eapply perm_shuffle; [exact P1|exact Q1|]. rewrite R1 at 1. rewrite (Permutation_map fst FS), map_app. reflexivity.
      * rewrite !map_app. eapply perm_shuffle; [exact P2|exact Q2|]. rewrite R2 at 1. rewrite (Permutation_map snd FS), map_app. reflexivity.
      * apply Forall_app. split; apply Forall_forall; intros [a b] Hi; cbn [fst snd]; apply elements_unchanged.
        -- destruct (F1 _ _ Hi) as (_ & _ & l & i & H). exact H.
        -- unfold kept2 in Hi. apply filter_In in Hi. destruct Hi as [_ Hi]. rewrite negb_involutive in Hi. exact Hi.
    + cbn. eapply subseq_trans; [apply drop_used_subseq|]. eapply subseq_trans; eassumption.
    + cbn. eapply subseq_trans; [apply drop_used_subseq|]. eapply subseq_trans; eassumption.
    + cbn [dModified]. intros a b Hi. apply in_app_or in Hi. destruct Hi as [Hi|Hi].
      * destruct (F2 _ _ Hi) as (H1 & H2 & l & i & H). split; [eapply subseq_in; eassumption|]. split; [eapply subseq_in; eassumption|].
        unfold phase2_pred in H. rewrite !andb_true_iff, !negb_true_iff in H. destruct H as [[_ H] _].
        destruct (exactly_equal o a b) eqn:E; [|reflexivity]. apply exact_text in E. congruence.
      * unfold mods2 in Hi. apply filter_In in Hi. destruct Hi as [Hi H]. cbn [fst snd] in H. apply negb_true_iff in H.
        destruct L as [L _]. destruct (pair_at_in u1 u2 ms a b L Hi) as (H1 & H2 & _).
        split; [eapply subseq_in; [eassumption|eapply subseq_in; eassumption]|].
        split; [eapply subseq_in; [eassumption|eapply subseq_in; eassumption]|].
        destruct (exactly_equal o a b) eqn:E; [|reflexivity]. apply exact_elements in E. congruence.
Qed.

Lemma place_good o same t1 t2 :
  (forall a b, same_place (oTolerance o) a b = true -> same a b = true -> unchanged o a b) ->
  (forall a b, exactly_equal o a b = true -> same a b = true) ->
  good_diff o t1 t2 (place_diff o same t1 t2).
Proof.
  intros Hu He. unfold place_diff. destruct (phase _ _ _) as [[f1 f2] ms] eqn:E.
  apply phase_spec in E. rewrite !unmatched_fresh in E. destruct E as (P1 & P2 & S1 & S2 & F).
  pose proof (filter_split (fun ab => negb (same (fst ab) (snd ab))) ms) as FS.
  set (mods := List.filter (fun ab => negb (same (fst ab) (snd ab))) ms) in *.
  set (kept := List.filter (fun x => negb (negb (same (fst x) (snd x)))) ms) in *.
  split; [|split; [exact S1|split; [exact S2|]]].
  - exists kept. split; [split; cbn [dModified dRemoved dAdded]|].
    + rewrite P1 at 1. rewrite (Permutation_map fst FS), map_app, <- app_assoc. reflexivity.
    + rewrite P2 at 1. rewrite (Permutation_map snd FS), map_app, <- app_assoc. reflexivity.
    + apply Forall_forall. intros [a b] Hi. cbn [fst snd]. unfold kept in Hi. apply filter_In in Hi. destruct Hi as [Hi H].
      rewrite negb_involutive in H. cbn [fst snd] in H. apply Hu; [|exact H]. destruct (F _ _ Hi) as (_ & _ & l & i & Hp). exact Hp.
  - cbn [dModified]. intros a b Hi. unfold mods in Hi. apply filter_In in Hi. destruct Hi as [Hi H]. cbn [fst snd] in H. apply negb_true_iff in H.
    destruct (F _ _ Hi) as (H1 & H2 & _). split; [exact H1|]. split; [exact H2|].
    destruct (exactly_equal o a b) eqn:E; [|reflexivity]. apply He in E. congruence.
Qed.
Lemma char_good o t1 t2 : good_diff o t1 t2 (charLevelDiff o t1 t2).
Proof. apply place_good; [intros a b H1 H2; left; auto|apply exact_text]. Qed.
Lemma word_good o t1 t2 : oGranularity o = GWord -> good_diff o t1 t2 (wordLevelDiff o t1 t2).
Proof. intros G. apply place_good; [intros a b H1 H2; left; auto|intros a b H; apply text_words, (exact_text o), H]. Qed.

(** The last filter. *)
Lemma filter_good o t1 t2 d : good_diff o t1 t2 d -> good_diff o t1 t2 (applySensitivityFilter o d).
Proof.
  intros ((kept & (A1 & A2) & Hk) & S1 & S2 & F). unfold applySensitivityFilter. destruct (oSensitivity o) eqn:Es.
  1, 2: split; [exists kept; split; [split; assumption|exact Hk]|auto].
  set (f := fun ab : elem * elem => ratio_gt_tenth (changeRatio (normalize o (eText (fst ab))) (normalize o (eText (snd ab))))).
  pose proof (filter_split f (dModified d)) as FS.
  split; [|split; [exact S1|split; [exact S2|]]].
  - exists (kept ++ List.filter (fun x => negb (f x)) (dModified d)). split; [split; cbn [dModified dRemoved dAdded]|].
    + rewrite A1 at 1. rewrite (Permutation_map fst FS), !map_app, <- !app_assoc. reflexivity.
    + rewrite A2 at 1. rewrite (Permutation_map snd FS), !map_app, <- !app_assoc. reflexivity.
    + apply Forall_app. split; [exact Hk|]. apply Forall_forall. intros [a b] Hi. apply filter_In in Hi. destruct Hi as [_ Hi].
      right. split; [exact Es|]. unfold f, ratio_gt_tenth in Hi. cbn [fst snd] in *. apply negb_true_iff, Z.ltb_ge in Hi. exact Hi.
  - cbn [dModified]. intros a b Hi. apply filter_In in Hi. apply F, Hi.
Qed.

Lemma myers_some o t1 t2 : t1 <> [] \/ t2 <> [] -> exists d, myersDiff o t1 t2 = Some d.
Proof.
  intros H. unfold myersDiff. destruct t1 as [|x t1]; [destruct t2; [destruct H; congruence|eauto]|destruct t2 as [|y t2]; [eauto|]].
  destruct (phase (fun _ a _ b => elementsEqual o a b) _ _) as [[f1 f2] m1]. destruct (phase (phase2_pred o) f1 f2) as [[g1 g2] m2]. eauto.
Qed.
(** The whole comparison. *)
Lemma empty_diff_of d : diff_of (if empty_diff d then None else Some d) = d.
Proof. destruct d as [[|] [|] [|]]; reflexivity. Qed.

Lemma compareText_good o t1 t2 : exists d, compareText o t1 t2 = Ok d /\ good_diff o t1 t2 (diff_of d) /\
  (d = None <-> diff_of d = mkDiff [] [] []) /\
  (forall a b, In a (dRemoved (diff_of d)) -> In b (dAdded (diff_of d)) -> exactly_equal o a b = false).
Proof.
  unfold compareText.
  destruct (phase (exact_pred o) _ _) as [[f1 f2] ms1] eqn:E1.
  pose proof (phase_max (exactly_equal o) _ _ _ _ _ E1) as M1.
  apply phase_spec in E1. rewrite !unmatched_fresh in E1. destruct E1 as (P1 & P2 & S1 & S2 & F1).
  destruct (phase (place_pred o) _ _) as [[g1 g2] m2] eqn:E2.
  apply phase_spec in E2. destruct E2 as (Q1 & Q2 & S3 & S4 & F2).
  destruct (if oDetectMoves o then phase (move_pred o) g1 g2 else (g1, g2, [])) as [[h1 h2] m3] eqn:E3.
  assert (T : Permutation (unmatched g1) (map fst m3 ++ unmatched h1) /\ Permutation (unmatched g2) (map snd m3 ++ unmatched h2) /\
    subseq (unmatched h1) (unmatched g1) /\ subseq (unmatched h2) (unmatched g2) /\
    (forall a b, In (a, b) m3 -> In a (unmatched g1) /\ In b (unmatched g2))).
  { destruct (oDetectMoves o).
    - apply phase_spec in E3. destruct E3 as (R1 & R2 & S5 & S6 & F3). repeat split; try assumption; apply (F3 a b H).
    - injection E3 as <- <- <-. cbn. repeat split; try apply subseq_refl; try reflexivity; destruct H. }
  clear E3. destruct T as (R1 & R2 & S5 & S6 & F3).
  assert (Fin : forall d, good_diff o (unmatched h1) (unmatched h2) d ->
    good_diff o t1 t2 (mkDiff (dAdded d) (dRemoved d) (m2 ++ m3 ++ dModified d))).
  { intros d ((kept & (A1 & A2) & Hk) & T1 & T2 & Fd). split; [|split; [|split]].
    - exists (ms1 ++ kept). split; [split; cbn [dModified dRemoved dAdded]|].
      + rewrite !map_app. rewrite P1, Q1, R1, A1, <- !app_assoc. apply Permutation_app_head.
        rewrite (app_assoc (map fst m2) (map fst m3)), (app_assoc (map fst m2) (map fst m3)). apply Permutation_app_swap_app.
      + rewrite !map_app. rewrite P2, Q2, R2, A2, <- !app_assoc. apply Permutation_app_head.
        rewrite (app_assoc (map snd m2) (map snd m3)), (app_assoc (map snd m2) (map snd m3)). apply Permutation_app_swap_app.
      + apply Forall_app. split; [|exact Hk]. apply Forall_forall. intros [a b] Hi. cbn [fst snd].
        destruct (F1 _ _ Hi) as (_ & _ & l & i & H). apply elements_unchanged, exact_elements. exact H.
    - cbn. eapply subseq_trans; [exact T1|]. eapply subseq_trans; [exact S5|]. eapply subseq_trans; eassumption.
    - cbn. eapply subseq_trans; [exact T2|]. eapply subseq_trans; [exact S6|]. eapply subseq_trans; eassumption.
    - cbn [dModified]. intros a b Hi. rewrite !in_app_iff in Hi. destruct Hi as [Hi|[Hi|Hi]].
      + destruct (F2 _ _ Hi) as (H1 & H2 & l & i & H). split; [eapply subseq_in; eassumption|]. split; [eapply subseq_in; eassumption|].
        apply M1; assumption.
      + destruct (F3 _ _ Hi) as (H1 & H2). apply (subseq_in _ _ _ S3) in H1. apply (subseq_in _ _ _ S4) in H2.
        split; [eapply subseq_in; eassumption|]. split; [eapply subseq_in; eassumption|]. apply M1; assumption.
      + destruct (Fd _ _ Hi) as (H1 & H2 & H3). split; [|split; [|exact H3]].
        * apply (subseq_in _ _ _ S1), (subseq_in _ _ _ S3), (subseq_in _ _ _ S5), H1.
        * apply (subseq_in _ _ _ S2), (subseq_in _ _ _ S4), (subseq_in _ _ _ S6), H2. }
  assert (Fin2 : forall d, good_diff o (unmatched h1) (unmatched h2) d ->
    let d' := applySensitivityFilter o (mkDiff (dAdded d) (dRemoved d) (m2 ++ m3 ++ dModified d)) in
    exists x, Ok (if empty_diff d' then None else Some d') = Ok x /\ good_diff o t1 t2 (diff_of x) /\
      (x = None <-> diff_of x = mkDiff [] [] []) /\
      (forall a b, In a (dRemoved (diff_of x)) -> In b (dAdded (diff_of x)) -> exactly_equal o a b = false)).
  { intros d Hd d'. eexists. split; [reflexivity|]. rewrite empty_diff_of. split; [apply filter_good, Fin, Hd|]. split.
    - destruct d' as [[|] [|] [|]]; cbn; split; congruence.
    - destruct Hd as (_ & T1 & T2 & _). intros a b Ha Hb.
      assert (dRemoved d' = dRemoved d /\ dAdded d' = dAdded d) as [Er Ea].
      { unfold d', applySensitivityFilter. destruct (oSensitivity o); split; reflexivity. }
      rewrite Er in Ha. rewrite Ea in Hb. apply M1.
      + apply (subseq_in _ _ _ S3), (subseq_in _ _ _ S5), (subseq_in _ _ _ T1), Ha.
      + apply (subseq_in _ _ _ S4), (subseq_in _ _ _ S6), (subseq_in _ _ _ T2), Hb. }
  assert (Fin3 : forall d, oGranularity o = GElement -> myersDiff o (unmatched h1) (unmatched h2) = Some d ->
    good_diff o (unmatched h1) (unmatched h2) d) by (intros d _; apply myers_good).
  destruct (unmatched h1) as [|x u1] eqn:U1; destruct (unmatched h2) as [|y u2] eqn:U2.
  { specialize (Fin2 (mkDiff [] [] [])). cbn [dAdded dRemoved dModified] in Fin2. rewrite app_nil_r in Fin2.
    apply Fin2, good_empty. auto. }
  all: destruct (oGranularity o) eqn:G.
  all: try (apply Fin2; apply word_good; assumption); try (apply Fin2; apply char_good).
  all: match goal with |- context [myersDiff ?oo ?a ?b] => destruct (myers_some oo a b ltac:(first [left; discriminate | right; discriminate])) as [td Em]; rewrite Em end.
  all: apply Fin2, myers_good; assumption.
Qed.

(** What a reported modification relates. *)
Lemma filter_modified o d x : In x (dModified (applySensitivityFilter o d)) -> In x (dModified d).
Proof.
  unfold applySensitivityFilter. destruct (oSensitivity o); cbn [dModified]; intros H; try exact H. apply filter_In in H. apply H.
Qed.
Definition related_pair (o : options) (a b : elem) : Prop :=
  same_place (oTolerance o) a b = true \/ (same_text o a b = true /\ same_font a b = true).
Lemma place_related o same t1 t2 a b : In (a, b) (dModified (place_diff o same t1 t2)) -> related_pair o a b.
Proof.
  unfold place_diff. destruct (phase _ _ _) as [[f1 f2] ms] eqn:E. apply phase_spec in E. destruct E as (_ & _ & _ & _ & F).
  cbn [dModified]. intros H. apply filter_In in H. destruct H as [H _]. destruct (F _ _ H) as (_ & _ & l & i & Hp). left. exact Hp.
Qed.
Lemma myers_related o t1 t2 d a b : myersDiff o t1 t2 = Some d -> In (a, b) (dModified d) -> related_pair o a b.
Proof.
  unfold myersDiff. destruct t1 as [|x t1]; [destruct t2; [discriminate|]|destruct t2 as [|y t2]].
  - intros [= <-] [].
  - intros [= <-] [].
  - destruct (phase _ _ _) as [[f1 f2] ms1] eqn:E1. destruct (phase (phase2_pred o) _ _) as [[g1 g2] ms2] eqn:E2. intros [= <-].
    apply phase_spec in E2. destruct E2 as (_ & _ & _ & _ & F2). cbn [dModified]. intros Hi. apply in_app_or in Hi. destruct Hi as [Hi|Hi].
    + destruct (F2 _ _ Hi) as (_ & _ & l & i & H). unfold phase2_pred in H. rewrite !andb_true_iff in H. left. apply H.
    + apply filter_In in Hi. destruct Hi as [Hi _].
      destruct (lcs_ok (textEqual o) (unmatched g1) (unmatched g2)) as [[L _] _].
      destruct (pair_at_in _ _ _ a b L Hi) as (_ & _ & H). unfold textEqual in H. apply andb_prop in H. right. exact H.
Qed.
Lemma compareText_related o t1 t2 d a b : compareText o t1 t2 = Ok d -> In (a, b) (dModified (diff_of d)) -> related_pair o a b.
Proof.
  unfold compareText.
  destruct (phase (exact_pred o) _ _) as [[f1 f2] ms1].
  destruct (phase (place_pred o) _ _) as [[g1 g2] m2] eqn:E2. apply phase_spec in E2. destruct E2 as (_ & _ & _ & _ & F2).
  destruct (if oDetectMoves o then phase (move_pred o) g1 g2 else (g1, g2, [])) as [[h1 h2] m3] eqn:E3.
  assert (R2 : In (a, b) m2 -> related_pair o a b).
  { intros Hi. destruct (F2 _ _ Hi) as (_ & _ & l & i & H). unfold place_pred in H. apply andb_prop in H. left. apply H. }
  assert (R3 : In (a, b) m3 -> related_pair o a b).
  { destruct (oDetectMoves o).
    - apply phase_spec in E3. destruct E3 as (_ & _ & _ & _ & F3). intros Hi. destruct (F3 _ _ Hi) as (_ & _ & l & i & H).
      unfold move_pred in H. rewrite !andb_true_iff in H. right. apply H.
    - injection E3 as <- <- <-. intros []. }
  clear F2 E3.
  assert (Fin : forall td, (In (a, b) (dModified td) -> related_pair o a b) ->
    forall x, Ok (if empty_diff (applySensitivityFilter o td) then None else Some (applySensitivityFilter o td)) = Ok x ->
      In (a, b) (dModified (diff_of x)) -> related_pair o a b).
  { intros td Htd x Hx Hi. assert (x = if empty_diff (applySensitivityFilter o td) then None else Some (applySensitivityFilter o td)) by congruence.
    subst x. rewrite empty_diff_of in Hi. apply Htd, filter_modified with (o := o), Hi. }
  assert (Fin2 : forall td, (In (a, b) (dModified td) -> related_pair o a b) ->
    In (a, b) (dModified (mkDiff (dAdded td) (dRemoved td) (m2 ++ m3 ++ dModified td))) -> related_pair o a b).
  { intros td Htd Hi. cbn [dModified] in Hi. rewrite !in_app_iff in Hi. tauto. }
  destruct (unmatched h1) as [|x u1] eqn:U1; destruct (unmatched h2) as [|y u2] eqn:U2.
  { apply Fin. cbn [dModified]. rewrite in_app_iff. tauto. }
  all: destruct (oGranularity o).
  all: try (apply Fin, Fin2; intros Hi; eapply place_related; exact Hi).
  all: match goal with |- context [myersDiff ?oo ?p ?q] => destruct (myersDiff oo p q) as [td|] eqn:Em; [|discriminate] end.
  all: apply Fin, Fin2; intros Hi; eapply myers_related; eassumption.
Qed.
Lemma compareText_pairs o t1 t2 d a b : compareText o t1 t2 = Ok d -> In (a, b) (dModified (diff_of d)) ->
  same_place (oTolerance o) a b = true \/ (same_text o a b = true /\ eFont a = eFont b).
Proof.
  intros H1 H2. destruct (compareText_related o t1 t2 d a b H1 H2) as [H|[H F]]; [left; exact H|right]. split; [exact H|].
  unfold same_font in F. apply andb_prop in F. apply bytes_eqb_eq, F.
Qed.
