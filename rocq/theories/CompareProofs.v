(** Proofs about the text comparison. *)
From Verif Require Import CompareModel CompareSpec.
Local Open Scope Z_scope.

(* ---------------------------------------------------------------- *)
(** Subsequences *)
Lemma subseq_refl {A} (l : list A) : subseq l l.
Proof. induction l; constructor; assumption. Qed.
Lemma subseq_nil {A} (l : list A) : subseq [] l.
Proof. induction l; constructor; assumption. Qed.
Lemma subseq_trans {A} (a b c : list A) : subseq a b -> subseq b c -> subseq a c.
Proof.
  intros H1 H2. revert a H1. induction H2 as [|x b c H2 IH|x b c H2 IH]; intros a H1; [exact H1|constructor; auto|].
  inversion H1; subst; [apply sub_skip; auto|apply sub_keep; auto].
Qed.
Lemma subseq_in {A} (a b : list A) x : subseq a b -> In x a -> In x b.
Proof. induction 1; cbn; intuition. Qed.
Lemma subseq_filter {A} (f : A -> bool) l : subseq (List.filter f l) l.
Proof. induction l as [|x l IH]; cbn; [constructor|]. destruct (f x); constructor; assumption. Qed.

(* ---------------------------------------------------------------- *)
(** Greedy matching *)
Section greedy.
  Context {A B : Type}.

  Lemma claim_some (p : nat -> B -> bool) l : forall i b l', claim p i l = Some (b, l') ->
    exists pre post, l = pre ++ (b, false) :: post /\ l' = pre ++ (b, true) :: post /\ p (i + length pre)%nat b = true.
  Proof.
    induction l as [|[x m] l IH]; intros i b l' H; cbn [claim] in H; [discriminate|].
    destruct (negb m && p i x) eqn:E.
    - injection H as <- <-. apply andb_true_iff in E. destruct E as [E1 E2]. apply negb_true_iff in E1. subst m.
      exists [], l. rewrite Nat.add_0_r. auto.
    - destruct (claim p (S i) l) as [[y l1]|] eqn:C; [|discriminate]. injection H as <- <-.
      destruct (IH _ _ _ C) as (pre & post & -> & -> & Hp). exists ((x, m) :: pre), post. cbn [app length].
      rewrite Nat.add_succ_r. auto.
  Qed.
  Lemma claim_none (p : nat -> B -> bool) l : forall i, claim p i l = None ->
    forall pre b post, l = pre ++ (b, false) :: post -> p (i + length pre)%nat b = false.
  Proof.
    induction l as [|[x m] l IH]; intros i H pre b post E; [destruct pre; discriminate|]. cbn [claim] in H.
    destruct (negb m && p i x) eqn:Em; [discriminate|]. destruct (claim p (S i) l) as [[y l1]|] eqn:C; [discriminate|].
    destruct pre as [|q pre]; cbn [app] in E.
    - injection E as -> -> E2. cbn in Em. rewrite Nat.add_0_r. exact Em.
    - injection E as E1 E2. subst l q. cbn [length]. rewrite Nat.add_succ_r. apply (IH (S i) C pre b post eq_refl).
  Qed.

  Lemma unmatched_app {X} (a b : list (X * bool)) : unmatched (a ++ b) = unmatched a ++ unmatched b.
  Proof. unfold unmatched. rewrite filter_app, map_app. reflexivity. Qed.

  Lemma phase_spec (p : list (B * bool) -> A -> nat -> B -> bool) l1 : forall l2 l1' l2' ms, phase p l1 l2 = (l1', l2', ms) ->
    Permutation (unmatched l1) (map fst ms ++ unmatched l1') /\ Permutation (unmatched l2) (map snd ms ++ unmatched l2') /\
    subseq (unmatched l1') (unmatched l1) /\ subseq (unmatched l2') (unmatched l2) /\
    (forall a b, In (a, b) ms -> In a (unmatched l1) /\ In b (unmatched l2) /\ exists l i, p l a i b = true).
  Proof.
    induction l1 as [|[a m] r IH]; intros l2 l1' l2' ms H; cbn [phase] in H.
    { injection H as <- <- <-. cbn. split; [constructor|]. split; [reflexivity|]. split; [constructor|]. split; [apply subseq_refl|intros ? ? []]. }
    destruct m.
    - destruct (phase p r l2) as [[r' q] ms'] eqn:E. injection H as <- <- <-. exact (IH _ _ _ _ E).
    - destruct (claim (p l2 a) 0 l2) as [[b q]|] eqn:C.
      + destruct (phase p r q) as [[r' q'] ms'] eqn:E. injection H as <- <- <-.
        destruct (claim_some _ _ _ _ _ C) as (pre & post & -> & -> & Hp).
        destruct (IH _ _ _ _ E) as (P1 & P2 & S1 & S2 & F).
        rewrite unmatched_app in *. unfold unmatched in P1, P2, S1, S2, F |- *. cbn [List.filter snd negb map fst app] in *. fold (unmatched pre) (unmatched post) (unmatched r) (unmatched r') (unmatched q') in *.
        split; [constructor; exact P1|]. split; [rewrite <- Permutation_middle; constructor; exact P2|].
        split; [constructor; exact S1|]. split.
        { eapply subseq_trans; [exact S2|]. clear. induction (unmatched pre) as [|x l IH]; cbn; [constructor; apply subseq_refl|constructor; exact IH]. }
        intros a' b' [H|H].
        * injection H as <- <-. split; [left; reflexivity|]. split; [apply in_or_app; right; left; reflexivity|eauto].
        * destruct (F _ _ H) as (F1 & F2 & F3). split; [right; exact F1|]. split; [|exact F3].
          apply in_app_or in F2. apply in_or_app. destruct F2 as [F2|F2]; [left; exact F2|right; right; exact F2].
      + destruct (phase p r l2) as [[r' q] ms'] eqn:E. injection H as <- <- <-.
        destruct (IH _ _ _ _ E) as (P1 & P2 & S1 & S2 & F).
        unfold unmatched in P1, S1, F |- *. cbn [List.filter snd negb map fst] in *. fold (unmatched r) (unmatched r') (unmatched l2) (unmatched q) in *.
        split; [rewrite <- Permutation_middle; constructor; exact P1|]. split; [exact P2|].
        split; [constructor; exact S1|]. split; [exact S2|].
        intros a' b' H. destruct (F _ _ H) as (F1 & F2 & F3). split; [right; exact F1|auto].
  Qed.

  (** Afterwards no two unmatched elements satisfy the predicate. *)
  Lemma phase_max (p : A -> B -> bool) l1 : forall l2 l1' l2' ms, phase (fun _ a _ b => p a b) l1 l2 = (l1', l2', ms) ->
    forall a b, In a (unmatched l1') -> In b (unmatched l2') -> p a b = false.
  Proof.
    induction l1 as [|[a m] r IH]; intros l2 l1' l2' ms H; cbn [phase] in H.
    { injection H as <- <- <-. intros a b []. }
    destruct m.
    - destruct (phase _ r l2) as [[r' q] ms'] eqn:E. injection H as <- <- <-. exact (IH _ _ _ _ E).
    - destruct (claim _ 0 l2) as [[b q]|] eqn:C.
      + destruct (phase _ r q) as [[r' q'] ms'] eqn:E. injection H as <- <- <-. exact (IH _ _ _ _ E).
      + destruct (phase _ r l2) as [[r' q] ms'] eqn:E. injection H as <- <- <-.
        intros a' b Ha Hb. unfold unmatched in Ha. cbn [List.filter snd negb map fst] in Ha. fold (unmatched r') in Ha.
        destruct Ha as [<-|Ha]; [|apply (IH _ _ _ _ E a' b Ha Hb)].
        destruct (phase_spec _ _ _ _ _ _ E) as (_ & _ & _ & S2 & _). apply (subseq_in _ _ _ S2) in Hb.
        unfold unmatched in Hb. apply in_map_iff in Hb. destruct Hb as ([x fl] & Ex & Hb). cbn in Ex. subst x.
        apply filter_In in Hb. destruct Hb as [Hb1 Hb2]. cbn in Hb2. apply negb_true_iff in Hb2. subst fl.
        apply in_split in Hb1. destruct Hb1 as (pre & post & ->). apply (claim_none _ _ _ C pre b post eq_refl).
  Qed.
End greedy.

Lemma unmatched_fresh {A} (l : list A) : unmatched (fresh_flags l) = l.
Proof. unfold unmatched, fresh_flags. induction l as [|a l IH]; [reflexivity|]. cbn. f_equal. exact IH. Qed.

(** A list against itself, with a reflexive predicate. *)
Lemma claim_past {B} (p : nat -> B -> bool) (d : list B) l : forall i,
  claim p i (map (fun b => (b, true)) d ++ l) =
  match claim p (i + length d) l with Some (x, l') => Some (x, map (fun b => (b, true)) d ++ l') | None => None end.
Proof.
  induction d as [|b d IH]; intros i; cbn [map app claim length].
  - rewrite Nat.add_0_r. destruct (claim p i l) as [[x l']|]; reflexivity.
  - cbn [negb andb]. rewrite IH, Nat.add_succ_r. cbn [Nat.add]. destruct (claim p _ l) as [[x l']|]; reflexivity.
Qed.
Lemma phase_self {A} (p : list (A * bool) -> A -> nat -> A -> bool) r :
  (forall l a i, In a r -> p l a i a = true) -> forall d,
  phase p (fresh_flags r) (map (fun b => (b, true)) d ++ fresh_flags r) =
  (map (fun b => (b, true)) r, map (fun b => (b, true)) (d ++ r), map (fun a => (a, a)) r).
Proof.
  intros Hp. induction r as [|a r IH]; intros d; cbn [fresh_flags map phase].
  - rewrite !app_nil_r. reflexivity.
  - fold (fresh_flags r). rewrite claim_past. cbn [claim negb]. rewrite Hp by (left; reflexivity). cbn [andb].
    replace (map (fun b => (b, true)) d ++ (a, true) :: fresh_flags r) with (map (fun b => (b, true)) (d ++ [a]) ++ fresh_flags r)
      by (rewrite map_app, <- app_assoc; reflexivity).
    rewrite IH by (intros; apply Hp; right; assumption). rewrite <- app_assoc. reflexivity.
Qed.
Lemma phase_self0 {A} (p : list (A * bool) -> A -> nat -> A -> bool) r :
  (forall l a i, In a r -> p l a i a = true) ->
  phase p (fresh_flags r) (fresh_flags r) = (map (fun b => (b, true)) r, map (fun b => (b, true)) r, map (fun a => (a, a)) r).
Proof. intros H. exact (phase_self p r H []). Qed.
Lemma unmatched_all {A} (l : list A) : unmatched (map (fun b => (b, true)) l) = [].
Proof. unfold unmatched. induction l as [|a l IH]; [reflexivity|]. exact IH. Qed.
Lemma phase_all {A B} (p : list (B * bool) -> A -> nat -> B -> bool) l l2 :
  phase p (map (fun b => (b, true)) l) l2 = (map (fun b => (b, true)) l, l2, []).
Proof. induction l as [|a l IH]; [reflexivity|]. cbn [map phase]. rewrite IH. reflexivity. Qed.

(* ---------------------------------------------------------------- *)
(** Longest common subsequence *)
Section lcs.
  Context {A B : Type} (eq : A -> B -> bool).

  (** The recurrence the table satisfies, on prefixes. *)
  Fixpoint best (l1 : list A) (l2 : list B) (i j : nat) {struct i} : nat :=
    match i with
    | O => 0%nat
    | S i' =>
        (fix row (j : nat) : nat :=
           match j with
           | O => 0%nat
           | S j' =>
               match nth_error l1 i', nth_error l2 j' with
               | Some a, Some b =>
                   if eq a b then S (best l1 l2 i' j')
                   else if (row j' <? best l1 l2 i' j)%nat then best l1 l2 i' j else row j'
               | _, _ => 0%nat
               end
           end) j
    end.
  Lemma best_0 l1 l2 i : best l1 l2 i 0 = 0%nat.
  Proof. destruct i; reflexivity. Qed.
  Lemma best_S l1 l2 i j a b : nth_error l1 i = Some a -> nth_error l2 j = Some b ->
    best l1 l2 (S i) (S j) =
    if eq a b then S (best l1 l2 i j)
    else if (best l1 l2 (S i) j <? best l1 l2 i (S j))%nat then best l1 l2 i (S j) else best l1 l2 (S i) j.
  Proof. intros H1 H2. cbn [best]. rewrite H1, H2. reflexivity. Qed.

  (** Rows of the table are the recurrence. *)
  Definition row_of (l1 : list A) (l2 : list B) (i : nat) : list nat := map (best l1 l2 i) (seq 0 (S (length l2))).

  Lemma fill_row l1 l2 i a : nth_error l1 i = Some a -> forall k r, skipn k l2 = r -> (k <= length l2)%nat ->
    fill eq a (best l1 l2 i k) (best l1 l2 (S i) k) (map (best l1 l2 i) (seq (S k) (length l2 - k))) r =
    map (best l1 l2 (S i)) (seq (S k) (length l2 - k)).
  Proof.
    intros Ha k r. revert k. induction r as [|b r IH]; intros k Hk Hl.
    - assert (length l2 - k = 0)%nat as ->. { rewrite <- skipn_length, Hk. reflexivity. } reflexivity.
    - assert (Hlen : (length l2 - k = S (length l2 - S k))%nat). { pose proof (skipn_length k l2) as L. rewrite Hk in L. cbn in L. lia. }
      assert (Hb : nth_error l2 k = Some b).
      { rewrite <- (firstn_skipn k l2), Hk. rewrite nth_error_app2; rewrite firstn_length_le by lia; [|lia].
        rewrite Nat.sub_diag. reflexivity. }
      assert (Hr : skipn (S k) l2 = r).
      { change (S k) with (1 + k)%nat. rewrite <- skipn_skipn, Hk. reflexivity. }
      rewrite Hlen. cbn [seq map fill]. rewrite <- (best_S l1 l2 i k a b Ha Hb). f_equal. apply IH; [exact Hr|lia].
  Qed.
  Lemma next_row_of l1 l2 i a : nth_error l1 i = Some a -> next_row eq a (row_of l1 l2 i) l2 = row_of l1 l2 (S i).
  Proof.
    intros Ha. unfold row_of, next_row. cbn [seq map]. rewrite best_0. f_equal.
    pose proof (fill_row l1 l2 i a Ha 0 l2 eq_refl ltac:(lia)) as F. rewrite Nat.sub_0_r, !best_0 in F. exact F.
  Qed.
  Lemma rows_of l1 l2 : forall r k, skipn k l1 = r -> (k <= length l1)%nat ->
    rows eq (row_of l1 l2 k) r l2 = map (row_of l1 l2) (seq k (S (length l1 - k))).
  Proof.
    induction r as [|a r IH]; intros k Hk Hl.
    - assert (length l1 - k = 0)%nat as ->. { rewrite <- skipn_length, Hk. reflexivity. } reflexivity.
    - assert (Hlen : (length l1 - k = S (length l1 - S k))%nat). { pose proof (skipn_length k l1) as L. rewrite Hk in L. cbn in L. lia. }
      assert (Ha : nth_error l1 k = Some a).
      { rewrite <- (firstn_skipn k l1), Hk. rewrite nth_error_app2; rewrite firstn_length_le by lia; [|lia].
        rewrite Nat.sub_diag. reflexivity. }
      assert (Hr : skipn (S k) l1 = r).
      { change (S k) with (1 + k)%nat. rewrite <- skipn_skipn, Hk. reflexivity. }
      cbn [rows]. rewrite (next_row_of l1 l2 k a Ha), (IH (S k) Hr ltac:(lia)), Hlen. reflexivity.
  Qed.
  Lemma row_0 l1 l2 : row_of l1 l2 0 = repeat 0%nat (S (length l2)).
  Proof.
    unfold row_of. generalize 0%nat at 2. induction (S (length l2)) as [|n IH]; intros k; [reflexivity|]. cbn. f_equal. apply IH.
  Qed.
  Lemma cell_table l1 l2 i j : (i <= length l1)%nat -> (j <= length l2)%nat -> cell (table eq l1 l2) i j = best l1 l2 i j.
  Proof.
    intros Hi Hj. unfold cell, table. rewrite <- (row_0 l1 l2), (rows_of l1 l2 l1 0 eq_refl ltac:(lia)), Nat.sub_0_r.
    assert (nth i (map (row_of l1 l2) (seq 0 (S (length l1)))) [] = row_of l1 l2 i) as ->.
    { rewrite (nth_indep _ [] (row_of l1 l2 0)) by (rewrite map_length, seq_length; lia).
      rewrite map_nth, seq_nth by lia. reflexivity. }
    unfold row_of. rewrite (nth_indep _ 0%nat (best l1 l2 i 0)) by (rewrite map_length, seq_length; lia).
    rewrite map_nth, seq_nth by lia. reflexivity.
  Qed.

  (** No common subsequence of the prefixes is longer. *)
  Definition within (i j : nat) (p : nat * nat) : Prop := (fst p < i)%nat /\ (snd p < j)%nat.
  Lemma best_max l1 l2 : forall i j ms, common_subsequence eq l1 l2 ms -> Forall (within i j) ms ->
    (i <= length l1)%nat -> (j <= length l2)%nat -> (length ms <= best l1 l2 i j)%nat.
  Proof.
    intros i j. remember (i + j)%nat as n eqn:En. revert i j En. induction n as [n IH] using lt_wf_ind. intros i j En ms [Hr Hs] Hw Hi Hj.
    destruct ms as [|p ms] using rev_ind; [cbn; lia|]. clear IHms.
    apply Forall_app in Hw. destruct Hw as [Hw Hp]. apply Forall_inv in Hp. destruct Hp as [Hp1 Hp2].
    destruct i as [|i]; [lia|]. destruct j as [|j]; [lia|].
    destruct (nth_error l1 i) as [a|] eqn:Ea; [|apply nth_error_None in Ea; lia].
    destruct (nth_error l2 j) as [b|] eqn:Eb; [|apply nth_error_None in Eb; lia].
    rewrite (best_S l1 l2 i j a b Ea Eb).
    assert (Hlast : Forall (fun q => before q p) ms).
    { clear - Hs. induction ms as [|q ms IH]; [constructor|]. cbn [app] in Hs. inversion Hs; subst. constructor; [|apply IH; assumption].
      rewrite Forall_forall in H2. apply H2, in_or_app. right. left. reflexivity. }
    apply Forall_app in Hr. destruct Hr as [Hr Hrp]. apply Forall_inv in Hrp. destruct Hrp as (a' & b' & Ha' & Hb' & Hab).
    assert (Hs' : StronglySorted before ms).
    { clear - Hs. induction ms as [|q ms IH]; [constructor|]. cbn [app] in Hs. inversion Hs; subst. constructor; [apply IH; assumption|].
      apply Forall_app in H2. apply H2. }
    destruct (eq a b) eqn:E.
    - rewrite app_length. cbn [length].
      assert (length ms <= best l1 l2 i j)%nat; [|lia].
      apply (IH (i + j)%nat ltac:(lia) i j eq_refl ms); [split; assumption| |lia|lia].
      rewrite Forall_forall in Hlast |- *. intros q Hq. specialize (Hlast q Hq). unfold before, within in *. lia.
    - assert (p <> (i, j)) by (intros ->; cbn in *; congruence).
      assert (Hlt : (fst p < i \/ snd p < j)%nat).
      { destruct p as [x y]; cbn in *. destruct (Nat.eq_dec x i); [|lia]. destruct (Nat.eq_dec y j); [|lia]. congruence. }
      assert (Hall : forall i' j', within i' j' p -> Forall (within i' j') (ms ++ [p])).
      { intros i' j' W. apply Forall_app. split; [|constructor; [exact W|constructor]].
        rewrite Forall_forall in Hlast |- *. intros q Hq. specialize (Hlast q Hq). unfold before, within in *. lia. }
      assert (Hc : common_subsequence eq l1 l2 (ms ++ [p])).
      { split; [|exact Hs]. apply Forall_app. split; [exact Hr|]. constructor; [|constructor]. exists a', b'. auto. }
      destruct Hlt as [Hlt|Hlt].
      + pose proof (IH (i + S j)%nat ltac:(lia) i (S j) eq_refl _ Hc (Hall i (S j) ltac:(unfold within; lia)) ltac:(lia) ltac:(lia)).
        destruct (Nat.ltb_spec (best l1 l2 (S i) j) (best l1 l2 i (S j))); lia.
      + pose proof (IH (S i + j)%nat ltac:(lia) (S i) j eq_refl _ Hc (Hall (S i) j ltac:(unfold within; lia)) ltac:(lia) ltac:(lia)).
        destruct (Nat.ltb_spec (best l1 l2 (S i) j) (best l1 l2 i (S j))); lia.
  Qed.

  (** Backtracking finds a common subsequence of that length. *)
  Lemma backtrack_ok l1 l2 : forall fuel i j, (i + j <= fuel)%nat -> (i <= length l1)%nat -> (j <= length l2)%nat ->
    let ms := backtrack eq fuel (table eq l1 l2) l1 l2 i j in
    length ms = best l1 l2 i j /\ Forall (within i j) ms /\ common_subsequence eq l1 l2 (rev ms).
  Proof.
    induction fuel as [|f IH]; intros i j Hf Hi Hj.
    - assert (i = 0)%nat as -> by lia. cbn. repeat split; constructor.
    - destruct i as [|i]; [cbn; repeat split; constructor|]. destruct j as [|j]; [rewrite best_0; cbn; repeat split; constructor|].
      cbn [backtrack].
      destruct (nth_error l1 i) as [a|] eqn:Ea; [|apply nth_error_None in Ea; lia].
      destruct (nth_error l2 j) as [b|] eqn:Eb; [|apply nth_error_None in Eb; lia].
      rewrite (best_S l1 l2 i j a b Ea Eb). rewrite !cell_table by lia.
      destruct (eq a b) eqn:E; [|destruct (Nat.ltb_spec (best l1 l2 (S i) j) (best l1 l2 i (S j)))].
      + destruct (IH i j ltac:(lia) ltac:(lia) ltac:(lia)) as (H1 & H2 & H3 & H4). cbn [length]. split; [f_equal; exact H1|]. split.
        * constructor; [unfold within; cbn; lia|]. rewrite Forall_forall in H2 |- *. intros q Hq. specialize (H2 q Hq). unfold within in *. lia.
        * cbn [rev]. split.
          { apply Forall_app. split; [exact H3|]. constructor; [|constructor]. exists a, b. auto. }
          assert (Hall : Forall (within i j) (rev (backtrack eq f (table eq l1 l2) l1 l2 i j))) by (apply Forall_rev; exact H2).
          clear - H4 Hall. induction H4 as [|q l H4 IH4 Hq]; cbn [app]; [repeat constructor|].
          apply Forall_inv in Hall as Hw. apply Forall_inv_tail in Hall as Ht. constructor; [apply IH4, Ht|].
          apply Forall_app. split; [exact Hq|]. constructor; [|constructor]. exact Hw.
      + destruct (IH i (S j) ltac:(lia) ltac:(lia) ltac:(lia)) as (H1 & H2 & H3). split; [exact H1|]. split; [|exact H3].
        rewrite Forall_forall in H2 |- *. intros q Hq. specialize (H2 q Hq). unfold within in *. lia.
      + destruct (IH (S i) j ltac:(lia) ltac:(lia) ltac:(lia)) as (H1 & H2 & H3). split; [exact H1|]. split; [|exact H3].
        rewrite Forall_forall in H2 |- *. intros q Hq. specialize (H2 q Hq). unfold within in *. lia.
  Qed.

  Lemma lcs_ok l1 l2 : common_subsequence eq l1 l2 (findLCSMatches eq l1 l2) /\
    forall ms, common_subsequence eq l1 l2 ms -> (length ms <= length (findLCSMatches eq l1 l2))%nat.
  Proof.
    assert (Hnil : forall ms, common_subsequence eq l1 l2 ms -> Forall (within (length l1) (length l2)) ms).
    { intros ms [H _]. rewrite Forall_forall in H |- *. intros p Hp. destruct (H p Hp) as (a & b & Ha & Hb & _).
      split; apply nth_error_Some; congruence. }
    assert (E : (l1 = [] \/ l2 = []) \/ findLCSMatches eq l1 l2 =
      rev (backtrack eq (length l1 + length l2) (table eq l1 l2) l1 l2 (length l1) (length l2))).
    { unfold findLCSMatches. destruct l1; [left; left; reflexivity|]. destruct l2; [left; right; reflexivity|]. right. reflexivity. }
    destruct E as [E|E].
    - assert (findLCSMatches eq l1 l2 = []) as -> by (destruct E as [-> | ->]; [reflexivity|destruct l1; reflexivity]).
      split; [split; constructor|]. intros ms Hm. apply Hnil in Hm. destruct ms as [|p ms]; [cbn; lia|].
      apply Forall_inv in Hm. unfold within in Hm. destruct E as [-> | ->]; cbn in Hm; lia.
    - rewrite E. destruct (backtrack_ok l1 l2 (length l1 + length l2) (length l1) (length l2) ltac:(lia) ltac:(lia) ltac:(lia)) as (H1 & H2 & H3).
      split; [exact H3|]. intros ms Hm. rewrite rev_length, H1. apply best_max; [exact Hm|apply Hnil, Hm|lia|lia].
  Qed.
End lcs.
