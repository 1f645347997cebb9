(** Lemmas about searching through concatenated text: [index] and [find]. *)
From Verif Require Import Util.
Local Open Scope Z_scope.

(** No occurrence of [p] starts inside [a], whatever follows [a]. *)
Definition nostart (p a : bytes) : Prop :=
  forall b j, (j < length a)%nat -> prefixb p (skipn j (a ++ b)) = false.

(** The matcher [m] never fires inside [a], whatever follows. *)
Definition nofire {A} (m : bytes -> option A) (a : bytes) : Prop :=
  forall b j, (j < length a)%nat -> m (skipn j (a ++ b)) = None.

Lemma skipn_app_l {A} j (a b : list A) : (j <= length a)%nat -> skipn j (a ++ b) = skipn j a ++ b.
Proof. intros H. rewrite skipn_app. replace (j - length a)%nat with 0%nat by lia. reflexivity. Qed.

Lemma skipn_app_r {A} j (a b : list A) : (length a <= j)%nat -> skipn j (a ++ b) = skipn (j - length a) b.
Proof. intros H. rewrite skipn_app, skipn_all2 by exact H. reflexivity. Qed.

Lemma nofire_nil {A} (m : bytes -> option A) : nofire m [].
Proof. intros b j Hj. cbn in Hj. lia. Qed.

Lemma nofire_app {A} (m : bytes -> option A) a b : nofire m a -> nofire m b -> nofire m (a ++ b).
Proof.
  intros Ha Hb c j Hj. rewrite <- app_assoc. rewrite app_length in Hj.
  destruct (Nat.lt_ge_cases j (length a)) as [H|H]; [apply Ha; exact H|].
  rewrite skipn_app_r by exact H. apply Hb. lia.
Qed.

Lemma nostart_nil p : nostart p [].
Proof. intros b j Hj. cbn in Hj. lia. Qed.

Lemma nostart_app p a b : nostart p a -> nostart p b -> nostart p (a ++ b).
Proof.
  intros Ha Hb c j Hj. rewrite <- app_assoc. rewrite app_length in Hj.
  destruct (Nat.lt_ge_cases j (length a)) as [H|H]; [apply Ha; exact H|].
  rewrite skipn_app_r by exact H. apply Hb. lia.
Qed.

(** Checking a concrete text: no suffix of it is compatible with [p]. *)
Definition compat (p s : bytes) : bool := prefixb p s || prefixb s p.
Fixpoint nostartb (p a : bytes) : bool :=
  match a with
  | [] => true
  | _ :: a' => negb (compat p a) && nostartb p a'
  end.

Lemma prefixb_compat p s b : prefixb p (s ++ b) = true -> compat p s = true.
Proof.
  unfold compat. revert s. induction p as [|x p IH]; intros [|y s]; cbn [prefixb app]; auto.
  intros H. apply andb_true_iff in H. destruct H as [H1 H2].
  rewrite H1. apply beqb_eq in H1. subst y. rewrite beqb_refl. cbn [andb]. apply IH. exact H2.
Qed.

Lemma nostartb_ok p a : nostartb p a = true -> nostart p a.
Proof.
  induction a as [|x a IH]; intros H; [apply nostart_nil|].
  cbn [nostartb] in H. apply andb_true_iff in H. destruct H as [H1 H2].
  intros b [|j] Hj.
  - cbn [skipn]. destruct (prefixb p ((x :: a) ++ b)) eqn:E; [|reflexivity].
    apply prefixb_compat in E. rewrite E in H1. discriminate.
  - cbn [app skipn]. apply (IH H2 b j). cbn [length] in Hj. lia.
Qed.

Lemma nostart_class (f : byte -> bool) c p a :
  forallb f a = true -> f c = false -> nostart (c :: p) a.
Proof.
  intros Ha Hc b j Hj. rewrite skipn_app_l by lia.
  destruct (skipn j a) as [|y u] eqn:E.
  - apply (f_equal (@length byte)) in E. rewrite skipn_length in E. cbn in E. lia.
  - cbn [app prefixb]. assert (In y a) as Hy by (rewrite <- (firstn_skipn j a), E; apply in_or_app; right; left; reflexivity).
    rewrite forallb_forall in Ha. specialize (Ha y Hy).
    destruct (beqb c y) eqn:Eb; [apply beqb_eq in Eb; congruence|reflexivity].
Qed.

Lemma nostart_dec c p n : is_digit c = false -> nostart (c :: p) (dec n).
Proof. apply nostart_class. apply dec_digits. Qed.

Lemma nostart_decZ c p z : 0 <= z -> is_digit c = false -> nostart (c :: p) (decZ z).
Proof. intros H. rewrite decZ_nonneg by exact H. apply nostart_dec. Qed.

Lemma nostart_dec_pad c p w n : is_digit c = false -> nostart (c :: p) (dec_pad w n).
Proof. apply nostart_class. apply dec_pad_digits. Qed.

(** Text free of [p] followed by a byte that [p] does not contain. *)
Lemma nostart_sep p a c : contains p a = false -> ~ In c p -> p <> [] -> nostart p (a ++ [c]).
Proof.
  intros Hc Hn Hp b j Hj. rewrite app_length in Hj. cbn [length] in Hj.
  rewrite <- app_assoc. cbn [app].
  destruct (Nat.le_gt_cases j (length a)) as [H|H]; [|lia].
  rewrite skipn_app_l by exact H. rewrite prefixb_sep by exact Hn.
  unfold contains in Hc. destruct (index p a) eqn:E; [discriminate|].
  rewrite index_none in E. apply E. exact H.
Qed.

Lemma nostart_nofire {A} (m : bytes -> option A) p a :
  (forall s, prefixb p s = false -> m s = None) -> nostart p a -> nofire m a.
Proof. intros H Hn b j Hj. apply H, Hn, Hj. Qed.

Lemma index_nostart p a b : nostart p a -> index p (a ++ b) = option_map (Nat.add (length a)) (index p b).
Proof.
  intros H. induction a as [|x a IH].
  - cbn [app length]. destruct (index p b); reflexivity.
  - cbn [app]. rewrite index_cons.
    pose proof (H b 0%nat ltac:(cbn; lia)) as H0. cbn [skipn app] in H0. rewrite H0.
    rewrite IH.
    + destruct (index p b); reflexivity.
    + intros c j Hj. apply (H c (S j)). cbn [length]. lia.
Qed.

Lemma index_here p b : index p (p ++ b) = Some 0%nat.
Proof. rewrite index_unfold, prefixb_app. reflexivity. Qed.

Lemma index_at p a b : nostart p a -> index p (a ++ p ++ b) = Some (length a).
Proof. intros H. rewrite index_nostart, index_here by exact H. cbn [option_map]. f_equal. lia. Qed.

Lemma find_nofire {A} (m : bytes -> option A) a b : nofire m a ->
  find m (a ++ b) = match find m b with Some (i, x) => Some ((length a + i)%nat, x) | None => None end.
Proof. intros H. apply find_app. intros j Hj. apply H. exact Hj. Qed.

Lemma find_at {A} (m : bytes -> option A) a b v : nofire m a -> m b = Some v -> find m (a ++ b) = Some (length a, v).
Proof. intros H Hb. rewrite find_nofire, (find_at0 m b v) by assumption. f_equal. f_equal. lia. Qed.

Lemma find_nolit {A} (m : bytes -> option A) p s :
  (forall s, prefixb p s = false -> m s = None) -> contains p s = false -> find m s = None.
Proof.
  intros H Hc. apply find_none_intro. intros j Hj. apply H. unfold contains in Hc.
  destruct (index p s) eqn:E; [discriminate|]. rewrite index_none in E. apply E. exact Hj.
Qed.

(** Counting from the other side: nothing after [a]. *)
Lemma contains_false p s : contains p s = false <-> forall j, (j <= length s)%nat -> prefixb p (skipn j s) = false.
Proof.
  unfold contains. destruct (index p s) as [i|] eqn:E.
  - split; [discriminate|]. intros H. apply index_some in E. rewrite H in E by tauto. destruct E; discriminate.
  - rewrite index_none in E. tauto.
Qed.

Lemma contains_nostart p a b : nostart p a -> contains p (a ++ b) = contains p b.
Proof. intros H. unfold contains. rewrite index_nostart by exact H. destruct (index p b); reflexivity. Qed.

Lemma take_app_l n (a b : bytes) : (N.of_nat (length a) <= n)%N -> take n (a ++ b) = a ++ take (n - N.of_nat (length a)) b.
Proof.
  intros H. unfold take. rewrite firstn_app, firstn_all2 by lia. f_equal. f_equal. lia.
Qed.

Lemma take_all n (a : bytes) : (N.of_nat (length a) <= n)%N -> take n a = a.
Proof. intros H. unfold take. apply firstn_all2. lia. Qed.

Lemma contains_firstn p k s : contains p s = false -> contains p (firstn k s) = false.
Proof.
  rewrite !contains_false. intros H j Hj. 
  destruct (prefixb p (skipn j (firstn k s))) eqn:E; [|reflexivity].
  rewrite firstn_length in Hj. rewrite skipn_firstn_comm in E.
  assert (prefixb p (skipn j s) = true) as E2; [|rewrite H in E2 by lia; discriminate].
  apply prefixb_spec in E. destruct E as [t Ht]. apply prefixb_spec.
  exists (t ++ skipn (k - j) (skipn j s)). rewrite app_assoc, <- Ht. symmetry. apply firstn_skipn.
Qed.

(** White space and numbers *)
Lemma ws1_space s : (match s with [] => True | b :: _ => is_ws b = false end) -> ws1 (" "%byte :: s) = Some s.
Proof.
  intros H. unfold ws1. change (is_ws " ") with true. cbn [drop_while]. f_equal.
  destruct s as [|b s]; [reflexivity|]. cbn [drop_while]. rewrite H. reflexivity.
Qed.
Lemma ws1_nl s : (match s with [] => True | b :: _ => is_ws b = false end) -> ws1 (x0a :: s) = Some s.
Proof.
  intros H. unfold ws1. change (is_ws x0a) with true. cbn [drop_while]. f_equal.
  destruct s as [|b s]; [reflexivity|]. cbn [drop_while]. rewrite H. reflexivity.
Qed.

Lemma digit_not_ws b : is_digit b = true -> is_ws b = false.
Proof. unfold is_digit, is_ws. lia. Qed.
Lemma digit_not_space b : is_digit b = true -> is_space b = false.
Proof. unfold is_digit, is_space, is_ws. lia. Qed.
Lemma digit_not_blank b : is_digit b = true -> beqb b x0d || beqb b x0a || beqb b " " || beqb b x09 = false.
Proof.
  unfold is_digit, beqb. change (b2n x0d) with 13%N. change (b2n x0a) with 10%N. change (b2n " ") with 32%N.
  change (b2n x09) with 9%N. lia.
Qed.

Lemma digits_head (f : byte -> bool) d r :
  d <> [] -> forallb is_digit d = true -> (forall b, is_digit b = true -> f b = false) ->
  match d ++ r with [] => True | b :: _ => f b = false end.
Proof.
  intros Hn Hd Hf. destruct d as [|b d]; [congruence|]. cbn [app]. apply Hf.
  cbn [forallb] in Hd. apply andb_true_iff in Hd. tauto.
Qed.
