(** Common vocabulary of the model: bytes, results, searching, decimal numbers.

    Conventions.  A Go [[]byte] or [string] is a [bytes = list byte], so every
    value in the model is a real byte string.  A Go function that can return
    [(x, error)] is modelled by [result]; error texts are dropped.  A run-time
    panic (index or slice out of range) is the value [Panic]. *)
From Coq Require Export Strings.String.
From Coq Require Export Init.Byte Strings.Byte.
From Coq Require Export List Arith NArith ZArith Lia Bool.
From Coq Require Export ZifyBool ZifyNat ZifyN.
Export ListNotations.
Global Open Scope list_scope.

Ltac Zify.zify_post_hook ::= Z.div_mod_to_equations.

Global Arguments N.add : simpl never.
Global Arguments N.sub : simpl never.
Global Arguments N.mul : simpl never.
Global Arguments N.div : simpl never.
Global Arguments N.modulo : simpl never.
Global Arguments N.pow : simpl never.
Global Arguments N.eqb : simpl never.
Global Arguments N.ltb : simpl never.
Global Arguments N.leb : simpl never.
Global Arguments N.to_nat : simpl never.
Global Arguments N.of_nat : simpl never.
Global Arguments Z.add : simpl never.
Global Arguments Z.sub : simpl never.
Global Arguments Z.mul : simpl never.
Global Arguments Z.div : simpl never.
Global Arguments Z.modulo : simpl never.
Global Arguments Z.eqb : simpl never.
Global Arguments Z.ltb : simpl never.
Global Arguments Z.leb : simpl never.

Definition bytes := list byte.

(** Go string literals. *)
Definition bs (s : string) : bytes := list_byte_of_string s.

Inductive result (A : Type) : Type :=
| Ok (a : A)
| Err
| Panic.
Arguments Ok {A} a.
Arguments Err {A}.
Arguments Panic {A}.

Definition rbind {A B} (r : result A) (f : A -> result B) : result B :=
  match r with Ok a => f a | Err => Err | Panic => Panic end.

Definition rmap {A B} (f : A -> B) (r : result A) : result B :=
  match r with Ok a => Ok (f a) | Err => Err | Panic => Panic end.

Definition is_ok {A} (r : result A) : bool :=
  match r with Ok _ => true | _ => false end.

(** Numeric value of a byte, and Go's [byte(n)] conversion (low 8 bits). *)
Definition b2n (b : byte) : N := Byte.to_N b.
Definition n2b (n : N) : byte :=
  match Byte.of_N (n mod 256) with Some b => b | None => x00 end.

Definition beqb (a b : byte) : bool := N.eqb (b2n a) (b2n b).

(** [bytes.HasPrefix] / [strings.HasPrefix] (argument order: needle, haystack). *)
Fixpoint prefixb (p s : bytes) : bool :=
  match p, s with
  | [], _ => true
  | _ :: _, [] => false
  | a :: p', b :: s' => beqb a b && prefixb p' s'
  end.

(** [bytes.Equal] *)
Fixpoint bytes_eqb (a b : bytes) : bool :=
  match a, b with
  | [], [] => true
  | x :: a', y :: b' => beqb x y && bytes_eqb a' b'
  | _, _ => false
  end.

(** [bytes.Index]: leftmost position; [None] stands for Go's -1. *)
Fixpoint index (p s : bytes) : option nat :=
  if prefixb p s then Some 0
  else match s with
       | [] => None
       | _ :: s' => option_map S (index p s')
       end.

(** [bytes.LastIndex]: rightmost position. *)
Fixpoint last_index (p s : bytes) : option nat :=
  match s with
  | [] => if prefixb p [] then Some 0 else None
  | _ :: s' => match last_index p s' with
               | Some i => Some (S i)
               | None => if prefixb p s then Some 0 else None
               end
  end.

(** [bytes.Contains] *)
Definition contains (p s : bytes) : bool :=
  match index p s with Some _ => true | None => false end.

(** [bytes.HasSuffix] *)
Definition suffixb (p s : bytes) : bool :=
  (length p <=? length s)%nat && bytes_eqb p (skipn (length s - length p) s).

(** Go slice expression [s[i:j]] with the run-time bounds check of Go for
    slices whose capacity equals their length. *)
Definition slice (s : bytes) (i j : nat) : result bytes :=
  if (i <=? j)%nat && (j <=? length s)%nat
  then Ok (firstn (j - i) (skipn i s)) else Panic.

(** Regular-expression class [\s] of Go: [\t\n\f\r ]. *)
Definition is_ws (b : byte) : bool :=
  let n := b2n b in
  ((n =? 32) || (n =? 9) || (n =? 10) || (n =? 12) || (n =? 13))%N.

(** ASCII white space of [unicode.IsSpace] / [bytes.TrimSpace]: also \v. *)
Definition is_space (b : byte) : bool :=
  is_ws b || (b2n b =? 11)%N.

Definition is_digit (b : byte) : bool :=
  ((48 <=? b2n b) && (b2n b <=? 57))%N.

Definition digit_val (b : byte) : N := (b2n b - 48)%N.

(** Drop / take the longest prefix whose bytes satisfy [f]. *)
Fixpoint drop_while (f : byte -> bool) (s : bytes) : bytes :=
  match s with
  | [] => []
  | b :: s' => if f b then drop_while f s' else s
  end.

Fixpoint take_while (f : byte -> bool) (s : bytes) : bytes :=
  match s with
  | [] => []
  | b :: s' => if f b then b :: take_while f s' else []
  end.

(** [strconv.Itoa] / [%d] on a non-negative number: decimal digits, no
    leading zeros.  Fuel: the binary size of the number. *)
Fixpoint dec_aux (fuel : nat) (n : N) (acc : bytes) : bytes :=
  match fuel with
  | O => acc
  | S f =>
      let acc' := n2b (48 + n mod 10)%N :: acc in
      if (n / 10 =? 0)%N then acc' else dec_aux f (n / 10)%N acc'
  end.
Definition dec (n : N) : bytes := dec_aux (S (N.size_nat n)) n [].

(** [%0wd]: left-padded with zeros to width [w]. *)
Definition dec_pad (w : nat) (n : N) : bytes :=
  let d := dec n in repeat "0"%byte (w - length d) ++ d.

(** Value of a digit string. *)
Definition num (s : bytes) : N :=
  fold_left (fun acc b => (acc * 10 + digit_val b)%N) s 0%N.

(** [strconv.Atoi] restricted to unsigned digit strings (every use in the
    modelled code is on the capture of [\d+]); the value must fit in int64. *)
Definition int64_max : N := 9223372036854775807%N.
Definition atou (s : bytes) : option N :=
  match s with
  | [] => None
  | _ => if forallb is_digit s && (num s <=? int64_max)%N then Some (num s) else None
  end.

(* ------------------------------------------------------------------ *)
(** Lemmas on bytes *)

Lemma b2n_bound b : (b2n b < 256)%N.
Proof. unfold b2n. pose proof (Byte.to_N_bounded b). lia. Qed.

Lemma of_N_some n : (n < 256)%N -> exists b, Byte.of_N n = Some b.
Proof.
  intros H. destruct (Byte.of_N n) eqn:E; eauto.
  apply Byte.of_N_None_iff in E. lia.
Qed.

Lemma b2n_n2b n : b2n (n2b n) = (n mod 256)%N.
Proof.
  unfold n2b, b2n.
  assert (n mod 256 < 256)%N as H by (apply N.mod_lt; lia).
  destruct (of_N_some _ H) as [b Hb]. rewrite Hb.
  apply Byte.to_of_N. exact Hb.
Qed.

Lemma b2n_n2b_small n : (n < 256)%N -> b2n (n2b n) = n.
Proof. intros H. rewrite b2n_n2b. apply N.mod_small. exact H. Qed.

Lemma b2n_inj a b : b2n a = b2n b -> a = b.
Proof.
  unfold b2n. intros H.
  assert (Some a = Some b) as E.
  { rewrite <- (Byte.of_to_N a), <- (Byte.of_to_N b), H. reflexivity. }
  congruence.
Qed.

Lemma n2b_b2n b : n2b (b2n b) = b.
Proof. apply b2n_inj. apply b2n_n2b_small. apply b2n_bound. Qed.

Lemma beqb_eq a b : beqb a b = true <-> a = b.
Proof.
  unfold beqb. rewrite N.eqb_eq. split; [apply b2n_inj | congruence].
Qed.

Lemma beqb_refl a : beqb a a = true.
Proof. apply beqb_eq. reflexivity. Qed.

Lemma beqb_neq a b : beqb a b = false <-> a <> b.
Proof.
  rewrite <- not_true_iff_false, beqb_eq. reflexivity.
Qed.

Lemma beqb_sym a b : beqb a b = beqb b a.
Proof. unfold beqb. apply N.eqb_sym. Qed.

Lemma bytes_eqb_eq a b : bytes_eqb a b = true <-> a = b.
Proof.
  revert b; induction a as [|x a IH]; intros [|y b]; cbn [bytes_eqb].
  - split; reflexivity.
  - split; discriminate.
  - split; discriminate.
  - rewrite andb_true_iff, beqb_eq, IH. split.
    + intros [-> ->]. reflexivity.
    + intros E. injection E as -> ->. auto.
Qed.

Lemma byte_eq_dec (a b : byte) : {a = b} + {a <> b}.
Proof.
  destruct (beqb a b) eqn:E; [left; apply beqb_eq|right; apply beqb_neq]; exact E.
Qed.

(* ------------------------------------------------------------------ *)
(** Prefixes and searching *)

Lemma prefixb_spec p s : prefixb p s = true <-> exists t, s = p ++ t.
Proof.
  revert s; induction p as [|a p IH]; intros s; cbn [prefixb].
  - split; [intros _; exists s; reflexivity | reflexivity].
  - destruct s as [|b s].
    + split; [discriminate | intros [t Ht]; discriminate].
    + rewrite andb_true_iff, beqb_eq, IH. split.
      * intros [-> [t ->]]. exists t. reflexivity.
      * intros [t Ht]. cbn in Ht. injection Ht as -> ->. split; eauto.
Qed.

Lemma prefixb_app p t : prefixb p (p ++ t) = true.
Proof. apply prefixb_spec. eauto. Qed.

Lemma prefixb_refl p : prefixb p p = true.
Proof. apply prefixb_spec. exists []. rewrite app_nil_r. reflexivity. Qed.

Lemma prefixb_length p s : prefixb p s = true -> (length p <= length s)%nat.
Proof. rewrite prefixb_spec. intros [t ->]. rewrite app_length. lia. Qed.

Lemma index_unfold p s :
  index p s = if prefixb p s then Some 0
              else match s with [] => None | _ :: s' => option_map S (index p s') end.
Proof. destruct s; reflexivity. Qed.

Lemma index_cons p b s :
  index p (b :: s) = if prefixb p (b :: s) then Some 0 else option_map S (index p s).
Proof. reflexivity. Qed.

(** [index] returns the leftmost occurrence. *)
Lemma index_some p s i :
  index p s = Some i <->
  (prefixb p (skipn i s) = true /\ (i <= length s)%nat /\
   forall j, (j < i)%nat -> prefixb p (skipn j s) = false).
Proof.
  revert i; induction s as [|b s IH]; intros i.
  - rewrite index_unfold. split.
    + destruct (prefixb p []) eqn:E; [|discriminate].
      intros H; injection H as <-. cbn [skipn]. repeat split; auto; intros; lia.
    + intros (H1 & H2 & H3). cbn in H2. assert (i = 0)%nat as -> by lia.
      cbn [skipn] in H1. rewrite H1. reflexivity.
  - rewrite index_cons. split.
    + destruct (prefixb p (b :: s)) eqn:E.
      * intros H; injection H as <-. cbn [skipn]. repeat split; auto; intros; lia.
      * destruct (index p s) as [k|] eqn:Ek; [|discriminate].
        cbn [option_map]. intros H; injection H as <-.
        destruct (proj1 (IH k) eq_refl) as (H1 & H2 & H3). cbn [skipn length].
        repeat split; auto; [lia|].
        intros [|j] Hj; cbn [skipn]; [exact E|apply H3; lia].
    + intros (H1 & H2 & H3). destruct i as [|i].
      * cbn [skipn] in H1. rewrite H1. reflexivity.
      * pose proof (H3 0%nat ltac:(lia)) as H0. cbn [skipn] in H0. rewrite H0.
        assert (index p s = Some i) as ->; [|reflexivity].
        apply IH. cbn [skipn length] in *. repeat split; auto; [lia|].
        intros j Hj. apply (H3 (S j)). lia.
Qed.

Lemma index_none p s :
  index p s = None <-> forall i, (i <= length s)%nat -> prefixb p (skipn i s) = false.
Proof.
  induction s as [|b s IH].
  - rewrite index_unfold. split.
    + destruct (prefixb p []) eqn:E; [discriminate|].
      intros _ i Hi. cbn in Hi. assert (i = 0)%nat as -> by lia. exact E.
    + intros H. specialize (H 0%nat ltac:(cbn; lia)). cbn [skipn] in H. rewrite H. reflexivity.
  - rewrite index_cons. split.
    + destruct (prefixb p (b :: s)) eqn:E; [discriminate|].
      destruct (index p s) eqn:Ek; [discriminate|]. intros _ [|i] Hi; cbn [skipn].
      * exact E.
      * apply IH; [reflexivity|]. cbn [length] in Hi. lia.
    + intros H. pose proof (H 0%nat ltac:(lia)) as H0. cbn [skipn] in H0. rewrite H0.
      replace (index p s) with (@None nat); [reflexivity|]. symmetry. apply IH.
      intros i Hi. apply (H (S i)). cbn [length]. lia.
Qed.

Lemma index_bound p s i : index p s = Some i -> (i + length p <= length s)%nat.
Proof.
  intros H. apply index_some in H. destruct H as (H1 & H2 & _).
  apply prefixb_length in H1. rewrite skipn_length in H1. lia.
Qed.

Lemma skipn_skipn {A} (a b : nat) (l : list A) : skipn a (skipn b l) = skipn (a + b) l.
Proof.
  revert l. induction b as [|b IH]; intros l.
  - rewrite Nat.add_0_r. reflexivity.
  - replace (a + S b)%nat with (S (a + b)) by lia. destruct l as [|x l].
    + rewrite !skipn_nil. reflexivity.
    + cbn [skipn]. apply IH.
Qed.

(** Splitting at the found position. *)
Lemma index_split p s i :
  index p s = Some i -> s = firstn i s ++ p ++ skipn (i + length p) s.
Proof.
  intros H. apply index_some in H. destruct H as (H1 & _ & _).
  apply prefixb_spec in H1. destruct H1 as [t Ht].
  rewrite <- (firstn_skipn i s) at 1. rewrite Ht. f_equal. f_equal.
  replace (i + length p)%nat with (length p + i)%nat by lia.
  rewrite <- skipn_skipn, Ht, skipn_app, Nat.sub_diag, skipn_all. reflexivity.
Qed.

(** The first occurrence when everything before it is known free of [p].  The
    side condition is decidable and stated on the overlap. *)
Lemma index_app_intro p a b :
  (forall j, (j < length a)%nat -> prefixb p (skipn j (a ++ b)) = false) ->
  prefixb p b = true ->
  index p (a ++ b) = Some (length a).
Proof.
  intros Ha Hb. apply index_some. repeat split.
  - rewrite skipn_app, skipn_all, Nat.sub_diag. exact Hb.
  - rewrite app_length. lia.
  - exact Ha.
Qed.

Lemma last_index_some p s i :
  last_index p s = Some i <->
  (prefixb p (skipn i s) = true /\ (i <= length s)%nat /\
   forall j, (i < j)%nat -> (j <= length s)%nat -> prefixb p (skipn j s) = false).
Proof.
  revert i; induction s as [|b s IH]; intros i.
  - cbn [last_index]. split.
    + destruct (prefixb p []) eqn:E; [|discriminate].
      intros H; injection H as <-. cbn. repeat split; auto; intros; lia.
    + intros (H1 & H2 & H3). cbn in H2. assert (i = 0)%nat as -> by lia.
      cbn [skipn] in H1. rewrite H1. reflexivity.
  - cbn [last_index]. split.
    + destruct (last_index p s) as [k|] eqn:Ek.
      * intros H; injection H as <-. destruct (proj1 (IH k) eq_refl) as (H1 & H2 & H3).
        cbn [skipn length]. repeat split; auto; [lia|].
        intros [|j] Hj Hl; [lia|]. cbn [skipn]. cbn [length] in Hl. apply H3; lia.
      * destruct (prefixb p (b :: s)) eqn:E; [|discriminate].
        intros H; injection H as <-. cbn [skipn length]. repeat split; auto; [lia|].
        intros [|j] Hj Hl; [lia|]. cbn [skipn].
        destruct (prefixb p (skipn j s)) eqn:Ej; [|reflexivity]. exfalso.
        (* some occurrence exists in s, so last_index cannot be None *)
        clear -Ek Ej Hl.
        assert (forall s j, prefixb p (skipn j s) = true -> (j <= length s)%nat ->
                  last_index p s <> None) as Hex.
        { clear. induction s as [|b s IHs]; intros j Hj Hl; cbn [last_index].
          - cbn in Hl. assert (j = 0)%nat as -> by lia. cbn [skipn] in Hj. rewrite Hj. discriminate.
          - destruct j as [|j].
            + cbn [skipn] in Hj. destruct (last_index p s); [discriminate|].
              rewrite Hj. discriminate.
            + cbn [skipn] in Hj. cbn [length] in Hl.
              specialize (IHs j Hj ltac:(lia)).
              destruct (last_index p s); [discriminate|congruence]. }
        cbn [length] in Hl. apply (Hex s j Ej ltac:(lia) Ek).
    + intros (H1 & H2 & H3). destruct i as [|i].
      * destruct (last_index p s) as [k|] eqn:Ek.
        { exfalso. destruct (proj1 (IH k) eq_refl) as (K1 & K2 & _).
          specialize (H3 (S k) ltac:(lia) ltac:(cbn; lia)). cbn [skipn] in H3. congruence. }
        cbn [skipn] in H1. rewrite H1. reflexivity.
      * assert (last_index p s = Some i) as ->; [|reflexivity].
        apply IH. cbn [skipn length] in *. repeat split; auto; [lia|].
        intros j Hj Hl. apply (H3 (S j)); lia.
Qed.

(* ------------------------------------------------------------------ *)
(** Decimal numbers *)

Lemma digit_byte d : (d < 10)%N ->
  is_digit (n2b (48 + d)) = true /\ digit_val (n2b (48 + d)) = d.
Proof.
  intros H. unfold is_digit, digit_val. rewrite b2n_n2b_small by lia. split; lia.
Qed.

Lemma num_app a b : num (a ++ b) = fold_left (fun acc c => (acc * 10 + digit_val c)%N) b (num a).
Proof. unfold num. apply fold_left_app. Qed.

Lemma num_acc s acc :
  fold_left (fun acc c => (acc * 10 + digit_val c)%N) s acc
  = (acc * 10 ^ N.of_nat (length s) + num s)%N.
Proof.
  unfold num. revert acc. induction s as [|b s IH]; intros acc.
  - cbn. lia.
  - cbn [fold_left length]. rewrite IH, (IH (0 * 10 + digit_val b)%N).
    rewrite Nat2N.inj_succ, N.pow_succ_r'. lia.
Qed.

Lemma num_cons b s : num (b :: s) = (digit_val b * 10 ^ N.of_nat (length s) + num s)%N.
Proof. unfold num at 1. cbn [fold_left]. rewrite num_acc. lia. Qed.

Lemma size_nat_div10 n : (n / 10 <> 0)%N -> (N.size_nat (n / 10) < N.size_nat n)%nat.
Proof.
  intros H.
  assert (forall a b, (a < b)%N -> (2 * a < b + 1)%N -> (0 < a)%N -> (N.size_nat a < N.size_nat b)%nat) as Hs.
  { clear. intros a b Hab H2 Ha.
    assert (N.size a < N.size b)%N as Hlt.
    { rewrite !N.size_log2 by lia.
      assert (N.log2 a < N.log2 b)%N; [|lia].
      apply N.log2_lt_pow2; [lia|].
      pose proof (N.log2_spec b ltac:(lia)) as [Hl Hu].
      rewrite N.pow_succ_r' in Hu. lia. }
    assert (forall n, N.of_nat (N.size_nat n) = N.size n) as Hsz.
    { intros [|p]; [reflexivity|]. cbn. induction p; cbn [Pos.size_nat Pos.size]; lia. }
    rewrite <- !Hsz in Hlt. lia. }
  apply Hs; lia.
Qed.

Lemma dec_aux_app f n acc : dec_aux f n acc = dec_aux f n [] ++ acc.
Proof.
  revert n acc. induction f as [|f IH]; intros n acc; [reflexivity|].
  cbn [dec_aux]. destruct (n / 10 =? 0)%N; [reflexivity|].
  rewrite IH, (IH _ [_]). rewrite <- app_assoc. reflexivity.
Qed.

Lemma dec_aux_spec f n :
  (N.size_nat n < f)%nat ->
  num (dec_aux f n []) = n /\ forallb is_digit (dec_aux f n []) = true /\ dec_aux f n [] <> [].
Proof.
  revert n. induction f as [|f IH]; intros n Hf; [lia|].
  cbn [dec_aux].
  assert (n mod 10 < 10)%N as Hm by (apply N.mod_lt; lia).
  destruct (digit_byte (n mod 10)%N Hm) as [Hd Hv].
  destruct (N.eqb_spec (n / 10) 0) as [E|E].
  - cbn [forallb]. rewrite Hd. repeat split; [|discriminate].
    unfold num. cbn [fold_left]. rewrite Hv. lia.
  - rewrite dec_aux_app.
    destruct (IH (n / 10)%N) as (I1 & I2 & I3).
    { pose proof (size_nat_div10 n E). lia. }
    rewrite num_app, I1. cbn [fold_left]. rewrite Hv.
    rewrite forallb_app, I2. cbn [forallb]. rewrite Hd.
    repeat split; [lia|].
    intros Hc. apply app_eq_nil in Hc. destruct Hc. discriminate.
Qed.

Lemma num_dec n : num (dec n) = n.
Proof. unfold dec. apply dec_aux_spec. lia. Qed.

Lemma dec_digits n : forallb is_digit (dec n) = true.
Proof. unfold dec. apply dec_aux_spec. lia. Qed.

Lemma dec_nonnil n : dec n <> [].
Proof. unfold dec. apply dec_aux_spec. lia. Qed.

Lemma num_repeat0 k s : num (repeat "0"%byte k ++ s) = num s.
Proof.
  induction k as [|k IH]; [reflexivity|].
  cbn [repeat app]. rewrite num_cons, IH.
  change (digit_val "0") with 0%N. lia.
Qed.

Lemma num_dec_pad w n : num (dec_pad w n) = n.
Proof. unfold dec_pad. rewrite num_repeat0. apply num_dec. Qed.

Lemma dec_pad_digits w n : forallb is_digit (dec_pad w n) = true.
Proof.
  unfold dec_pad. rewrite forallb_app, dec_digits, andb_true_r.
  apply forallb_forall. intros x Hx. apply repeat_spec in Hx. subst. reflexivity.
Qed.

Lemma dec_pad_nonnil w n : dec_pad w n <> [].
Proof.
  unfold dec_pad. intros H. apply app_eq_nil in H. destruct H as [_ H].
  exact (dec_nonnil n H).
Qed.

Lemma dec_aux_length f n k :
  (n < 10 ^ N.of_nat (S k))%N -> (length (dec_aux f n []) <= S k)%nat.
Proof.
  revert n k. induction f as [|f IH]; intros n k Hn; [cbn; lia|].
  cbn [dec_aux]. destruct (N.eqb_spec (n / 10) 0) as [E|E]; [cbn; lia|].
  rewrite dec_aux_app, app_length. cbn [length].
  destruct k as [|k].
  - cbn in Hn. lia.
  - rewrite Nat2N.inj_succ, N.pow_succ_r' in Hn.
    specialize (IH (n / 10)%N k). rewrite Nat2N.inj_succ in IH.
    rewrite Nat2N.inj_succ in Hn.
    assert (n / 10 < 10 ^ N.succ (N.of_nat k))%N as Hd by (apply N.div_lt_upper_bound; lia).
    specialize (IH Hd). lia.
Qed.

Lemma dec_length n k : (n < 10 ^ N.of_nat k)%N -> (0 < k)%nat -> (length (dec n) <= k)%nat.
Proof. intros H Hk. destruct k as [|k]; [lia|]. apply dec_aux_length. exact H. Qed.

Lemma dec_pad_length w n : (n < 10 ^ N.of_nat w)%N -> (0 < w)%nat -> length (dec_pad w n) = w.
Proof.
  intros H Hw. unfold dec_pad. rewrite app_length, repeat_length.
  pose proof (dec_length n w H Hw). lia.
Qed.

Lemma num_bound s : forallb is_digit s = true -> (num s < 10 ^ N.of_nat (length s))%N.
Proof.
  induction s as [|b s IH]; [cbn; lia|].
  cbn [forallb]. rewrite andb_true_iff. intros [Hb Hs]. specialize (IH Hs).
  rewrite num_cons. cbn [length]. rewrite Nat2N.inj_succ, N.pow_succ_r'.
  unfold is_digit, digit_val in *.
  assert (b2n b - 48 <= 9)%N by lia. nia.
Qed.

Lemma atou_dec n : (n <= int64_max)%N -> atou (dec n) = Some n.
Proof.
  intros H. unfold atou. pose proof (dec_nonnil n) as Hn.
  destruct (dec n) as [|b l] eqn:E; [congruence|]. rewrite <- E.
  rewrite dec_digits, num_dec. replace (n <=? int64_max)%N with true by lia. reflexivity.
Qed.

Lemma atou_dec_pad w n : (n <= int64_max)%N -> atou (dec_pad w n) = Some n.
Proof.
  intros H. unfold atou. pose proof (dec_pad_nonnil w n) as Hn.
  destruct (dec_pad w n) as [|b l] eqn:E; [congruence|]. rewrite <- E.
  rewrite dec_pad_digits, num_dec_pad. replace (n <=? int64_max)%N with true by lia. reflexivity.
Qed.

Lemma dec_inj a b : dec a = dec b -> a = b.
Proof. intros H. rewrite <- (num_dec a), <- (num_dec b), H. reflexivity. Qed.

(** Scanning *)
Lemma take_while_app f a b :
  forallb f a = true -> (match b with [] => True | x :: _ => f x = false end) ->
  take_while f (a ++ b) = a.
Proof.
  induction a as [|x a IH]; cbn [forallb app take_while].
  - intros _ Hb. destruct b as [|y b]; [reflexivity|]. cbn [take_while]. rewrite Hb. reflexivity.
  - rewrite andb_true_iff. intros [Hx Ha] Hb. rewrite Hx, IH; auto.
Qed.

Lemma drop_while_app f a b :
  forallb f a = true -> (match b with [] => True | x :: _ => f x = false end) ->
  drop_while f (a ++ b) = b.
Proof.
  induction a as [|x a IH]; cbn [forallb app drop_while].
  - intros _ Hb. destruct b as [|y b]; [reflexivity|]. cbn [drop_while]. rewrite Hb. reflexivity.
  - rewrite andb_true_iff. intros [Hx Ha] Hb. rewrite Hx, IH; auto.
Qed.

Lemma take_drop_while f s : take_while f s ++ drop_while f s = s.
Proof.
  induction s as [|b s IH]; [reflexivity|]. cbn [take_while drop_while].
  destruct (f b); [cbn; rewrite IH|]; reflexivity.
Qed.

Lemma take_while_all f s : forallb f (take_while f s) = true.
Proof.
  induction s as [|b s IH]; [reflexivity|]. cbn [take_while].
  destruct (f b) eqn:E; [|reflexivity]. cbn [forallb]. rewrite E, IH. reflexivity.
Qed.

Lemma slice_ok s i j : (i <= j)%nat -> (j <= length s)%nat -> slice s i j = Ok (firstn (j - i) (skipn i s)).
Proof.
  intros H1 H2. unfold slice. apply Nat.leb_le in H1, H2. rewrite H1, H2. reflexivity.
Qed.
