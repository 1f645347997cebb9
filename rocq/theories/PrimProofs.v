(** AES decryption inverts encryption, CBC and ECB too, RC4 is an involution,
    the hashes have fixed lengths. *)
From Coq Require Import Btauto.
From Verif Require Import PrimModel.
Local Open Scope N_scope.

Definition all_bytes : list byte := map (fun i => n2b (N.of_nat i)) (seq 0 256).
Lemma all_bytes_in b : In b all_bytes.
Proof.
  unfold all_bytes. apply in_map_iff. exists (N.to_nat (b2n b)). split.
  - rewrite N2Nat.id. destruct b; reflexivity.
  - apply in_seq. assert (b2n b < 256) by (destruct b; reflexivity). lia.
Qed.
Lemma by_all (f : byte -> bool) : forallb f all_bytes = true -> forall b, f b = true.
Proof. intros H b. rewrite forallb_forall in H. apply H, all_bytes_in. Qed.
Lemma by_all2 (f : byte -> byte -> bool) :
  forallb (fun x => forallb (f x) all_bytes) all_bytes = true -> forall a b, f a b = true.
Proof. intros H a b. apply by_all. now apply (by_all (fun x => forallb (f x) all_bytes)). Qed.
Lemma beqb_true a b : beqb a b = true -> a = b.
Proof.
  unfold beqb. rewrite N.eqb_eq. unfold b2n. intro E.
  assert (Some a = Some b) by (rewrite <- (Byte.of_to_N a), <- (Byte.of_to_N b); congruence). congruence.
Qed.

Lemma b2n_lt b : b2n b < 256.
Proof. destruct b; reflexivity. Qed.
Lemma n2b_b2n b : n2b (b2n b) = b.
Proof. destruct b; reflexivity. Qed.
Lemma b2n_n2b n : n < 256 -> b2n (n2b n) = n.
Proof.
  intro L. unfold n2b, b2n. rewrite N.mod_small by lia.
  destruct (Byte.of_N n) eqn:E; [now apply Byte.to_of_N|].
  apply Byte.of_N_None_iff in E. lia.
Qed.
Lemma b2n_bxor a b : b2n (bxor a b) = N.lxor (b2n a) (b2n b).
Proof.
  unfold bxor. apply b2n_n2b.
  pose proof (b2n_lt a). pose proof (b2n_lt b).
  destruct (N.eq_dec (N.lxor (b2n a) (b2n b)) 0) as [->|Z]; [lia|].
  change 256 with (2 ^ 8). apply N.log2_lt_pow2; [lia|].
  eapply N.le_lt_trans; [apply N.log2_lxor|].
  assert (forall x, x < 256 -> N.log2 x < 8).
  { intros x Hx. destruct (N.eq_dec x 0) as [->|]; [reflexivity|]. apply N.log2_lt_pow2; [lia|]. exact Hx. }
  apply N.max_lub_lt; auto.
Qed.
Lemma b2n_inj a b : b2n a = b2n b -> a = b.
Proof. intro E. rewrite <- (n2b_b2n a), <- (n2b_b2n b). now rewrite E. Qed.
Lemma bxor_comm a b : bxor a b = bxor b a.
Proof. apply b2n_inj. now rewrite !b2n_bxor, N.lxor_comm. Qed.
Lemma bxor_assoc a b c : bxor (bxor a b) c = bxor a (bxor b c).
Proof. apply b2n_inj. now rewrite !b2n_bxor, N.lxor_assoc. Qed.
Lemma bxor_nilpotent a : bxor a a = x00.
Proof. apply b2n_inj. now rewrite b2n_bxor, N.lxor_nilpotent. Qed.
Lemma bxor_0_l a : bxor x00 a = a.
Proof. apply b2n_inj. now rewrite b2n_bxor. Qed.
Lemma bxor_0_r a : bxor a x00 = a.
Proof. rewrite bxor_comm. apply bxor_0_l. Qed.
Lemma bxor_cancel a b : bxor (bxor a b) b = a.
Proof. now rewrite bxor_assoc, bxor_nilpotent, bxor_0_r. Qed.
Lemma bxor_cancel_l a b : bxor a (bxor a b) = b.
Proof. now rewrite <- bxor_assoc, bxor_nilpotent, bxor_0_l. Qed.

Lemma xor_bytes_length a : forall b, length a = length b -> length (xor_bytes a b) = length a.
Proof. induction a; destruct b; simpl; intro E; try discriminate; auto. Qed.
Lemma xor_bytes_cancel_l a : forall b, length a = length b -> xor_bytes a (xor_bytes a b) = b.
Proof.
  induction a; destruct b; simpl; intro E; try discriminate; auto.
  now rewrite bxor_cancel_l, IHa by congruence.
Qed.
Lemma xor_bytes_cancel_r a : forall b, length a = length b -> xor_bytes (xor_bytes a b) b = a.
Proof.
  induction a; destruct b; simpl; intro E; try discriminate; auto.
  now rewrite bxor_cancel, IHa by congruence.
Qed.

(* ---------------------------------------------------------------- *)

Lemma inv_sbox_sbox : forall b, inv_sbox (sbox b) = b.
Proof. intro b. apply beqb_true. revert b. apply by_all. vm_compute. reflexivity. Qed.
Lemma xtime_xor : forall a b, xtime (bxor a b) = bxor (xtime a) (xtime b).
Proof. intros a b. apply beqb_true. revert a b. apply by_all2. vm_compute. reflexivity. Qed.


(** The sixteen coefficient identities of InvMixColumns o MixColumns. *)
Definition idb (f : byte -> byte) : bool := forallb (fun b => beqb (f b) b) all_bytes.
Definition zerob (f : byte -> byte) : bool := forallb (fun b => beqb (f b) x00) all_bytes.
Lemma idb_ok f : idb f = true -> forall b, f b = b.
Proof. intros H b. apply beqb_true. revert b. apply by_all. exact H. Qed.
Lemma zerob_ok f : zerob f = true -> forall b, f b = x00.
Proof. intros H b. apply beqb_true. revert b. apply by_all. exact H. Qed.

Lemma bxor_swap a b c d : bxor (bxor a b) (bxor c d) = bxor (bxor a c) (bxor b d).
Proof. rewrite !bxor_assoc. f_equal. rewrite <- !bxor_assoc. f_equal. apply bxor_comm. Qed.
Lemma mul2_xor a b : mul2 (bxor a b) = bxor (mul2 a) (mul2 b).
Proof. apply xtime_xor. Qed.
Lemma mul3_xor a b : mul3 (bxor a b) = bxor (mul3 a) (mul3 b).
Proof. unfold mul3. rewrite xtime_xor. apply bxor_swap. Qed.
Lemma mul9_xor a b : mul9 (bxor a b) = bxor (mul9 a) (mul9 b).
Proof. unfold mul9. rewrite !xtime_xor. apply bxor_swap. Qed.
Lemma mul11_xor a b : mul11 (bxor a b) = bxor (mul11 a) (mul11 b).
Proof. unfold mul11. rewrite !xtime_xor. rewrite (bxor_swap (xtime (xtime (xtime a)))). apply bxor_swap. Qed.
Lemma mul13_xor a b : mul13 (bxor a b) = bxor (mul13 a) (mul13 b).
Proof. unfold mul13. rewrite !xtime_xor. rewrite (bxor_swap (xtime (xtime (xtime a)))). apply bxor_swap. Qed.
Lemma mul14_xor a b : mul14 (bxor a b) = bxor (mul14 a) (mul14 b).
Proof. unfold mul14. rewrite !xtime_xor. rewrite (bxor_swap (xtime (xtime (xtime a)))). apply bxor_swap. Qed.

Lemma bxor4_swap a b c d a' b' c' d' a'' b'' c'' d'' a''' b''' c''' d''' :
  bxor4 (bxor4 a b c d) (bxor4 a' b' c' d') (bxor4 a'' b'' c'' d'') (bxor4 a''' b''' c''' d''') =
  bxor4 (bxor4 a a' a'' a''') (bxor4 b b' b'' b''') (bxor4 c c' c'' c''') (bxor4 d d' d'' d''').
Proof.
  apply b2n_inj. unfold bxor4. rewrite !b2n_bxor.
  apply N.bits_inj. intro k. rewrite !N.lxor_spec.
  btauto.
Qed.


Definition linear (f : byte -> byte) : Prop := forall a b, f (bxor a b) = bxor (f a) (f b).
Lemma linear4 f : linear f -> forall p q r s, f (bxor4 p q r s) = bxor4 (f p) (f q) (f r) (f s).
Proof. intros L p q r s. unfold bxor4. now rewrite !L. Qed.
Lemma row f1 f2 f3 f4 : linear f1 -> linear f2 -> linear f3 -> linear f4 ->
  forall a1 b1 c1 d1 a2 b2 c2 d2 a3 b3 c3 d3 a4 b4 c4 d4,
  bxor4 (f1 (bxor4 a1 b1 c1 d1)) (f2 (bxor4 a2 b2 c2 d2)) (f3 (bxor4 a3 b3 c3 d3)) (f4 (bxor4 a4 b4 c4 d4)) =
  bxor4 (bxor4 (f1 a1) (f2 a2) (f3 a3) (f4 a4)) (bxor4 (f1 b1) (f2 b2) (f3 b3) (f4 b4))
        (bxor4 (f1 c1) (f2 c2) (f3 c3) (f4 c4)) (bxor4 (f1 d1) (f2 d2) (f3 d3) (f4 d4)).
Proof. intros. rewrite !linear4 by assumption. apply bxor4_swap. Qed.

Definition row_at (f1 f2 f3 f4 g1 g2 g3 g4 : byte -> byte) (x : byte) : byte :=
  bxor4 (f1 (g1 x)) (f2 (g2 x)) (f3 (g3 x)) (f4 (g4 x)).
Definition mul1 (b : byte) : byte := b.

Lemma row0 : forall a b c d,
  bxor4 (row_at mul14 mul11 mul13 mul9 mul2 mul1 mul1 mul3 a) (row_at mul14 mul11 mul13 mul9 mul3 mul2 mul1 mul1 b)
        (row_at mul14 mul11 mul13 mul9 mul1 mul3 mul2 mul1 c) (row_at mul14 mul11 mul13 mul9 mul1 mul1 mul3 mul2 d) = a.
Proof.
  intros a b c d.
  assert (E1 : forall x, row_at mul14 mul11 mul13 mul9 mul2 mul1 mul1 mul3 x = x) by (apply idb_ok; vm_compute; reflexivity).
  assert (E2 : forall x, row_at mul14 mul11 mul13 mul9 mul3 mul2 mul1 mul1 x = x00) by (apply zerob_ok; vm_compute; reflexivity).
  assert (E3 : forall x, row_at mul14 mul11 mul13 mul9 mul1 mul3 mul2 mul1 x = x00) by (apply zerob_ok; vm_compute; reflexivity).
  assert (E4 : forall x, row_at mul14 mul11 mul13 mul9 mul1 mul1 mul3 mul2 x = x00) by (apply zerob_ok; vm_compute; reflexivity).
  rewrite (E1 a), (E2 b), (E3 c), (E4 d). unfold bxor4. now rewrite !bxor_0_r.
Qed.
Lemma bxor4_rot a b c d : bxor4 a b c d = bxor4 b c d a.
Proof. apply b2n_inj. unfold bxor4. rewrite !b2n_bxor. apply N.bits_inj. intro k. rewrite !N.lxor_spec. btauto. Qed.

(** InvMixColumns rotates with the column, so one row settles all four. *)
Definition inv_row (a b c d : byte) : byte := bxor4 (mul14 a) (mul11 b) (mul13 c) (mul9 d).
Definition mix_row (a b c d : byte) : byte := bxor4 (mul2 a) (mul3 b) c d.
Lemma inv_row_mix a b c d : inv_row (mix_row a b c d) (mix_row b c d a) (mix_row c d a b) (mix_row d a b c) = a.
Proof.
  rewrite (eq_refl : mix_row b c d a = bxor4 (mul2 b) (mul3 c) d a).
  unfold inv_row.
  assert (R2 : mix_row b c d a = bxor4 a (mul2 b) (mul3 c) d) by (unfold mix_row; now rewrite bxor4_rot, bxor4_rot, bxor4_rot).
  assert (R3 : mix_row c d a b = bxor4 a b (mul2 c) (mul3 d)) by (unfold mix_row; now rewrite bxor4_rot, bxor4_rot).
  assert (R4 : mix_row d a b c = bxor4 (mul3 a) b c (mul2 d)) by (unfold mix_row; now rewrite bxor4_rot).
  change (bxor4 (mul2 b) (mul3 c) d a) with (mix_row b c d a).
  rewrite R2, R3, R4. unfold mix_row.
  rewrite (row mul14 mul11 mul13 mul9 mul14_xor mul11_xor mul13_xor mul9_xor).
  pose proof (row0 a b c d) as R. unfold row_at, mul1 in R. exact R.
Qed.

Lemma inv_mix_mix w : inv_mix_column (mix_column w) = w.
Proof.
  destruct w as [a b c d].
  assert (M : mix_column (W a b c d) = W (mix_row a b c d) (mix_row b c d a) (mix_row c d a b) (mix_row d a b c)).
  { unfold mix_column, mix_row. f_equal.
    - now rewrite (bxor4_rot a).
    - now rewrite (bxor4_rot a), (bxor4_rot b).
    - now rewrite (bxor4_rot (mul2 d)). }
  assert (I : forall p q r s, inv_mix_column (W p q r s) = W (inv_row p q r s) (inv_row q r s p) (inv_row r s p q) (inv_row s p q r)).
  { intros. unfold inv_mix_column, inv_row. f_equal.
    - now rewrite (bxor4_rot (mul9 p)).
    - now rewrite (bxor4_rot (mul13 p)), (bxor4_rot (mul9 q)).
    - now rewrite (bxor4_rot (mul14 s)). }
  rewrite M, I.
  f_equal; apply inv_row_mix.
Qed.

Lemma xor_word_cancel v w : xor_word (xor_word v w) w = v.
Proof. destruct v, w. simpl. now rewrite !bxor_cancel. Qed.
Lemma xor_state_cancel x y : xor_state (xor_state x y) y = x.
Proof. destruct x, y. simpl. now rewrite !xor_word_cancel. Qed.
Lemma inv_shift_shift s : inv_shift_rows (shift_rows s) = s.
Proof. now destruct s as [[] [] [] []]. Qed.
Lemma inv_sub_sub s : inv_sub_bytes (sub_bytes s) = s.
Proof. destruct s as [[] [] [] []]. unfold inv_sub_bytes, sub_bytes, map_state, map_word. now rewrite !inv_sbox_sbox. Qed.
Lemma inv_mixs s : map_state inv_mix_column (map_state mix_column s) = s.
Proof. destruct s. unfold map_state. now rewrite !inv_mix_mix. Qed.

Lemma dec_enc_round s k : dec_round (enc_round s k) k = s.
Proof. unfold dec_round, enc_round. now rewrite xor_state_cancel, inv_mixs, inv_shift_shift, inv_sub_sub. Qed.
Lemma dec_enc_rounds ks : forall s, fold_left dec_round (rev ks) (fold_left enc_round ks s) = s.
Proof.
  induction ks as [|k ks IH]; intro s; [reflexivity|].
  simpl. rewrite fold_left_app. simpl. now rewrite IH, dec_enc_round.
Qed.
Lemma inv_cipher_cipher k0 ks k10 s : inv_cipher k0 ks k10 (cipher k0 ks k10 s) = s.
Proof.
  unfold inv_cipher, cipher.
  now rewrite xor_state_cancel, inv_shift_shift, inv_sub_sub, dec_enc_rounds, xor_state_cancel.
Qed.

Lemma to_of_state s : to_state (of_state s) = s.
Proof. now destruct s as [[] [] [] []]. Qed.
Lemma of_to_state l : length l = 16%nat -> of_state (to_state l) = l.
Proof.
  intro E. do 16 (destruct l as [|? l]; [discriminate E|]). destruct l; [reflexivity|discriminate E].
Qed.
Lemma of_state_length s : length (of_state s) = 16%nat.
Proof. now destruct s as [[] [] [] []]. Qed.

Lemma aes_encrypt_length k b : length (aes_encrypt k b) = 16%nat.
Proof. unfold aes_encrypt. destruct (aes_keys k) as [[? ?] ?]. apply of_state_length. Qed.
Lemma aes_decrypt_length k b : length (aes_decrypt k b) = 16%nat.
Proof. unfold aes_decrypt. destruct (aes_keys k) as [[? ?] ?]. apply of_state_length. Qed.
Theorem aes_decrypt_encrypt k b : length b = 16%nat -> aes_decrypt k (aes_encrypt k b) = b.
Proof.
  intro L. unfold aes_decrypt, aes_encrypt. destruct (aes_keys k) as [[k0 ks] k10].
  rewrite to_of_state, inv_cipher_cipher. now apply of_to_state.
Qed.

Lemma ecb_length f : (forall b, length (f b) = 16%nat) -> forall n d, length (ecb f n d) = (16 * n)%nat.
Proof. intros F n. induction n; intro d; [reflexivity|]. cbn [ecb]. rewrite app_length, F, IHn. lia. Qed.
Lemma ecb_roundtrip k n : forall d, length d = (16 * n)%nat ->
  ecb (aes_decrypt k) n (ecb (aes_encrypt k) n d) = d.
Proof.
  induction n; intros d L; [now destruct d|]. cbn [ecb].
  rewrite firstn_app, aes_encrypt_length, Nat.sub_diag, firstn_O, app_nil_r.
  rewrite skipn_app, aes_encrypt_length, Nat.sub_diag.
  rewrite (firstn_all2 (aes_encrypt k (firstn 16 d))) by (rewrite aes_encrypt_length; lia).
  rewrite (skipn_all2 (aes_encrypt k (firstn 16 d))) by (rewrite aes_encrypt_length; lia).
  rewrite aes_decrypt_encrypt by (rewrite firstn_length; lia).
  rewrite skipn_O. cbn [app]. rewrite IHn; [|rewrite (skipn_length 16 d); lia]. apply firstn_skipn.
Qed.

Lemma cbc_encrypt_length k n : forall iv d, length (cbc_encrypt k iv n d) = (16 * n)%nat.
Proof. induction n; intros; [reflexivity|]. cbn [cbc_encrypt]. rewrite app_length, aes_encrypt_length, IHn. lia. Qed.
Lemma cbc_decrypt_length k n : forall iv d, length iv = 16%nat -> (16 * n <= length d)%nat ->
  length (cbc_decrypt k iv n d) = (16 * n)%nat.
Proof.
  induction n; intros iv d LI L; [reflexivity|]. cbn [cbc_decrypt].
  rewrite app_length, xor_bytes_length by now rewrite aes_decrypt_length.
  rewrite IHn; [lia|rewrite firstn_length; lia|rewrite skipn_length; lia].
Qed.
Lemma cbc_roundtrip k n : forall iv d, length iv = 16%nat -> length d = (16 * n)%nat ->
  cbc_decrypt k iv n (cbc_encrypt k iv n d) = d.
Proof.
  induction n; intros iv d LI L; [now destruct d|]. cbn [cbc_decrypt cbc_encrypt]. cbv zeta.
  set (c := aes_encrypt k (xor_bytes iv (firstn 16 d))).
  assert (LC : length c = 16%nat) by apply aes_encrypt_length.
  assert (LF : length (firstn 16 d) = 16%nat) by (rewrite firstn_length; lia).
  assert (FC : firstn 16 (c ++ cbc_encrypt k c n (skipn 16 d)) = c).
  { rewrite firstn_app, LC, Nat.sub_diag, firstn_O, app_nil_r. apply firstn_all2. lia. }
  assert (SC : skipn 16 (c ++ cbc_encrypt k c n (skipn 16 d)) = cbc_encrypt k c n (skipn 16 d)).
  { rewrite skipn_app, LC, Nat.sub_diag. rewrite (skipn_all2 c) by lia. reflexivity. }
  rewrite FC, SC. rewrite IHn; [|exact LC|rewrite skipn_length; lia].
  unfold c. rewrite aes_decrypt_encrypt by (rewrite xor_bytes_length by lia; lia).
  rewrite xor_bytes_cancel_l by lia. apply firstn_skipn.
Qed.

Lemma rc4_stream_length n : forall i j s, length (rc4_stream n i j s) = n.
Proof. induction n; intros; [reflexivity|]. cbn [rc4_stream]. cbv zeta. simpl. now rewrite IHn. Qed.
Lemma rc4_length k d : length (rc4 k d) = length d.
Proof. unfold rc4. apply xor_bytes_length. now rewrite rc4_stream_length. Qed.
Theorem rc4_involution k d : rc4 k (rc4 k d) = d.
Proof.
  unfold rc4 at 1. rewrite rc4_length. unfold rc4. apply xor_bytes_cancel_r. now rewrite rc4_stream_length.
Qed.

Lemma le_bytes_length k : forall n, length (le_bytes k n) = k.
Proof. induction k; intro n; [reflexivity|]. simpl. now rewrite IHk. Qed.
Lemma be_bytes_length k n : length (be_bytes k n) = k.
Proof. unfold be_bytes. now rewrite rev_length, le_bytes_length. Qed.
Lemma md5_length m : length (md5 m) = 16%nat.
Proof. unfold md5. destruct (fold_left _ _ _). rewrite !app_length, !le_bytes_length. reflexivity. Qed.
Lemma sha256_length m : length (sha256 m) = 32%nat.
Proof.
  unfold sha256. destruct (fold_left _ _ _). cbn [flat_map]. rewrite !app_length, !be_bytes_length. reflexivity.
Qed.
