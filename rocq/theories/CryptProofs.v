(** Proofs about the encryption model. *)
From Verif Require Import CryptModel PrimProofs Util.
Local Open Scope Z_scope.

Lemma flen_nat s : flen s = Z.of_nat (length s).
Proof. reflexivity. Qed.
Lemma sha_rounds_length k : forall s, length s = 32%nat -> length (sha_rounds k s) = 32%nat.
Proof. induction k; intros s H; [exact H|]. cbn [sha_rounds]. apply IHk, sha256_length. Qed.
Lemma derive_length pw fid : length (DeriveEncryptionKeyV5 pw fid) = 32%nat.
Proof. unfold DeriveEncryptionKeyV5. apply sha_rounds_length, sha256_length. Qed.
Lemma encrypted_hash_length k i : length (encrypted_hash k i) = 32%nat.
Proof. unfold encrypted_hash. now rewrite app_length, !aes_encrypt_length. Qed.

(** PKCS#7 *)
Lemma pkcs7_length d : length (pkcs7 d) = (16 * (length d / 16 + 1))%nat.
Proof.
  unfold pkcs7. rewrite app_length, repeat_length.
  pose proof (Nat.div_mod (length d) 16 ltac:(lia)). pose proof (Nat.mod_upper_bound (length d) 16 ltac:(lia)). lia.
Qed.
Lemma last_repeat {A} (x y : A) n : last (repeat x (S n)) y = x.
Proof. induction n; [reflexivity|]. exact IHn. Qed.
Lemma last_app_ne {A} (l m : list A) d : m <> [] -> last (l ++ m) d = last m d.
Proof.
  intro H. induction l as [|x l IH]; [reflexivity|]. cbn [app]. rewrite <- IH.
  destruct (l ++ m) eqn:E; [|reflexivity]. apply app_eq_nil in E. now destruct E.
Qed.
Lemma pkcs7_last d : Z.of_N (b2n (last (pkcs7 d) x00)) = 16 - Z.of_nat (length d) mod 16.
Proof.
  unfold pkcs7. pose proof (Nat.mod_upper_bound (length d) 16 ltac:(lia)).
  destruct (16 - length d mod 16)%nat as [|p] eqn:E; [lia|].
  rewrite last_app_ne by discriminate. rewrite last_repeat, b2n_n2b by lia.
  assert (M : Z.of_nat (length d mod 16) = Z.of_nat (length d) mod 16) by apply Nat2Z.inj_mod. lia.
Qed.
Lemma pkcs7_strip d : firstn (length (pkcs7 d) - Z.to_nat (Z.of_N (b2n (last (pkcs7 d) x00)))) (pkcs7 d) = d.
Proof.
  rewrite pkcs7_last.
  assert (M : Z.of_nat (length d mod 16) = Z.of_nat (length d) mod 16) by apply Nat2Z.inj_mod.
  pose proof (Nat.mod_upper_bound (length d) 16 ltac:(lia)).
  replace (length (pkcs7 d) - Z.to_nat (16 - Z.of_nat (length d) mod 16))%nat with (length d).
  - unfold pkcs7. now rewrite firstn_app, firstn_all, Nat.sub_diag, app_nil_r.
  - unfold pkcs7. rewrite app_length, repeat_length. lia.
Qed.
Lemma pkcs7_pad_le d : flen (pkcs7 d) <? Z.of_N (b2n (last (pkcs7 d) x00)) = false.
Proof.
  rewrite pkcs7_last, flen_nat, pkcs7_length. apply Z.ltb_ge.
  pose proof (Z.mod_pos_bound (Z.of_nat (length d)) 16 ltac:(lia)). lia.
Qed.
Lemma pkcs7_pad_16 d : 16 <? Z.of_N (b2n (last (pkcs7 d) x00)) = false.
Proof. rewrite pkcs7_last. apply Z.ltb_ge. pose proof (Z.mod_pos_bound (Z.of_nat (length d)) 16 ltac:(lia)). lia. Qed.
Lemma div16 n : (16 * n / 16 = n)%nat.
Proof. rewrite Nat.mul_comm. apply Nat.div_mul. lia. Qed.
Lemma mod16 n : Z.of_nat (16 * n) mod 16 = 0.
Proof. rewrite Nat2Z.inj_mul, Z.mul_comm. apply Z.mod_mul. lia. Qed.

(** C22 *)
Lemma wrap_unwrap key pk w : wrapKeyV5 key pk = Ok w -> UnwrapKeyV5 pk w = Ok key.
Proof.
  unfold wrapKeyV5, UnwrapKeyV5. destruct (flen pk <? 16) eqn:L; [discriminate|]. cbv zeta. intros E.
  assert (w = ecb (aes_encrypt (firstn 16 pk)) (length (pkcs7 key) / 16) (pkcs7 key)) as -> by congruence. clear E.
  rewrite flen_nat, ecb_length by apply aes_encrypt_length.
  rewrite pkcs7_length, div16.
  destruct (Z.of_nat (16 * (length key / 16 + 1)) =? 0) eqn:Z0; [apply Z.eqb_eq in Z0; lia|].
  rewrite mod16. cbn [Z.eqb negb]. rewrite div16, ecb_roundtrip by apply pkcs7_length.
  now rewrite pkcs7_pad_le, pkcs7_pad_16, pkcs7_strip.
Qed.
Lemma wrap_ok key pk : length pk = 32%nat -> exists w, wrapKeyV5 key pk = Ok w.
Proof. intro H. unfold wrapKeyV5. rewrite flen_nat, H. cbv zeta. eexists. reflexivity. Qed.

Definition salts_ok (r : randoms) : Prop :=
  length (rUserValidation r) = 8%nat /\ length (rUserKey r) = 8%nat.

Lemma setup_ok user owner fid p m r : exists e, SetupAES256Encryption user owner fid p m r = Ok e.
Proof.
  unfold SetupAES256Encryption. cbv zeta.
  destruct (wrap_ok (rKey r) (DeriveEncryptionKeyV5 user fid) (derive_length _ _)) as [u ->].
  destruct (wrap_ok (rKey r) (DeriveEncryptionKeyV5 owner fid) (derive_length _ _)) as [o ->].
  cbn [rbind]. eexists. reflexivity.
Qed.
Record setup_facts user owner fid p m r e : Prop := {
  sf_V : eV e = 5; sf_R : eR e = 5; sf_L : eKeyLength e = 32; sf_P : eP e = p; sf_meta : eMeta e = m; sf_key : eKey e = rKey r;
  sf_U : eU e = computeUValueV5 user (DeriveEncryptionKeyV5 user fid) (rUserValidation r) (rUserKey r);
  sf_O : eO e = computeOValueV5 owner (DeriveEncryptionKeyV5 owner fid) (rOwnerValidation r) (rOwnerKey r) (eU e);
  sf_UE : wrapKeyV5 (rKey r) (DeriveEncryptionKeyV5 user fid) = Ok (eUE e);
  sf_OE : wrapKeyV5 (rKey r) (DeriveEncryptionKeyV5 owner fid) = Ok (eOE e)
}.
Lemma setup_inv user owner fid p m r e : SetupAES256Encryption user owner fid p m r = Ok e -> setup_facts user owner fid p m r e.
Proof.
  unfold SetupAES256Encryption. cbv zeta.
  destruct (wrapKeyV5 (rKey r) (DeriveEncryptionKeyV5 user fid)) as [u| |] eqn:EU; try discriminate.
  destruct (wrapKeyV5 (rKey r) (DeriveEncryptionKeyV5 owner fid)) as [o| |] eqn:EO; try discriminate.
  cbn [rbind]. intro E. assert (E' : forall (A : Type) (f : encryption -> A), f e = f (mkEnc 5 5 32
   (computeOValueV5 owner (DeriveEncryptionKeyV5 owner fid) (rOwnerValidation r) (rOwnerKey r)
          (computeUValueV5 user (DeriveEncryptionKeyV5 user fid) (rUserValidation r) (rUserKey r)))
       (computeUValueV5 user (DeriveEncryptionKeyV5 user fid) (rUserValidation r) (rUserKey r)) u o p m (rKey r))) by congruence.
  constructor; try (rewrite !E'; reflexivity); rewrite !E'; assumption.
Qed.

Lemma u_length pw k v s : length v = 8%nat -> length s = 8%nat -> length (computeUValueV5 pw k v s) = 48%nat.
Proof. intros V S. unfold computeUValueV5. now rewrite !app_length, encrypted_hash_length, V, S. Qed.
Lemma u_salt pw k v s : length v = 8%nat -> firstn 8 (computeUValueV5 pw k v s) = v.
Proof. intro V. unfold computeUValueV5. rewrite <- V. now rewrite firstn_app, firstn_all, Nat.sub_diag, app_nil_r. Qed.
Lemma u_hash pw k v s : length v = 8%nat -> firstn 32 (skipn 8 (computeUValueV5 pw k v s)) = encrypted_hash k (pw ++ v).
Proof.
  intro V. unfold computeUValueV5. rewrite skipn_app, V, Nat.sub_diag, skipn_O, skipn_all2 by (rewrite V; lia). cbn [app].
  rewrite firstn_app, encrypted_hash_length, Nat.sub_diag, firstn_O, app_nil_r.
  apply firstn_all2. rewrite encrypted_hash_length. lia.
Qed.

(** What the verification of a password amounts to. *)
Lemma verify_spec pw k e : (48 <= length (eU e))%nat -> (16 <= length k)%nat ->
  VerifyUValueV5 pw k e = Ok (bytes_eqb (firstn 32 (skipn 8 (eU e))) (encrypted_hash k (pw ++ firstn 8 (eU e)))).
Proof.
  intros LU LK. unfold VerifyUValueV5, ComputeUValueV5. rewrite !flen_nat.
  replace (Z.of_nat (length (eU e)) <? 48) with false by (symmetry; apply Z.ltb_ge; lia).
  replace (Z.of_nat (length k) <? 16) with false by (symmetry; apply Z.ltb_ge; lia).
  cbn [rbind]. f_equal. f_equal.
  assert (L8 : length (firstn 8 (eU e)) = 8%nat) by (rewrite firstn_length; lia).
  exact (u_hash pw k (firstn 8 (eU e)) (firstn 8 (skipn 40 (eU e))) L8).
Qed.

Lemma user_unlocks user owner fid p m r e : salts_ok r ->
  SetupAES256Encryption user owner fid p m r = Ok e -> unlock user fid e = Ok (rKey r).
Proof.
  intros [S1 S2] H. apply setup_inv in H. destruct H as [HV HR HL HP HM HK HU HO HUE HOE].
  unfold unlock. rewrite HR. cbn [Z.leb]. unfold unlock_v5. cbv zeta.
  rewrite verify_spec, HU.
  - rewrite u_hash, u_salt by assumption. rewrite bytes_eqb_refl. cbn [rbind]. unfold UnwrapUserKeyV5. now apply wrap_unwrap.
  - rewrite HU, u_length by assumption. lia.
  - rewrite derive_length. lia.
Qed.
Lemma owner_unlocks user owner fid p m r e : salts_ok r ->
  SetupAES256Encryption user owner fid p m r = Ok e ->
  unlock owner fid e = Ok (rKey r) \/
  owner <> user /\ encrypted_hash (DeriveEncryptionKeyV5 owner fid) (owner ++ rUserValidation r) =
                   encrypted_hash (DeriveEncryptionKeyV5 user fid) (user ++ rUserValidation r).
Proof.
  intros S H. pose proof S as [S1 S2]. pose proof (user_unlocks _ _ _ _ _ _ _ S H) as HUser.
  destruct (list_eq_dec Byte.byte_eq_dec owner user) as [->|NE]; [now left|].
  apply setup_inv in H. destruct H as [HV HR HL HP HM HK HU HO HUE HOE].
  unfold unlock. rewrite HR. cbn [Z.leb]. unfold unlock_v5. cbv zeta.
  rewrite verify_spec, HU.
  - rewrite u_hash, u_salt by assumption. cbn [rbind].
    destruct (bytes_eqb (encrypted_hash (DeriveEncryptionKeyV5 user fid) (user ++ rUserValidation r))
                (encrypted_hash (DeriveEncryptionKeyV5 owner fid) (owner ++ rUserValidation r))) eqn:B.
    + right. split; [exact NE|]. apply bytes_eqb_eq in B. now symmetry.
    + left. unfold UnwrapOwnerKeyV5. now apply wrap_unwrap.
  - rewrite HU, u_length by assumption. lia.
  - rewrite derive_length. lia.
Qed.

(** C23 *)
Lemma unlock_v5_spec pw fid e k : eR e >= 5 -> (48 <= length (eU e))%nat ->
  let pk := DeriveEncryptionKeyV5 pw fid in
  unlock pw fid e = Ok k <->
  (firstn 32 (skipn 8 (eU e)) = encrypted_hash pk (pw ++ firstn 8 (eU e)) /\ UnwrapKeyV5 pk (eUE e) = Ok k) \/
  (firstn 32 (skipn 8 (eU e)) <> encrypted_hash pk (pw ++ firstn 8 (eU e)) /\ UnwrapKeyV5 pk (eOE e) = Ok k).
Proof.
  intros HR LU pk. unfold unlock. replace (5 <=? eR e) with true by (symmetry; apply Z.leb_le; lia).
  unfold unlock_v5. cbv zeta. fold pk. rewrite verify_spec; [|exact LU|unfold pk; rewrite derive_length; lia].
  cbn [rbind]. unfold UnwrapUserKeyV5, UnwrapOwnerKeyV5.
  destruct (bytes_eqb (firstn 32 (skipn 8 (eU e))) (encrypted_hash pk (pw ++ firstn 8 (eU e)))) eqn:B.
  - apply bytes_eqb_eq in B. split; [now left|]. now intros [[_ H]|[N _]].
  - assert (N : firstn 32 (skipn 8 (eU e)) <> encrypted_hash pk (pw ++ firstn 8 (eU e))).
    { intro H. rewrite H, bytes_eqb_refl in B. discriminate. }
    split; [now right|]. now intros [[H _]|[_ H]].
Qed.
Lemma unwrap_spec pk w k : (16 <= length pk)%nat ->
  UnwrapKeyV5 pk w = Ok k <->
  w <> [] /\ (length w mod 16 = 0)%nat /\
  let d := ecb (aes_decrypt (firstn 16 pk)) (length w / 16) w in
  (b2n (last d x00) <= 16)%N /\ k = firstn (length d - N.to_nat (b2n (last d x00))) d.
Proof.
  intro L. unfold UnwrapKeyV5. rewrite !flen_nat.
  replace (Z.of_nat (length pk) <? 16) with false by (symmetry; apply Z.ltb_ge; lia).
  destruct (Z.of_nat (length w) =? 0) eqn:Z0.
  { apply Z.eqb_eq in Z0. destruct w; [|cbn [length] in Z0; lia]. split; [discriminate|]. intros [H _]. congruence. }
  apply Z.eqb_neq in Z0.
  destruct (Z.of_nat (length w) mod 16 =? 0) eqn:M; cbn [negb].
  2:{ apply Z.eqb_neq in M. split; [discriminate|]. intros (_ & H & _). exfalso. apply M.
      change 16 with (Z.of_nat 16). rewrite <- Nat2Z.inj_mod, H. reflexivity. }
  apply Z.eqb_eq in M. change 16 with (Z.of_nat 16) in M. rewrite <- Nat2Z.inj_mod in M.
  assert (M' : (length w mod 16 = 0)%nat) by lia. cbv zeta.
  set (d := ecb (aes_decrypt (firstn 16 pk)) (length w / 16) w).
  assert (LD : length d = length w).
  { unfold d. rewrite ecb_length by apply aes_decrypt_length.
    pose proof (Nat.div_mod (length w) 16 ltac:(lia)) as DM. rewrite M' in DM. lia. }
  assert (W16 : (16 <= length w)%nat).
  { pose proof (Nat.div_mod (length w) 16 ltac:(lia)) as DM. rewrite M' in DM. destruct (length w / 16)%nat; lia. }
  assert (NW : w <> []) by (intros ->; cbn [length] in W16; lia).
  replace (Z.to_nat (Z.of_N (b2n (last d x00)))) with (N.to_nat (b2n (last d x00))) by lia.
  destruct ((Z.of_nat (length d) <? Z.of_N (b2n (last d x00))) || (16 <? Z.of_N (b2n (last d x00)))) eqn:B.
  - split; [discriminate|]. intros (_ & _ & H & _). apply orb_prop in B.
    destruct B as [B|B]; apply Z.ltb_lt in B; lia.
  - apply orb_false_iff in B. destruct B as [B1 B2]. apply Z.ltb_ge in B2.
    split.
    + intro H. repeat split; try assumption; [lia|congruence].
    + intros (_ & _ & _ & ->). reflexivity.
Qed.

(** C24 *)
Lemma cut_ok n s : 0 <= n <= flen s -> cut n s = Ok (firstn (Z.to_nat n) s).
Proof. intros H. unfold cut. replace ((0 <=? n) && (n <=? flen s)) with true; [reflexivity|]. symmetry. apply andb_true_iff. lia. Qed.
Lemma key_prefix_length n d : length (key_prefix n (md5 d)) = Z.to_nat (Z.max 0 (Z.min (n + 5) 16)).
Proof. unfold key_prefix. rewrite firstn_length, md5_length. lia. Qed.

Lemma stream_roundtrip iv e data num gen c : length iv = 16%nat -> (eV e = 4 \/ eV e = 5) -> eKeyLength e <> 0 ->
  encryptStream iv e data num gen = Ok c -> DecryptObject e c num gen = Ok data.
Proof.
  intros LI HV HK. unfold encryptStream, DecryptObject.
  destruct (eKey e) as [|kb kr] eqn:EK; [congruence|]. rewrite <- EK. clear kb kr EK.
  replace (eKeyLength e =? 0) with false by (symmetry; now apply Z.eqb_neq).
  replace (1 <? eV e) with true by (symmetry; apply Z.ltb_lt; lia).
  cbv zeta.
  destruct (key_data (eKeyLength e) (eKey e) num gen) as [kd| |]; try discriminate. cbn [rbind].
  replace ((eV e =? 4) || (eV e =? 5)) with true by (symmetry; apply orb_true_iff; rewrite !Z.eqb_eq; exact HV).
  replace ((eV e =? 1) || (eV e =? 2)) with false by (symmetry; apply orb_false_iff; rewrite !Z.eqb_neq; lia).
  set (key := key_prefix (eKeyLength e) (md5 (kd ++ salt))).
  destruct (flen key =? 16) eqn:K16; cbn [negb]; [|discriminate]. intros E.
  assert (c = iv ++ cbc_encrypt key iv (length (pkcs7 data) / 16) (pkcs7 data)) as -> by congruence. clear E.
  rewrite firstn_app, skipn_app, LI, Nat.sub_diag, firstn_O, skipn_O, app_nil_r.
  rewrite (firstn_all2 iv), (skipn_all2 iv) by (rewrite LI; lia). cbn [app].
  rewrite pkcs7_length, div16. set (nb := (length data / 16 + 1)%nat).
  assert (LC : length (cbc_encrypt key iv nb (pkcs7 data)) = (16 * nb)%nat) by apply cbc_encrypt_length.
  rewrite !flen_nat, app_length, LC, LI.
  replace (Z.of_nat (16 + 16 * nb) <? 16) with false by (symmetry; apply Z.ltb_ge; lia).
  replace (Z.of_nat (16 * nb) =? 0) with false by (symmetry; apply Z.eqb_neq; unfold nb; lia).
  rewrite mod16. cbn [Z.eqb negb]. rewrite div16.
  rewrite cbc_roundtrip by (try assumption; apply pkcs7_length).
  fold (flen (pkcs7 data)). now rewrite pkcs7_pad_le, pkcs7_strip.
Qed.
Lemma stream_encrypts iv e data num gen : 11 <= eKeyLength e <= flen (eKey e) -> exists c, encryptStream iv e data num gen = Ok c.
Proof.
  intros HK. unfold encryptStream. destruct (eKey e) as [|kb kr] eqn:EK; [eexists; reflexivity|]. rewrite <- EK in *. clear kb kr EK.
  replace (eKeyLength e =? 0) with false by (symmetry; apply Z.eqb_neq; lia). cbv zeta.
  unfold key_data. rewrite cut_ok by lia. cbn [rbind].
  destruct ((eV e =? 4) || (eV e =? 5)); [|eexists; reflexivity].
  rewrite flen_nat, key_prefix_length. replace (Z.of_nat (Z.to_nat (Z.max 0 (Z.min (eKeyLength e + 5) 16))) =? 16) with true
   by (symmetry; apply Z.eqb_eq; lia).
  cbn [negb]. eexists; reflexivity.
Qed.
Lemma decrypt_no_panic e c num gen : (if 1 <? eV e then 0 <= eKeyLength e <= flen (eKey e) else 5 <= flen (eKey e)) ->
  DecryptObject e c num gen <> Panic.
Proof.
  intro H. unfold DecryptObject. destruct (eKey e) as [|kb kr] eqn:EK; [discriminate|]. rewrite <- EK in *. clear kb kr EK. cbv zeta.
  unfold key_data. rewrite cut_ok by (destruct (1 <? eV e); lia). cbn [rbind].
  repeat match goal with |- context [if ?b then _ else _] => destruct b end; try discriminate;
  unfold rc4_checked; repeat match goal with |- context [if ?b then _ else _] => destruct b end; discriminate.
Qed.
Lemma decrypt_bad_length e c num gen : eKey e <> [] -> (eV e = 4 \/ eV e = 5) -> 0 <= eKeyLength e <= flen (eKey e) ->
  (length c < 16 \/ length c mod 16 <> 0)%nat -> DecryptObject e c num gen = Err.
Proof.
  intros NK HV HK HL. unfold DecryptObject. destruct (eKey e) as [|kb kr] eqn:EK; [congruence|]. rewrite <- EK in *. clear kb kr EK. cbv zeta.
  replace (1 <? eV e) with true by (symmetry; apply Z.ltb_lt; lia).
  unfold key_data. rewrite cut_ok by lia. cbn [rbind].
  replace ((eV e =? 4) || (eV e =? 5)) with true by (symmetry; apply orb_true_iff; rewrite !Z.eqb_eq; exact HV).
  replace ((eV e =? 1) || (eV e =? 2)) with false by (symmetry; apply orb_false_iff; rewrite !Z.eqb_neq; lia).
  rewrite !flen_nat. destruct (Z.of_nat (length c) <? 16) eqn:L; [reflexivity|]. apply Z.ltb_ge in L.
  destruct HL as [HL|HL]; [lia|].
  rewrite skipn_length.
  assert (M : Z.of_nat (length c - 16) mod 16 <> 0).
  { replace (Z.of_nat (length c - 16)) with (Z.of_nat (length c) + (-1) * 16) by lia.
    rewrite Z.mod_add by lia. change 16 with (Z.of_nat 16) at 1. rewrite <- Nat2Z.inj_mod. lia. }
  destruct (Z.of_nat (length c - 16) =? 0) eqn:Z0. { apply Z.eqb_eq in Z0. rewrite Z0 in M. now cbn in M. }
  apply Z.eqb_neq in M. now rewrite M.
Qed.

(** RC4 documents: encrypting with the key of an object and decrypting. *)
Lemma rc4_decrypts e data num gen c : DecryptObject e data num gen = Ok c -> (eV e = 1 \/ eV e = 2) ->
  DecryptObject e c num gen = Ok data.
Proof.
  unfold DecryptObject. destruct (eKey e) as [|kb kr] eqn:EK; [congruence|]. rewrite <- EK in *. clear kb kr EK. cbv zeta.
  intros H HV. destruct (key_data _ (eKey e) num gen) as [kd| |]; try discriminate. cbn [rbind] in *.
  replace ((eV e =? 1) || (eV e =? 2)) with true in * by (symmetry; apply orb_true_iff; rewrite !Z.eqb_eq; exact HV).
  unfold rc4_checked in *. destruct ((1 <=? _) && _); [|discriminate]. injection H as <-. now rewrite rc4_involution.
Qed.

(** Keys of different objects come from different hash inputs. *)
Lemma key_data_inj n key num gen num' gen' d : 0 <= num < 2 ^ 24 -> 0 <= gen < 2 ^ 16 -> 0 <= num' < 2 ^ 24 -> 0 <= gen' < 2 ^ 16 ->
  key_data n key num gen = Ok d -> key_data n key num' gen' = Ok d -> num = num' /\ gen = gen'.
Proof.
  intros H1 H2 H3 H4. unfold key_data. destruct (cut n key) as [k| |]; try discriminate. cbn [rbind]. intros E1 E2.
  assert (E : k ++ map n2b [Z.to_N (num mod 256); Z.to_N (num / 256 mod 256); Z.to_N (num / 65536 mod 256);
                    Z.to_N (gen mod 256); Z.to_N (gen / 256 mod 256)] =
   k ++ map n2b [Z.to_N (num' mod 256); Z.to_N (num' / 256 mod 256); Z.to_N (num' / 65536 mod 256);
                    Z.to_N (gen' mod 256); Z.to_N (gen' / 256 mod 256)]) by congruence.
  apply app_inv_head in E. cbn [map] in E.
  assert (I : forall a b, n2b (Z.to_N (a mod 256)) = n2b (Z.to_N (b mod 256)) -> a mod 256 = b mod 256).
  { intros a b Hab. apply (f_equal b2n) in Hab. pose proof (Z.mod_pos_bound a 256 ltac:(lia)). pose proof (Z.mod_pos_bound b 256 ltac:(lia)).
    rewrite !b2n_n2b in Hab by lia. lia. }
  assert (E0 := f_equal (fun l => nth 0 l x00) E). assert (E3 := f_equal (fun l => nth 1 l x00) E).
  assert (E4 := f_equal (fun l => nth 2 l x00) E). assert (E5 := f_equal (fun l => nth 3 l x00) E). assert (E6 := f_equal (fun l => nth 4 l x00) E).
  cbn [nth] in E0, E3, E4, E5, E6. apply I in E0, E3, E4, E5, E6.
  assert (D : forall a, 0 <= a < 2 ^ 24 -> a = a mod 256 + 256 * (a / 256 mod 256) + 65536 * (a / 65536 mod 256)).
  { intros a Ha. pose proof (Z.div_mod a 256 ltac:(lia)). pose proof (Z.div_mod (a / 256) 256 ltac:(lia)).
    rewrite Z.div_div in * by lia. change (256 * 256) with 65536 in *.
    assert (a / 65536 < 256) by (apply Z.div_lt_upper_bound; lia). assert (0 <= a / 65536) by (apply Z.div_pos; lia).
    rewrite (Z.mod_small (a / 65536)) by lia. lia. }
  assert (D2 : forall a, 0 <= a < 2 ^ 16 -> a = a mod 256 + 256 * (a / 256 mod 256)).
  { intros a Ha. pose proof (Z.div_mod a 256 ltac:(lia)).
    assert (a / 256 < 256) by (apply Z.div_lt_upper_bound; lia). assert (0 <= a / 256) by (apply Z.div_pos; lia).
    rewrite (Z.mod_small (a / 256)) by lia. lia. }
  rewrite (D num), (D num'), (D2 gen), (D2 gen') by assumption. rewrite E0, E3, E4, E5, E6. split; reflexivity.
Qed.
