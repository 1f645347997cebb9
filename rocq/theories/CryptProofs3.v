(** The older handlers; documents made by the writer; reading objects. *)
From Verif Require Import CryptModel CryptSpec PrimProofs Util Scan WriterSpec WriterProofs ParseSpec ParseProofs XrefProofs ReadProofs ManipProofs ManipProofs2 CryptProofs CryptProofs2.
Local Open Scope Z_scope.

(* ---------------------------------------------------------------- *)
(** RC4 and MD5 handlers *)

Lemma pads_agree pw : full_password pw -> pad_password pw = iso_pad pw.
Proof.
  intros [->|H]; [reflexivity|]. unfold pad_password, iso_pad. destruct pw as [|b pw]; [cbn [length] in H; lia|].
  remember (b :: pw) as q. replace (32 - length q)%nat with 0%nat by lia. cbn [seq map]. rewrite app_nil_r.
  rewrite firstn_app. replace (32 - length q)%nat with 0%nat by lia. now rewrite firstn_O, app_nil_r.
Qed.
Lemma iso_pad_length pw : length (iso_pad pw) = 32%nat.
Proof. unfold iso_pad. rewrite firstn_length, app_length. change (length iso_padding) with 32%nat. lia. Qed.
Lemma iter_succ_r {A} (f : A -> A) x k : Nat.iter (S k) f x = Nat.iter k f (f x).
Proof. induction k as [|k IH]; [reflexivity|]. change (f (Nat.iter (S k) f x) = f (Nat.iter k f (f x))). now rewrite IH. Qed.
Lemma rounds_ok k n h : 1 <= n <= 16 -> length h = 16%nat ->
  md5_rounds k n h = Ok (iterate k (fun h => md5 (firstn (Z.to_nat n) h)) h) /\
  length (iterate k (fun h => md5 (firstn (Z.to_nat n) h)) h) = 16%nat.
Proof.
  intro Hn. revert h. induction k as [|k IH]; intros h Hh; [now split|].
  cbn [md5_rounds]. rewrite cut_ok by (rewrite flen_nat; lia). cbn [rbind].
  destruct (IH (md5 (firstn (Z.to_nat n) h)) (md5_length _)) as [-> L].
  unfold iterate in *. rewrite iter_succ_r. now split.
Qed.
Lemma truncate_ok n h : 1 <= n <= 16 -> length h = 16%nat -> truncate n h = Ok (firstn (Z.to_nat n) h).
Proof.
  intros Hn Hh. unfold truncate. rewrite flen_nat, Hh. destruct (n <? Z.of_nat 16) eqn:L.
  - apply cut_ok. rewrite flen_nat. lia.
  - apply Z.ltb_ge in L. rewrite firstn_all2 by lia. reflexivity.
Qed.
Lemma derive_iso pw e id : eR e < 5 -> 2 <= eR e -> 1 <= eKeyLength e <= 16 -> (eR e = 4 \/ eMeta e = true) ->
  pad_password pw = iso_pad pw ->
  DeriveEncryptionKey pw e id = Ok (iso_key (eR e) (Z.to_nat (eKeyLength e)) pw (eO e) (eP e) id (eMeta e)).
Proof.
  intros H1 H2 H3 H4 Hp. unfold DeriveEncryptionKey, iso_key. replace (5 <=? eR e) with false by (symmetry; apply Z.leb_gt; lia).
  cbv zeta. rewrite Hp.
  replace (if (4 <=? eR e) && negb (eMeta e) then repeat xff 4 else []) with (if eMeta e then [] else [xff; xff; xff; xff]).
  2:{ destruct H4 as [-> | ->]; [destruct (eMeta e); reflexivity|]. now rewrite andb_false_r. }
  set (h := md5 _). assert (Lh : length h = 16%nat) by apply md5_length.
  destruct (3 <=? eR e).
  - destruct (rounds_ok 50 (eKeyLength e) h H3 Lh) as [-> L]. cbn [rbind]. now apply truncate_ok.
  - cbn [rbind]. now apply truncate_ok.
Qed.
Lemma iter_md5_length n k : forall h, length h = 16%nat -> length (Nat.iter k (fun h => md5 (firstn n h)) h) = 16%nat.
Proof. induction k as [|k IH]; intros h H; [exact H|]. rewrite iter_succ_r. apply IH, md5_length. Qed.
Lemma iso_key_length r n pw o p id m : (n <= 16)%nat -> length (iso_key r n pw o p id m) = n.
Proof.
  intro H. unfold iso_key. cbv zeta. rewrite firstn_length. destruct (3 <=? r); [|rewrite md5_length; lia].
  unfold iterate. rewrite iter_md5_length by apply md5_length. lia.
Qed.
Lemma rc4_passes is key : forall d, rc4_rounds (map N.of_nat is) key d = fold_left (fun d i => rc4 (map (fun b => bxor b (n2b (N.of_nat i))) key) d) is d.
Proof. induction is as [|i is IH]; intro d; [reflexivity|]. cbn [map rc4_rounds fold_left]. apply IH. Qed.
Lemma passes_length key l : forall d, length (fold_left (fun d i => rc4 (map (fun b => bxor b (n2b (N.of_nat i))) key) d) l d) = length d.
Proof. induction l as [|i l IH]; intro d; [reflexivity|]. cbn [fold_left]. now rewrite IH, rc4_length. Qed.
Lemma compute_iso key e id : 2 <= eR e < 5 -> (1 <= length key <= 16)%nat ->
  exists rest, ComputeUValue key e id = Ok (iso_user (eR e) key id ++ rest).
Proof.
  intros HR HK. unfold ComputeUValue, iso_user, rc4_checked. change iso_padding with padding_string. rewrite flen_nat.
  replace ((1 <=? Z.of_nat (length key)) && (Z.of_nat (length key) <=? 256)) with true by (symmetry; apply andb_true_iff; lia).
  destruct (eR e =? 2) eqn:R2.
  - exists []. rewrite app_nil_r. reflexivity.
  - apply Z.eqb_neq in R2. replace ((3 <=? eR e) && (eR e <? 5)) with true by (symmetry; apply andb_true_iff; lia). cbn [rbind].
    exists (repeat x00 16). rewrite rc4_passes. unfold iso_passes. reflexivity.
Qed.
Lemma iso_user_length r key id : (16 <= length (iso_user r key id))%nat.
Proof.
  unfold iso_user, iso_passes. destruct (r =? 2).
  - rewrite rc4_length. change (length iso_padding) with 32%nat. lia.
  - rewrite passes_length, rc4_length, md5_length. lia.
Qed.
Lemma same16_prefix a x y : (16 <= length a)%nat -> same16 (a ++ x) (a ++ y) = true.
Proof.
  intro H. unfold same16. rewrite !flen_nat, !app_length, !firstn_app.
  replace (16 - length a)%nat with 0%nat by lia. rewrite !firstn_O, !app_nil_r, bytes_eqb_refl, andb_true_r. apply andb_true_iff. lia.
Qed.
Lemma user_opens_iso user owner id e : conforming user owner id e -> full_password user ->
  unlock user id e = Ok (document_key user id e).
Proof.
  intros (HR & HK & H5 & HM & HO & rest & HU) HF. unfold unlock. replace (5 <=? eR e) with false by (symmetry; apply Z.leb_gt; lia).
  unfold unlock_v4. rewrite derive_iso by (try lia; auto using pads_agree). cbn [rbind].
  set (key := iso_key _ _ _ _ _ _ _) in *.
  destruct (compute_iso key e id) as [r2 ->]; [lia|unfold key; rewrite iso_key_length; lia|]. cbn [rbind].
  rewrite HU, same16_prefix by apply iso_user_length. reflexivity.
Qed.
(** Revision 2: the owner password. *)
Lemma firstn_pad user : firstn 32 (iso_pad user) = iso_pad user.
Proof. apply firstn_all2. rewrite iso_pad_length. lia. Qed.
Lemma pad_of_pad user : pad_password (iso_pad user) = iso_pad (iso_pad user) /\ iso_pad (iso_pad user) = iso_pad user.
Proof.
  assert (L := iso_pad_length user). split; [apply pads_agree; right; lia|].
  unfold iso_pad at 1. rewrite firstn_app, L. change (32 - 32)%nat with 0%nat. rewrite firstn_O, app_nil_r. apply firstn_all2. lia.
Qed.
Lemma owner_opens_iso user owner id e : conforming user owner id e -> full_password owner -> eR e = 2 ->
  unlock owner id e = Ok (document_key user id e) \/
  (exists u k, DeriveEncryptionKey owner e id = Ok k /\ ComputeUValue k e id = Ok u /\ same16 u (eU e) = true /\ unlock owner id e = Ok k).
Proof.
  intros (HR & HK & H5 & HM & HO & rest & HU) HF R2. unfold unlock. rewrite R2 in *. change (5 <=? 2) with false. cbv iota.
  unfold unlock_v4.
  rewrite (derive_iso owner) by (try rewrite R2; try lia; auto using pads_agree). cbn [rbind]. rewrite R2.
  set (k := iso_key 2 _ owner _ _ _ _).
  destruct (compute_iso k e id) as [r2 Eu]; [lia|unfold k; rewrite iso_key_length; lia|]. rewrite Eu. cbn [rbind].
  destruct (same16 (iso_user (eR e) k id ++ r2) (eU e)) eqn:S.
  - right. exists (iso_user (eR e) k id ++ r2), k. now repeat split.
  - left. unfold DeriveOwnerKey. rewrite R2. change (5 <=? 2) with false. change (3 <=? 2) with false. change (2 =? 2) with true. cbv iota. cbn [rbind].
    rewrite truncate_ok by (try apply md5_length; lia). cbn [rbind]. rewrite pads_agree by assumption.
    assert (HK5 : eKeyLength e = 5) by auto.
    unfold rc4_checked. rewrite flen_nat, firstn_length, md5_length.
    replace ((1 <=? _) && _) with true by (symmetry; apply andb_true_iff; lia). cbn [rbind].
    assert (EO : rc4 (firstn (Z.to_nat (eKeyLength e)) (md5 (iso_pad owner))) (eO e) = iso_pad user).
    { rewrite HO. unfold iso_owner. change (3 <=? 2) with false. cbv iota zeta. apply rc4_involution. }
    rewrite EO. destruct (pad_of_pad user) as [P1 P2].
    rewrite derive_iso by (try rewrite R2; try lia; auto). rewrite R2.
    assert (EK : iso_key 2 (Z.to_nat (eKeyLength e)) (iso_pad user) (eO e) (eP e) id (eMeta e) = document_key user id e).
    { unfold document_key. rewrite R2. unfold iso_key. now rewrite P2. }
    rewrite EK. destruct (compute_iso (document_key user id e) e id) as [r3 ->]; [lia|unfold document_key; rewrite iso_key_length; lia|].
    unfold document_key. rewrite R2, HU, same16_prefix by apply iso_user_length. reflexivity.
Qed.
(** What acceptance means for these handlers. *)
Lemma v4_accept pw id e k : eR e < 5 -> unlock pw id e = Ok k ->
  exists u, ComputeUValue k e id = Ok u /\ firstn 16 u = firstn 16 (eU e) /\ (16 <= length u)%nat /\ (16 <= length (eU e))%nat /\
    (DeriveEncryptionKey pw e id = Ok k \/ DeriveOwnerKey pw e id = Ok k).
Proof.
  intro HR. unfold unlock. replace (5 <=? eR e) with false by (symmetry; apply Z.leb_gt; lia). unfold unlock_v4.
  assert (S : forall u, same16 u (eU e) = true -> firstn 16 u = firstn 16 (eU e) /\ (16 <= length u)%nat /\ (16 <= length (eU e))%nat).
  { intros u H. unfold same16 in H. rewrite !flen_nat in H. apply andb_prop in H. destruct H as [H H3]. apply andb_prop in H. destruct H as [H1 H2].
    apply bytes_eqb_eq in H3. repeat split; [exact H3|lia|lia]. }
  destruct (DeriveEncryptionKey pw e id) as [k1| |] eqn:E1; try discriminate. cbn [rbind].
  destruct (ComputeUValue k1 e id) as [u| |] eqn:E2; try discriminate. cbn [rbind].
  destruct (same16 u (eU e)) eqn:E3.
  - intro E. assert (k1 = k) as -> by congruence. destruct (S u E3) as (A & B & C). exists u. repeat split; auto.
  - destruct (DeriveOwnerKey pw e id) as [k2| |] eqn:E4; try discriminate.
    destruct (ComputeUValue k2 e id) as [u2| |] eqn:E5; try discriminate.
    destruct (same16 u2 (eU e)) eqn:E6; [|discriminate]. intro E. assert (k2 = k) as -> by congruence.
    destruct (S u2 E6) as (A & B & C). exists u2. repeat split; auto.
Qed.
Lemma long_key_panics pw id e : 3 <= eR e < 5 -> 16 < eKeyLength e -> unlock pw id e = Panic.
Proof.
  intros HR HK. unfold unlock. replace (5 <=? eR e) with false by (symmetry; apply Z.leb_gt; lia). unfold unlock_v4, DeriveEncryptionKey.
  replace (5 <=? eR e) with false by (symmetry; apply Z.leb_gt; lia). replace (3 <=? eR e) with true by (symmetry; apply Z.leb_le; lia).
  cbv zeta. set (h := md5 _). assert (Lh : length h = 16%nat) by apply md5_length.
  cbn [md5_rounds]. unfold cut at 1. rewrite flen_nat, Lh. replace (eKeyLength e <=? Z.of_nat 16) with false by (symmetry; apply Z.leb_gt; lia).
  rewrite andb_false_r. reflexivity.
Qed.

(* ---------------------------------------------------------------- *)
(** A written document *)

Lemma catalog_other w n : rootRef w <> Some n -> mget n (objects (updateCatalogWithOutlines w)) = mget n (objects w).
Proof.
  intro H. unfold updateCatalogWithOutlines. destruct (outlinesRef w); [|reflexivity]. destruct (rootRef w) as [r|]; [|reflexivity].
  assert (N : n =? r = false) by (apply Z.eqb_neq; congruence).
  destruct (r =? 0); [reflexivity|]. destruct (mget r (objects w)) as [o|]; [|reflexivity].
  destruct (oDict o) as [a|].
  - destruct (mget a (dicts w)); [|reflexivity]. cbn [objects set_dicts set_objects]. now rewrite mget_mset, N.
  - destruct (contains (bs "/Type") _ && contains (bs "/Pages") _).
    + cbn [objects set_dicts set_objects]. now rewrite mget_mset, N.
    + destruct (contains (bs "/Outlines") _); [reflexivity|]. destruct (last_index (bs ">>") _) as [[|i]|]; try reflexivity.
      cbn [objects set_objects]. now rewrite mget_mset, N.
Qed.
Lemma table_line next ps : exists x, xref_table next ps = x ++ nl.
Proof.
  unfold xref_table. rewrite !app_assoc. set (hd := ((((bs "xref" ++ nl) ++ bs "0 ") ++ decZ next) ++ nl) ++ bs "0000000000 65535 f ").
  assert (H : forall l, exists x, (hd ++ nl) ++ flat_map (table_entry ps) l = x ++ nl).
  { induction l as [|i l IH] using rev_ind; [exists hd; cbn [flat_map]; now rewrite app_nil_r|].
    rewrite flat_map_app. cbn [flat_map]. rewrite app_nil_r.
    assert (E : exists y, table_entry ps i = y ++ nl).
    { unfold table_entry. destruct (mget i ps); [|eexists; reflexivity]. eexists. rewrite app_assoc. reflexivity. }
    destruct E as [y ->]. eexists. rewrite !app_assoc. reflexivity. }
  apply H.
Qed.
Lemma xs_line deflate next buflen ps sm : exists x, writeXRefStream deflate next buflen ps sm = x ++ nl.
Proof.
  unfold writeXRefStream. destruct (xs_widths buflen ps sm) as [w2 w3]. cbv zeta.
  eexists. rewrite !app_assoc. reflexivity.
Qed.
Lemma trailer_same w next : trailer_text (updateCatalogWithOutlines w) next = trailer_text w next.
Proof. unfold trailer_text. destruct (update_catalog_fields w) as (_ & _ & _ & _ & -> & -> & -> & ->). reflexivity. Qed.
Lemma written_file deflate order enc w n d out : is_order order -> useObjectStream w = false -> rootRef w <> Some n ->
  mget n (objects w) = Some (mkObj (Some d) None None) -> fst (Write deflate order enc w) = out ->
  exists pre mid size tail, out = encrypted_file pre n d mid w size tail.
Proof.
  intros Hord Hs Hr Hm Hout. unfold Write in Hout.
  destruct (update_catalog_fields w) as (Ux & Us & Un & Uv & _).
  pose proof (trailer_same w) as HT. rewrite <- (catalog_other w n Hr) in Hm. set (w1 := updateCatalogWithOutlines w) in *.
  rewrite createObjectStreams_off in Hout by (rewrite Us; exact Hs). cbv zeta in Hout.
  destruct (write_objs enc (objects w1) [] (dicts w1) (Z.of_nat (length (pdf_header (pdfVersion w1))))
              (sortZ (order (mkeys (objects w1))))) as [[body ps] h] eqn:Ew.
  assert (Hin : forall n, In n (sortZ (order (mkeys (objects w1)))) <-> mget n (objects w1) <> None).
  { intros k. rewrite sortZ_in. split; intros H.
    - apply (Permutation_in k (Hord _)) in H. apply mkeys_in in H. destruct H as [v Hv']. congruence.
    - apply (Permutation_in k (Permutation_sym (Hord _))). apply mkeys_in.
      destruct (mget k (objects w1)) as [v|]; [eauto|congruence]. }
  destruct (write_objs_spec _ _ _ _ _ _ _ _ Ew) as [_ P2].
  { apply sortZ_nodup. apply (Permutation_NoDup (Permutation_sym (Hord _))). apply mkeys_nodup. }
  { lia. }
  { intros k Hk. now apply Hin. }
  destruct (P2 n) as (o & hn & pre & post & Eo & _ & Eb & _). { apply Hin. congruence. }
  assert (o = mkObj (Some d) None None) as -> by congruence.
  change (body_of enc hn n (mkObj (Some d) None None)) with d in Eb.
  destruct (useXRefStream w1).
  - cbn [fst] in Hout. destruct (xs_line deflate (nextObjNum w1) (Z.of_nat (length (pdf_header (pdfVersion w1) ++ body))) ps []) as [x Ex]. rewrite Ex in Hout.
    exists (pdf_header (pdfVersion w1) ++ pre), (post ++ x), (nextObjNum w1 + 1). eexists. rewrite <- Hout, Eb. unfold encrypted_file. rewrite HT.
    rewrite <- !app_assoc. reflexivity.
  - cbn [fst] in Hout. destruct (table_line (nextObjNum w1) ps) as [x Ex]. rewrite Ex in Hout.
    exists (pdf_header (pdfVersion w1) ++ pre), (post ++ x), (nextObjNum w1). eexists. rewrite <- Hout, Eb. unfold encrypted_file. rewrite HT.
    rewrite <- !app_assoc. reflexivity.
Qed.

Lemma wrap_length key pk w : wrapKeyV5 key pk = Ok w -> length w = (16 * (length key / 16 + 1))%nat.
Proof.
  unfold wrapKeyV5. destruct (flen pk <? 16); [discriminate|]. cbv zeta. intro E.
  assert (w = ecb (aes_encrypt (firstn 16 pk)) (length (pkcs7 key) / 16) (pkcs7 key)) as -> by congruence.
  rewrite ecb_length by apply aes_encrypt_length. now rewrite pkcs7_length, div16.
Qed.
Lemma o_length pw k v s u : length v = 8%nat -> length s = 8%nat -> length (computeOValueV5 pw k v s u) = 48%nat.
Proof. intros V S. unfold computeOValueV5. now rewrite !app_length, encrypted_hash_length, V, S. Qed.
Lemma ne_length {A} (l : list A) k : length l = S k -> l <> [].
Proof. destruct l; discriminate. Qed.
Lemma mid_length p u o ue oe m : - 2 ^ 31 <= p < 2 ^ 31 -> length u = 48%nat -> length o = 48%nat -> length ue = 48%nat -> length oe = 48%nat ->
  (length (bs "<<" ++ dict_mid p u o ue oe (meta_line m) ++ bs ">>") <= 1999)%nat.
Proof.
  intros Hp H1 H2 H3 H4. unfold dict_mid. rewrite !app_length, !hexX_length, H1, H2, H3, H4.
  assert (L : (length (decZ p) <= 20)%nat).
  { destruct (Z.leb_spec 0 p).
    - pose proof (decZ_length63 p ltac:(lia)). lia.
    - replace (decZ p) with (bs "-" ++ decZ (- p)).
      + rewrite app_length. pose proof (decZ_length63 (- p) ltac:(lia)). change (length (bs "-")) with 1%nat. lia.
      + unfold decZ. destruct p; try lia. reflexivity. }
  assert (ML : (length (meta_line m) <= 23)%nat) by (destruct m; cbn; lia).
  repeat match goal with |- context [length (bs ?s)] => let k := eval vm_compute in (length (bs s)) in change (length (bs s)) with k end.
  change (length nl) with 1%nat. lia.
Qed.
Lemma opens_written user owner fid p m r e pre n mid w size tail :
  random_sizes r -> - 2 ^ 31 <= p < 2 ^ 31 -> 0 <= n < 2 ^ 63 -> fid <> [] ->
  SetupAES256Encryption user owner fid p m r = Ok e -> encryptRef w = Some n -> fileID w = fid ->
  quiet pre -> quiet mid ->
  let f := encrypted_file pre n (CreateEncryptionDictionary e) mid w size tail in
  index (decZ n ++ bs " 0 obj") f = Some (length pre) ->
  DecryptPDF f user = Ok (f, e) /\ (DecryptPDF f owner = Ok (f, e) \/ collision owner user fid (rUserValidation r)).
Proof.
  intros (R1 & R2 & R3 & R4 & R5) Hp Hn Hf HS Hw Hid Q1 Q2 f Hix.
  assert (SO : salts_ok r) by (split; assumption).
  pose proof (user_unlocks _ _ _ _ _ _ _ SO HS) as HU. pose proof (owner_unlocks _ _ _ _ _ _ _ SO HS) as HO.
  pose proof (setup_inv _ _ _ _ _ _ _ HS) as [FV FR FL FP FM FK FU FO FUE FOE].
  assert (LU : length (eU e) = 48%nat) by (rewrite FU; now apply u_length).
  assert (LO : length (eO e) = 48%nat) by (rewrite FO; now apply o_length).
  assert (LUE : length (eUE e) = 48%nat) by (rewrite (wrap_length _ _ _ FUE), R1; reflexivity).
  assert (LOE : length (eOE e) = 48%nat) by (rewrite (wrap_length _ _ _ FOE), R1; reflexivity).
  assert (KK : set_key (rKey r) e = e) by (rewrite <- FK; destruct e; reflexivity).
  assert (KE : forall pw, unlock pw fid (set_key [] e) = unlock pw fid e) by (intro; destruct e; reflexivity).
  assert (NZ : forall (l : bytes), length l = 48%nat -> l <> []) by (intros l Hl; eapply ne_length, Hl).
  assert (DF : forall pw k, unlock pw fid e = Ok k -> DecryptPDF f pw = Ok (f, set_key k e)).
  { intros pw k E. unfold f, encrypted_file. apply decrypt_found; auto.
    - now rewrite FP.
    - rewrite dict_text by (auto). rewrite FP. now apply mid_length.
    - now rewrite Hid.
    - rewrite Hid, KE. exact E. }
  split; [rewrite (DF _ _ HU); now rewrite KK|].
  destruct HO as [HO|HO]; [left; rewrite (DF _ _ HO); now rewrite KK|right; exact HO].
Qed.

(* ---------------------------------------------------------------- *)
(** Reading objects of an encrypted document *)

Definition header_of (n : Z) : bytes := decZ n ++ bs " 0 obj" ++ nl.
Lemma get_direct_head dec f pre n t post : 0 <= n < 2 ^ 63 -> f = pre ++ obj_text n t ++ post ->
  GetDirectObject dec f n (flen pre) = read_object dec n 0 (obj_text n t ++ post).
Proof.
  intros Hn ->. unfold GetDirectObject, flen, from. rewrite Nat2Z.id, skipn_app_exact.
  rewrite lt_app; [|unfold obj_text; pose proof (decZ_nonnil n); destruct (decZ n); [congruence|discriminate]].
  replace (Z.of_nat (length pre) <? 0) with false by lia. cbn [orb].
  assert (exists r, take 50 (obj_text n t ++ post) = decZ n ++ bs " 0 obj" ++ r) as [r ->].
  { unfold obj_text. rewrite <- !app_assoc. pose proof (decZ_length63 n Hn).
    rewrite take_app_l by lia. rewrite take_app_l by (change (length (bs " 0 obj")) with 6%nat; lia). eauto. }
  rewrite m_objnum_here by lia. reflexivity.
Qed.
(** The content the reader sees. *)
Lemma read_content dec n t rest : 0 <= n -> contains (bs "endobj") t = false -> t <> [] ->
  match t with [] => True | b :: _ => is_blank b = false end ->
  read_object dec n 0 (obj_text n t ++ rest) =
  let content := t ++ nl in
  match index (bs "stream") content with
  | Some st =>
      let cut := match index (bs "endstream") content with
                 | Some k => Ok (firstn (k + 9) content)
                 | None => let data := obj_text n t ++ rest in let e := length (header_of n ++ content) in
                     if (length data <? e + 9)%nat then Panic else Ok (sub (length (header_of n)) (e + 9) data)
                 end in
      rbind cut (fun content =>
      rbind (match dec with None => Ok content | Some d => decrypt_stream d n 0 st content end)
        (fun content => Ok (obj_result n 0 content)))
  | None =>
      match dec with
      | None => Ok (obj_result n 0 content)
      | Some d => match d content n 0 with
                  | Panic => Panic
                  | Err => Ok (obj_result n 0 content)
                  | Ok p => Ok (obj_result n 0 p)
                  end
      end
  end.
Proof.
  intros Hn R1 Hne R4. unfold read_object. cbv zeta.
  set (H := header_of n).
  assert (obj_text n t ++ rest = (H ++ t ++ nl) ++ bs "endobj" ++ nl ++ rest) as ED.
  { unfold obj_text, H, header_of. rewrite <- !app_assoc. reflexivity. }
  rewrite ED.
  assert (nostart (bs "endobj") (H ++ t ++ nl)) as Hns.
  { apply nostart_app; [|apply nostart_sep; [exact R1| |discriminate]].
    - unfold H, header_of. apply nostart_app; [apply nostart_decZ; [exact Hn|reflexivity]|apply nostartb_ok; reflexivity].
    - intros Hi; cbn in Hi; decompose [or] Hi; try discriminate; contradiction. }
  rewrite index_at by exact Hns.
  rewrite firstn_len_app by reflexivity.
  assert (index (bs "obj") (H ++ t ++ nl) = Some (length (decZ n) + 3)%nat) as Ei.
  { unfold H, header_of. rewrite <- !app_assoc. apply index_obj_header. exact Hn. }
  rewrite Ei.
  set (i := (length (decZ n) + 3)%nat).
  assert (sub (i + 3) (length (H ++ t ++ nl)) ((H ++ t ++ nl) ++ bs "endobj" ++ nl ++ rest) = nl ++ t ++ nl) as Es.
  { unfold sub. rewrite skipn_app_l by (unfold H, header_of, i; rewrite !app_length; change (length (bs " 0 obj")) with 6%nat; change (length nl) with 1%nat; lia).
    assert (skipn (i + 3) (H ++ t ++ nl) = nl ++ t ++ nl) as ->.
    { unfold H, header_of, i. rewrite <- !app_assoc. rewrite app_assoc. apply skipn_len_app. rewrite app_length. change (length (bs " 0 obj")) with 6%nat. lia. }
    apply firstn_len_app. unfold H, header_of, i. rewrite !app_length. change (length (bs " 0 obj")) with 6%nat; change (length nl) with 1%nat; lia. }
  rewrite Es.
  assert (length H = (i + 4)%nat) as HH by (unfold H, header_of, i; rewrite !app_length; change (length (bs " 0 obj")) with 6%nat; change (length nl) with 1%nat; lia).
  change (nl ++ t ++ nl) with (x0a :: t ++ nl).
  rewrite take_blank_one; [|exact R4|exact Hne]. cbn [length].
  replace (i + 3 + 1)%nat with (length H) by lia.
  assert (sub (length H) (length (H ++ t ++ nl)) ((H ++ t ++ nl) ++ bs "endobj" ++ nl ++ rest) = t ++ nl) as ->.
  { unfold sub. rewrite <- app_assoc, skipn_app_exact. apply firstn_len_app. rewrite (app_length H). lia. }
  reflexivity.
Qed.
Lemma no_stream t : contains (bs "stream") t = false -> index (bs "stream") (t ++ nl) = None.
Proof.
  intro H. assert (contains (bs "stream") (t ++ nl) = false) as E.
  { apply nostart_contains; [discriminate|]. apply nostart_sep; [exact H| |discriminate].
    intros Hi; cbn in Hi; decompose [or] Hi; try discriminate; contradiction. }
  unfold contains in E. destruct (index (bs "stream") (t ++ nl)); [discriminate|reflexivity].
Qed.
Lemma result_text n t : obj_result n 0 (t ++ nl) = object_text n t.
Proof. unfold obj_result, object_text. change nl with [x0a]. rewrite suffix_last. change (decZ 0) with (bs "0"). rewrite <- !app_assoc. reflexivity. Qed.
Lemma plain_object_unchanged e pre n t post : 0 <= n < 2 ^ 63 -> readable t -> t <> [] -> contains (bs "stream") t = false ->
  eKey e <> [] -> (eV e = 4 \/ eV e = 5) -> 0 <= eKeyLength e <= flen (eKey e) ->
  (length t < 15 \/ (length t + 1) mod 16 <> 0)%nat ->
  GetDirectObject (Some (DecryptObject e)) (pre ++ obj_text n t ++ post) n (flen pre) = Ok (object_text n t).
Proof.
  intros Hn (R1 & R2 & R3 & R4 & R5) Hne Hs NK HV HK HL. rewrite (get_direct_head _ _ pre n t post Hn eq_refl).
  rewrite read_content by (try assumption; lia). cbv zeta. rewrite no_stream by exact Hs.
  rewrite decrypt_bad_length; try assumption; [now rewrite result_text|]. rewrite app_length. cbn [length nl]. lia.
Qed.
Lemma fifteen_lost e pre n t post : 0 <= n < 2 ^ 63 -> readable t -> contains (bs "stream") t = false -> length t = 15%nat ->
  eKey e <> [] -> (eV e = 4 \/ eV e = 5) -> 0 <= eKeyLength e <= flen (eKey e) ->
  GetDirectObject (Some (DecryptObject e)) (pre ++ obj_text n t ++ post) n (flen pre) = Ok (object_text n []).
Proof.
  intros Hn (R1 & R2 & R3 & R4 & R5) Hs LT NK HV HK. rewrite (get_direct_head _ _ pre n t post Hn eq_refl).
  rewrite read_content; [|lia|exact R1|eapply ne_length, LT|exact R4]. cbv zeta. rewrite no_stream by exact Hs.
  assert (E : DecryptObject e (t ++ nl) n 0 = Ok []).
  { unfold DecryptObject. destruct (eKey e) as [|kb kr] eqn:EK; [congruence|]. rewrite <- EK in *. clear kb kr EK. cbv zeta.
    replace (1 <? eV e) with true by (symmetry; apply Z.ltb_lt; lia).
    unfold key_data. rewrite cut_ok by lia. cbn [rbind].
    replace ((eV e =? 4) || (eV e =? 5)) with true by (symmetry; apply orb_true_iff; rewrite !Z.eqb_eq; exact HV).
    replace ((eV e =? 1) || (eV e =? 2)) with false by (symmetry; apply orb_false_iff; rewrite !Z.eqb_neq; lia).
    assert (L16 : length (t ++ nl) = 16%nat) by (rewrite app_length, LT; reflexivity).
    rewrite (skipn_all2 (t ++ nl)) by (rewrite L16; lia). rewrite !flen_nat, L16. reflexivity. }
  rewrite E. unfold obj_result, object_text. change (decZ 0) with (bs "0"). reflexivity.
Qed.

(** Streams *)
Lemma m_key_rest_here key d r : d <> [] -> forallb is_digit d = true -> (match r with [] => True | b :: _ => is_digit b = false end) ->
  m_key_rest key (key ++ bs " " ++ d ++ r) = Some r.
Proof.
  intros Hn Hd Hr. unfold m_key_rest. rewrite lit_app. cbn [obind]. change (bs " " ++ d ++ r) with (" "%byte :: d ++ r).
  destruct d as [|c d]; [congruence|]. cbn [forallb] in Hd. apply andb_prop in Hd. destruct Hd as [Hc Hd].
  change (ws1 (" "%byte :: (c :: d) ++ r)) with (Some (drop_while is_ws ((c :: d) ++ r))).
  replace (drop_while is_ws ((c :: d) ++ r)) with ((c :: d) ++ r) by (cbn [app drop_while]; destruct c; try discriminate Hc; reflexivity).
  cbn [obind]. rewrite digits1_app; [reflexivity|discriminate|cbn [forallb]; now rewrite Hc|exact Hr].
Qed.
Lemma encrypt_shape iv e data num gen c : (eV e = 4 \/ eV e = 5) -> eKey e <> [] -> length iv = 16%nat ->
  encryptStream iv e data num gen = Ok c -> (0 < length c)%nat.
Proof.
  intros HV NK LI. unfold encryptStream. destruct (eKey e) as [|kb kr] eqn:EK; [congruence|]. rewrite <- EK in *. clear kb kr EK. cbv zeta.
  destruct (key_data _ (eKey e) num gen) as [kd| |]; try discriminate. cbn [rbind].
  replace ((eV e =? 4) || (eV e =? 5)) with true by (symmetry; apply orb_true_iff; rewrite !Z.eqb_eq; exact HV).
  destruct (negb _); [discriminate|]. intros E.
  match type of E with Ok ?x = _ => assert (c = x) as -> by congruence end. rewrite app_length, LI. lia.
Qed.
Lemma dict_stream a b z r : plain_dict a b -> 0 <= z ->
  index (bs "stream") ((a ++ bs "/Length " ++ decZ z ++ b ++ nl) ++ bs "stream" ++ r) = Some (length (a ++ bs "/Length " ++ decZ z ++ b ++ nl)).
Proof.
  intros (P1 & P2 & P3 & P4 & P5 & P6 & P7) Hz.
  rewrite <- !app_assoc. rewrite index_before; [|discriminate|exact P6|].
  2:{ intros Hi; cbn in Hi; decompose [or] Hi; try discriminate; contradiction. }
  replace (bs "/Length " ++ decZ z ++ b ++ nl ++ bs "stream" ++ r) with ((bs "/Length " ++ decZ z ++ b ++ nl) ++ bs "stream" ++ r) by (rewrite <- !app_assoc; reflexivity).
  rewrite index_at.
  - cbn [option_map]. rewrite !app_length. reflexivity.
  - apply nostart_app; [apply nostartb_ok; reflexivity|]. apply nostart_app; [apply nostart_decZ; [exact Hz|reflexivity]|].
    apply nostart_sep; [exact P7| |discriminate]. intros Hi; cbn in Hi; decompose [or] Hi; try discriminate; contradiction.
Qed.
Lemma key_Length : ManipSpec.key_name (bs "/Length").
Proof. ManipProofs2.key. Qed.
Lemma nl_free key b : ~ In x0a key -> key <> [] -> contains key b = false -> contains key (b ++ nl) = false.
Proof. intros Hn Hk Hb. apply nostart_contains; [exact Hk|]. now apply nostart_sep. Qed.
Lemma result_end n s c : beqb x0a c = false -> obj_result n 0 (s ++ [c]) = object_text n (s ++ [c]).
Proof.
  intro H. unfold obj_result, object_text. replace (suffixb [x0a] (s ++ [c])) with false.
  - change (decZ 0) with (bs "0"). reflexivity.
  - unfold suffixb. rewrite app_length. cbn [length]. replace (length s + 1 - 1)%nat with (length s) by lia.
    rewrite skipn_app_exact. cbn [bytes_eqb]. rewrite H. symmetry. apply andb_false_r.
Qed.
Lemma contains_tail x y s : contains y s = false -> contains (x ++ y) s = false.
Proof.
  intro H. destruct (contains (x ++ y) s) eqn:E; [|reflexivity]. apply contains_true in E. destruct E as (j & _ & E).
  apply prefixb_spec in E. destruct E as [t E].
  assert (contains y s = true); [|congruence]. rewrite <- (firstn_skipn j s), E, <- app_assoc, app_assoc. apply contains_app_mid.
Qed.
Lemma encrypted_stream iv e data pre n a b post c : 0 <= n < 2 ^ 63 -> length iv = 16%nat -> (eV e = 4 \/ eV e = 5) ->
  eKeyLength e <> 0 -> eKey e <> [] -> encryptStream iv e data n 0 = Ok c -> flen c < 2 ^ 63 ->
  plain_dict a b -> contains (bs "endobj") (stream_obj a b (flen c) c) = false -> contains (bs "endstream") c = false ->
  GetDirectObject (Some (DecryptObject e)) (pre ++ obj_text n (stream_obj a b (flen c) c) ++ post) n (flen pre) =
  Ok (object_text n (stream_obj a b (flen data) data)).
Proof.
  intros Hn LI HV HK NK HE HL HP HO HS.
  pose proof HP as (P1 & P2 & P3 & P4 & P5 & P6 & P7).
  assert (C0 : 0 < flen c) by (rewrite flen_nat; pose proof (encrypt_shape _ _ _ _ _ _ HV NK LI HE); lia).
  rewrite (get_direct_head _ _ pre n _ post Hn eq_refl).
  rewrite read_content; [|lia|exact HO| | ].
  2:{ unfold stream_obj. destruct a; [congruence|discriminate]. }
  2:{ unfold stream_obj. destruct a; [congruence|exact P2]. }
  cbv zeta. set (D := a ++ bs "/Length " ++ decZ (flen c) ++ b ++ nl).
  assert (ET : stream_obj a b (flen c) c ++ nl = D ++ bs "stream" ++ nl ++ c ++ nl ++ bs "endstream" ++ nl).
  { unfold stream_obj, D. rewrite <- !app_assoc. reflexivity. }
  rewrite ET. unfold D. rewrite dict_stream by (try assumption; lia). fold D.
  assert (EI : index (bs "endstream") (D ++ bs "stream" ++ nl ++ c ++ nl ++ bs "endstream" ++ nl) = Some (length (D ++ bs "stream" ++ nl ++ c ++ nl))).
  { replace (D ++ bs "stream" ++ nl ++ c ++ nl ++ bs "endstream" ++ nl) with ((D ++ bs "stream" ++ nl ++ c ++ nl) ++ bs "endstream" ++ nl) by (rewrite <- !app_assoc; reflexivity).
    unfold D. rewrite <- !app_assoc. rewrite index_before; [|discriminate| |].
    - replace (bs "/Length " ++ decZ (flen c) ++ b ++ nl ++ bs "stream" ++ nl ++ c ++ nl ++ bs "endstream" ++ nl) with
        ((bs "/Length " ++ decZ (flen c) ++ (b ++ nl) ++ bs "stream" ++ nl ++ (c ++ nl)) ++ bs "endstream" ++ nl) by (rewrite <- !app_assoc; reflexivity).
      rewrite index_at; [cbn [option_map]; rewrite !app_length; f_equal; lia|].
      apply nostart_app; [apply nostartb_ok; reflexivity|]. apply nostart_app; [apply nostart_decZ; [lia|reflexivity]|].
      apply nostart_app.
      { apply nostart_sep; [|intros Hi; cbn in Hi; decompose [or] Hi; try discriminate; contradiction|discriminate].
        apply (contains_tail (bs "end") (bs "stream")), P7. }
      apply nostart_app; [apply nostartb_ok; reflexivity|]. apply nostart_app; [apply nostartb_ok; reflexivity|].
      apply nostart_sep; [exact HS|intros Hi; cbn in Hi; decompose [or] Hi; try discriminate; contradiction|discriminate].
    - apply (contains_tail (bs "end") (bs "stream")), P6.
    - intros Hi; cbn in Hi; decompose [or] Hi; try discriminate; contradiction. }
  rewrite EI. cbn [rbind].
  assert (EF : firstn (length (D ++ bs "stream" ++ nl ++ c ++ nl) + 9) (D ++ bs "stream" ++ nl ++ c ++ nl ++ bs "endstream" ++ nl) =
               D ++ bs "stream" ++ nl ++ c ++ nl ++ bs "endstream").
  { replace (D ++ bs "stream" ++ nl ++ c ++ nl ++ bs "endstream" ++ nl) with ((D ++ bs "stream" ++ nl ++ c ++ nl ++ bs "endstream") ++ nl) by (rewrite <- !app_assoc; reflexivity).
    apply firstn_len_app. rewrite !app_length. change (length (bs "endstream")) with 9%nat. lia. }
  rewrite EF. unfold decrypt_stream. cbv zeta. rewrite (firstn_len_app D) by reflexivity.
  assert (LEN : value_of (find (m_key (bs "/Length")) D) = Some (decZ (flen c))).
  { unfold D. rewrite Util.find_app.
    - rewrite (find_at0 _ _ (decZ (flen c))); [reflexivity|].
      change (bs "/Length " ++ decZ (flen c) ++ b ++ nl) with (bs "/Length" ++ bs " " ++ decZ (flen c) ++ b ++ nl).
      apply m_key_here; [apply XrefProofs.decZ_nonnil; lia|apply decZ_digits; lia|].
      destruct b; [reflexivity|exact P3].
    - intros j Hj. apply m_key_lit. apply (before_key (bs "/Length")); [discriminate|exact P4| |exact Hj].
      intros Hi; cbn in Hi; decompose [or] Hi; try discriminate; contradiction. }
  rewrite LEN. cbn [atoi0]. rewrite atoi_clip_decZ by lia.
  assert (SK : skip_one_eol (D ++ bs "stream" ++ nl ++ c ++ nl ++ bs "endstream") (length D + 6) = (length D + 7)%nat).
  { unfold skip_one_eol. cbv zeta.
    assert (N : nth_error (D ++ bs "stream" ++ nl ++ c ++ nl ++ bs "endstream") (length D + 6) = Some x0a).
    { rewrite nth_error_app2 by lia. replace (length D + 6 - length D)%nat with 6%nat by lia. reflexivity. }
    rewrite N. change (beqb x0a x0d) with false. cbv iota. rewrite N. change (beqb x0a x0a) with true. cbv iota. lia. }
  rewrite SK.
  assert (S7 : skipn (length D + 7) (D ++ bs "stream" ++ nl ++ c ++ nl ++ bs "endstream") = c ++ nl ++ bs "endstream").
  { replace (D ++ bs "stream" ++ nl ++ c ++ nl ++ bs "endstream") with ((D ++ bs "stream" ++ nl) ++ c ++ nl ++ bs "endstream") by (rewrite <- !app_assoc; reflexivity).
    apply skipn_len_app. rewrite !app_length. change (length (bs "stream")) with 6%nat. change (length nl) with 1%nat. lia. }
  rewrite S7.
  replace ((0 <? flen c) && (Z.of_nat (length D + 7) + flen c <=? flen (D ++ bs "stream" ++ nl ++ c ++ nl ++ bs "endstream"))) with true.
  2:{ symmetry. apply andb_true_iff. split; [now apply Z.ltb_lt|]. apply Z.leb_le. rewrite !flen_nat, !app_length.
      change (length (bs "stream")) with 6%nat. change (length nl) with 1%nat. lia. }
  rewrite (firstn_len_app c) by (rewrite flen_nat; lia).
  rewrite (stream_roundtrip iv e data n 0 c LI HV HK HE).
  assert (RP : replace_all (m_key_rest (bs "/Length")) (bs "/Length " ++ dec (N.of_nat (length data))) D 0 = a ++ bs "/Length " ++ decZ (flen data) ++ b ++ nl).
  { unfold D. rewrite replace_before.
    2:{ intros j Hj. unfold m_key_rest. rewrite lit_no; [reflexivity|]. apply (before_key (bs "/Length")); [discriminate|exact P4| |exact Hj].
        intros Hi; cbn in Hi; decompose [or] Hi; try discriminate; contradiction. }
    replace (bs "/Length " ++ decZ (flen c) ++ b ++ nl) with ((bs "/Length" ++ bs " " ++ decZ (flen c)) ++ b ++ nl) by (rewrite <- !app_assoc; reflexivity).
    rewrite replace_here.
    - rewrite replace_none.
      + rewrite decZ_nonneg by (rewrite flen_nat; lia). rewrite flen_nat. replace (Z.to_N (Z.of_nat (length data))) with (N.of_nat (length data)) by lia.
        now rewrite <- !app_assoc.
      + intros j Hj. unfold m_key_rest. rewrite lit_no; [reflexivity|].
        assert (C : contains (bs "/Length") (b ++ nl) = false) by (apply nl_free; [|discriminate|exact P5]; intros Hi; cbn in Hi; decompose [or] Hi; try discriminate; contradiction).
        rewrite contains_false in C. apply C. lia.
    - discriminate.
    - rewrite <- !app_assoc. apply m_key_rest_here; [apply XrefProofs.decZ_nonnil; lia|apply decZ_digits; lia|]. destruct b; [reflexivity|exact P3]. }
  rewrite RP. cbn [rbind]. f_equal.
  set (X := a ++ bs "/Length " ++ decZ (flen data) ++ b ++ nl ++ bs "stream" ++ nl ++ data ++ nl ++ bs "endstrea").
  assert (E2 : stream_obj a b (flen data) data = X ++ ["m"%byte]) by (unfold stream_obj, X; rewrite <- !app_assoc; reflexivity).
  assert (E1 : (a ++ bs "/Length " ++ decZ (flen data) ++ b ++ nl) ++ bs "stream
" ++ data ++ bs "
endstream" = X ++ ["m"%byte]) by (unfold X; rewrite <- !app_assoc; reflexivity).
  rewrite E1, E2. now apply result_end.
Qed.

(** Whole documents *)
Lemma passwords_unlock user owner fid p m r e : random_sizes r -> SetupAES256Encryption user owner fid p m r = Ok e ->
  eKey e = rKey r /\ length (eKey e) = 32%nat /\ unlock user fid e = Ok (eKey e) /\
  (unlock owner fid e = Ok (eKey e) \/ collision owner user fid (rUserValidation r)).
Proof.
  intros (R1 & R2 & R3 & R4 & R5) HS. assert (SO : salts_ok r) by (split; assumption).
  pose proof (sf_key _ _ _ _ _ _ _ (setup_inv _ _ _ _ _ _ _ HS)) as EK. rewrite EK.
  split; [reflexivity|]. split; [exact R1|]. split; [exact (user_unlocks _ _ _ _ _ _ _ SO HS)|exact (owner_unlocks _ _ _ _ _ _ _ SO HS)].
Qed.
Lemma setup_passwords_inv user owner p m id r w n e w' : SetupEncryptionWithPasswords user owner p m id r w = Ok (n, e, w') ->
  let fid := match fileID w with [] => id | f => f end in
  SetupAES256Encryption user owner fid p m r = Ok e /\ n = nextObjNum w /\ fileID w' = fid /\ encryptRef w' = Some n /\
  useObjectStream w' = useObjectStream w /\ rootRef w' = rootRef w /\
  mget n (objects w') = Some (mkObj (Some (CreateEncryptionDictionary e)) None None).
Proof.
  unfold SetupEncryptionWithPasswords. cbv zeta. set (fid := match fileID w with [] => id | f => f end).
  destruct (SetupAES256Encryption user owner fid p m r) as [e1| |]; try discriminate. cbn [rbind].
  unfold AddObject. intro E. cbn in E.
  assert (n = nextObjNum w) as -> by congruence. assert (e1 = e) as -> by congruence.
  match type of E with Ok (_, _, ?x) = _ => assert (w' = x) as -> by congruence end. clear E.
  cbn. rewrite Z.eqb_refl. now repeat split.
Qed.
Lemma setup_written deflate order enc user owner p m id r w n e w' : is_order order -> useObjectStream w = false -> rootRef w <> Some n ->
  SetupEncryptionWithPasswords user owner p m id r w = Ok (n, e, w') ->
  exists pre mid size tail, fst (Write deflate order enc w') = encrypted_file pre n (CreateEncryptionDictionary e) mid w' size tail.
Proof.
  intros Ho Hs Hr HS. destruct (setup_passwords_inv _ _ _ _ _ _ _ _ _ _ HS) as (A & B & C & D & E & F & G).
  apply (written_file deflate order enc w' n (CreateEncryptionDictionary e) _ Ho); congruence.
Qed.
Lemma setup_opens user owner p m id r w n e w' pre mid size tail : random_sizes r -> - 2 ^ 31 <= p < 2 ^ 31 ->
  0 <= nextObjNum w < 2 ^ 63 -> id <> [] ->
  SetupEncryptionWithPasswords user owner p m id r w = Ok (n, e, w') ->
  let f := encrypted_file pre n (CreateEncryptionDictionary e) mid w' size tail in
  quiet pre -> quiet mid -> index (decZ n ++ bs " 0 obj") f = Some (length pre) ->
  DecryptPDF f user = Ok (f, e) /\ (DecryptPDF f owner = Ok (f, e) \/ collision owner user (fileID w') (rUserValidation r)).
Proof.
  intros HR Hp Hn Hid HS f Q1 Q2 Hi. destruct (setup_passwords_inv _ _ _ _ _ _ _ _ _ _ HS) as (A & B & C & D & _).
  rewrite C. subst n. apply (opens_written user owner _ p m r e pre (nextObjNum w) mid w' size tail); auto.
  destruct (fileID w); [exact Hid|discriminate].
Qed.
Lemma rc4_not_encrypted iv e data num gen c : eV e <> 4 -> eV e <> 5 -> encryptStream iv e data num gen = Ok c -> c = data.
Proof.
  intros H4 H5. unfold encryptStream. destruct (eKey e); [congruence|]. cbv zeta.
  destruct (key_data _ _ _ _); try discriminate. cbn [rbind].
  replace ((eV e =? 4) || (eV e =? 5)) with false by (symmetry; apply orb_false_iff; rewrite !Z.eqb_neq; lia). congruence.
Qed.
Lemma decrypt_panics e c num gen : eKey e <> [] -> 1 < eV e -> flen (eKey e) + 16 < eKeyLength e -> DecryptObject e c num gen = Panic.
Proof.
  intros NK HV HK. unfold DecryptObject. destruct (eKey e) as [|kb kr] eqn:EK; [congruence|]. rewrite <- EK in *. clear kb kr EK. cbv zeta.
  replace (1 <? eV e) with true by (symmetry; apply Z.ltb_lt; lia). unfold key_data, cut.
  replace ((0 <=? eKeyLength e) && (eKeyLength e <=? flen (eKey e))) with false by (symmetry; apply andb_false_iff; right; apply Z.leb_gt; lia).
  reflexivity.
Qed.

Lemma iso_doc_conforming r n user owner id : (r = 2 /\ n = 5) \/ ((r = 3 \/ r = 4) /\ 1 <= n <= 16) ->
  conforming user owner id (iso_doc r n user owner id).
Proof.
  intro H. unfold conforming, iso_doc. cbv zeta. cbn [eR eKeyLength eMeta eO eU eP].
  set (o := iso_owner r (Z.to_nat n) owner user). set (u := iso_user _ _ _).
  split; [lia|]. split; [lia|]. split; [lia|]. split; [now right|]. split; [reflexivity|].
  exists []. now rewrite app_nil_r.
Qed.

Lemma unlock_set_key pw id e k : unlock pw id (set_key k e) = unlock pw id e.
Proof. destruct e; reflexivity. Qed.
