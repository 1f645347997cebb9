(** Properties of encryption (C22-C26). *)
From Verif Require Import CryptModel CryptSpec WriterSpec ParseSpec WriterProps PrimProofs CryptProofs CryptProofs2 CryptProofs3.
Local Open Scope Z_scope.

(** Concrete values used by the examples. *)
Definition r0 : randoms := mkRandoms (repeat x42 32) (repeat x01 8) (repeat x02 8) (repeat x03 8) (repeat x04 8).
Definition fid0 : bytes := repeat x11 16.
Definition none0 : encryption := mkEnc 0 0 0 [] [] [] [] 0 false [].
(** The keys derived from the passwords (the slow part of the examples). *)
Definition kUser : bytes := Eval vm_compute in DeriveEncryptionKeyV5 (bs "user") fid0.
Definition kOwner : bytes := Eval vm_compute in DeriveEncryptionKeyV5 (bs "owner") fid0.
Definition kWrong : bytes := Eval vm_compute in DeriveEncryptionKeyV5 (bs "pw8") fid0.
Lemma k_user : DeriveEncryptionKeyV5 (bs "user") fid0 = kUser. Proof. vm_compute. reflexivity. Qed.
Lemma k_owner : DeriveEncryptionKeyV5 (bs "owner") fid0 = kOwner. Proof. vm_compute. reflexivity. Qed.
Lemma k_wrong : DeriveEncryptionKeyV5 (bs "pw8") fid0 = kWrong. Proof. vm_compute. reflexivity. Qed.
Definition e0 : encryption :=
  Eval vm_compute in match SetupAES256Encryption (bs "user") (bs "owner") fid0 (-4) true r0 with Ok e => e | _ => none0 end.
Lemma e0_setup : SetupAES256Encryption (bs "user") (bs "owner") fid0 (-4) true r0 = Ok e0.
Proof. unfold SetupAES256Encryption. rewrite k_user, k_owner. vm_compute. reflexivity. Qed.
Ltac open0 k := unfold unlock; change (5 <=? eR e0) with true; cbv iota; unfold unlock_v5; rewrite k; vm_compute; reflexivity.
Lemma e0_user : unlock (bs "user") fid0 e0 = Ok (repeat x42 32). Proof. open0 k_user. Qed.
Lemma e0_owner : unlock (bs "owner") fid0 e0 = Ok (repeat x42 32). Proof. open0 k_owner. Qed.
Definition iv0 : bytes := repeat x07 16.

(* ---------------------------------------------------------------- *)
(** C22 *)

(** Setting up encryption never fails; both passwords open the 32-byte file
    key that was drawn at random.  (The owner password could only fail if its
    hash collided with that of the user password.) *)
Theorem C22_setup : forall user owner fid p m r, exists e, SetupAES256Encryption user owner fid p m r = Ok e.
Proof. exact setup_ok. Qed.
Print Assumptions C22_setup.

Theorem C22_passwords_unlock : forall user owner fid p m r e, random_sizes r ->
  SetupAES256Encryption user owner fid p m r = Ok e ->
  eKey e = rKey r /\ length (eKey e) = 32%nat /\
  unlock user fid e = Ok (eKey e) /\
  (unlock owner fid e = Ok (eKey e) \/ collision owner user fid (rUserValidation r)).
Proof. exact passwords_unlock. Qed.
Print Assumptions C22_passwords_unlock.

Example C22_example : random_sizes r0 /\ SetupAES256Encryption (bs "user") (bs "owner") fid0 (-4) true r0 = Ok e0 /\
  unlock (bs "owner") fid0 e0 = Ok (repeat x42 32).
Proof. split; [repeat split; reflexivity|]. split; [exact e0_setup|exact e0_owner]. Qed.

(** A document written after SetupEncryptionWithPasswords contains the
    encryption dictionary as its own object and the trailer names it. *)
Theorem C22_written_file : forall deflate order enc user owner p m id r w n e w', is_order order ->
  useObjectStream w = false -> rootRef w <> Some n ->
  SetupEncryptionWithPasswords user owner p m id r w = Ok (n, e, w') ->
  exists pre mid size tail,
    fst (Write deflate order enc w') = encrypted_file pre n (CreateEncryptionDictionary e) mid w' size tail.
Proof. exact setup_written. Qed.
Print Assumptions C22_written_file.

(** Such a file opens with either password - provided the words /Encrypt and
    /ID and the header of that object do not occur before it by accident. *)
Theorem C22_reopens : forall user owner p m id r w n e w' pre mid size tail,
  random_sizes r -> - 2 ^ 31 <= p < 2 ^ 31 -> 0 <= nextObjNum w < 2 ^ 63 -> id <> [] ->
  SetupEncryptionWithPasswords user owner p m id r w = Ok (n, e, w') ->
  let f := encrypted_file pre n (CreateEncryptionDictionary e) mid w' size tail in
  quiet pre -> quiet mid -> index (decZ n ++ bs " 0 obj") f = Some (length pre) ->
  DecryptPDF f user = Ok (f, e) /\
  (DecryptPDF f owner = Ok (f, e) \/ collision owner user (fileID w') (rUserValidation r)).
Proof. exact setup_opens. Qed.
Print Assumptions C22_reopens.

Definition w0 : writer := SetRoot 1 (SetObject 2 (Some (bs "<</A (secret text)>>")) (SetObject 1 (Some (bs "<</Type/Catalog>>")) NewPDFWriter)).
Definition enc_of (e : encryption) : bytes -> Z -> Z -> result bytes := encryptStream iv0 e.
(** SetupEncryptionWithPasswords with these values. *)
Definition setup0 (w : writer) : Z * encryption * writer :=
  let (n, w2) := AddObject (Some (CreateEncryptionDictionary e0)) (set_file_id fid0 w) in
  (n, e0, set_file_id fid0 (SetEncryptRef n w2)).
Lemma setup0_ok w : fileID w = [] -> SetupEncryptionWithPasswords (bs "user") (bs "owner") (-4) true fid0 r0 w = Ok (setup0 w).
Proof. intro H. unfold SetupEncryptionWithPasswords. rewrite H. cbv zeta. rewrite e0_setup. reflexivity. Qed.
Definition file0 : bytes :=
  Eval vm_compute in let '(n, e, w') := setup0 w0 in fst (Write id_deflate same_order (Some (enc_of e)) w').
Lemma file0_dict : ParseEncryptionDictionary file0 = Ok (set_key [] e0). Proof. vm_compute. reflexivity. Qed.
Lemma file0_id : ExtractFileID file0 = fid0. Proof. vm_compute. reflexivity. Qed.
Lemma file0_opens pw : unlock pw fid0 e0 = Ok (repeat x42 32) -> DecryptPDF file0 pw = Ok (file0, e0).
Proof.
  intro H. unfold DecryptPDF. rewrite file0_dict, file0_id. cbn [rbind].
  rewrite unlock_set_key, H. vm_compute. reflexivity.
Qed.
Example C22_reopens_example :
  (let '(n, e, w') := setup0 w0 in n = 3 /\ fst (Write id_deflate same_order (Some (enc_of e)) w') = file0) /\
  DecryptPDF file0 (bs "user") = Ok (file0, e0) /\ DecryptPDF file0 (bs "owner") = Ok (file0, e0) /\
  rbind (Open stored (fun _ => Ok (Some (DecryptObject e0))) file0) (fun p => PGetObject stored p 2) = Ok (bs "2 0 obj
<</A (secret text)>>
endobj").
Proof.
  split; [split; vm_compute; reflexivity|]. split; [apply file0_opens, e0_user|]. split; [apply file0_opens, e0_owner|].
  vm_compute. reflexivity.
Qed.

(** With object streams the encryption dictionary itself is compressed: the
    file no longer opens as an encrypted one, and Open accepts it with any
    password (and does not decrypt). *)
Definition file1 : bytes :=
  Eval vm_compute in let '(n, e, w') := setup0 (UseObjectStream true (UseXRefStream true w0)) in
    fst (Write id_deflate same_order (Some (enc_of e)) w').
Theorem C22_object_streams_refuted :
  ParseEncryptionDictionary file1 = Err /\ DecryptPDF file1 (bs "user") = Err /\
  handleEncryption (bs "any password") file1 = Ok None.
Proof. vm_compute. repeat split; reflexivity. Qed.
Print Assumptions C22_object_streams_refuted.

(* ---------------------------------------------------------------- *)
(** C23 *)

(** Exactly which passwords the version 5 reader accepts: those whose hash
    matches U - or, for any other password, those under which the last byte of
    the decrypted OE happens to be at most 16.  O is never checked. *)
Theorem C23_accepted_v5 : forall pw fid e k, eR e >= 5 -> (48 <= length (eU e))%nat ->
  let pk := DeriveEncryptionKeyV5 pw fid in
  let matches := firstn 32 (skipn 8 (eU e)) = encrypted_hash pk (pw ++ firstn 8 (eU e)) in
  unlock pw fid e = Ok k <->
  (matches /\ UnwrapKeyV5 pk (eUE e) = Ok k) \/ (~ matches /\ UnwrapKeyV5 pk (eOE e) = Ok k).
Proof. exact unlock_v5_spec. Qed.
Print Assumptions C23_accepted_v5.

Theorem C23_unwrapped : forall pk w k, (16 <= length pk)%nat ->
  UnwrapKeyV5 pk w = Ok k <->
  w <> [] /\ (length w mod 16 = 0)%nat /\
  let d := ecb (aes_decrypt (firstn 16 pk)) (length w / 16) w in
  (b2n (last d x00) <= 16)%N /\ k = firstn (length d - N.to_nat (b2n (last d x00))) d.
Proof. exact unwrap_spec. Qed.
Print Assumptions C23_unwrapped.

(** The older handlers: an accepted password yields a key from which U is
    recomputed (16 bytes of it). *)
Theorem C23_accepted_old : forall pw id e k, eR e < 5 -> unlock pw id e = Ok k ->
  exists u, ComputeUValue k e id = Ok u /\ firstn 16 u = firstn 16 (eU e) /\
    (16 <= length u)%nat /\ (16 <= length (eU e))%nat /\
    (DeriveEncryptionKey pw e id = Ok k \/ DeriveOwnerKey pw e id = Ok k).
Proof. exact v4_accept. Qed.
Print Assumptions C23_accepted_old.

(** A wrong password is accepted by the version 5 reader with a wrong key
    (about one password in fifteen). *)
Theorem C23_wrong_password_refuted : exists k,
  SetupAES256Encryption (bs "user") (bs "owner") fid0 (-4) true r0 = Ok e0 /\
  unlock (bs "pw8") fid0 e0 = Ok k /\ k <> eKey e0.
Proof.
  exists (match UnwrapOwnerKeyV5 kWrong e0 with Ok k => k | _ => [] end).
  split; [exact e0_setup|]. split; [open0 k_wrong|vm_compute; discriminate].
Qed.
Print Assumptions C23_wrong_password_refuted.

(* ---------------------------------------------------------------- *)
(** C24 *)

(** What the writer encrypts decrypts to the plaintext, for every length,
    object and initialisation vector; with at least an 11-byte key the writer
    always succeeds. *)
Theorem C24_roundtrip : forall iv e data num gen c, length iv = 16%nat -> (eV e = 4 \/ eV e = 5) ->
  eKeyLength e <> 0 -> encryptStream iv e data num gen = Ok c -> DecryptObject e c num gen = Ok data.
Proof. exact stream_roundtrip. Qed.
Print Assumptions C24_roundtrip.

Theorem C24_encrypts : forall iv e data num gen, 11 <= eKeyLength e <= flen (eKey e) ->
  exists c, encryptStream iv e data num gen = Ok c.
Proof. exact stream_encrypts. Qed.
Print Assumptions C24_encrypts.

Example C24_example : match encryptStream iv0 e0 (bs "the quick brown fox") 7 0 with
  | Ok c => length c = 48%nat /\ DecryptObject e0 c 7 0 = Ok (bs "the quick brown fox") /\ DecryptObject e0 c 8 0 <> Ok (bs "the quick brown fox")
  | _ => False end.
Proof. vm_compute. repeat split; discriminate. Qed.

(** Data of impossible length is an error, and nothing panics as long as the
    file key is as long as the dictionary says. *)
Theorem C24_no_panic : forall e c num gen,
  (if 1 <? eV e then 0 <= eKeyLength e <= flen (eKey e) else 5 <= flen (eKey e)) -> DecryptObject e c num gen <> Panic.
Proof. exact decrypt_no_panic. Qed.
Print Assumptions C24_no_panic.

Theorem C24_bad_length : forall e c num gen, eKey e <> [] -> (eV e = 4 \/ eV e = 5) ->
  0 <= eKeyLength e <= flen (eKey e) -> (length c < 16 \/ length c mod 16 <> 0)%nat -> DecryptObject e c num gen = Err.
Proof. exact decrypt_bad_length. Qed.
Print Assumptions C24_bad_length.

(** The padding is not checked: a changed last block (here the last byte of
    the block before it is flipped, so that the padding byte becomes 0 or 29)
    is accepted and wrong data returned. *)
Theorem C24_padding_refuted :
  match encryptStream iv0 e0 (bs "0123456789abcdefXYZ") 7 0 with
  | Ok c =>
      let flip v := firstn 31 c ++ [bxor (nth 31 c x00) v] ++ skipn 32 c in
      (exists d, DecryptObject e0 (flip (n2b 13)) 7 0 = Ok d /\ length d = 32%nat) /\
      (exists d, DecryptObject e0 (flip (n2b 16)) 7 0 = Ok d /\ length d = 3%nat)
  | _ => False
  end.
Proof.
  set (x := encryptStream iv0 e0 (bs "0123456789abcdefXYZ") 7 0). vm_compute in x. subst x. cbv iota zeta.
  split; (eexists; split; [vm_compute; reflexivity|reflexivity]).
Qed.
Print Assumptions C24_padding_refuted.

(** For the RC4 versions the writer does not encrypt at all. *)
Theorem C24_rc4_refuted : forall iv e data num gen c, eV e <> 4 -> eV e <> 5 ->
  encryptStream iv e data num gen = Ok c -> c = data.
Proof. exact rc4_not_encrypted. Qed.
Print Assumptions C24_rc4_refuted.

(** A dictionary whose /Length exceeds the file key (by more than the spare
    room of 16 bytes the slice may have) panics. *)
Theorem C24_panic_refuted : forall e c num gen, eKey e <> [] -> 1 < eV e -> flen (eKey e) + 16 < eKeyLength e ->
  DecryptObject e c num gen = Panic.
Proof. exact decrypt_panics. Qed.
Print Assumptions C24_panic_refuted.

(* ---------------------------------------------------------------- *)
(** C25 *)

Theorem C25_rc4_involution : forall k d, rc4 k (rc4 k d) = d.
Proof. exact rc4_involution. Qed.
Print Assumptions C25_rc4_involution.

Theorem C25_rc4_objects : forall e data num gen c, DecryptObject e data num gen = Ok c -> (eV e = 1 \/ eV e = 2) ->
  DecryptObject e c num gen = Ok data.
Proof. exact rc4_decrypts. Qed.
Print Assumptions C25_rc4_objects.

(** Keys are per object: different objects hash different key data. *)
Theorem C25_per_object : forall n key num gen num' gen' d,
  0 <= num < 2 ^ 24 -> 0 <= gen < 2 ^ 16 -> 0 <= num' < 2 ^ 24 -> 0 <= gen' < 2 ^ 16 ->
  key_data n key num gen = Ok d -> key_data n key num' gen' = Ok d -> num = num' /\ gen = gen'.
Proof. exact key_data_inj. Qed.
Print Assumptions C25_per_object.

(** A document made by any conforming producer (ISO 32000-1, algorithms 2 to
    5) opens with its user password, when that is empty or has at least 32
    bytes. *)
Theorem C25_user_password_partial : forall user owner id e, conforming user owner id e -> full_password user ->
  unlock user id e = Ok (document_key user id e).
Proof. exact user_opens_iso. Qed.
Print Assumptions C25_user_password_partial.

(** The owner password, for revision 2. *)
Theorem C25_owner_password_partial : forall user owner id e, conforming user owner id e -> full_password owner -> eR e = 2 ->
  unlock owner id e = Ok (document_key user id e) \/
  (exists u k, DeriveEncryptionKey owner e id = Ok k /\ ComputeUValue k e id = Ok u /\ same16 u (eU e) = true /\
               unlock owner id e = Ok k).
Proof. exact owner_opens_iso. Qed.
Print Assumptions C25_owner_password_partial.

(** Conforming documents with file identifier [fid0]. *)
Theorem C25_documents : forall r n user owner, (r = 2 /\ n = 5) \/ ((r = 3 \/ r = 4) /\ 1 <= n <= 16) ->
  conforming user owner fid0 (iso_doc r n user owner fid0).
Proof. intros r n user owner. exact (iso_doc_conforming r n user owner fid0). Qed.
Print Assumptions C25_documents.

Definition pw32 (b : byte) : bytes := repeat b 32.
Example C25_example :
  let e := iso_doc 2 5 (pw32 "u") (pw32 "o") fid0 in
  full_password (pw32 "u") /\ full_password [] /\
  unlock (pw32 "o") fid0 e = Ok (document_key (pw32 "u") fid0 e).
Proof. split; [right; vm_compute; lia|]. split; [left; reflexivity|]. vm_compute. reflexivity. Qed.

(** Short passwords are padded wrongly, so the right user password of an
    ordinary document is refused ... *)
Theorem C25_short_password_refuted : 
  let e := iso_doc 2 5 (bs "user") (pw32 "o") fid0 in
  conforming (bs "user") (pw32 "o") fid0 e /\ unlock (bs "user") fid0 e = Err.
Proof. cbv zeta. split; [apply iso_doc_conforming; lia|vm_compute; reflexivity]. Qed.
Print Assumptions C25_short_password_refuted.

(** ... and the owner password of revision 3 documents is refused at any
    length (the 19 further passes are missing). *)
Theorem C25_owner_password_refuted : 
  let e := iso_doc 3 16 (pw32 "u") (pw32 "o") fid0 in
  conforming (pw32 "u") (pw32 "o") fid0 e /\ unlock (pw32 "o") fid0 e = Err.
Proof. cbv zeta. split; [apply iso_doc_conforming; lia|vm_compute; reflexivity]. Qed.
Print Assumptions C25_owner_password_refuted.

(** A dictionary that asks for more than 128 bits panics. *)
Theorem C25_long_key_refuted : forall pw id e, 3 <= eR e < 5 -> 16 < eKeyLength e -> unlock pw id e = Panic.
Proof. exact long_key_panics. Qed.
Print Assumptions C25_long_key_refuted.

(* ---------------------------------------------------------------- *)
(** C26 *)

(** The writer stores strings and dictionaries unencrypted, the reader
    decrypts them; the two agree only where decryption fails: content one
    byte short of a multiple of 16 is garbled. *)
Theorem C26_object_partial : forall e pre n t post, 0 <= n < 2 ^ 63 -> readable t -> t <> [] ->
  contains (bs "stream") t = false -> eKey e <> [] -> (eV e = 4 \/ eV e = 5) -> 0 <= eKeyLength e <= flen (eKey e) ->
  (length t < 15 \/ (length t + 1) mod 16 <> 0)%nat ->
  GetDirectObject (Some (DecryptObject e)) (pre ++ obj_text n t ++ post) n (flen pre) = Ok (object_text n t).
Proof. exact plain_object_unchanged. Qed.
Print Assumptions C26_object_partial.

(** Any object text of 15 bytes is lost. *)
Theorem C26_fifteen_bytes_refuted : forall e pre n t post, 0 <= n < 2 ^ 63 -> readable t ->
  contains (bs "stream") t = false -> length t = 15%nat ->
  eKey e <> [] -> (eV e = 4 \/ eV e = 5) -> 0 <= eKeyLength e <= flen (eKey e) ->
  GetDirectObject (Some (DecryptObject e)) (pre ++ obj_text n t ++ post) n (flen pre) = Ok (object_text n []).
Proof. exact fifteen_lost. Qed.
Print Assumptions C26_fifteen_bytes_refuted.

(** Streams written with encryption read back with their data and length. *)
Theorem C26_stream : forall iv e data pre n a b post c, 0 <= n < 2 ^ 63 -> length iv = 16%nat ->
  (eV e = 4 \/ eV e = 5) -> eKeyLength e <> 0 -> eKey e <> [] ->
  encryptStream iv e data n 0 = Ok c -> flen c < 2 ^ 63 -> plain_dict a b ->
  contains (bs "endobj") (stream_obj a b (flen c) c) = false -> contains (bs "endstream") c = false ->
  GetDirectObject (Some (DecryptObject e)) (pre ++ obj_text n (stream_obj a b (flen c) c) ++ post) n (flen pre) =
  Ok (object_text n (stream_obj a b (flen data) data)).
Proof. exact encrypted_stream. Qed.
Print Assumptions C26_stream.

Definition w2 : writer :=
  let w := SetRoot 1 (SetObject 1 (Some (bs "<</Type/Catalog>>")) NewPDFWriter) in
  let (n, w) := AddObject (Some (bs "(fifteen bytes)")) w in
  let (n, w) := AddObject (Some (bs "<</A (thirty-one bytes of ig)>>")) w in
  let (n, w) := AddObject (Some (bs "<</A (thirty-two bytes of it!)>>")) w in
  match AddStreamObject id_deflate 1 (Some (bs "some stream data")) false (set_dicts w [(1, [(bs "Type", VStr (bs "/X"))])]) with
  | Ok (_, w) => w
  | _ => w
  end.
Definition file2 : bytes :=
  Eval vm_compute in let '(n, e, w') := setup0 w2 in fst (Write id_deflate same_order (Some (enc_of e)) w').
Definition read2 (n : Z) : result bytes :=
  rbind (Open stored (fun _ => Ok (Some (DecryptObject e0))) file2) (fun p => PGetObject stored p n).
Example C26_example :
  read2 2 = Ok (object_text 2 []) /\
  read2 3 <> Ok (object_text 3 (bs "<</A (thirty-one bytes of ig)>>")) /\
  read2 4 = Ok (object_text 4 (bs "<</A (thirty-two bytes of it!)>>")) /\
  contains (bs "some stream data") (match read2 5 with Ok t => t | _ => [] end) = true /\
  contains (bs "/Length 16") (match read2 5 with Ok t => t | _ => [] end) = true /\
  contains (bs "some stream data") file2 = false.
Proof. vm_compute. repeat split; discriminate. Qed.
