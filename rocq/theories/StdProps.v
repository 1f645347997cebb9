(** Encryption dictionaries of other producers (C107) and the values this
    library stores for version 5 (C108). *)
From Verif Require Import CryptModel CryptSpec CryptProps StdSpec StdProofs.
Local Open Scope Z_scope.

(* ---------------------------------------------------------------- *)
(** C107 *)

(** Every field of a dictionary of the standard handler (versions 1 to 4) is
    read as written, and the file identifier too. *)
Theorem C107_dictionary_read : forall v r l p o u meta n id pre mid tail,
  let f := std_file pre n (std_dict v r (Some l) p o u meta) mid id tail in
  1 <= v < 2 ^ 63 -> 1 <= r < 5 -> 8 <= l < 2 ^ 63 -> in_int32 p ->
  o <> [] -> u <> [] -> id <> [] -> (length o + length u <= 800)%nat -> std_place n pre mid f ->
  ParseEncryptionDictionary f = Ok (mkEnc v r (iso_key_bytes (Some l)) o u [] [] p meta []) /\ ExtractFileID f = id.
Proof. intros v r l p o u meta n id pre mid tail. exact (std_parsed v r (Some l) p o u meta n id pre mid tail). Qed.
Print Assumptions C107_dictionary_read.

(** The user password of a conforming document in such a file opens it, and
    the key is the one of the standard.  Missing: passwords of 1 to 31 bytes
    (refuted under C25), the owner password, dictionaries with crypt filters. *)
Theorem C107_opens_partial : forall user owner id e len pre n mid tail,
  conforming user owner id e -> full_password user -> eV e = 1 \/ eV e = 2 \/ eV e = 4 -> in_int32 (eP e) -> eUE e = [] -> eOE e = [] ->
  id <> [] -> eU e <> [] -> (length (eO e) + length (eU e) <= 800)%nat -> eO e <> [] ->
  len = Some (8 * eKeyLength e) \/ len = None /\ eR e = 2 ->
  std_place n pre mid (std_doc len pre n e mid id tail) ->
  DecryptPDF (std_doc len pre n e mid id tail) user = Ok (std_doc len pre n e mid id tail, set_key (document_key user id e) e).
Proof. exact std_opens. Qed.
Print Assumptions C107_opens_partial.

Definition std_e : encryption := Eval vm_compute in iso_doc 2 5 [] (pw32 "o") fid0.
Definition std_pre : bytes := bs "%PDF-1.4
1 0 obj
<</Type/Catalog>>
endobj
".
Definition std_f (d : bytes) : bytes := std_file std_pre 5 d (bs "xref") fid0 (bs "%%EOF").
Example C107_example :
  conforming [] (pw32 "o") fid0 std_e /\ full_password [] /\ in_int32 (eP std_e) /\
  std_place 5 std_pre (bs "xref") (std_doc None std_pre 5 std_e (bs "xref") fid0 (bs "%%EOF")) /\
  DecryptPDF (std_doc None std_pre 5 std_e (bs "xref") fid0 (bs "%%EOF")) [] =
    Ok (std_doc None std_pre 5 std_e (bs "xref") fid0 (bs "%%EOF"), set_key (document_key [] fid0 std_e) std_e).
Proof.
  assert (E : std_e = iso_doc 2 5 [] (pw32 "o") fid0) by (vm_compute; reflexivity).
  assert (C : conforming [] (pw32 "o") fid0 std_e).
  { rewrite E. apply C25_documents. left. split; reflexivity. }
  assert (P : std_place 5 std_pre (bs "xref") (std_doc None std_pre 5 std_e (bs "xref") fid0 (bs "%%EOF"))).
  { repeat split; try lia; vm_compute; reflexivity. }
  assert (I : in_int32 (eP std_e)) by (change (eP std_e) with (-4); unfold in_int32; lia).
  split; [exact C|]. split; [left; reflexivity|]. split; [exact I|]. split; [exact P|].
  apply (C107_opens_partial [] (pw32 "o") fid0 std_e None).
  - exact C.
  - left; reflexivity.
  - left; reflexivity.
  - exact I.
  - reflexivity.
  - reflexivity.
  - discriminate.
  - discriminate.
  - vm_compute. lia.
  - discriminate.
  - right; split; reflexivity.
  - exact P.
Qed.

(** Where /Length is missing, revision 3 and later are read as 128 bits; the
    standard says 40. *)
Theorem C107_length_missing_refuted : forall v r p o u meta n id pre mid tail,
  let f := std_file pre n (std_dict v r None p o u meta) mid id tail in
  1 <= v < 2 ^ 63 -> 3 <= r < 5 -> in_int32 p ->
  o <> [] -> u <> [] -> id <> [] -> (length o + length u <= 800)%nat -> std_place n pre mid f ->
  exists e, ParseEncryptionDictionary f = Ok e /\ eKeyLength e = 16 /\ iso_key_bytes None = 5.
Proof. exact std_no_length. Qed.
Print Assumptions C107_length_missing_refuted.
Example C107_length_example : std_place 5 std_pre (bs "xref") (std_f (std_dict 2 3 None (-4) (eO std_e) (eU std_e) true)).
Proof. repeat split; try lia; vm_compute; reflexivity. Qed.

(** Producers that write the permissions as an unsigned number: every value
    from 2^31 on is read as 2^31 - 1 ... *)
Theorem C107_unsigned_permissions_refuted : forall v r len p o u meta n id pre mid tail e,
  let f := std_file pre n (std_dict v r len p o u meta) mid id tail in
  1 <= v < 2 ^ 63 -> 1 <= r < 5 -> match len with Some l => 8 <= l < 2 ^ 63 | None => True end ->
  2 ^ 31 <= p < 2 ^ 32 -> o <> [] -> u <> [] -> id <> [] -> (length o + length u <= 800)%nat -> std_place n pre mid f ->
  ParseEncryptionDictionary f = Ok e -> eP e = 2 ^ 31 - 1.
Proof. exact std_p. Qed.
Print Assumptions C107_unsigned_permissions_refuted.

(** ... so the document of the example, its permissions -4 written as
    4294967292, is refused with the password that opens it. *)
Theorem C107_unsigned_refused_refuted :
  let f := std_f (std_dict 1 2 None (2 ^ 32 - 4) (eO std_e) (eU std_e) true) in
  std_place 5 std_pre (bs "xref") f /\ (2 ^ 32 - 4) mod 2 ^ 32 = eP std_e mod 2 ^ 32 /\ DecryptPDF f [] = Err.
Proof. cbv zeta. split; [repeat split; try lia; vm_compute; reflexivity|]. split; [reflexivity|]. vm_compute. reflexivity. Qed.
Print Assumptions C107_unsigned_refused_refuted.

(* ---------------------------------------------------------------- *)
(** C108 *)

(** The strings U and O that the library stores are functions of password,
    file identifier and salts alone: salt, sealed hash, salt. *)
Theorem C108_stored_strings : forall user owner fid p m r e,
  SetupAES256Encryption user owner fid p m r = Ok e ->
  eU e = stored_u user fid (rUserValidation r) (rUserKey r) /\
  eO e = stored_o owner fid (rOwnerValidation r) (rOwnerKey r) (eU e).
Proof. exact setup_stores. Qed.
Print Assumptions C108_stored_strings.
Example C108_example : eU e0 = stored_u (bs "user") fid0 (rUserValidation r0) (rUserKey r0) /\
  firstn 8 (eU e0) = repeat x01 8 /\ skipn 40 (eU e0) = repeat x02 8 /\ firstn 8 (eO e0) = repeat x03 8.
Proof.
  split; [apply (C108_stored_strings _ _ _ _ _ _ _ e0_setup)|]. repeat split.
Qed.

(** All four strings have 48 bytes.  The standard has UE and OE of 32, so no
    other reader opens such a document. *)
Theorem C108_lengths_refuted : forall user owner fid p m r e, random_sizes r ->
  SetupAES256Encryption user owner fid p m r = Ok e ->
  length (eU e) = 48%nat /\ length (eO e) = 48%nat /\ length (eUE e) = 48%nat /\ length (eOE e) = 48%nat.
Proof. exact setup_sizes. Qed.
Print Assumptions C108_lengths_refuted.

(** Nor does its U pass the check of the standard. *)
Theorem C108_iso_check_refuted :
  SetupAES256Encryption (bs "user") (bs "owner") fid0 (-4) true r0 = Ok e0 /\ ~ iso_v5_user (bs "user") (eU e0).
Proof. split; [exact e0_setup|]. unfold iso_v5_user. vm_compute. discriminate. Qed.
Print Assumptions C108_iso_check_refuted.
