(** Small specifications for encryption dictionaries made by other producers
    (C107) and for the values stored by this one (C108). *)
From Verif Require Import WriterModel CryptModel CryptSpec.
Local Open Scope Z_scope.

(** An encryption dictionary of the standard security handler, versions 1 to 4. *)
Definition std_dict (v r : Z) (len : option Z) (p : Z) (o u : bytes) (meta : bool) : bytes :=
  bs "<<
/Filter /Standard
/V " ++ decZ v ++ bs "
/R " ++ decZ r ++ bs "
" ++ match len with Some l => bs "/Length " ++ decZ l ++ bs "
" | None => [] end ++
  bs "/P " ++ decZ p ++ bs "
/O <" ++ hexX o ++ bs ">
/U <" ++ hexX u ++ bs ">
" ++ (if meta then [] else bs "/EncryptMetadata false
") ++ bs ">>".

(** A file that has it as object [n]. *)
Definition std_trailer (n : Z) (id : bytes) : bytes :=
  bs "trailer
<< /Root 1 0 R /Encrypt " ++ ref n ++ bs " /ID [<" ++ hexX id ++ bs "><" ++ hexX id ++ bs ">] >>
".
Definition std_file (pre : bytes) (n : Z) (d mid id tail : bytes) : bytes :=
  pre ++ obj_text n d ++ mid ++ nl ++ std_trailer n id ++ tail.

(** The length of the file key in bytes: /Length is in bits; ISO 32000-1 says
    40 bits where it is missing (table 20). *)
Definition iso_key_bytes (len : option Z) : Z := match len with Some l => l / 8 | None => 5 end.

(** Permissions are a 32-bit number. *)
Definition in_int32 (p : Z) : Prop := - 2 ^ 31 <= p < 2 ^ 31.

(** Version 5: the key derived from a password: SHA-256, 65 times, of the
    password and 8 bytes of file identifier. *)
Definition chain_key (pw id : bytes) : bytes := iterate 65 sha256 (pw ++ firstn 8 (id ++ repeat x00 8)).
(** SHA-256 of [s], each half encrypted with AES under the first 16 bytes of the key. *)
Definition sealed_hash (k s : bytes) : bytes :=
  concat (map (aes_encrypt (firstn 16 k)) [firstn 16 (sha256 s); skipn 16 (sha256 s)]).
(** U and O: validation salt, hash, key salt. *)
Definition stored_u (user id vs ks : bytes) : bytes := vs ++ sealed_hash (chain_key user id) (user ++ vs) ++ ks.
Definition stored_o (owner id vs ks u : bytes) : bytes := vs ++ sealed_hash (chain_key owner id) (owner ++ vs ++ u) ++ ks.

(** The check of ISO 32000-2 for revision 5 (algorithm 2.A): U is the SHA-256
    of password and validation salt, followed by the two salts; UE has 32 bytes. *)
Definition iso_v5_user (pw u : bytes) : Prop := firstn 32 u = sha256 (pw ++ firstn 8 (skipn 32 u)).

(** A document of the older handlers as such a dictionary and file describe it. *)
Definition std_doc (len : option Z) (pre : bytes) (n : Z) (e : encryption) (mid id tail : bytes) : bytes :=
  std_file pre n (std_dict (eV e) (eR e) len (eP e) (eO e) (eU e) (eMeta e)) mid id tail.
(** Its object is found first, and the words the reader searches for are not
    in the text before the trailer. *)
Definition std_place (n : Z) (pre mid f : bytes) : Prop :=
  0 <= n < 2 ^ 63 /\ quiet pre /\ quiet mid /\ index (decZ n ++ bs " 0 obj") f = Some (length pre).
