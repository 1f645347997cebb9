(** What the encryption properties talk about.

    The algorithms of ISO 32000-1, 7.6.3 for the older handlers are written
    down here from the standard, over the primitives of PrimModel.v. *)
From Verif Require Import CryptModel.
Local Open Scope Z_scope.

(** The sizes of the random values: 32-byte key, 8-byte salts. *)
Definition random_sizes (r : randoms) : Prop :=
  length (rKey r) = 32%nat /\ length (rUserValidation r) = 8%nat /\ length (rUserKey r) = 8%nat /\
  length (rOwnerValidation r) = 8%nat /\ length (rOwnerKey r) = 8%nat.

(** Two different passwords with the same validation hash. *)
Definition collision (p q fileID salt : bytes) : Prop :=
  p <> q /\ encrypted_hash (DeriveEncryptionKeyV5 p fileID) (p ++ salt) =
            encrypted_hash (DeriveEncryptionKeyV5 q fileID) (q ++ salt).

(** Text without the words the reader of the encryption dictionary searches. *)
Definition quiet (s : bytes) : Prop := contains (bs "/Encrypt") s = false /\ contains (bs "/ID") s = false.

(** A file with encryption dictionary [d] in object [n] between [pre] and
    [mid], and the trailer of writer [w]. *)
Definition encrypted_file (pre : bytes) (n : Z) (d mid : bytes) (w : writer) (size : Z) (tail : bytes) : bytes :=
  pre ++ obj_text n d ++ mid ++ nl ++ trailer_text w size ++ tail.

(** ISO 32000-1, Algorithm 2 step a *)
Definition iso_padding : bytes :=
  [x28; xbf; x4e; x5e; x4e; x75; x8a; x41; x64; x00; x4e; x56; xff; xfa; x01; x08;
   x2e; x2e; x00; xb6; xd0; x68; x3e; x80; x2f; x0c; xa9; xfe; x64; x53; x69; x7a].
Definition iso_pad (pw : bytes) : bytes := firstn 32 (pw ++ iso_padding).
Definition iterate {A} (k : nat) (f : A -> A) (x : A) : A := Nat.iter k f x.

(** Algorithm 2: the encryption key, [n] bytes. *)
Definition iso_key (r : Z) (n : nat) (pw o : bytes) (p : Z) (id : bytes) (meta : bool) : bytes :=
  let h := md5 (iso_pad pw ++ o ++ le_bytes 4 (Z.to_N (p mod 2 ^ 32)) ++ id ++
                (if (4 <=? r) && negb meta then repeat xff 4 else [])) in
  firstn n (if 3 <=? r then iterate 50 (fun h => md5 (firstn n h)) h else h).
(** The 19 further RC4 passes of Algorithms 3 and 5. *)
Definition iso_passes (key data : bytes) : bytes :=
  fold_left (fun d i => rc4 (map (fun b => bxor b (n2b (N.of_nat i))) key) d) (seq 1 19) data.
(** Algorithms 4 and 5: what U starts with. *)
Definition iso_user (r : Z) (key id : bytes) : bytes :=
  if r =? 2 then rc4 key iso_padding else iso_passes key (rc4 key (md5 (iso_padding ++ id))).
(** Algorithm 3: O. *)
Definition iso_owner (r : Z) (n : nat) (owner user : bytes) : bytes :=
  let key := firstn n (if 3 <=? r then iterate 50 md5 (md5 (iso_pad owner)) else md5 (iso_pad owner)) in
  let c := rc4 key (iso_pad user) in
  if 3 <=? r then iso_passes key c else c.

(** A document of the older handlers made by a conforming producer. *)
Definition conforming (user owner id : bytes) (e : encryption) : Prop :=
  (eR e = 2 \/ eR e = 3 \/ eR e = 4) /\ 1 <= eKeyLength e <= 16 /\ (eR e = 2 -> eKeyLength e = 5) /\
  (eR e = 4 \/ eMeta e = true) /\
  let n := Z.to_nat (eKeyLength e) in
  eO e = iso_owner (eR e) n owner user /\
  exists rest, eU e = iso_user (eR e) (iso_key (eR e) n user (eO e) (eP e) id (eMeta e)) id ++ rest.
(** The key of such a document. *)
Definition document_key (user id : bytes) (e : encryption) : bytes :=
  iso_key (eR e) (Z.to_nat (eKeyLength e)) user (eO e) (eP e) id (eMeta e).
(** Passwords no padding can be wrong for. *)
Definition full_password (pw : bytes) : Prop := pw = [] \/ (32 <= length pw)%nat.

(** The text of a stream object: the dictionary [a] /Length [len] [b], and
    the data [s]. *)
Definition stream_obj (a b : bytes) (len : Z) (s : bytes) : bytes :=
  a ++ bs "/Length " ++ decZ len ++ b ++ nl ++ bs "stream" ++ nl ++ s ++ nl ++ bs "endstream".
(** Dictionary text around /Length that says nothing about streams. *)
Definition plain_dict (a b : bytes) : Prop :=
  a <> [] /\ match a with [] => True | c :: _ => is_blank c = false end /\
  match b with [] => True | c :: _ => is_digit c = false end /\
  contains (bs "/Length") a = false /\ contains (bs "/Length") b = false /\
  contains (bs "stream") a = false /\ contains (bs "stream") b = false.

(** The document a conforming producer makes for these passwords. *)
Definition iso_doc (r n : Z) (user owner id : bytes) : encryption :=
  let o := iso_owner r (Z.to_nat n) owner user in
  let v := if r =? 2 then 1 else 2 in
  let u := iso_user r (iso_key r (Z.to_nat n) user o (-4) id true) id in
  mkEnc v r n o u [] [] (-4) true [].
