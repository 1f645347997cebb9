(** Model of core/encrypt (key_derivation.go, decrypt.go, parser.go),
    core/write/encryption_v5.go, core/write/encryption_helper.go and
    writer.go:481-545.

    The ciphers and hashes are those of PrimModel.v.  Random bytes are
    arguments.  [verbose] only logs and is omitted.  Go int is [Z] without
    overflow.  aes.NewCipher is modelled for 16-byte keys only: no caller can
    pass 24 or 32 bytes (the key is always a prefix of at most 16 bytes). *)
From Verif Require Export PrimModel.
From Verif Require Export ParseModel ManipModel.
From Verif Require Export WriterModel.
Local Open Scope Z_scope.

(** types/types.go:4-19 PDFEncryption (Version, Revision, SubFilter and Filter
    are never read). *)
Record encryption := mkEnc {
  eV : Z; eR : Z; eKeyLength : Z;
  eO : bytes; eU : bytes; eUE : bytes; eOE : bytes;
  eP : Z; eMeta : bool;
  eKey : bytes
}.
Definition set_key (k : bytes) (e : encryption) : encryption :=
  mkEnc (eV e) (eR e) (eKeyLength e) (eO e) (eU e) (eUE e) (eOE e) (eP e) (eMeta e) k.

(** Go [s[:n]].  Simplified: the slice is taken to have no spare capacity
    (Go would allow n up to the capacity). *)
Definition cut (n : Z) (s : bytes) : result bytes :=
  if (0 <=? n) && (n <=? flen s) then Ok (firstn (Z.to_nat n) s) else Panic.

(** key_derivation.go:30-35, 108-113, 126-131, 205-210: the same 32 bytes. *)
Definition padding_string : bytes :=
  [x28; xbf; x4e; x5e; x4e; x75; x8a; x41; x64; x00; x4e; x56; xff; xfa; x01; x08;
   x2e; x2e; x00; xb6; xd0; x68; x3e; x80; x2f; x0c; xa9; xfe; x64; x53; x69; x7a].

(** key_derivation.go:37-49 and 212-223: 32 bytes from a password. *)
Definition pad_password (pw : bytes) : bytes :=
  match pw with
  | [] => padding_string
  | _ =>
      let n := length pw in
      firstn 32 pw ++ map (fun i => nth (Nat.modulo i n) pw x00) (seq n (32 - n))
  end.

(** [for i := 0; i < k; i++ { key = md5(key[:KeyLength]) }] *)
Fixpoint md5_rounds (k : nat) (len : Z) (key : bytes) : result bytes :=
  match k with
  | O => Ok key
  | S k' => rbind (cut len key) (fun p => md5_rounds k' len (md5 p))
  end.
(** key_derivation.go:95-97 and 240-242 *)
Definition truncate (len : Z) (key : bytes) : result bytes :=
  if len <? flen key then cut len key else Ok key.

Fixpoint sha_rounds (k : nat) (key : bytes) : bytes :=
  match k with O => key | S k' => sha_rounds k' (sha256 key) end.

(** key_derivation.go:362-373; encryption_v5.go:17-22 *)
Definition id8 (fileID : bytes) : bytes := firstn 8 fileID ++ repeat x00 (8 - length fileID).

(** key_derivation.go:360-401 *)
Definition DeriveEncryptionKeyV5 (pw fileID : bytes) : bytes :=
  sha_rounds 64 (sha256 (pw ++ id8 fileID)).

(** key_derivation.go:21-100 *)
Definition DeriveEncryptionKey (pw : bytes) (e : encryption) (fileID : bytes) : result bytes :=
  if 5 <=? eR e then Ok (DeriveEncryptionKeyV5 pw fileID)
  else
    let h := md5 (pad_password pw ++ eO e ++ le_bytes 4 (Z.to_N (eP e mod 2 ^ 32)) ++ fileID ++
                  (if eMeta e then [] else [xff; xff; xff; xff])) in
    rbind (if 3 <=? eR e then md5_rounds 50 (eKeyLength e) h else Ok h) (truncate (eKeyLength e)).

(** rc4.NewCipher(key) followed by XORKeyStream *)
Definition rc4_checked (key data : bytes) : result bytes :=
  if (1 <=? flen key) && (flen key <=? 256) then Ok (rc4 key data) else Err.

(** key_derivation.go:166-173 *)
Fixpoint rc4_rounds (is : list N) (key data : bytes) : bytes :=
  match is with
  | [] => data
  | i :: is' => rc4_rounds is' key (rc4 (map (fun b => bxor b (n2b i)) key) data)
  end.

(** key_derivation.go:105-195 *)
Definition ComputeUValue (key : bytes) (e : encryption) (fileID : bytes) : result bytes :=
  if eR e =? 2 then rc4_checked key padding_string
  else if (3 <=? eR e) && (eR e <? 5) then
    rbind (rc4_checked key (md5 (padding_string ++ fileID))) (fun c =>
    Ok (rc4_rounds (map N.of_nat (seq 1 19)) key c ++ repeat x00 16))
  else Err.

(** key_derivation.go:199-265, revisions below 5.  The decrypted O keeps the
    length of O: bytes after the 32nd stay zero. *)
Definition DeriveOwnerKey (pw : bytes) (e : encryption) (fileID : bytes) : result bytes :=
  if 5 <=? eR e then Ok (DeriveEncryptionKeyV5 pw fileID)
  else
    rbind (if 3 <=? eR e then md5_rounds 50 (eKeyLength e) (md5 (pad_password pw)) else Ok (md5 (pad_password pw)))
      (fun h => rbind (truncate (eKeyLength e) h) (fun k =>
       rbind (if eR e =? 2 then rc4_checked k (eO e)
              else rmap (fun d => d ++ repeat x00 (length (eO e) - 32)) (rc4_checked k (firstn 32 (eO e))))
         (fun d => DeriveEncryptionKey d e fileID))).

(* ---------------------------------------------------------------- *)
(** Version 5 *)

(** key_derivation.go:429-444 and 476-491: ECB decryption and removal of the
    padding length given by the last byte. *)
Definition UnwrapKeyV5 (passwordKey wrapped : bytes) : result bytes :=
  if flen wrapped =? 0 then Err
  else if flen passwordKey <? 16 then Err
  else if negb (flen wrapped mod 16 =? 0) then Err
  else
    let d := ecb (aes_decrypt (firstn 16 passwordKey)) (length wrapped / 16) wrapped in
    let pad := Z.of_N (b2n (last d x00)) in
    if (flen d <? pad) || (16 <? pad) then Err
    else Ok (firstn (length d - Z.to_nat pad) d).
(** key_derivation.go:405-451 and 455-498 *)
Definition UnwrapUserKeyV5 (passwordKey : bytes) (e : encryption) : result bytes := UnwrapKeyV5 passwordKey (eUE e).
Definition UnwrapOwnerKeyV5 (passwordKey : bytes) (e : encryption) : result bytes := UnwrapKeyV5 passwordKey (eOE e).

(** The 32-byte encrypted hash of key_derivation.go:526-549 and
    encryption_v5.go:134-149. *)
Definition encrypted_hash (passwordKey input : bytes) : bytes :=
  let h := sha256 input in
  aes_encrypt (firstn 16 passwordKey) (firstn 16 h) ++ aes_encrypt (firstn 16 passwordKey) (skipn 16 h).

(** key_derivation.go:511-566 *)
Definition ComputeUValueV5 (pw passwordKey : bytes) (e : encryption) : result bytes :=
  if flen (eU e) <? 48 then Err
  else if flen passwordKey <? 16 then Err
  else Ok (firstn 8 (eU e) ++ encrypted_hash passwordKey (pw ++ firstn 8 (eU e)) ++ firstn 8 (skipn 40 (eU e))).

(** key_derivation.go:570-599 *)
Definition VerifyUValueV5 (pw passwordKey : bytes) (e : encryption) : result bool :=
  if flen (eU e) <? 48 then Err
  else rbind (ComputeUValueV5 pw passwordKey e) (fun u =>
       Ok (bytes_eqb (firstn 32 (skipn 8 (eU e))) (firstn 32 (skipn 8 u)))).

(** decrypt.go:34-167: the file key a password opens; [Err] is the wrong
    password (or any other failure). *)
Definition unlock_v5 (pw fileID : bytes) (e : encryption) : result bytes :=
  let k := DeriveEncryptionKeyV5 pw fileID in
  rbind (VerifyUValueV5 pw k e) (fun ok =>
  if ok then UnwrapUserKeyV5 k e else UnwrapOwnerKeyV5 k e).

Definition same16 (a b : bytes) : bool :=
  (16 <=? flen b) && (16 <=? flen a) && bytes_eqb (firstn 16 a) (firstn 16 b).
Definition unlock_v4 (pw fileID : bytes) (e : encryption) : result bytes :=
  rbind (DeriveEncryptionKey pw e fileID) (fun k =>
  rbind (ComputeUValue k e fileID) (fun u =>
  if same16 u (eU e) then Ok k
  else
    match DeriveOwnerKey pw e fileID with
    | Panic => Panic
    | Err => Err
    | Ok k2 =>
        match ComputeUValue k2 e fileID with
        | Panic => Panic
        | Err => Err
        | Ok u2 => if same16 u2 (eU e) then Ok k2 else Err
        end
    end)).
Definition unlock (pw fileID : bytes) (e : encryption) : result bytes :=
  if 5 <=? eR e then unlock_v5 pw fileID e else unlock_v4 pw fileID e.

(* ---------------------------------------------------------------- *)
(** Objects *)

(** decrypt.go:207-231; writer.go:486-500: the bytes hashed into the key of
    an object. *)
Definition key_data (n : Z) (key : bytes) (num gen : Z) : result bytes :=
  rbind (cut n key) (fun k =>
  Ok (k ++ map n2b [Z.to_N (num mod 256); Z.to_N (num / 256 mod 256); Z.to_N (num / 65536 mod 256);
                    Z.to_N (gen mod 256); Z.to_N (gen / 256 mod 256)])).
Definition salt : bytes := bs "sAlT".
Definition key_prefix (n : Z) (h : bytes) : bytes := firstn (Z.to_nat (Z.min (n + 5) 16)) h.

(** decrypt.go:201-304 *)
Definition DecryptObject (e : encryption) : decryptor := fun data num gen =>
  match eKey e with
  | [] => Ok data
  | _ =>
      let n := if 1 <? eV e then eKeyLength e else 5 in
      rbind (key_data n (eKey e) num gen) (fun kd =>
      if (eV e =? 1) || (eV e =? 2) then rc4_checked (key_prefix n (md5 kd)) data
      else if (eV e =? 4) || (eV e =? 5) then
        let key := key_prefix n (md5 (kd ++ salt)) in
        let iv := firstn 16 data in
        let body := skipn 16 data in
        if flen data <? 16 then Err
        else if flen body =? 0 then Ok body
        else if negb (flen body mod 16 =? 0) then Err
        else if negb (flen key =? 16) then Err
        else
          let d := cbc_decrypt key iv (length body / 16) body in
          let pad := Z.of_N (b2n (last d x00)) in
          if flen d <? pad then Err else Ok (firstn (length d - Z.to_nat pad) d)
      else Ok data)
  end.

(** PKCS#7, writer.go:515-521 and encryption_v5.go:202-207 *)
Definition pkcs7 (data : bytes) : bytes :=
  let p := (16 - length data mod 16)%nat in data ++ repeat (n2b (N.of_nat p)) p.

(** writer.go:481-545.  [iv] is the random initialisation vector. *)
Definition encryptStream (iv : bytes) (e : encryption) (data : bytes) (num gen : Z) : result bytes :=
  match eKey e with
  | [] => Ok data
  | _ =>
      let n := if eKeyLength e =? 0 then 5 else eKeyLength e in
      rbind (key_data n (eKey e) num gen) (fun kd =>
      if (eV e =? 4) || (eV e =? 5) then
        let key := key_prefix n (md5 (kd ++ salt)) in
        if negb (flen key =? 16) then Err
        else let p := pkcs7 data in Ok (iv ++ cbc_encrypt key iv (length p / 16) p)
      else Ok data)
  end.

(* ---------------------------------------------------------------- *)
(** encryption_v5.go *)

(** encryption_v5.go:193-221 *)
Definition wrapKeyV5 (key wrappingKey : bytes) : result bytes :=
  if flen wrappingKey <? 16 then Err
  else let p := pkcs7 key in Ok (ecb (aes_encrypt (firstn 16 wrappingKey)) (length p / 16) p).

(** encryption_v5.go:132-158 and 162-189; the salts have 8 bytes. *)
Definition computeUValueV5 (pw passwordKey vsalt ksalt : bytes) : bytes :=
  vsalt ++ encrypted_hash passwordKey (pw ++ vsalt) ++ ksalt.
Definition computeOValueV5 (pw passwordKey vsalt ksalt u : bytes) : bytes :=
  vsalt ++ encrypted_hash passwordKey (pw ++ vsalt ++ u) ++ ksalt.

(** The random values drawn by SetupAES256Encryption. *)
Record randoms := mkRandoms {
  rKey : bytes; rUserValidation : bytes; rUserKey : bytes; rOwnerValidation : bytes; rOwnerKey : bytes
}.

(** encryption_v5.go:15-107.  (The second 32-byte random key, drawn at line
    43, is not used.) *)
Definition SetupAES256Encryption (user owner fileID : bytes) (permissions : Z) (meta : bool) (r : randoms)
  : result encryption :=
  let uk := DeriveEncryptionKeyV5 user fileID in
  let ok := DeriveEncryptionKeyV5 owner fileID in
  let u := computeUValueV5 user uk (rUserValidation r) (rUserKey r) in
  let o := computeOValueV5 owner ok (rOwnerValidation r) (rOwnerKey r) u in
  rbind (wrapKeyV5 (rKey r) uk) (fun ue =>
  rbind (wrapKeyV5 (rKey r) ok) (fun oe =>
  Ok (mkEnc 5 5 32 o u ue oe permissions meta (rKey r)))).

(** encryption_v5.go:224-271 *)
Definition CreateEncryptionDictionary (e : encryption) : bytes :=
  bs "<<" ++ nl ++ bs "/Filter /Standard" ++ nl ++
  bs "/V " ++ decZ (eV e) ++ nl ++
  bs "/R " ++ decZ (eR e) ++ nl ++
  bs "/Length " ++ decZ (eKeyLength e * 8) ++ nl ++
  bs "/P " ++ decZ (eP e) ++ nl ++
  bs "/U <" ++ hexX (eU e) ++ bs ">" ++ nl ++
  bs "/O <" ++ hexX (eO e) ++ bs ">" ++ nl ++
  match eUE e with [] => [] | _ => bs "/UE <" ++ hexX (eUE e) ++ bs ">" ++ nl end ++
  match eOE e with [] => [] | _ => bs "/OE <" ++ hexX (eOE e) ++ bs ">" ++ nl end ++
  (if eMeta e then [] else bs "/EncryptMetadata false" ++ nl) ++
  bs ">>".

(** writer.go:63-66 SetEncryption, the file ID part (the encryption itself is
    the argument [enc] of Write). *)
Definition set_file_id (id : bytes) (w : writer) : writer :=
  mkWriter (objects w) (dicts w) (nextObjNum w) (rootRef w) (infoRef w) (encryptRef w) (outlinesRef w)
    id (pdfVersion w) (useXRefStream w) (useObjectStream w).

(** encryption_helper.go:11-34.  [id] is the random file ID used when the
    writer has none. *)
Definition SetupEncryptionWithPasswords (user owner : bytes) (permissions : Z) (meta : bool) (id : bytes)
  (r : randoms) (w : writer) : result (Z * encryption * writer) :=
  let fid := match fileID w with [] => id | f => f end in
  let w1 := set_file_id fid w in
  rbind (SetupAES256Encryption user owner fid permissions meta r) (fun e =>
  let (n, w2) := AddObject (Some (CreateEncryptionDictionary e)) w1 in
  Ok (n, e, set_file_id fid (SetEncryptRef n w2))).

(* ---------------------------------------------------------------- *)
(** parser.go and ExtractFileID *)

Definition is_hex (b : byte) : bool :=
  let v := b2n b in
  ((48 <=? v) && (v <=? 57) || (65 <=? v) && (v <=? 70) || (97 <=? v) && (v <=? 102))%N.
Definition hex_val (b : byte) : N :=
  let v := b2n b in if (v <? 58)%N then (v - 48)%N else if (v <? 97)%N then (v - 55)%N else (v - 87)%N.

(** key_derivation.go:341-356.  Its arguments are always matches of
    [0-9A-Fa-f]+, so no byte is skipped and no pair fails to parse. *)
Fixpoint parseHexString (s : bytes) : bytes :=
  match s with
  | a :: b :: r => n2b (16 * hex_val a + hex_val b) :: parseHexString r
  | _ => []
  end.

(** KEY\s*<([0-9A-Fa-f]+)> *)
Definition m_hex_in (s : bytes) : option bytes :=
  do r <- lit (bs "<") s;
  let h := take_while is_hex r in
  match h with
  | [] => None
  | _ => do _ <- lit (bs ">") (skipn (length h) r); Some h
  end.
Definition m_hexval (key s : bytes) : option bytes := do r <- lit key s; m_hex_in (ws0 r).
(** KEY\s*\( : the number of bytes matched *)
Definition m_paren (key s : bytes) : option nat :=
  do r <- lit key s; do r <- lit (bs "(") (ws0 r); Some (length s - length r)%nat.
(** /ID\s*\[\s*<([0-9A-Fa-f]+)> and /ID\[<...> and /ID\s*\[\s*\( *)
Definition m_id_hex (s : bytes) : option bytes :=
  do r <- lit (bs "/ID") s; do r <- lit (bs "[") (ws0 r); m_hex_in (ws0 r).
Definition m_id_hex2 (s : bytes) : option bytes := do r <- lit (bs "/ID[") s; m_hex_in r.
Definition m_id_paren (s : bytes) : option nat :=
  do r <- lit (bs "/ID") s; do r <- lit (bs "[") (ws0 r); do r <- lit (bs "(") (ws0 r);
  Some (length s - length r)%nat.

(** The bytes from position [p] up to the next ")". *)
Definition up_to_paren (p : nat) (f : bytes) : option bytes :=
  match index (bs ")") (skipn p f) with Some e => Some (firstn e (skipn p f)) | None => None end.

(** key_derivation.go:279-338 *)
Definition ExtractFileID (f : bytes) : bytes :=
  let hex m := match value_of (find m f) with Some h => parseHexString h | None => [] end in
  match hex m_id_hex with
  | (_ :: _) as id => id
  | [] =>
      match hex m_id_hex2 with
      | (_ :: _) as id => id
      | [] => match find m_id_paren f with
              | Some (i, k) => def [] (up_to_paren (i + k) f)
              | None => []
              end
      end
  end.

(** parser.go:87-131: the first number after KEY whose first occurrence has
    no [avoid] among the 50 bytes before it (and which is accepted). *)
Definition m_keynum (key s : bytes) : option (bytes * bytes) :=
  do r <- lit key s; do r <- ws1 r; digits1 r.
Definition top_level (avoid : list bytes) (content m : bytes) : bool :=
  match index m content with
  | Some p => let before := firstn p content in
              negb (existsb (fun a => contains a (skipn (p - 50) before)) avoid)
  | None => true
  end.
Definition num_of (key m : bytes) : Z := atoi_clip (take_while is_digit (ws0 (skipn (length key) m))).
Definition top_number (key : bytes) (avoid : list bytes) (ok : Z -> bool) (content : bytes) : option Z :=
  match List.find (fun m => top_level avoid content m && ok (num_of key m)) (find_all (m_keynum key) content 0) with
  | Some m => Some (num_of key m)
  | None => None
  end.

(** parser.go:151-180: KEY <hex> or KEY (binary).  [skip] is 1 except for /OE,
    whose copy (parser.go:278) starts at the parenthesis itself. *)
Definition hex_or_binary (key content f : bytes) (dictStart skip : nat) : bytes :=
  match value_of (find (m_hexval key) content) with
  | Some h => parseHexString h
  | None =>
      match find (m_paren key) content with
      | Some (i, k) =>
          let p := (dictStart + i + k)%nat in
          match up_to_paren p f with
          | Some b => firstn (length b) (skipn (p - 1 + skip) f)
          | None => []
          end
      | None => []
      end
  end.

(** /P\s+(-?\d+), strconv.ParseInt(..., 10, 32) with the error ignored *)
Definition m_p (s : bytes) : option Z :=
  do r <- lit (bs "/P") s; do r <- ws1 r;
  match r with
  | b :: r' => if beqb b "-" then do (d, _) <- digits1 r'; Some (- Z.min (Z.of_N (num d)) (2 ^ 31))
               else do (d, _) <- digits1 r; Some (Z.min (Z.of_N (num d)) (2 ^ 31 - 1))
  | [] => None
  end.

(** parser.go:52-67, from the first "<<"; the limit is 2000 bytes. *)
Definition enc_dict_end (s : bytes) : option nat := trailer_end (N.to_nat 2000) 0 s 0.

Definition or_default (z d : Z) : Z := if z =? 0 then d else z.

(** parser.go:15-289 *)
Definition ParseEncryptionDictionary (f : bytes) : result encryption :=
  match value_of (find (m_ref (bs "/Encrypt")) f) with
  | None => Err
  | Some m =>
      match atoi (take_while is_digit m) with
      | None => Err
      | Some n =>
          match index (decZ n ++ bs " 0 obj") f with
          | None => Err
          | Some oi =>
              match index (bs "<<") (skipn oi f) with
              | None => Err
              | Some di =>
                  let ds := (oi + di)%nat in
                  match enc_dict_end (skipn ds f) with
                  | None => Err
                  | Some len =>
                      let c := firstn len (skipn ds f) in
                      let cf := [bs "/CF"; bs "/StdCF"] in
                      let v := or_default (def 0 (top_number (bs "/V") cf (fun _ => true) c)) 4 in
                      let r := or_default (def 0 (top_number (bs "/R") cf (fun _ => true) c)) 4 in
                      let kl := or_default (def 0 (top_number (bs "/Length") [bs "/CF"] (fun z => 0 <? z) c) / 8)
                                  (if r =? 2 then 5 else if 5 <=? r then 32 else 16) in
                      let hb k skip := hex_or_binary (bs k) c f ds skip in
                      Ok (mkEnc v r kl (hb "/O"%string 1%nat) (hb "/U"%string 1%nat)
                            (if 5 <=? r then hb "/UE"%string 1%nat else [])
                            (if 5 <=? r then hb "/OE"%string 0%nat else [])
                            (def 0 (value_of (find m_p c)))
                            (negb (contains (bs "/EncryptMetadata false") c)) [])
                  end
              end
          end
      end
  end.

(** decrypt.go:17-180; DecryptPDFObjects returns the bytes unchanged. *)
Definition DecryptPDF (f pw : bytes) : result (bytes * encryption) :=
  rbind (ParseEncryptionDictionary f) (fun e =>
  rbind (unlock pw (ExtractFileID f) e) (fun k => Ok (f, set_key k e))).

(** api.go:118-136 handleEncryption, as the [crypt] argument of Open. *)
Definition handleEncryption (pw f : bytes) : result (option decryptor) :=
  match ParseEncryptionDictionary f with
  | Panic => Panic
  | Err => Ok None
  | Ok _ => rmap (fun p => Some (DecryptObject (snd p))) (DecryptPDF f pw)
  end.
