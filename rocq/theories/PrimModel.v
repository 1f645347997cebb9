(** Go's crypto/aes (128-bit keys), crypto/cipher CBC, crypto/rc4, crypto/md5
    and crypto/sha256 as used by core/encrypt and core/write.

    These are the standard library's, not /repo's: the definitions follow
    FIPS 197, RFC 1321, FIPS 180-4 and the RC4 description, and the test
    vectors of those documents are checked at the end of the file.  Their use
    in /repo: core/encrypt/key_derivation.go and core/encrypt/decrypt.go,
    core/write/writer.go:481-545, core/write/encryption_v5.go. *)
From Verif Require Export Util.
Local Open Scope N_scope.

Definition bxor (a b : byte) : byte := n2b (N.lxor (b2n a) (b2n b)).
(** XOR of two byte strings; the shorter one decides the length. *)
Fixpoint xor_bytes (a b : bytes) : bytes :=
  match a, b with
  | x :: a', y :: b' => bxor x y :: xor_bytes a' b'
  | _, _ => []
  end.

(* ---------------------------------------------------------------- *)
(** AES-128, FIPS 197 *)

Definition sbox_table : list byte :=
  [x63; x7c; x77; x7b; xf2; x6b; x6f; xc5; x30; x01; x67; x2b; xfe; xd7; xab; x76;
   xca; x82; xc9; x7d; xfa; x59; x47; xf0; xad; xd4; xa2; xaf; x9c; xa4; x72; xc0;
   xb7; xfd; x93; x26; x36; x3f; xf7; xcc; x34; xa5; xe5; xf1; x71; xd8; x31; x15;
   x04; xc7; x23; xc3; x18; x96; x05; x9a; x07; x12; x80; xe2; xeb; x27; xb2; x75;
   x09; x83; x2c; x1a; x1b; x6e; x5a; xa0; x52; x3b; xd6; xb3; x29; xe3; x2f; x84;
   x53; xd1; x00; xed; x20; xfc; xb1; x5b; x6a; xcb; xbe; x39; x4a; x4c; x58; xcf;
   xd0; xef; xaa; xfb; x43; x4d; x33; x85; x45; xf9; x02; x7f; x50; x3c; x9f; xa8;
   x51; xa3; x40; x8f; x92; x9d; x38; xf5; xbc; xb6; xda; x21; x10; xff; xf3; xd2;
   xcd; x0c; x13; xec; x5f; x97; x44; x17; xc4; xa7; x7e; x3d; x64; x5d; x19; x73;
   x60; x81; x4f; xdc; x22; x2a; x90; x88; x46; xee; xb8; x14; xde; x5e; x0b; xdb;
   xe0; x32; x3a; x0a; x49; x06; x24; x5c; xc2; xd3; xac; x62; x91; x95; xe4; x79;
   xe7; xc8; x37; x6d; x8d; xd5; x4e; xa9; x6c; x56; xf4; xea; x65; x7a; xae; x08;
   xba; x78; x25; x2e; x1c; xa6; xb4; xc6; xe8; xdd; x74; x1f; x4b; xbd; x8b; x8a;
   x70; x3e; xb5; x66; x48; x03; xf6; x0e; x61; x35; x57; xb9; x86; xc1; x1d; x9e;
   xe1; xf8; x98; x11; x69; xd9; x8e; x94; x9b; x1e; x87; xe9; xce; x55; x28; xdf;
   x8c; xa1; x89; x0d; xbf; xe6; x42; x68; x41; x99; x2d; x0f; xb0; x54; xbb; x16].
Definition inv_sbox_table : list byte :=
  [x52; x09; x6a; xd5; x30; x36; xa5; x38; xbf; x40; xa3; x9e; x81; xf3; xd7; xfb;
   x7c; xe3; x39; x82; x9b; x2f; xff; x87; x34; x8e; x43; x44; xc4; xde; xe9; xcb;
   x54; x7b; x94; x32; xa6; xc2; x23; x3d; xee; x4c; x95; x0b; x42; xfa; xc3; x4e;
   x08; x2e; xa1; x66; x28; xd9; x24; xb2; x76; x5b; xa2; x49; x6d; x8b; xd1; x25;
   x72; xf8; xf6; x64; x86; x68; x98; x16; xd4; xa4; x5c; xcc; x5d; x65; xb6; x92;
   x6c; x70; x48; x50; xfd; xed; xb9; xda; x5e; x15; x46; x57; xa7; x8d; x9d; x84;
   x90; xd8; xab; x00; x8c; xbc; xd3; x0a; xf7; xe4; x58; x05; xb8; xb3; x45; x06;
   xd0; x2c; x1e; x8f; xca; x3f; x0f; x02; xc1; xaf; xbd; x03; x01; x13; x8a; x6b;
   x3a; x91; x11; x41; x4f; x67; xdc; xea; x97; xf2; xcf; xce; xf0; xb4; xe6; x73;
   x96; xac; x74; x22; xe7; xad; x35; x85; xe2; xf9; x37; xe8; x1c; x75; xdf; x6e;
   x47; xf1; x1a; x71; x1d; x29; xc5; x89; x6f; xb7; x62; x0e; xaa; x18; xbe; x1b;
   xfc; x56; x3e; x4b; xc6; xd2; x79; x20; x9a; xdb; xc0; xfe; x78; xcd; x5a; xf4;
   x1f; xdd; xa8; x33; x88; x07; xc7; x31; xb1; x12; x10; x59; x27; x80; xec; x5f;
   x60; x51; x7f; xa9; x19; xb5; x4a; x0d; x2d; xe5; x7a; x9f; x93; xc9; x9c; xef;
   xa0; xe0; x3b; x4d; xae; x2a; xf5; xb0; xc8; xeb; xbb; x3c; x83; x53; x99; x61;
   x17; x2b; x04; x7e; xba; x77; xd6; x26; xe1; x69; x14; x63; x55; x21; x0c; x7d].
Definition sbox (b : byte) : byte := nth (N.to_nat (b2n b)) sbox_table x00.
Definition inv_sbox (b : byte) : byte := nth (N.to_nat (b2n b)) inv_sbox_table x00.

(** FIPS 197 4.2.1: multiplication by x, and by the constants used. *)
Definition xtime (b : byte) : byte :=
  let n := 2 * b2n b in n2b (if n <? 256 then n else N.lxor n 283).
Definition mul2 (b : byte) : byte := xtime b.
Definition mul3 (b : byte) : byte := bxor (xtime b) b.
Definition mul9 (b : byte) : byte := bxor (xtime (xtime (xtime b))) b.
Definition mul11 (b : byte) : byte := bxor (bxor (xtime (xtime (xtime b))) (xtime b)) b.
Definition mul13 (b : byte) : byte := bxor (bxor (xtime (xtime (xtime b))) (xtime (xtime b))) b.
Definition mul14 (b : byte) : byte := bxor (bxor (xtime (xtime (xtime b))) (xtime (xtime b))) (xtime b).

(** A column of four bytes; a state of four columns. *)
Inductive word := W (a b c d : byte).
Inductive state := St (p q r s : word).

Definition map_word (f : byte -> byte) (w : word) : word :=
  match w with W a b c d => W (f a) (f b) (f c) (f d) end.
Definition map_state (f : word -> word) (s : state) : state :=
  match s with St p q r t => St (f p) (f q) (f r) (f t) end.
Definition xor_word (v w : word) : word :=
  match v, w with W a b c d, W a' b' c' d' => W (bxor a a') (bxor b b') (bxor c c') (bxor d d') end.
Definition xor_state (x y : state) : state :=
  match x, y with
  | St a b c d, St a' b' c' d' => St (xor_word a a') (xor_word b b') (xor_word c c') (xor_word d d')
  end.

(** FIPS 197 5.1.2 ShiftRows and 5.3.1 InvShiftRows *)
Definition shift_rows (s : state) : state :=
  match s with
  | St (W a0 a1 a2 a3) (W b0 b1 b2 b3) (W c0 c1 c2 c3) (W d0 d1 d2 d3) =>
      St (W a0 b1 c2 d3) (W b0 c1 d2 a3) (W c0 d1 a2 b3) (W d0 a1 b2 c3)
  end.
Definition inv_shift_rows (s : state) : state :=
  match s with
  | St (W a0 a1 a2 a3) (W b0 b1 b2 b3) (W c0 c1 c2 c3) (W d0 d1 d2 d3) =>
      St (W a0 d1 c2 b3) (W b0 a1 d2 c3) (W c0 b1 a2 d3) (W d0 c1 b2 a3)
  end.

(** FIPS 197 5.1.3 MixColumns and 5.3.3 InvMixColumns *)
Definition bxor4 (a b c d : byte) : byte := bxor a (bxor b (bxor c d)).
Definition mix_column (w : word) : word :=
  match w with
  | W a b c d => W (bxor4 (mul2 a) (mul3 b) c d) (bxor4 a (mul2 b) (mul3 c) d)
                   (bxor4 a b (mul2 c) (mul3 d)) (bxor4 (mul3 a) b c (mul2 d))
  end.
Definition inv_mix_column (w : word) : word :=
  match w with
  | W a b c d => W (bxor4 (mul14 a) (mul11 b) (mul13 c) (mul9 d)) (bxor4 (mul9 a) (mul14 b) (mul11 c) (mul13 d))
                   (bxor4 (mul13 a) (mul9 b) (mul14 c) (mul11 d)) (bxor4 (mul11 a) (mul13 b) (mul9 c) (mul14 d))
  end.

Definition sub_bytes : state -> state := map_state (map_word sbox).
Definition inv_sub_bytes : state -> state := map_state (map_word inv_sbox).

(** FIPS 197 5.2 KeyExpansion, one round key from the previous one. *)
Definition next_key (rcon : byte) (k : state) : state :=
  match k with
  | St p q r (W a b c d) =>
      let t := W (bxor (sbox b) rcon) (sbox c) (sbox d) (sbox a) in
      let p' := xor_word p t in
      let q' := xor_word q p' in
      let r' := xor_word r q' in
      St p' q' r' (xor_word (W a b c d) r')
  end.
Fixpoint round_keys (n : nat) (rcon : byte) (k : state) : list state :=
  match n with
  | O => []
  | S n' => let k' := next_key rcon k in k' :: round_keys n' (xtime rcon) k'
  end.

(** FIPS 197 5.1 Cipher and 5.3 InvCipher.  [ks] are the round keys 1..9. *)
Definition enc_round (s k : state) : state := xor_state (map_state mix_column (shift_rows (sub_bytes s))) k.
Definition dec_round (s k : state) : state := inv_sub_bytes (inv_shift_rows (map_state inv_mix_column (xor_state s k))).
Definition cipher (k0 : state) (ks : list state) (k10 : state) (s : state) : state :=
  xor_state (shift_rows (sub_bytes (fold_left enc_round ks (xor_state s k0)))) k10.
Definition inv_cipher (k0 : state) (ks : list state) (k10 : state) (s : state) : state :=
  xor_state (fold_left dec_round (rev ks) (inv_sub_bytes (inv_shift_rows (xor_state s k10)))) k0.

Definition to_state (l : bytes) : state :=
  match l with
  | [a0; a1; a2; a3; b0; b1; b2; b3; c0; c1; c2; c3; d0; d1; d2; d3] =>
      St (W a0 a1 a2 a3) (W b0 b1 b2 b3) (W c0 c1 c2 c3) (W d0 d1 d2 d3)
  | _ => St (W x00 x00 x00 x00) (W x00 x00 x00 x00) (W x00 x00 x00 x00) (W x00 x00 x00 x00)
  end.
Definition of_state (s : state) : bytes :=
  match s with
  | St (W a0 a1 a2 a3) (W b0 b1 b2 b3) (W c0 c1 c2 c3) (W d0 d1 d2 d3) =>
      [a0; a1; a2; a3; b0; b1; b2; b3; c0; c1; c2; c3; d0; d1; d2; d3]
  end.
Definition zero_state : state := to_state [].

(** block.Encrypt / block.Decrypt on one 16-byte block under a 16-byte key. *)
Definition aes_keys (key : bytes) : state * list state * state :=
  let k0 := to_state key in
  let ks := round_keys 10 x01 k0 in
  (k0, firstn 9 ks, nth 9 ks zero_state).
Definition aes_encrypt (key block : bytes) : bytes :=
  match aes_keys key with (k0, ks, k10) => of_state (cipher k0 ks k10 (to_state block)) end.
Definition aes_decrypt (key block : bytes) : bytes :=
  match aes_keys key with (k0, ks, k10) => of_state (inv_cipher k0 ks k10 (to_state block)) end.

(** ECB over [n] consecutive blocks (the loops of encryption_v5.go:215-218
    and key_derivation.go:429-432). *)
Fixpoint ecb (f : bytes -> bytes) (n : nat) (data : bytes) : bytes :=
  match n with
  | O => []
  | S n' => f (firstn 16 data) ++ ecb f n' (skipn 16 data)
  end.

(** cipher.NewCBCEncrypter / NewCBCDecrypter . CryptBlocks over [n] blocks. *)
Fixpoint cbc_encrypt (key iv : bytes) (n : nat) (data : bytes) : bytes :=
  match n with
  | O => []
  | S n' =>
      let c := aes_encrypt key (xor_bytes iv (firstn 16 data)) in
      c ++ cbc_encrypt key c n' (skipn 16 data)
  end.
Fixpoint cbc_decrypt (key iv : bytes) (n : nat) (data : bytes) : bytes :=
  match n with
  | O => []
  | S n' =>
      let c := firstn 16 data in
      xor_bytes iv (aes_decrypt key c) ++ cbc_decrypt key c n' (skipn 16 data)
  end.

(* ---------------------------------------------------------------- *)
(** RC4 *)

Fixpoint set_nth (i : nat) (v : byte) (l : list byte) : list byte :=
  match l, i with
  | [], _ => []
  | _ :: l', O => v :: l'
  | x :: l', S i' => x :: set_nth i' v l'
  end.
Definition get (s : list byte) (i : N) : N := b2n (nth (N.to_nat i) s x00).
Definition swap (i j : N) (s : list byte) : list byte :=
  set_nth (N.to_nat j) (n2b (get s i)) (set_nth (N.to_nat i) (n2b (get s j)) s).

Fixpoint rc4_schedule (n : nat) (key : bytes) (i j : N) (s : list byte) : list byte :=
  match n with
  | O => s
  | S n' =>
      let k := b2n (nth (Nat.modulo (N.to_nat i) (length key)) key x00) in
      let j' := (j + get s i + k) mod 256 in
      rc4_schedule n' key (i + 1) j' (swap i j' s)
  end.
Definition rc4_init (key : bytes) : list byte :=
  rc4_schedule 256 key 0 0 (map (fun i => n2b (N.of_nat i)) (seq 0 256)).
Fixpoint rc4_stream (n : nat) (i j : N) (s : list byte) : bytes :=
  match n with
  | O => []
  | S n' =>
      let i' := (i + 1) mod 256 in
      let j' := (j + get s i') mod 256 in
      let s' := swap i' j' s in
      n2b (get s' ((get s' i' + get s' j') mod 256)) :: rc4_stream n' i' j' s'
  end.
(** rc4.NewCipher(key).XORKeyStream on [data]. *)
Definition rc4 (key data : bytes) : bytes :=
  xor_bytes data (rc4_stream (length data) 0 0 (rc4_init key)).

(* ---------------------------------------------------------------- *)
(** 32-bit words *)

Definition two32 : N := 4294967296.
Definition add32 (a b : N) : N := (a + b) mod two32.
Definition not32 (a : N) : N := N.lxor a (two32 - 1).
Definition rotl32 (k a : N) : N := N.lor (N.shiftl a k mod two32) (N.shiftr a (32 - k)).
Definition rotr32 (k a : N) : N := rotl32 (32 - k) a.

Fixpoint le_num (l : bytes) : N := match l with [] => 0 | b :: l' => b2n b + 256 * le_num l' end.
Fixpoint le_bytes (k : nat) (n : N) : bytes :=
  match k with O => [] | S k' => n2b (n mod 256) :: le_bytes k' (n / 256) end.
Definition be_bytes (k : nat) (n : N) : bytes := rev (le_bytes k n).

(** Message padding: 0x80, zeros up to 56 mod 64, then the bit length. *)
Definition pad_zeros (len : nat) : nat := ((119 - (len mod 64)) mod 64)%nat.
Definition md_pad (length_bytes : N -> bytes) (m : bytes) : bytes :=
  m ++ x80 :: repeat x00 (pad_zeros (length m)) ++ length_bytes (8 * N.of_nat (length m)).
Fixpoint blocks (fuel : nat) (k : nat) (l : bytes) : list bytes :=
  match fuel with
  | O => []
  | S f => match l with [] => [] | _ => firstn k l :: blocks f k (skipn k l) end
  end.
Definition words (num : bytes -> N) (block : bytes) : list N := map num (blocks (length block) 4 block).

(* ---------------------------------------------------------------- *)
(** MD5, RFC 1321 *)

Definition md5_k : list N :=
  [3614090360; 3905402710; 606105819; 3250441966; 4118548399; 1200080426;
   2821735955; 4249261313; 1770035416; 2336552879; 4294925233; 2304563134;
   1804603682; 4254626195; 2792965006; 1236535329; 4129170786; 3225465664;
   643717713; 3921069994; 3593408605; 38016083; 3634488961; 3889429448;
   568446438; 3275163606; 4107603335; 1163531501; 2850285829; 4243563512;
   1735328473; 2368359562; 4294588738; 2272392833; 1839030562; 4259657740;
   2763975236; 1272893353; 4139469664; 3200236656; 681279174; 3936430074;
   3572445317; 76029189; 3654602809; 3873151461; 530742520; 3299628645;
   4096336452; 1126891415; 2878612391; 4237533241; 1700485571; 2399980690;
   4293915773; 2240044497; 1873313359; 4264355552; 2734768916; 1309151649;
   4149444226; 3174756917; 718787259; 3951481745].
Definition md5_r : list N :=
  [7; 12; 17; 22; 7; 12; 17; 22; 7; 12; 17; 22; 7; 12; 17; 22;
   5; 9; 14; 20; 5; 9; 14; 20; 5; 9; 14; 20; 5; 9; 14; 20;
   4; 11; 16; 23; 4; 11; 16; 23; 4; 11; 16; 23; 4; 11; 16; 23;
   6; 10; 15; 21; 6; 10; 15; 21; 6; 10; 15; 21; 6; 10; 15; 21].
Inductive md5_state := M (a b c d : N).
Definition md5_mix (i : nat) (b c d : N) : N * nat :=
  if (i <? 16)%nat then (N.lor (N.land b c) (N.land (not32 b) d), i)
  else if (i <? 32)%nat then (N.lor (N.land d b) (N.land (not32 d) c), Nat.modulo (5 * i + 1) 16)
  else if (i <? 48)%nat then (N.lxor b (N.lxor c d), Nat.modulo (3 * i + 5) 16)
  else (N.lxor c (N.lor b (not32 d)), Nat.modulo (7 * i) 16).
Definition md5_step (ws : list N) (s : md5_state) (i : nat) : md5_state :=
  match s with
  | M a b c d =>
      let (f, g) := md5_mix i b c d in
      let t := add32 (add32 (add32 f a) (nth i md5_k 0)) (nth g ws 0) in
      M d (add32 b (rotl32 (nth i md5_r 0) t)) b c
  end.
Definition md5_block (s : md5_state) (block : bytes) : md5_state :=
  match s, fold_left (md5_step (words le_num block)) (seq 0 64) s with
  | M a b c d, M a' b' c' d' => M (add32 a a') (add32 b b') (add32 c c') (add32 d d')
  end.
Definition md5 (m : bytes) : bytes :=
  let p := md_pad (le_bytes 8) m in
  match fold_left md5_block (blocks (length p) 64 p) (M 1732584193 4023233417 2562383102 271733878) with
  | M a b c d => le_bytes 4 a ++ le_bytes 4 b ++ le_bytes 4 c ++ le_bytes 4 d
  end.

(* ---------------------------------------------------------------- *)
(** SHA-256, FIPS 180-4 *)

Definition sha_k : list N :=
  [1116352408; 1899447441; 3049323471; 3921009573; 961987163; 1508970993;
   2453635748; 2870763221; 3624381080; 310598401; 607225278; 1426881987;
   1925078388; 2162078206; 2614888103; 3248222580; 3835390401; 4022224774;
   264347078; 604807628; 770255983; 1249150122; 1555081692; 1996064986;
   2554220882; 2821834349; 2952996808; 3210313671; 3336571891; 3584528711;
   113926993; 338241895; 666307205; 773529912; 1294757372; 1396182291;
   1695183700; 1986661051; 2177026350; 2456956037; 2730485921; 2820302411;
   3259730800; 3345764771; 3516065817; 3600352804; 4094571909; 275423344;
   430227734; 506948616; 659060556; 883997877; 958139571; 1322822218;
   1537002063; 1747873779; 1955562222; 2024104815; 2227730452; 2361852424;
   2428436474; 2756734187; 3204031479; 3329325298].
Inductive sha_state := H (a b c d e f g h : N).
Definition sha_init : sha_state :=
  H 1779033703 3144134277 1013904242 2773480762 1359893119 2600822924 528734635 1541459225.
(** The message schedule, built newest first (16 initial words reversed). *)
Definition small_sigma0 (x : N) : N := N.lxor (rotr32 7 x) (N.lxor (rotr32 18 x) (N.shiftr x 3)).
Definition small_sigma1 (x : N) : N := N.lxor (rotr32 17 x) (N.lxor (rotr32 19 x) (N.shiftr x 10)).
Fixpoint sha_schedule (n : nat) (newest : list N) : list N :=
  match n with
  | O => newest
  | S n' =>
      let w := add32 (add32 (small_sigma1 (nth 1 newest 0)) (nth 6 newest 0))
                     (add32 (small_sigma0 (nth 14 newest 0)) (nth 15 newest 0)) in
      sha_schedule n' (w :: newest)
  end.
Definition big_sigma0 (x : N) : N := N.lxor (rotr32 2 x) (N.lxor (rotr32 13 x) (rotr32 22 x)).
Definition big_sigma1 (x : N) : N := N.lxor (rotr32 6 x) (N.lxor (rotr32 11 x) (rotr32 25 x)).
Definition sha_step (s : sha_state) (kw : N * N) : sha_state :=
  match s with
  | H a b c d e f g h =>
      let t1 := add32 (add32 h (big_sigma1 e))
                  (add32 (N.lxor (N.land e f) (N.land (not32 e) g)) (add32 (fst kw) (snd kw))) in
      let t2 := add32 (big_sigma0 a) (N.lxor (N.land a b) (N.lxor (N.land a c) (N.land b c))) in
      H (add32 t1 t2) a b c (add32 d t1) e f g
  end.
Definition be_num (l : bytes) : N := le_num (rev l).
Definition sha_block (s : sha_state) (block : bytes) : sha_state :=
  let w := rev (sha_schedule 48 (rev (words be_num block))) in
  match s, fold_left sha_step (combine sha_k w) s with
  | H a b c d e f g h, H a' b' c' d' e' f' g' h' =>
      H (add32 a a') (add32 b b') (add32 c c') (add32 d d') (add32 e e') (add32 f f') (add32 g g') (add32 h h')
  end.
Definition sha256 (m : bytes) : bytes :=
  let p := md_pad (be_bytes 8) m in
  match fold_left sha_block (blocks (length p) 64 p) sha_init with
  | H a b c d e f g h => flat_map (be_bytes 4) [a; b; c; d; e; f; g; h]
  end.

(* ---------------------------------------------------------------- *)
(** Test vectors of the standards: FIPS 197 appendix C.1 and B, RFC 1321 A.5,
    FIPS 180-4 examples, and the usual RC4 vector. *)

Definition hexb (s : string) : bytes :=
  let v := fun b => if (b2n b <? 58) then b2n b - 48 else b2n b - 87 in
  (fix go (l : bytes) : bytes := match l with a :: b :: r => n2b (16 * v a + v b) :: go r | _ => [] end) (bs s).

Example aes_fips197_c1 :
  aes_encrypt (hexb "000102030405060708090a0b0c0d0e0f") (hexb "00112233445566778899aabbccddeeff")
  = hexb "69c4e0d86a7b0430d8cdb78070b4c55a".
Proof. vm_compute. reflexivity. Qed.
Example aes_fips197_b :
  aes_encrypt (hexb "2b7e151628aed2a6abf7158809cf4f3c") (hexb "3243f6a8885a308d313198a2e0370734")
  = hexb "3925841d02dc09fbdc118597196a0b32".
Proof. vm_compute. reflexivity. Qed.
Example md5_rfc1321_1 : md5 [] = hexb "d41d8cd98f00b204e9800998ecf8427e".
Proof. vm_compute. reflexivity. Qed.
Example md5_rfc1321_2 : md5 (bs "message digest") = hexb "f96b697d7cb7938d525a2f31aaf161d0".
Proof. vm_compute. reflexivity. Qed.
Example md5_rfc1321_3 :
  md5 (bs "12345678901234567890123456789012345678901234567890123456789012345678901234567890")
  = hexb "57edf4a22be3c955ac49da2e2107b67a".
Proof. vm_compute. reflexivity. Qed.
Example sha256_fips180_1 : sha256 (bs "abc") = hexb "ba7816bf8f01cfea414140de5dae2223b00361a396177a9cb410ff61f20015ad".
Proof. vm_compute. reflexivity. Qed.
Example sha256_fips180_2 :
  sha256 (bs "abcdbcdecdefdefgefghfghighijhijkijkljklmklmnlmnomnopnopq")
  = hexb "248d6a61d20638b8e5c026930c3e6039a33ce45964ff2167f6ecedd419db06c1".
Proof. vm_compute. reflexivity. Qed.
Example rc4_vector : rc4 (bs "Key") (bs "Plaintext") = hexb "bbf316e8d940af0ad3".
Proof. vm_compute. reflexivity. Qed.
