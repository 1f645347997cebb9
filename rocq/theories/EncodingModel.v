(** Model of content/extract/encoding.go. *)
From Verif Require Export Util Utf8 ManipModel TextModel EncodingTables.
Local Open Scope Z_scope.

(** [regexp.FindAllStringSubmatch] of a pattern given as a matcher that is
    anchored at the start of its argument and returns the groups and the rest:
    leftmost matches that do not overlap.  (No pattern here matches "".) *)
Fixpoint matches {A} (m : bytes -> option (A * bytes)) (s : bytes) (skip : nat) : list A :=
  match s with
  | [] => []
  | _ :: s' =>
      match skip with
      | S k => matches m s' k
      | O => match m s with
             | Some (a, r) => a :: matches m s' (length s - length r - 1)
             | None => matches m s' 0
             end
      end
  end.

Definition hexval (b : byte) : option Z :=
  let c := Z.of_N (b2n b) in
  if (48 <=? c) && (c <=? 57) then Some (c - 48)
  else if (65 <=? c) && (c <=? 70) then Some (c - 55)
  else if (97 <=? c) && (c <=? 102) then Some (c - 87) else None.
Definition is_hex (b : byte) : bool := match hexval b with Some _ => true | None => false end.
(** strconv.ParseInt(s, 16, 32) *)
Definition hex_fold (s : bytes) : option Z :=
  fold_left (fun v b => match v, hexval b with Some v, Some d => Some (16 * v + d) | _, _ => None end) s (Some 0).
Definition parse_hex_int (s : bytes) : option Z :=
  match s with
  | [] => None
  | c :: s' =>
      let neg := beqb c "-" in
      let d := if neg || beqb c "+" then s' else s in
      match d with
      | [] => None
      | _ =>
          match hex_fold d with
          | None => None
          | Some v => if neg then (if v <=? 2147483648 then Some (- v) else None)
                      else (if v <=? 2147483647 then Some v else None)
          end
      end
  end.
(** rune(v) of an int64 *)
Definition to_rune (v : Z) : Z := (v + 2147483648) mod 4294967296 - 2147483648.
(** strings.Builder.WriteRune *)
Definition write_rune (r : Z) : bytes := if r <? 0 then encode_rune rune_error else encode_rune (Z.to_N r).

(** encoding.go:10-31 *)
Record decoder := mkDec { toUnicode : zmap Z; baseEncoding : zmap Z; differences : zmap Z }.
Definition NewFontDecoder : decoder := mkDec [] [] [].
Definition set_toUnicode (m : zmap Z) (d : decoder) : decoder := mkDec m (baseEncoding d) (differences d).
Definition set_differences (m : zmap Z) (d : decoder) : decoder := mkDec (toUnicode d) (baseEncoding d) m.
(** encoding.go:34-49 *)
Definition SetBaseEncoding (name : bytes) (d : decoder) : decoder :=
  let n := trim_prefix (bs "/") name in
  let set m := mkDec (toUnicode d) m (differences d) in
  if bytes_eqb n (bs "WinAnsiEncoding") then set winAnsiEncoding
  else if bytes_eqb n (bs "MacRomanEncoding") then set macRomanEncoding
  else if bytes_eqb n (bs "StandardEncoding") then set standardEncoding
  else if bytes_eqb n (bs "MacExpertEncoding") then set macExpertEncoding
  else d.

(** encoding.go:64-87, one byte *)
Definition byte_char (d : decoder) (code : Z) : Z :=
  match mget code (toUnicode d) with
  | Some r => r
  | None => match mget code (differences d) with
            | Some r => r
            | None => match mget code (baseEncoding d) with Some r => r | None => code end
            end
  end.
Definition Decode (d : decoder) (s : bytes) : bytes := flat_map (fun b => write_rune (byte_char d (Z.of_N (b2n b)))) s.

(** encoding.go:137-144 *)
Definition has2ByteMapping (d : decoder) : bool := existsb (fun c => 255 <? c) (map fst (toUnicode d)).
(** encoding.go:147-164 *)
Definition lookupCode (d : decoder) (code : Z) : Z :=
  match mget code (toUnicode d) with
  | Some r => r
  | None => match mget code (differences d) with
            | Some r => r
            | None =>
                match (if code <? 256 then mget code (baseEncoding d) else None) with
                | Some r => r
                | None => if code <? 65536 then code else 63
                end
            end
  end.
(** the string in pieces of [n] bytes; the last may be shorter *)
Fixpoint pieces (n fuel : nat) (s : bytes) : list bytes :=
  match fuel with
  | O => []
  | S k => match s with [] => [] | _ => firstn n s :: pieces n k (skipn n s) end
  end.
Definition strip_hex (s : bytes) : bytes :=
  let s := ReplaceAll s (bs " ") [] in
  let s := ReplaceAll s [x0a] [] in
  let s := ReplaceAll s [x0d] [] in
  if Nat.even (length s) then s else s ++ bs "0".
(** encoding.go:91-134 *)
Definition DecodeHex (d : decoder) (s : bytes) : bytes :=
  let s := strip_hex (trim_suffix (bs ">") (trim_prefix (bs "<") s)) in
  let n := if has2ByteMapping d && (4 <=? length s)%nat then 4%nat else 2%nat in
  flat_map (fun h => match parse_hex_int h with Some v => write_rune (lookupCode d v) | None => [] end) (pieces n (length s) s).

(* ---------------------------------------------------------------- *)
(** ToUnicode maps *)

(** encoding.go:253-281 *)
Definition hexToUnicodeRunes (h : bytes) : list Z :=
  let one s := match parse_hex_int s with Some v => [v] | None => [] end in
  if (length h =? 4)%nat || (length h =? 2)%nat then one h
  else if (4 <? length h)%nat then flat_map one (pieces 4 (length h) h) else [].

(** <([0-9A-Fa-f]+)> *)
Definition m_hex (s : bytes) : option (bytes * bytes) :=
  do r <- lit (bs "<") s;
  match take_while is_hex r with
  | [] => None
  | h => do r <- lit (bs ">") (drop_while is_hex r); Some (h, r)
  end.
(** <hex>\s*<hex> *)
Definition m_pair (s : bytes) : option ((bytes * bytes) * bytes) :=
  do (a, r) <- m_hex s; do (b, r) <- m_hex (ws0 r); Some ((a, b), r).
(** <hex>\s*<hex>\s*<hex> *)
Definition m_triple (s : bytes) : option ((bytes * bytes * bytes) * bytes) :=
  do (p, r) <- m_pair s; do (c, r) <- m_hex (ws0 r); Some ((fst p, snd p, c), r).
(** <hex>\s*<hex>\s*\[([^\]]+)\] *)
Definition m_array (s : bytes) : option ((bytes * bytes * bytes) * bytes) :=
  do (p, r) <- m_pair s; do r <- lit (bs "[") (ws0 r);
  match take_while (fun b => negb (beqb b "]")) r with
  | [] => None
  | t => do r <- lit (bs "]") (drop_while (fun b => negb (beqb b "]")) r); Some ((fst p, snd p, t), r)
  end.
(** begin([\s\S]*?)\s*end: up to the first [end] *)
Definition m_block (begin_ end_ : bytes) (s : bytes) : option (bytes * bytes) :=
  do r <- lit begin_ s;
  match index end_ r with
  | None => None
  | Some i => Some (trim is_ws (firstn i r), skipn (i + length end_) r)
  end.

(** encoding.go:185-207 *)
Definition add_bfchar (m : zmap Z) (p : bytes * bytes) : zmap Z :=
  match parse_hex_int (fst p), hexToUnicodeRunes (snd p) with
  | Some c, r :: _ => mset c r m
  | _, _ => m
  end.
Definition parseBfcharBlock (m : zmap Z) (block : bytes) : zmap Z := fold_left add_bfchar (matches m_pair block 0) m.
(** [for i := lo; i <= hi; i++] *)
Definition zrange (lo hi : Z) : list Z := map (fun k => lo + Z.of_nat k) (seq 0 (Z.to_nat (hi + 1 - lo))).
(** encoding.go:210-226 *)
Definition add_bfrange (m : zmap Z) (p : bytes * bytes * bytes) : zmap Z :=
  match parse_hex_int (fst (fst p)), parse_hex_int (snd (fst p)), parse_hex_int (snd p) with
  | Some lo, Some hi, Some dst => fold_left (fun m i => mset i (to_rune (dst + (i - lo))) m) (zrange lo hi) m
  | _, _, _ => m
  end.
(** encoding.go:228-248 *)
Fixpoint add_elems (code hi : Z) (l : list bytes) (m : zmap Z) : zmap Z :=
  match l with
  | [] => m
  | h :: l' =>
      if hi <? code then m
      else add_elems (code + 1) hi l' (match hexToUnicodeRunes h with r :: _ => mset code r m | [] => m end)
  end.
Definition add_bfarray (m : zmap Z) (p : bytes * bytes * bytes) : zmap Z :=
  match parse_hex_int (fst (fst p)), parse_hex_int (snd (fst p)) with
  | Some lo, Some hi => add_elems lo hi (matches m_hex (snd p) 0) m
  | _, _ => m
  end.
Definition parseBfrangeBlock (m : zmap Z) (block : bytes) : zmap Z :=
  fold_left add_bfarray (matches m_array block 0) (fold_left add_bfrange (matches m_triple block 0) m).
(** encoding.go:167-183 *)
Definition ParseToUnicodeCMap (text : bytes) (d : decoder) : decoder :=
  let m := fold_left parseBfcharBlock (matches (m_block (bs "beginbfchar") (bs "endbfchar")) text 0) (toUnicode d) in
  set_toUnicode (fold_left parseBfrangeBlock (matches (m_block (bs "beginbfrange") (bs "endbfrange")) text 0) m) d.

(* ---------------------------------------------------------------- *)
(** Differences *)

(** encoding.go:314-334 *)
Definition glyphNameToUnicode (name : bytes) : Z :=
  let hex k := match parse_hex_int (skipn k name) with Some v => Some v | None => None end in
  match kget name adobeGlyphList with
  | Some r => r
  | None =>
      match (if prefixb (bs "uni") name && (length name =? 7)%nat then hex 3%nat else None) with
      | Some v => v
      | None =>
          match (if prefixb (bs "u") name && ((length name =? 5) || (length name =? 6))%nat then hex 1%nat else None) with
          | Some v => v
          | None => 0
          end
      end
  end.
(** encoding.go:52-56 *)
Definition SetDifferences (code : Z) (name : bytes) (d : decoder) : decoder :=
  let r := glyphNameToUnicode name in if r =? 0 then d else set_differences (mset code r (differences d)) d.
(** encoding.go:287-311 *)
Definition diff_token (st : Z * zmap Z) (t : bytes) : Z * zmap Z :=
  let (code, m) := st in
  if prefixb (bs "/") t then
    let r := glyphNameToUnicode (trim_prefix (bs "/") t) in
    (code + 1, if r =? 0 then m else mset code r m)
  else match atoi t with Some c => (c, m) | None => (code, m) end.
Definition ParseDifferencesArray (s : bytes) (d : decoder) : decoder :=
  let s := trim_suffix (bs "]") (trim_prefix (bs "[") (trim is_space s)) in
  set_differences (snd (fold_left diff_token (fields is_space s) (0, differences d))) d.
