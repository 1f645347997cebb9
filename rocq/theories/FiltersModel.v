(** Model of core/parse/filters.go (all of it except zlib, which is an oracle
    argument of [DecodeFilter]). *)
From Verif Require Export Base.
Local Open Scope N_scope.

(* ---------- ASCIIHexDecode ---------- *)

(** filters.go:61-71, the [switch] converting a hex character to a nibble;
    [None] is the [default] branch (error). *)
Definition hex_nibble (b : byte) : option N :=
  let n := b2n b in
  if (48 <=? n) && (n <=? 57) then Some (n - 48)
  else if (65 <=? n) && (n <=? 70) then Some (n - 65 + 10)
  else if (97 <=? n) && (n <=? 102) then Some (n - 97 + 10)
  else None.

(** filters.go:49-89, loop body of DecodeASCIIHex.  [nib] is
    [(hexByte, haveNibble)]; [acc] is the result buffer, reversed.
    [hexByte<<4 | nibble] is [hexByte*16 + nibble] because both are < 16. *)
Fixpoint hex_loop (s : bytes) (nib : option N) (acc : bytes) : result bytes :=
  match s with
  | [] => Ok (rev (match nib with Some h => n2b (h * 16) :: acc | None => acc end))
  | b :: s' =>
      if is_ws b then hex_loop s' nib acc
      else if b2n b =? 62 (* '>' *) then
        Ok (rev (match nib with Some h => n2b (h * 16) :: acc | None => acc end))
      else match hex_nibble b with
           | None => Err
           | Some v =>
               match nib with
               | Some h => hex_loop s' None (n2b (h * 16 + v) :: acc)
               | None => hex_loop s' (Some v) acc
               end
           end
  end.

(** filters.go:44-90 *)
Definition DecodeASCIIHex (data : bytes) : result bytes := hex_loop data None [].

(** filters.go:228, [hexChars[v]] for v < 16. *)
Definition hex_char (v : N) : byte :=
  if v <? 10 then n2b (48 + v) else n2b (55 + v).

(** filters.go:226-237 *)
Definition EncodeASCIIHex (data : bytes) : bytes :=
  flat_map (fun b => [hex_char (b2n b / 16); hex_char (b2n b mod 16)]) data ++ [">"%byte].

(* ---------- ASCII85Decode ---------- *)

(** filters.go:165-181, decodeASCII85Tuple: base-85 value with uint32 wrap,
    split big-endian.  The [count] argument is unused in the Go code too. *)
Definition a85_value (t : list N) : N :=
  match t with
  | [c0; c1; c2; c3; c4] =>
      (c0 * 52200625 + c1 * 614125 + c2 * 7225 + c3 * 85 + c4) mod 4294967296
  | _ => 0   (* not reachable: the tuple array has exactly five cells *)
  end.
Definition be32 (v : N) : bytes :=
  [n2b (v / 16777216); n2b (v / 65536); n2b (v / 256); n2b v].
Definition decodeASCII85Tuple (t : list N) : bytes := be32 (a85_value t).

(** filters.go:147-159, partial tuple at the end: pad with 84, keep
    [tupleIndex-1] bytes ([t] holds the digits read so far). *)
Definition a85_tail (t : list N) : bytes :=
  match t with
  | [] => []
  | _ => firstn (length t - 1) (decodeASCII85Tuple (t ++ repeat 84 (5 - length t)))
  end.

(** filters.go:107-161, the loop of DecodeASCII85.  [t] is
    [tuple[:tupleIndex]], [acc] the result buffer, reversed. *)
Fixpoint a85_loop (s : bytes) (t : list N) (acc : bytes) : result bytes :=
  match s with
  | [] => Ok (rev acc ++ a85_tail t)
  | b :: s' =>
      if is_ws b then a85_loop s' t acc
      else if (b2n b =? 126) &&
              (match s' with c :: _ => b2n c =? 62 | [] => false end)
      then Ok (rev acc ++ a85_tail t)
      else if b2n b =? 122 (* 'z' *) then
        (match t with
         | [] => a85_loop s' [] (rev_append [x00; x00; x00; x00] acc)
         | _ => Err
         end)
      else if (b2n b <? 33) || (117 <? b2n b) then Err
      else
        let t' := t ++ [b2n b - 33] in
        if (length t' =? 5)%nat
        then a85_loop s' [] (rev_append (decodeASCII85Tuple t') acc)
        else a85_loop s' t' acc
  end.

(** filters.go:95-162 *)
Definition DecodeASCII85 (data : bytes) : result bytes :=
  let data' := if prefixb (bs "<~") data then skipn 2 data else data in
  a85_loop data' [] [].

(** filters.go:259-263 and 273-277, five base-85 digits of a uint32, as
    characters, most significant first. *)
Definition a85_digits (v : N) : bytes :=
  [n2b (v / 52200625 mod 85 + 33); n2b (v / 614125 mod 85 + 33);
   n2b (v / 7225 mod 85 + 33); n2b (v / 85 mod 85 + 33); n2b (v mod 85 + 33)].

(** filters.go:250 and 266-270, value of up to four bytes, big-endian,
    missing bytes zero.  The shifted bytes occupy disjoint bits, so [|] is [+]. *)
Definition a85_word (b0 b1 b2 b3 : N) : N :=
  b0 * 16777216 + b1 * 65536 + b2 * 256 + b3.

(** filters.go:246-280, the loop of EncodeASCII85. *)
Fixpoint a85_enc (s : bytes) : bytes :=
  match s with
  | b0 :: b1 :: b2 :: b3 :: s' =>
      let v := a85_word (b2n b0) (b2n b1) (b2n b2) (b2n b3) in
      (if v =? 0 then ["z"%byte] else a85_digits v) ++ a85_enc s'
  | [] => []
  | [b0] => firstn 2 (a85_digits (a85_word (b2n b0) 0 0 0))
  | [b0; b1] => firstn 3 (a85_digits (a85_word (b2n b0) (b2n b1) 0 0))
  | [b0; b1; b2] => firstn 4 (a85_digits (a85_word (b2n b0) (b2n b1) (b2n b2) 0))
  end.

(** filters.go:241-284 *)
Definition EncodeASCII85 (data : bytes) : bytes :=
  bs "<~" ++ a85_enc data ++ bs "~>".

(* ---------- RunLengthDecode ---------- *)

(** filters.go:192-219, the loop of DecodeRunLength; [s] is [data[i:]].
    Each iteration consumes at least one byte, so [length data] is enough
    fuel; running out would be reported as [Panic] and is proved impossible. *)
Fixpoint rl_loop (fuel : nat) (s : bytes) (acc : bytes) : result bytes :=
  match fuel with
  | O => Panic
  | S f =>
      match s with
      | [] => Ok acc
      | l :: s1 =>
          let len := b2n l in
          if len =? 128 then Ok acc
          else if len <? 128 then
            let count := N.to_nat (len + 1) in
            if (length s1 <? count)%nat then Err
            else rl_loop f (skipn count s1) (acc ++ firstn count s1)
          else
            match s1 with
            | [] => Err
            | r :: s2 => rl_loop f s2 (acc ++ repeat r (N.to_nat (257 - len)))
            end
      end
  end.

(** filters.go:188-222 *)
Definition DecodeRunLength (data : bytes) : result bytes :=
  rl_loop (S (length data)) data [].

(** filters.go:297-300, number of further bytes equal to [b], at most [m]. *)
Fixpoint rl_ext (m : nat) (b : byte) (s : bytes) : nat :=
  match m, s with
  | S m', c :: s' => if beqb b c then S (rl_ext m' b s') else O
  | _, _ => O
  end.

(** filters.go:310-313, length of the literal run starting here, at most [m]. *)
Fixpoint rl_lit (m : nat) (s : bytes) : nat :=
  match m with
  | O => O
  | S m' =>
      match s with
      | [] => O
      | x :: s' =>
          match s' with
          | [] => 1%nat
          | y :: _ => if beqb x y then O else S (rl_lit m' s')
          end
      end
  end.

(** filters.go:295-318, the loop of EncodeRunLength; [s] is [data[i:]]. *)
Fixpoint rl_enc (fuel : nat) (s : bytes) : bytes :=
  match fuel with
  | O => []
  | S f =>
      match s with
      | [] => []
      | b :: s' =>
          let run := S (rl_ext 127 b s') in
          if (2 <=? run)%nat then
            n2b (257 - N.of_nat run) :: b :: rl_enc f (skipn run s)
          else
            let k := rl_lit 127 s in
            n2b (N.of_nat k - 1) :: firstn k s ++ rl_enc f (skipn k s)
      end
  end.

(** filters.go:287-324 *)
Definition EncodeRunLength (data : bytes) : bytes :=
  match data with
  | [] => [n2b 128]
  | _ => rl_enc (length data) data ++ [n2b 128]
  end.

(* ---------- DCTDecode and dispatch ---------- *)

(** filters.go:329-343 *)
Definition DecodeDCTDecode (data : bytes) : result bytes :=
  match data with
  | b0 :: b1 :: _ => if (b2n b0 =? 255) && (b2n b1 =? 216) then Ok data else Err
  | _ => Err
  end.

(** filters.go:347-355 *)
Definition EncodeDCTDecode (data : bytes) : result bytes :=
  match data with
  | b0 :: b1 :: _ => if (b2n b0 =? 255) && (b2n b1 =? 216) then Ok data else Err
  | _ => Err
  end.

(** filters.go:13-28.  [flate] stands for DecodeFlateDecode (zlib). *)
Definition DecodeFilter (flate : bytes -> result bytes) (data name : bytes) : result bytes :=
  if bytes_eqb name (bs "/FlateDecode") || bytes_eqb name (bs "FlateDecode") then flate data
  else if bytes_eqb name (bs "/ASCIIHexDecode") || bytes_eqb name (bs "ASCIIHexDecode") then DecodeASCIIHex data
  else if bytes_eqb name (bs "/ASCII85Decode") || bytes_eqb name (bs "ASCII85Decode") then DecodeASCII85 data
  else if bytes_eqb name (bs "/RunLengthDecode") || bytes_eqb name (bs "RunLengthDecode") then DecodeRunLength data
  else if bytes_eqb name (bs "/DCTDecode") || bytes_eqb name (bs "DCTDecode") then DecodeDCTDecode data
  else Err.
