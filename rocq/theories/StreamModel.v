(** Model of forms/xfa/stream.go: the cursor over a byte slice and
    ReadObjectFromXRef.  Logging and the two dump functions for it (lines
    459-486) are left out.  The slice is not modified by these functions. *)
From Verif Require Export Util.
From Verif Require Import ParseModel.
Local Open Scope Z_scope.

(** stream.go:17-24; the offset is a Go int between 0 and the length *)
Record pstream := mkStream { pData : bytes; pOff : nat }.
Definition NewPDFStream (d : bytes) : pstream := mkStream d 0.
Definition wrap64 (z : Z) : Z := (z + 2 ^ 63) mod 2 ^ 64 - 2 ^ 63.
(** stream.go:26-42 *)
Definition Seek (s : pstream) (offset whence : Z) : pstream :=
  let o := if whence =? 0 then offset
           else if whence =? 1 then wrap64 (Z.of_nat (pOff s) + offset)
           else if whence =? 2 then wrap64 (flen (pData s) + offset)
           else Z.of_nat (pOff s) in
  mkStream (pData s) (if o <? 0 then 0%nat else if flen (pData s) <? o then length (pData s) else Z.to_nat o).
(** stream.go:44-46 *)
Definition Tell (s : pstream) : Z := Z.of_nat (pOff s).
(** stream.go:48-59; Err is io.EOF *)
Definition Read (s : pstream) (n : Z) : result (bytes * pstream) :=
  if (length (pData s) <=? pOff s)%nat then Err
  else let e := wrap64 (Z.of_nat (pOff s) + n) in
       let e := if flen (pData s) <? e then flen (pData s) else e in
       if e <? Z.of_nat (pOff s) then Panic
       else Ok (sub (pOff s) (Z.to_nat e) (pData s), mkStream (pData s) (Z.to_nat e)).
(** stream.go:61-68 *)
Definition ReadByte (s : pstream) : option (byte * pstream) :=
  match skipn (pOff s) (pData s) with b :: _ => Some (b, mkStream (pData s) (S (pOff s))) | [] => None end.
(** stream.go:70-79 *)
Definition Peek (s : pstream) (n : Z) : result bytes :=
  if (length (pData s) <=? pOff s)%nat then Ok []
  else let e := wrap64 (Z.of_nat (pOff s) + n) in
       let e := if flen (pData s) <? e then flen (pData s) else e in
       if e <? Z.of_nat (pOff s) then Panic else Ok (sub (pOff s) (Z.to_nat e) (pData s)).

Definition ws4 (b : byte) : bool := beqb b x20 || beqb b x09 || beqb b x0d || beqb b x0a.
(** stream.go:83-99; at the end of the data Seek(-1, 1) goes back one byte *)
Definition skipOverWhitespace (s : pstream) : pstream :=
  let q := (pOff s + length (take_while ws4 (skipn (pOff s) (pData s))))%nat in
  mkStream (pData s) (if (length (pData s) <=? q)%nat then pred (length (pData s)) else q).
(** stream.go:103-117 *)
Definition readUntilWhitespace (s : pstream) : bytes * pstream :=
  let w := take_while (fun b => negb (ws4 b)) (skipn (pOff s) (pData s)) in
  (w, mkStream (pData s) (pOff s + length w)).
(** stream.go:121-137 *)
Definition skipOverComment (s : pstream) : pstream :=
  match skipn (pOff s) (pData s) with
  | b :: r =>
      if beqb b "%" then
        let w := take_while (fun b => negb (beqb b x0a || beqb b x0d)) r in
        mkStream (pData s) (Nat.min (length (pData s)) (pOff s + length w + 2))
      else s
  | [] => s
  end.
Definition back (s : pstream) : pstream := Seek s (-1) 1.
(** stream.go:141-199 *)
Definition readObjectHeader (s : pstream) : result (Z * Z * pstream) :=
  let s := back (skipOverWhitespace (skipOverComment s)) in
  let (id, s) := readUntilWhitespace s in
  let s := skipOverWhitespace (back (skipOverWhitespace s)) in
  let (gn, s) := readUntilWhitespace s in
  let s := skipOverWhitespace (back (skipOverWhitespace s)) in
  rbind (Read s 3) (fun r =>
  if bytes_eqb (fst r) (bs "obj") then
    match atoi id, atoi gn with Some i, Some g => Ok (i, g, back (skipOverWhitespace (snd r))) | _, _ => Err end
  else Err).

(** stream.go:204-215: \sN\s+G\s+obj, then one more; -1 when not found *)
Definition m_lit (p : bytes) (s : bytes) : option bytes := if prefixb p s then Some (skipn (length p) s) else None.
Definition m_ws1 (s : bytes) : option bytes := match s with b :: r => if is_ws b then Some (drop_while is_ws r) else None | [] => None end.
Definition m_header (num gen : Z) (s : bytes) : option unit :=
  match s with
  | b :: r =>
      if is_ws b then
        match m_lit (decZ num) r with
        | Some r => match m_ws1 r with
                    | Some r => match m_lit (decZ gen) r with
                                | Some r => match m_ws1 r with Some r => if prefixb (bs "obj") r then Some tt else None | None => None end
                                | None => None end
                    | None => None end
        | None => None end
      else None
  | [] => None
  end.
Definition findObjectHeaderByRegex (d : bytes) (num gen : Z) : Z :=
  match find (m_header num gen) d with Some (i, _) => Z.of_nat i + 1 | None => -1 end.

(** stream.go:560-586 *)
Definition name_end (b : byte) : bool := ws4 b || existsb (beqb b) ["/"; "["; "]"; "<"; ">"; "("; ")"]%byte.
Definition readNameObject (s : pstream) : option (bytes * pstream) :=
  match skipn (pOff s) (pData s) with
  | b :: r =>
      if beqb b "/" then let w := take_while (fun b => negb (name_end b)) r in Some (b :: w, mkStream (pData s) (pOff s + 1 + length w)) else None
  | [] => None
  end.
(** stream.go:593-655: how many bytes of [r] belong to the value; [prev] is the
    byte before *)
Definition two (b : byte) (r : bytes) : bool := match r with x :: y :: _ => beqb x b && beqb y b | _ => false end.
Definition prev_ws (prev : option byte) : bool := match prev with Some b => ws4 b | None => false end.
Definition prev_escape (prev : option byte) : bool := match prev with Some b => beqb b "\" | None => false end.
Fixpoint value_length (prev : option byte) (dd ad sd : Z) (r : bytes) : nat :=
  match r with
  | [] => 0
  | c :: r1 =>
      let flat := (dd =? 0) && (ad =? 0) && (sd =? 0) in
      if two ">" r && flat then 0
      else if prev_ws prev && beqb c "/" && flat then 0
      else
        let sd' := if beqb c "(" && negb (prev_escape prev) then sd + 1
                   else if beqb c ")" && (0 <? sd) && negb (prev_escape prev) then sd - 1 else sd in
        if sd =? 0 then
          match r1 with
          | c2 :: r2 =>
              if beqb c "<" && beqb c2 "<" then S (S (value_length (Some c2) (dd + 1) ad sd r2))
              else if beqb c ">" && beqb c2 ">" then S (S (value_length (Some c2) (dd - 1) ad sd r2))
              else S (value_length (Some c) dd (if beqb c "[" then ad + 1 else if beqb c "]" then ad - 1 else ad) sd' r1)
          | [] => 1
          end
        else S (value_length (Some c) dd ad sd' r1)
  end.
Definition readPDFObject (s : pstream) : bytes * pstream :=
  let r := skipn (pOff s) (pData s) in
  let prev := match pOff s with O => None | S k => nth_error (pData s) k end in
  let n := value_length prev 0 0 0 r in
  (firstn n r, mkStream (pData s) (pOff s + n)).
(** stream.go:497-557: the loop; None: still running after [fuel] rounds *)
Fixpoint dictionary_loop (fuel : nat) (s : pstream) (entries : list (bytes * bytes)) : option (result (list (bytes * bytes))) :=
  match fuel with
  | O => None
  | S fuel =>
      let s := skipOverComment (skipOverWhitespace s) in
      if prefixb (bs ">>") (skipn (pOff s) (pData s)) then Some (Ok entries)
      else match readNameObject s with
           | None => match index (bs ">>") (skipn (pOff s) (pData s)) with Some _ => Some (Ok entries) | None => Some Err end
           | Some (k, s) =>
               let (v, s) := readPDFObject (skipOverWhitespace s) in dictionary_loop fuel s (entries ++ [(k, v)])
           end
  end.
Definition parseDictionaryFromStream (fuel : nat) (s : pstream) : option (result (list (bytes * bytes))) :=
  if prefixb (bs "<<") (skipn (pOff s) (pData s)) then dictionary_loop fuel (mkStream (pData s) (pOff s + 2)) [] else Some Err.
(** stream.go:689-702 *)
Definition reconstructDictionary (l : list (bytes * bytes)) : bytes :=
  bs "<<" ++ [x0a] ++ flat_map (fun e => fst e ++ [x20] ++ snd e ++ [x0a]) l ++ bs ">>".

Section Decrypt.
(** [dec]: encrypt.DecryptObject with the given encryption, [chunked]:
    decryptInChunks; [enc]: the encryption is not nil *)
Context (enc : bool) (dec chunked : bytes -> Z -> Z -> result bytes).

(** DecryptObject, and decryptInChunks when it fails *)
Definition decrypted (d : bytes) (num gen : Z) : result bytes :=
  match dec d num gen with Ok x => Ok x | Err => chunked d num gen | Panic => Panic end.
(** stream.go:658-686 *)
Fixpoint decryptParsedDictionary (l : list (bytes * bytes)) (num gen : Z) : result (list (bytes * bytes)) :=
  match l with
  | [] => Ok []
  | (k, v) :: l =>
      match decrypted v num gen with
      | Panic => Panic
      | r => rmap (cons (k, match r with Ok x => x | _ => v end)) (decryptParsedDictionary l num gen)
      end
  end.
(** stream.go:221-326: the header's numbers and the position after it *)
Definition locate (d : bytes) (num gen offset : Z) : result (Z * Z * pstream) :=
  let at_ o := Seek (NewPDFStream d) o 0 in
  match readObjectHeader (at_ offset) with
  | Ok x => Ok x
  | Panic => Panic
  | Err =>
      let lo := Z.max 0 (wrap64 (offset - 500)) in
      let hi := Z.min (flen d) (wrap64 (offset + 500)) in
      if hi <? lo then Panic
      else match index (decZ num ++ [x20] ++ decZ gen ++ bs " obj") (sub (Z.to_nat lo) (Z.to_nat hi) d) with
           | Some i => readObjectHeader (at_ (lo + Z.of_nat i))
           | None => match readObjectHeader (at_ (findObjectHeaderByRegex d num gen)) with
                     | Ok x => Ok x
                     | Panic => Panic
                     | Err => Ok (num, gen, at_ offset)
                     end
           end
  end.
Definition whole (num gen : Z) (content : bytes) : bytes :=
  decZ num ++ [x20] ++ decZ gen ++ bs " obj" ++ [x0a] ++ content ++ [x0a] ++ bs "endobj".
(** stream.go:345-437: not at a dictionary.  The second branch is taken when
    the decrypted beginning holds "<<". *)
Definition opaque_object (fuel : nat) (d : bytes) (start : nat) (num gen generation : Z) : option (result bytes) :=
  let body := skipn start d in
  let content := match index (bs "endobj") body with Some e => Ok (firstn e body) | None => Err end in
  let test := firstn 200 body in
  match (match test with [] => Err | _ => dec test num generation end) with
  | Panic => Some Panic
  | Ok t =>
      if contains (bs "<<") t then
        match rbind content (fun c => decrypted c num generation) with
        | Ok x => option_map (fun r => match r with
                                       | Ok l => Ok (whole num gen (reconstructDictionary l))
                                       | Err => Ok (whole num gen x)
                                       | Panic => Panic end) (parseDictionaryFromStream fuel (NewPDFStream x))
        | Err => Some Err
        | Panic => Some Panic
        end
      else Some (rmap (whole num gen) (rbind content (fun c => if enc then decrypted c num generation else Ok c)))
  | Err => Some (rmap (whole num gen) (rbind content (fun c => if enc then decrypted c num generation else Ok c)))
  end.
(** stream.go:219-456 *)
Definition ReadObjectFromXRef (fuel : nat) (d : bytes) (num gen offset : Z) : option (result bytes) :=
  match locate d num gen offset with
  | Panic => Some Panic
  | Err => Some Err
  | Ok (id, generation, s) =>
      if negb (id =? num) then Some Err
      else if prefixb (bs "<<") (skipn (pOff s) (pData s)) then
        match parseDictionaryFromStream fuel s with
        | None => None
        | Some Panic => Some Panic
        | Some Err => Some Err
        | Some (Ok l) => Some (rmap (fun l => whole num gen (reconstructDictionary l)) (if enc then decryptParsedDictionary l num generation else Ok l))
        end
      else opaque_object fuel d (pOff s) num gen generation
  end.
End Decrypt.
