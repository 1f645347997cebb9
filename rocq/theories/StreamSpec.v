(** What a user expects of PDFStream and ReadObjectFromXRef. *)
From Verif Require Export StreamModel.
Local Open Scope Z_scope.

(** ** A cursor *)
Inductive call := CSeek (offset whence : Z) | CTell | CRead (n : Z) | CReadByte | CPeek (n : Z).
Inductive answer := APos (z : Z) | ABytes (b : bytes) | AByte (b : byte) | AEnd.
(** What a reader at position [p] of [d] should answer, and where it is then. *)
Definition len (d : bytes) : Z := Z.of_nat (length d).
Definition into (d : bytes) (z : Z) : Z := Z.max 0 (Z.min (len d) z).
Definition part (d : bytes) (p n : Z) : bytes := firstn (Z.to_nat n) (skipn (Z.to_nat p) d).
Definition ideal (d : bytes) (p : Z) (c : call) : answer * Z :=
  match c with
  | CSeek z 0 => (APos (into d z), into d z)
  | CSeek z 1 => (APos (into d (p + z)), into d (p + z))
  | CSeek z 2 => (APos (into d (len d + z)), into d (len d + z))
  | CSeek _ _ | CTell => (APos p, p)
  | CRead n => if len d <=? p then (AEnd, p) else (ABytes (part d p n), into d (p + n))
  | CReadByte => match part d p 1 with b :: _ => (AByte b, p + 1) | [] => (AEnd, p) end
  | CPeek n => (ABytes (part d p n), p)
  end.
Fixpoint ideals (d : bytes) (p : Z) (cs : list call) : list answer :=
  match cs with [] => [] | c :: cs => let (a, p) := ideal d p c in a :: ideals d p cs end.
(** What the code answers. *)
Definition perform (s : pstream) (c : call) : result (answer * pstream) :=
  match c with
  | CSeek z w => let s := Seek s z w in Ok (APos (Tell s), s)
  | CTell => Ok (APos (Tell s), s)
  | CRead n => match Read s n with Ok (b, s) => Ok (ABytes b, s) | Err => Ok (AEnd, s) | Panic => Panic end
  | CReadByte => match ReadByte s with Some (b, s) => Ok (AByte b, s) | None => Ok (AEnd, s) end
  | CPeek n => rmap (fun b => (ABytes b, s)) (Peek s n)
  end.
Fixpoint performs (s : pstream) (cs : list call) : result (list answer) :=
  match cs with [] => Ok [] | c :: cs => rbind (perform s c) (fun r => rmap (cons (fst r)) (performs (snd r) cs)) end.
(** Arguments for which no sum overflows, lengths that are not negative. *)
Definition moderate (c : call) : Prop :=
  match c with
  | CSeek z _ => - 2 ^ 62 <= z < 2 ^ 62
  | CRead n | CPeek n => 0 <= n < 2 ^ 62
  | _ => True
  end.

(** ** Objects *)
(** The text "num gen obj" stands at position [p] of [d]. *)
Definition header_text (num gen : Z) : bytes := decZ num ++ [x20] ++ decZ gen ++ bs " obj".
Definition header_at (d : bytes) (num gen : Z) (p : nat) : Prop := exists u v, d = u ++ header_text num gen ++ v /\ length u = p.
