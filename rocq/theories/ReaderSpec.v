(** Specification of conforming files for the reader properties: dictionaries,
    cross-reference tables, chains of revisions, cross-reference streams with
    subsections, objects of any generation.  Nothing here refers to how the
    code parses them. *)
From Verif Require Import WriterModel ParseModel ParseSpec.
Local Open Scope Z_scope.

(** The inside of a dictionary: bytes other than "<" and ">", nested
    dictionaries, and hexadecimal strings that are not directly followed by
    ">" (the bracket count of the code then ends one byte early). *)
Inductive balanced : bytes -> Prop :=
| bal_nil : balanced []
| bal_byte c d : c <> "<"%byte -> c <> ">"%byte -> balanced d -> balanced (c :: d)
| bal_dict d e : balanced d -> balanced e -> balanced (bs "<<" ++ d ++ bs ">>" ++ e)
| bal_hex h c e : (forall b, In b h -> b <> "<"%byte /\ b <> ">"%byte) -> c <> ">"%byte -> balanced (c :: e) ->
    balanced (bs "<" ++ h ++ bs ">" ++ c :: e).

Definition white (w : bytes) : Prop := forall b, In b w -> is_ws b = true.

(** [d] has the entry [key] (a name, written without further "/"), whose value
    begins with the number or reference [v]; [key] occurs nowhere before. *)
Definition states (key v d : bytes) : Prop :=
  exists a w b, d = a ++ key ++ w ++ v ++ b /\ contains key a = false /\ w <> [] /\ white w /\
    match b with [] => True | c :: _ => is_digit c = false end.
Definition reference (n g : Z) : bytes := decZ n ++ bs " " ++ decZ g ++ bs " R".

(** Cross-reference tables (ISO 32000-1, 7.5.4).  A line ends in LF, CR LF or
    space LF. *)
Definition line_end (e : bytes) : Prop := e = [x0a] \/ e = [x0d; x0a] \/ e = [" "%byte; x0a].
Record row := mkRowText { tOff : Z; tGen : Z; tUse : bool; tEnd : bytes }.
Definition row_text (r : row) : bytes :=
  dec_pad 10 (Z.to_N (tOff r)) ++ bs " " ++ dec_pad 5 (Z.to_N (tGen r)) ++ bs " " ++
  (if tUse r then bs "n" else bs "f") ++ tEnd r.
Record subsection := mkSub { sFirst : Z; sEnd : bytes; sRows : list row }.
Definition sub_text (s : subsection) : bytes :=
  decZ (sFirst s) ++ bs " " ++ decZ (Z.of_nat (length (sRows s))) ++ sEnd s ++ flat_map row_text (sRows s).
Definition table_text (e : bytes) (subs : list subsection) : bytes := bs "xref" ++ e ++ flat_map sub_text subs.
Definition row_ok (r : row) : Prop := 0 <= tOff r < 2 ^ 63 /\ 0 <= tGen r < 2 ^ 63 /\ line_end (tEnd r).
Definition sub_ok (s : subsection) : Prop :=
  0 <= sFirst s < 2 ^ 62 /\ Z.of_nat (length (sRows s)) < 2 ^ 63 /\ line_end (sEnd s) /\ Forall row_ok (sRows s).

(** The rows with their object numbers, in file order. *)
Definition numbered {A} (first : Z) (l : list A) : list (Z * A) :=
  combine (map (fun i => first + Z.of_nat i) (seq 0 (length l))) l.
Definition table_rows (subs : list subsection) : list (Z * row) :=
  flat_map (fun s => numbered (sFirst s) (sRows s)) subs.
(** What the table says about object [n]: the last in-use row for it. *)
Definition table_says (subs : list subsection) (n : Z) : option Z :=
  mget n (rev (map (fun nr => (fst nr, tOff (snd nr))) (filter (fun nr => tUse (snd nr)) (table_rows subs)))).

(** A table with its trailer at offset [x] of the file. *)
Definition section_at (f : bytes) (x : Z) (subs : list subsection) (d : bytes) : Prop :=
  exists a e w post, f = a ++ table_text e subs ++ bs "trailer" ++ w ++ bs "<<" ++ d ++ bs ">>" ++ post /\
    x = flen a /\ line_end e /\ Forall sub_ok subs /\ white w /\ balanced d /\
    Z.of_nat (length (table_text e subs)) + 7 <= 10000.

(** The chain of tables from the newest one at [x], newest first. *)
Inductive table_chain (f : bytes) : Z -> list (Z * list subsection * bytes) -> Prop :=
| chain_oldest x subs d : 0 < x -> section_at f x subs d -> contains (bs "/Prev") d = false ->
    table_chain f x [(x, subs, d)]
| chain_newer x y subs d older : y < x < 2 ^ 63 -> section_at f x subs d -> states (bs "/Prev") (decZ y) d ->
    table_chain f y older -> table_chain f x ((x, subs, d) :: older).

(** What the newest table that mentions [n] as in use says. *)
Fixpoint chain_says (c : list (Z * list subsection * bytes)) (n : Z) : option Z :=
  match c with
  | [] => None
  | (_, subs, _) :: older => match table_says subs n with Some off => Some off | None => chain_says older n end
  end.

(** An object with its generation. *)
Definition gen_object (n g : Z) (t : bytes) : bytes :=
  decZ n ++ bs " " ++ decZ g ++ bs " obj" ++ nl ++ t ++ nl ++ bs "endobj".

(** Object streams whose data follows any of the two line ends allowed after
    the keyword "stream". *)
Definition objstm_with (eol : bytes) (sn count first : Z) (raw : bytes) : bytes :=
  decZ sn ++ bs " 0 obj" ++ nl ++ bs "<</Type /ObjStm /N " ++ decZ count ++ bs " /First " ++ decZ first ++
  bs " /Length " ++ decZ (flen raw) ++ bs ">>" ++ nl ++ bs "stream" ++ eol ++ raw ++ nl ++ bs "endstream" ++ nl ++ bs "endobj" ++ nl.
Definition stream_eol (e : bytes) : Prop := e = [x0a] \/ e = [x0d; x0a].
(** [raw] as it is after decryption for object [sn], generation 0. *)
Definition decrypted (dec : option decryptor) (sn : Z) (raw raw' : bytes) : Prop :=
  match dec with None => raw' = raw | Some d => d raw sn 0 = Ok raw' end.

(** Cross-reference streams (ISO 32000-1, 7.5.8): entries of three big-endian
    fields, grouped in subsections listed by /Index. *)
Inductive xref_row := EFree (next gen : Z) | EAt (off gen : Z) | EIn (stream index : Z).
Definition be (w : nat) (z : Z) : bytes := bigEndian w (Z.to_N z).
Definition xref_row_text (w1 w2 w3 : nat) (e : xref_row) : bytes :=
  match e with
  | EFree a b => be w1 0 ++ be w2 a ++ be w3 b
  | EAt a b => be w1 1 ++ be w2 a ++ be w3 b
  | EIn a b => be w1 2 ++ be w2 a ++ be w3 b
  end.
Definition fits (w : nat) (z : Z) : Prop := 0 <= z < 256 ^ Z.of_nat w /\ z < 2 ^ 63.
Definition xref_row_ok (w2 w3 : nat) (e : xref_row) : Prop :=
  match e with
  | EFree a b | EIn a b => fits w2 a /\ fits w3 b
  | EAt a b => fits w2 a /\ 0 < a /\ fits w3 b
  end.
Definition xref_data (w1 w2 w3 : nat) (subs : list (Z * list xref_row)) : bytes :=
  flat_map (fun s => flat_map (xref_row_text w1 w2 w3) (snd s)) subs.
Definition index_text (subs : list (Z * list xref_row)) : bytes :=
  flat_map (fun s => decZ (fst s) ++ bs " " ++ decZ (Z.of_nat (length (snd s))) ++ bs " ") subs.
Definition xref_stream_text (sn size : Z) (w1 w2 w3 : nat) (subs : list (Z * list xref_row)) (extra comp : bytes) : bytes :=
  decZ sn ++ bs " 0 obj" ++ nl ++ bs "<</Type /XRef /Size " ++ decZ size ++ bs " /W [" ++ decZ (Z.of_nat w1) ++ bs " " ++
  decZ (Z.of_nat w2) ++ bs " " ++ decZ (Z.of_nat w3) ++ bs "] /Index [" ++ index_text subs ++ bs "]" ++ extra ++ bs ">>" ++
  nl ++ bs "stream" ++ nl ++ comp ++ nl ++ bs "endstream".
Definition xref_head_length (sn size : Z) (w1 w2 w3 : nat) (subs : list (Z * list xref_row)) : nat :=
  length (decZ sn ++ bs " 0 obj" ++ nl ++ bs "<</Type /XRef /Size " ++ decZ size ++ bs " /W [" ++ decZ (Z.of_nat w1) ++ bs " " ++
  decZ (Z.of_nat w2) ++ bs " " ++ decZ (Z.of_nat w3) ++ bs "] /Index [" ++ index_text subs ++ bs "]").
(** What it says: the last entry that gives [n] an offset, and the last one
    that puts it into an object stream. *)
Definition stream_rows (subs : list (Z * list xref_row)) : list (Z * xref_row) :=
  flat_map (fun s => numbered (fst s) (snd s)) subs.
Definition stream_offsets (subs : list (Z * list xref_row)) : list (Z * Z) :=
  flat_map (fun r => match snd r with EAt a _ => [(fst r, a)] | _ => [] end) (stream_rows subs).
Definition stream_members (subs : list (Z * list xref_row)) : list (Z * (Z * Z)) :=
  flat_map (fun r => match snd r with EIn a b => [(fst r, (a, b))] | _ => [] end) (stream_rows subs).

(** The header of object [n], generation 0, stands at offset [i], at the start
    of the file or after white space. *)
Definition header_at (f : bytes) (n : Z) (i : nat) : Prop :=
  exists w1 w2 r, skipn i f = decZ n ++ w1 ++ bs "0" ++ w2 ++ bs "obj" ++ r /\
    w1 <> [] /\ white w1 /\ w2 <> [] /\ white w2.
Definition after_white (f : bytes) (i : nat) : Prop :=
  match i with O => True | S j => exists b, nth_error f j = Some b /\ is_ws b = true end.

(** A stream object as text, with the line ends around its data. *)
Definition raw_stream (n g : Z) (d e1 data e2 : bytes) : bytes :=
  decZ n ++ bs " " ++ decZ g ++ bs " obj" ++ nl ++ bs "<<" ++ d ++ bs ">>" ++ nl ++
  bs "stream" ++ e1 ++ data ++ e2 ++ bs "endstream" ++ nl ++ bs "endobj".
Definition data_end (e : bytes) : Prop := e = [x0a] \/ e = [x0d; x0a] \/ e = [x0d].
