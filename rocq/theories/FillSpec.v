(** Small specifications used in the properties of form filling (C106). *)
From Verif Require Import WriterModel ParseModel FormsModel ParseSpec.
Local Open Scope Z_scope.

(** What is written in place of an object stream: a dictionary with the number
    of objects, the length of an index, and the length of the data. *)
Definition rebuilt_object (sn count first : Z) (data : bytes) : bytes :=
  decZ sn ++ bs " 0 obj
<< /N " ++ decZ count ++ bs " /First " ++ decZ first ++ bs " /Length " ++ decZ (flen data) ++ bs " >>
stream
" ++ data ++ bs "
endstream
endobj
".

(** The end of a file: the position of the last cross-reference section. *)
Definition file_end (x : Z) : bytes := bs "startxref
" ++ decZ x ++ bs "
%%EOF
".

(** Setting the field named [name] to [v] gives object [n] of the opened
    document [p] the text [new]: the form has the field, the object was read
    from an object stream (its text does not start with its header), and the
    cross-reference stream ([comp]: number to stream and index) says that it is
    in stream [s]. *)
Definition sets (inflate : bytes -> option bytes) (p : pdf) (form : list field) (comp : zmap (Z * Z)) (s : Z)
  (e : bytes * fvalue) (u : Z * bytes) : Prop :=
  exists a kids parent t i,
    FindFieldByName form (fst e) = Some (Field a kids, parent) /\ aNum a = fst u /\
    PGetObject inflate p (fst u) = Ok t /\ contains (decZ (fst u) ++ bs " 0 obj") (firstn 50 t) = false /\
    updateFieldContent t (aFT a) (snd e) = Ok (snd u) /\
    mget (fst u) comp = Some (s, i).

(** The names a form has. *)
Definition known (form : list field) (e : bytes * fvalue) : bool :=
  match FindFieldByName form (fst e) with Some _ => true | None => false end.
