(** What a user expects of reading XFA from a document whose objects cannot be
    found through its cross-reference table. *)
From Verif Require Import Util WriterModel ParseModel XfaModel XfaSpec FallModel.
Local Open Scope Z_scope.

(** Object [n] stands in the file: its header is at the beginning of a line and
    nowhere before; [t] is what stands between the header and the first "endobj". *)
Definition begins_line (pre : bytes) : Prop := pre = [] \/ exists u c, pre = u ++ [c] /\ (c = x0a \/ c = x0d).
Definition placed (f : bytes) (n : Z) (pre t post : bytes) : Prop :=
  f = pre ++ decZ n ++ bs " 0 obj" ++ t ++ bs "endobj" ++ post /\ begins_line pre /\
  contains (decZ n ++ bs " 0 obj") pre = false /\ contains (bs "endobj") t = false.
Definition stands (f : bytes) (n : Z) (t : bytes) : Prop := exists pre post, placed f n pre t post.
(** The whole object *)
Definition whole (n : Z) (t : bytes) : bytes := decZ n ++ bs " 0 obj" ++ t ++ bs "endobj".
(** A stream with its data; the dictionary gives the length. *)
Definition gives_length (dict : bytes) (l : Z) : Prop :=
  exists a g r, dict = a ++ bs "/Length" ++ g ++ decZ l ++ r /\ contains (bs "/Length") a = false /\
    forallb is_ws g = true /\ g <> [] /\ match r with [] => True | b :: _ => is_digit b = false end.
Definition stream_of (dict d : bytes) : bytes := nl ++ dict ++ nl ++ bs "stream" ++ nl ++ d ++ nl ++ bs "endstream" ++ nl.
Definition plain_dict (dict : bytes) : Prop :=
  contains (bs "stream") dict = false /\ match dict with [] => False | b :: _ => is_blank b = false end.
(** The two readers, for a document that is not encrypted *)
Definition form_reader (inflate : bytes -> option bytes) (f : bytes) (n : Z) : result bytes :=
  fst (findAndDecryptAcroForm inflate None f (length f) n).
Definition stream_reader (inflate : bytes -> option bytes) (f : bytes) (n : Z) : result bytes := extractStreamFromPDF inflate None f n.
(** The document's form is object [k]. *)
Definition form_number (f : bytes) (k : Z) : Prop :=
  exists a b, f = a ++ bs "/AcroForm " ++ decZ k ++ bs " 0 R" ++ b /\ contains (bs "/AcroForm") a = false.
(** A stream the array names *)
Definition recoverable (f : bytes) (n : Z) (d : bytes) : Prop :=
  exists dict, stands f n (stream_of dict d) /\ gives_length dict (flen d) /\ plain_dict dict /\
    d <> [] /\ contains (bs "stream") d = false /\ contains (bs "<<") d = false.

(** The same with another white space after the number: a tab or a line end. *)
Definition placed_loosely (f : bytes) (n : Z) (pre : bytes) (c : byte) (t post : bytes) : Prop :=
  f = pre ++ decZ n ++ [c] ++ bs "0 obj" ++ t ++ bs "endobj" ++ post /\ (c = x09 \/ c = x0a \/ c = x0d) /\ begins_line pre /\
  contains (decZ n ++ bs " 0 obj") f = false /\ contains (bs "endobj") t = false.
