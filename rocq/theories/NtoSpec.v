(** What a user expects of a font with a ToUnicode map. *)
From Verif Require Import Util Scan ManipSpec MarksSpec ResSpec EncodingSpec.
Local Open Scope Z_scope.

(** The object [x] is a stream with this content, compressed or not; the
    keyword is followed by a line feed, or a carriage return and a line feed. *)
Definition stream_shows (inflate : bytes -> option bytes) (x content : bytes) : Prop :=
  exists a eol data b, x = a ++ bs "stream" ++ eol ++ data ++ bs "endstream" ++ b /\
    (eol = [x0a] \/ eol = [x0d; x0a]) /\ nostart (bs "stream") a /\ nostart (bs "endstream") data /\
    starts_with (beqb x0a) data = false /\
    if contains (bs "/FlateDecode") x then inflate data = Some content else content = data.
(** The font names an encoding, or none. *)
Definition simple_encoding (t : bytes) : Prop := contains (bs "/Encoding") t = false \/ exists v, gives t (bs "/Encoding") (bs "/" ++ v).
