(** What a user expects of a font that names its encoding. *)
From Verif Require Import Util Utf8 EncodingModel EncodingSpec ManipSpec MarksSpec ResSpec.
Local Open Scope Z_scope.

(** The named encodings, the bytes they are read right for and the characters
    of those bytes. *)
Inductive standard_encoding : bytes -> (byte -> bool) -> (Z -> Z) -> Prop :=
| enc_win : standard_encoding (bs "/WinAnsiEncoding") win_bytes win_ansi
| enc_mac : standard_encoding (bs "/MacRomanEncoding") mac_bytes mac_roman
| enc_latin : standard_encoding (bs "/StandardEncoding") standard_bytes standard_latin.
(** An encoding object says which codes have other characters. *)
Definition replaces (t : bytes) (l : list (Z * list bytes)) : Prop :=
  match l with
  | [] => contains (bs "/Differences") t = false
  | _ => exists a w b, t = a ++ bs "/Differences" ++ w ++ diff_text l ++ b /\ contains (bs "/Differences") a = false /\
      ~ In "["%byte w /\ Forall group_ok l /\ ~ In "["%byte (join (bs " ") (map diff_group l))
  end.
(** The font [t] names its encoding itself, or an object does. *)
Inductive font_encoding (get : Z -> result bytes) (t nm : bytes) : list (Z * list bytes) -> Prop :=
| fe_name : gives t (bs "/Encoding") nm -> font_encoding get t nm []
| fe_object e x l : 0 <= e < 2 ^ 63 -> says t (bs "/Encoding") (decZ e) -> get e = Ok x -> gives x (bs "/BaseEncoding") nm ->
    replaces x l -> font_encoding get t nm l.
(** The character of a code *)
Definition char_of (l : list (Z * list bytes)) (f : Z -> Z) (c : Z) : Z := match diff_char l c with Some r => r | None => f c end.
(** The bytes that have a character *)
Definition char_known (l : list (Z * list bytes)) (ok : byte -> bool) (f : Z -> Z) (b : byte) : Prop :=
  match diff_char l (Z.of_N (b2n b)) with Some r => is_char r | None => ok b = true end.
(** The standard fonts with Latin text *)
Definition latin_fonts : list bytes :=
  map bs ["Courier"; "Courier-Bold"; "Courier-BoldOblique"; "Courier-Oblique"; "Helvetica"; "Helvetica-Bold"; "Helvetica-BoldOblique";
          "Helvetica-Oblique"; "Times-Roman"; "Times-Bold"; "Times-BoldItalic"; "Times-Italic"]%string.
(** A font that names no encoding, but is a Type 1 or TrueType font or one of
    the standard ones *)
Definition default_encoding (t : bytes) : Prop :=
  contains (bs "/Encoding") t = false /\
  (gives t (bs "/Subtype") (bs "/Type1") \/ gives t (bs "/Subtype") (bs "/TrueType") \/
   exists nm, In nm latin_fonts /\ gives t (bs "/BaseFont") (bs "/" ++ nm)).
