(** Text arrays as other programs write them (C73): literal strings with nested
    parentheses, strings in hex, and anything else between them. *)
From Verif Require Import Util ExtractModel ExtractSpec.
Local Open Scope Z_scope.

(** A literal string without escapes: its parentheses are balanced. *)
Inductive nested : bytes -> Prop :=
| nested_nil : nested []
| nested_char c t : c <> "("%byte -> c <> ")"%byte -> c <> "\"%byte -> nested t -> nested (c :: t)
| nested_group a t : nested a -> nested t -> nested (bs "(" ++ a ++ bs ")" ++ t).
Inductive piece := Literal (t : bytes) | Hex (h : bytes) | Between (g : bytes).
Definition piece_ok (p : piece) : Prop :=
  match p with
  | Literal t => nested t
  | Hex h => ~ In ">"%byte h
  | Between g => ~ In "("%byte g /\ ~ In "<"%byte g
  end.
Definition piece_text (p : piece) : bytes :=
  match p with Literal t => bs "(" ++ t ++ bs ")" | Hex h => bs "<" ++ h ++ bs ">" | Between g => g end.
(** What a piece shows: the string in the font's encoding; what stands between
    strings (numbers) shows nothing. *)
Definition piece_shows (d : option decoder) (p : piece) : bytes :=
  match p with
  | Literal t => match d with Some d => Decode d t | None => t end
  | Hex h => match d with Some d => DecodeHex d h | None => decodeHexToLatin1 h end
  | Between _ => []
  end.
Definition array_text (l : list piece) : bytes := bs "[" ++ flat_map piece_text l ++ bs "] TJ" ++ nl.
(** The array is written on one line, without a closing bracket inside, and
    without white space at its ends. *)
Definition one_line (l : list piece) : Prop :=
  let t := flat_map piece_text l in
  ~ In x0a t /\ ~ In "]"%byte t /\ t <> [] /\ is_space (hd x00 t) = false /\ is_space (last t x00) = false /\ hd x00 t <> "["%byte.
(** What the array shows after the calls [before]: one text, where the calls
    put it and with the font they chose. *)
Definition array_seen (rd : float -> float) (decoders : option (list (bytes * decoder))) (before : list (ccall float)) (l : list piece) : text_element :=
  let t := flat_map (piece_shows (font_decoder decoders before)) l in
  mkTE t (fst (text_position rd before)) (snd (text_position rd before))
    (fmul (fmul (fint (Z.of_nat (length t))) (font_size rd before)) f06) (font_size rd before) (font_name before) (font_size rd before)
    (char_spacing rd before) (word_spacing rd before) (text_rise rd before) (text_matrix rd before).
