(** Character decoding: the theorems of C48 and C72. *)
From Verif Require Import Util Scan Utf8 FontModel EncodingModel EncodingSpec EncodingProofs EncodingProofs2 EncodingProofs3.
From Coq Require Import Permutation.
Local Open Scope Z_scope.

(* ---------------------------------------------------------------- *)
(** C48.  Every byte of a string is decoded by the ToUnicode map, else the
    Differences, else the base encoding, else as itself. *)
Theorem C48_decode : forall d s, exists rs, Forall2 (means d) (byte_codes s) rs /\ (Forall is_char rs -> Decode d s = text_of rs).
Proof. exact decode_spec. Qed.
Print Assumptions C48_decode.
Theorem C48_means_unique : forall d c r r', means d c r -> means d c r' -> r = r'.
Proof. exact means_fun. Qed.
Print Assumptions C48_means_unique.
Definition ex_dec : decoder := mkDec [(66, 9731)] [(65, 65); (67, 67)] [(67, 233)].
Example C48_decode_example : Decode ex_dec (bs "ABCD") = bs "A" ++ [xe2; x98; x83; xc3; xa9] ++ bs "D" /\
  Forall2 (means ex_dec) (byte_codes (bs "ABCD")) [65; 9731; 233; 68] /\ Forall is_char [65; 9731; 233; 68].
Proof.
  split; [vm_compute; reflexivity|]. split.
  - change (byte_codes (bs "ABCD")) with [65; 66; 67; 68].
    constructor; [apply by_base; reflexivity|]. constructor; [apply by_unicode; reflexivity|].
    constructor; [apply by_difference; reflexivity|]. constructor; [apply by_itself; reflexivity|constructor].
  - repeat constructor; lia.
Qed.
(** Hexadecimal strings of a font whose codes are bytes. *)
Theorem C48_hex_bytes : forall d s t, hex_of t s -> base_small d -> one_byte_font d \/ length s = 1%nat ->
  exists rs, Forall2 (means d) (byte_codes s) rs /\ (Forall is_char rs -> DecodeHex d (bs "<" ++ t ++ bs ">") = text_of rs).
Proof. exact hex_bytes. Qed.
Print Assumptions C48_hex_bytes.
(** Hexadecimal strings of a font that has a code above 255: two bytes each. *)
Theorem C48_hex_pairs : forall d s t, hex_of t s -> base_small d -> has_wide_code d -> Nat.even (length s) = true ->
  exists rs, Forall2 (means d) (pair_codes s) rs /\ (Forall is_char rs -> DecodeHex d (bs "<" ++ t ++ bs ">") = text_of rs).
Proof. exact hex_pairs. Qed.
Print Assumptions C48_hex_pairs.
Definition ex_wide : decoder := mkDec [(66, 97); (300, 98)] [] [].
Example C48_hex_example : hex_of (bs "41 4" ++ [x0a] ++ bs "2") (bs "AB") /\ DecodeHex ex_dec (bs "<41 4" ++ [x0a] ++ bs "2>") = bs "A" ++ [xe2; x98; x83] /\
  hex_of (bs "0042012C") [x00; "B"%byte; x01; ","%byte] /\ DecodeHex ex_wide (bs "<0042012C>") = bs "ab" /\ pair_codes [x00; "B"%byte; x01; ","%byte] = [66; 300].
Proof. vm_compute. repeat split. Qed.
(** A font with two-byte codes that are all below 256 (a small subset of an
    Identity-H font) is read as one-byte codes: the text has extra NULs. *)
Theorem C48_cid_refuted : DecodeHex (mkDec [(65, 65)] [] []) (bs "<0041>") = [x00; "A"%byte].
Proof. vm_compute. reflexivity. Qed.
Print Assumptions C48_cid_refuted.
(** In a literal string the two-byte codes of a font are not looked up. *)
Theorem C48_literal_pairs_refuted : has2ByteMapping ex_wide = true /\ Decode ex_wide [x01; ","%byte] = [x01; ","%byte].
Proof. vm_compute. repeat split. Qed.
Print Assumptions C48_literal_pairs_refuted.
(** A tab in a hexadecimal string breaks the digits around it. *)
Theorem C48_tab_refuted : DecodeHex NewFontDecoder (bs "<41" ++ [x09] ++ bs "42>") = bs "A ".
Proof. vm_compute. reflexivity. Qed.
Print Assumptions C48_tab_refuted.

(** ToUnicode maps of single characters and ranges are read exactly. *)
Theorem C48_cmap : forall w ss tail d c,
  Forall (fun s => quiet (fst s)) ss -> Forall (fun s => section_fits (snd s)) ss ->
  contains (bs "beginbfchar") tail = false -> contains (bs "beginbfrange") tail = false ->
  mget (Z.of_N c) (toUnicode (ParseToUnicodeCMap (cmap_text w ss tail) d)) =
  match cmap_char ss c with Some u => Some (Z.of_N u) | None => mget (Z.of_N c) (toUnicode d) end.
Proof. exact cmap_ok. Qed.
Print Assumptions C48_cmap.
Definition ex_sections : list (bytes * section) :=
  [(bs "begincmap 2 ", Chars [mkChar 1 65 true; mkChar 2 8364 false]); ([x0a] ++ bs "1 ", Ranges [mkRange 16 18 97]); ([x0a] ++ bs "1 ", Chars [mkChar 17 48 false])].
Example C48_cmap_example : Forall (fun s => quiet (fst s)) ex_sections /\ Forall (fun s => section_fits (snd s)) ex_sections /\
  cmap_char ex_sections 2 = Some 8364%N /\ cmap_char ex_sections 17 = Some 98%N /\ cmap_char ex_sections 19 = None /\
  cmap_text 2 ex_sections [] = bs "begincmap 2 beginbfchar" ++ [x0a] ++ bs "<01> <41>" ++ [x0a] ++ bs "<02> <20AC>" ++ [x0a] ++ bs "endbfchar" ++ [x0a] ++
    bs "1 beginbfrange" ++ [x0a] ++ bs "<10> <12> <0061>" ++ [x0a] ++ bs "endbfrange" ++ [x0a] ++ bs "1 beginbfchar" ++ [x0a] ++ bs "<11> <0030>" ++ [x0a] ++ bs "endbfchar".
Proof.
  split; [repeat constructor; apply nostartb_ok; vm_compute; reflexivity|]. split; [repeat constructor|]. vm_compute. repeat split.
Qed.
(** The maps this library embeds with its own fonts are read back: every glyph
    gets a character the font maps to it, or a space if there is none. *)
Theorem C48_own_fonts : forall order m gs g d, (forall l, Permutation (order l) l) -> (forall c h, mget c m = Some h -> 0 <= c < 65536) ->
  Forall (fun g => g < 65536)%N gs -> In g gs ->
  exists r, mget (Z.of_N g) (toUnicode (ParseToUnicodeCMap (createToUnicode order m gs) d)) = Some r /\
    (mget r m = Some g \/ (r = 32 /\ forall c, mget c m <> Some g)).
Proof. exact own_fonts. Qed.
Print Assumptions C48_own_fonts.
Example C48_own_fonts_example :
  toUnicode (ParseToUnicodeCMap (createToUnicode (fun l => l) [(66, 2%N); (8364, 300%N)] [0; 2; 300]%N) NewFontDecoder) = [(300, 8364); (2, 66); (0, 32)].
Proof. vm_compute. reflexivity. Qed.
(** ...but not characters above 0xFFFF, which are written as one number. *)
Theorem C48_own_fonts_refuted :
  mget 7 (toUnicode (ParseToUnicodeCMap (createToUnicode (fun l => l) [(128512, 7%N)] [7%N]) NewFontDecoder)) = Some 8032.
Proof. vm_compute. reflexivity. Qed.
Print Assumptions C48_own_fonts_refuted.
(** The elements of an array are also read as a range: code 65 becomes "C". *)
Theorem C48_array_refuted : exists text d, text = bs "beginbfrange" ++ [x0a] ++ bs "<01> <03> [<0041> <0042> <0043>]" ++ [x0a] ++ bs "endbfrange" /\
  d = ParseToUnicodeCMap text NewFontDecoder /\ map (fun c => mget c (toUnicode d)) [1; 2; 3] = [Some 65; Some 66; Some 67] /\ mget 65 (toUnicode d) = Some 67.
Proof. eexists. eexists. split; [reflexivity|]. split; [reflexivity|]. vm_compute. repeat split. Qed.
Print Assumptions C48_array_refuted.
(** A character in UTF-16 surrogates becomes U+FFFD, and of several characters
    for one code (a ligature) only the first is kept. *)
Theorem C48_utf16_refuted :
  Decode (ParseToUnicodeCMap (bs "beginbfchar <01> <D83DDE00> endbfchar") NewFontDecoder) [x01] = [xef; xbf; xbd] /\
  Decode (ParseToUnicodeCMap (bs "beginbfchar <01> <00660069> endbfchar") NewFontDecoder) [x01] = bs "f".
Proof. vm_compute. repeat split. Qed.
Print Assumptions C48_utf16_refuted.

(** A Differences array is read exactly. *)
Theorem C48_differences : forall l d c, Forall group_ok l ->
  mget c (differences (ParseDifferencesArray (diff_text l) d)) = match diff_char l c with Some r => Some r | None => mget c (differences d) end.
Proof. exact differences_ok. Qed.
Print Assumptions C48_differences.
Definition ex_diffs : list (Z * list bytes) := [(39, [bs "quotesingle"]); (96, [bs "grave"; bs "nosuchname"; bs "uni20AC"])].
Example C48_differences_example : Forall group_ok ex_diffs /\ diff_text ex_diffs = bs "[39 /quotesingle 96 /grave /nosuchname /uni20AC]" /\
  diff_entries ex_diffs = [(39, bs "quotesingle"); (96, bs "grave"); (97, bs "nosuchname"); (98, bs "uni20AC")] /\
  map (diff_char ex_diffs) [39; 96; 97; 98] = [Some 39; Some 96; None; Some 8364].
Proof. split; [repeat constructor; discriminate|]. vm_compute. repeat split. Qed.
(** Names need blanks between them, although a slash is enough in PDF. *)
Theorem C48_differences_refuted : differences (ParseDifferencesArray (bs "[65 /B/C]") NewFontDecoder) = [].
Proof. vm_compute. reflexivity. Qed.
Print Assumptions C48_differences_refuted.
(** Names made from a code point. *)
Theorem C48_uni_names : forall n, (n < 65536)%N -> glyphNameToUnicode (bs "uni" ++ pad_hex 4 n) = Z.of_N n.
Proof. exact uni_name. Qed.
Print Assumptions C48_uni_names.
Theorem C48_u_names : forall w n, w = 4%nat \/ w = 5%nat -> (n < 16 ^ N.of_nat w)%N -> glyphNameToUnicode (bs "u" ++ pad_hex w n) = Z.of_N n.
Proof. exact u_name. Qed.
Print Assumptions C48_u_names.
Example C48_names_example : glyphNameToUnicode (bs "uni20AC") = 8364 /\ glyphNameToUnicode (bs "u1F600") = 128512.
Proof. vm_compute. repeat split. Qed.
(** Six digits, and names with a suffix, are not known. *)
Theorem C48_names_refuted : glyphNameToUnicode (bs "u10FFFF") = 0 /\ glyphNameToUnicode (bs "A.alt") = 0.
Proof. vm_compute. repeat split. Qed.
Print Assumptions C48_names_refuted.

(* ---------------------------------------------------------------- *)
(** C72.  Text in the standard encodings. *)
Theorem C72_win_ansi_partial : forall s, forallb win_bytes s = true ->
  Decode (SetBaseEncoding (bs "/WinAnsiEncoding") NewFontDecoder) s = text_of (map win_ansi (byte_codes s)).
Proof. intros s. apply (decode_base win_ansi winAnsiEncoding win_bytes). vm_compute. reflexivity. Qed.
Print Assumptions C72_win_ansi_partial.
Theorem C72_mac_roman_partial : forall s, forallb mac_bytes s = true ->
  Decode (SetBaseEncoding (bs "/MacRomanEncoding") NewFontDecoder) s = text_of (map mac_roman (byte_codes s)).
Proof. intros s. apply (decode_base mac_roman macRomanEncoding mac_bytes). vm_compute. reflexivity. Qed.
Print Assumptions C72_mac_roman_partial.
Theorem C72_standard : forall s, forallb standard_bytes s = true ->
  Decode (SetBaseEncoding (bs "/StandardEncoding") NewFontDecoder) s = text_of (map standard_latin (byte_codes s)).
Proof. intros s. apply (decode_base standard_latin standardEncoding standard_bytes). vm_compute. reflexivity. Qed.
Print Assumptions C72_standard.
Example C72_example : forallb win_bytes (bs "Price: " ++ [x80; xe9]) = true /\
  Decode (SetBaseEncoding (bs "WinAnsiEncoding") NewFontDecoder) (bs "Price: " ++ [x80; xe9]) = bs "Price: " ++ [xe2; x82; xac; xc3; xa9] /\
  forallb mac_bytes [x8e] = true /\ Decode (SetBaseEncoding (bs "MacRomanEncoding") NewFontDecoder) [x8e] = [xc3; xa9] /\
  forallb standard_bytes [xae] = true /\ Decode (SetBaseEncoding (bs "StandardEncoding") NewFontDecoder) [xae] = [xef; xac; x81].
Proof. vm_compute. repeat split. Qed.
(** The unused codes of WinAnsi are bullets in PDF but read as control
    characters; 219 of MacRoman is the currency sign but read as the euro. *)
Theorem C72_bullets_refuted : win_ansi 129 = 8226 /\ Decode (SetBaseEncoding (bs "/WinAnsiEncoding") NewFontDecoder) [x81] <> text_of [win_ansi 129].
Proof. vm_compute. split; [reflexivity|discriminate]. Qed.
Print Assumptions C72_bullets_refuted.
Theorem C72_currency_refuted : mac_roman 219 = 164 /\ Decode (SetBaseEncoding (bs "/MacRomanEncoding") NewFontDecoder) [xdb] = text_of [8364].
Proof. vm_compute. split; reflexivity. Qed.
Print Assumptions C72_currency_refuted.
