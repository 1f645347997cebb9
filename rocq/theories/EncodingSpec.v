(** Small specifications for character decoding. *)
From Verif Require Import EncodingModel FontModel Scan.
From Verif Require FontSpec.
Local Open Scope Z_scope.

(** What a character code means: the ToUnicode entry; else the Differences
    entry; else the base encoding; else the code itself. *)
Inductive means (d : decoder) (code : Z) : Z -> Prop :=
| by_unicode r : mget code (toUnicode d) = Some r -> means d code r
| by_difference r : mget code (toUnicode d) = None -> mget code (differences d) = Some r -> means d code r
| by_base r : mget code (toUnicode d) = None -> mget code (differences d) = None ->
    mget code (baseEncoding d) = Some r -> means d code r
| by_itself : mget code (toUnicode d) = None -> mget code (differences d) = None ->
    mget code (baseEncoding d) = None -> means d code code.
(** A text as Unicode characters. *)
Definition text_of (rs : list Z) : bytes := utf8 (map Z.to_N rs).
Definition is_char (r : Z) : Prop := 0 <= r /\ valid_rune (Z.to_N r) = true.

Definition byte_codes (s : bytes) : list Z := map (fun b => Z.of_N (b2n b)) s.
(** Codes of two bytes, high byte first. *)
Fixpoint pair_codes (s : bytes) : list Z :=
  match s with
  | a :: b :: s' => (256 * Z.of_N (b2n a) + Z.of_N (b2n b)) :: pair_codes s'
  | _ => []
  end.
Definition one_byte_font (d : decoder) : Prop := forall c r, mget c (toUnicode d) = Some r -> c <= 255.
Definition base_small (d : decoder) : Prop := forall c r, mget c (baseEncoding d) = Some r -> c <= 255.

(* ---------------------------------------------------------------- *)
(** ToUnicode maps as programs write them: sections of single characters and
    of ranges, numbers in hexadecimal of a chosen width (UTF-16 values with
    four digits, single characters below 256 also with two), anything else around
    the sections. *)
Definition hx (w : nat) (n : N) : bytes := bs "<" ++ pad_hex w n ++ bs ">".
(** [bcShort]: the character is written with two digits. *)
Record bfchar := mkChar { bcCode : N; bcUni : N; bcShort : bool }.
Definition uni_digits (e : bfchar) : nat := if bcShort e then 2%nat else 4%nat.
Record bfrange := mkRange { brLo : N; brHi : N; brUni : N }.
Inductive section := Chars (l : list bfchar) | Ranges (l : list bfrange).
Definition char_line (w : nat) (e : bfchar) : bytes := hx w (bcCode e) ++ bs " " ++ hx (uni_digits e) (bcUni e) ++ [x0a].
Definition range_line (w : nat) (e : bfrange) : bytes :=
  hx w (brLo e) ++ bs " " ++ hx w (brHi e) ++ bs " " ++ hx 4 (brUni e) ++ [x0a].
Definition section_text (w : nat) (s : section) : bytes :=
  match s with
  | Chars l => bs "beginbfchar" ++ [x0a] ++ flat_map (char_line w) l ++ bs "endbfchar"
  | Ranges l => bs "beginbfrange" ++ [x0a] ++ flat_map (range_line w) l ++ bs "endbfrange"
  end.
(** each section with the text in front of it *)
Definition cmap_text (w : nat) (ss : list (bytes * section)) (tail : bytes) : bytes :=
  flat_map (fun s => fst s ++ section_text w (snd s)) ss ++ tail.
(** no section can begin in [t], whatever follows it *)
Definition quiet (t : bytes) : Prop := nostart (bs "beginbfchar") t /\ nostart (bs "beginbfrange") t.
Definition char_fits (e : bfchar) : Prop := (bcCode e < 2147483648)%N /\ (bcUni e < if bcShort e then 256 else 65536)%N.
Definition range_fits (e : bfrange) : Prop :=
  (brLo e < 2147483648)%N /\ (brHi e < 2147483648)%N /\ (brUni e + (brHi e - brLo e) < 65536)%N.
Definition section_fits (s : section) : Prop :=
  match s with Chars l => Forall char_fits l | Ranges l => Forall range_fits l end.
Definition all_chars (ss : list (bytes * section)) : list bfchar :=
  flat_map (fun s => match snd s with Chars l => l | Ranges _ => [] end) ss.
Definition all_ranges (ss : list (bytes * section)) : list bfrange :=
  flat_map (fun s => match snd s with Ranges l => l | Chars _ => [] end) ss.
(** The character of a code: that of the last range it is in, else of the last
    single entry. *)
Definition cmap_char (ss : list (bytes * section)) (c : N) : option N :=
  match List.find (fun r => (brLo r <=? c) && (c <=? brHi r))%N (rev (all_ranges ss)) with
  | Some r => Some (brUni r + (c - brLo r))%N
  | None => option_map bcUni (List.find (fun e => bcCode e =? c)%N (rev (all_chars ss)))
  end.

(* ---------------------------------------------------------------- *)
(** Differences: groups of a first code and glyph names *)
Definition diff_group (g : Z * list bytes) : bytes :=
  decZ (fst g) ++ flat_map (fun n => bs " /" ++ n) (snd g).
Definition diff_text (l : list (Z * list bytes)) : bytes := bs "[" ++ join (bs " ") (map diff_group l) ++ bs "]".
(** the names with their codes, in order *)
Definition diff_entries (l : list (Z * list bytes)) : list (Z * bytes) :=
  flat_map (fun g => combine (zrange (fst g) (fst g + Z.of_nat (length (snd g)) - 1)) (snd g)) l.
Definition name_ok (n : bytes) : Prop := n <> [] /\ forallb (fun b => negb (is_space b) && negb (beqb b "]")) n = true.

(* ---------------------------------------------------------------- *)
(** The standard encodings (ISO 32000-1, Annex D).  Windows code page 1252:
    ASCII, Latin-1 and these from 128 to 159, where unused codes are bullets. *)
Definition cp1252_high : list Z :=
  [8364; 8226; 8218; 402; 8222; 8230; 8224; 8225; 710; 8240; 352; 8249; 338; 8226; 381; 8226;
   8226; 8216; 8217; 8220; 8221; 8226; 8211; 8212; 732; 8482; 353; 8250; 339; 8226; 382; 376].
Definition win_ansi (c : Z) : Z :=
  if c =? 127 then 8226 else if (128 <=? c) && (c <? 160) then nth (Z.to_nat (c - 128)) cp1252_high 0 else c.
(** Mac OS Roman, 128 to 255, with the currency sign at 219. *)
Definition mac_high : list Z :=
  [196; 197; 199; 201; 209; 214; 220; 225; 224; 226; 228; 227; 229; 231; 233; 232; 234; 235; 237; 236; 238; 239;
   241; 243; 242; 244; 246; 245; 250; 249; 251; 252; 8224; 176; 162; 163; 167; 8226; 182; 223; 174; 169; 8482;
   180; 168; 8800; 198; 216; 8734; 177; 8804; 8805; 165; 181; 8706; 8721; 8719; 960; 8747; 170; 186; 937; 230;
   248; 191; 161; 172; 8730; 402; 8776; 8710; 171; 187; 8230; 160; 192; 195; 213; 338; 339; 8211; 8212; 8220;
   8221; 8216; 8217; 247; 9674; 255; 376; 8260; 164; 8249; 8250; 64257; 64258; 8225; 183; 8218; 8222; 8240; 194;
   202; 193; 203; 200; 205; 206; 207; 204; 211; 212; 63743; 210; 218; 219; 217; 305; 710; 732; 175; 728; 729;
   730; 184; 733; 731; 711].
Definition mac_roman (c : Z) : Z := if 128 <=? c then nth (Z.to_nat (c - 128)) mac_high 0 else c.
(** The standard Latin encoding: ASCII with curly quotes at 39 and 96, and
    these from 161 on; 0 where there is no character. *)
Definition standard_high : list Z :=
  [161; 162; 163; 8260; 165; 402; 167; 164; 39; 8220; 171; 8249; 8250; 64257; 64258; 0; 8211; 8224; 8225; 183; 0;
   182; 8226; 8218; 8222; 8221; 187; 8230; 8240; 0; 191; 0; 96; 180; 710; 732; 175; 728; 729; 168; 0; 730; 184;
   0; 733; 731; 711; 8212; 0; 0; 0; 0; 0; 0; 0; 0; 0; 0; 0; 0; 0; 0; 0; 0; 198; 0; 170; 0; 0; 0; 0; 321; 216;
   338; 186; 0; 0; 0; 0; 0; 230; 0; 0; 0; 305; 0; 0; 322; 248; 339; 223; 0; 0; 0; 0].
Definition standard_latin (c : Z) : Z :=
  if c =? 39 then 8217 else if c =? 96 then 8216
  else if (32 <=? c) && (c <=? 126) then c else if 161 <=? c then nth (Z.to_nat (c - 161)) standard_high 0 else 0.

(** A hexadecimal string: the digits of [s] with blanks and ends of lines
    between them. *)
Definition hex_blank (b : byte) : bool := beqb b " " || beqb b x0a || beqb b x0d.
Definition hex_of (t s : bytes) : Prop := filter (fun b => negb (hex_blank b)) t = hexX s.
Definition has_wide_code (d : decoder) : Prop := exists c r, mget c (toUnicode d) = Some r /\ 255 < c.
(** The character a Differences array gives a code: that of the last entry
    with a known name. *)
Definition diff_char (l : list (Z * list bytes)) (c : Z) : option Z :=
  option_map (fun e => glyphNameToUnicode (snd e))
    (List.find (fun e => (fst e =? c) && negb (glyphNameToUnicode (snd e) =? 0)) (rev (diff_entries l))).
Definition group_ok (g : Z * list bytes) : Prop := 0 <= fst g < 2 ^ 63 /\ Forall name_ok (snd g).
(** The bytes an encoding is right about. *)
Definition byte_in (l : list N) (b : byte) : bool := existsb (N.eqb (b2n b)) l.
Definition win_bytes (b : byte) : bool := (32 <=? b2n b)%N && negb (byte_in [127; 129; 141; 143; 144; 157] b)%N.
Definition mac_bytes (b : byte) : bool := (32 <=? b2n b)%N && negb (byte_in [127; 219] b)%N.
Definition standard_bytes (b : byte) : bool := negb (standard_latin (Z.of_N (b2n b)) =? 0).
