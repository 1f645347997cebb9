(** Small specifications for fonts: the layout of the OpenType tables the code
    reads, as encoders, and what they mean. *)
From Verif Require Import FontModel.
Local Open Scope Z_scope.

(* ---------------------------------------------------------------- *)
(** Subsets *)

Inductive font_call := CallAddRune (r : N) | CallAddString (s : bytes).
Definition do_font_call (is_print : N -> bool) (f : font) (c : font_call) : font :=
  match c with CallAddRune r => AddRune r f | CallAddString s => AddString is_print s f end.
(** The characters a call adds: AddString leaves out what does not print. *)
Definition added (is_print : N -> bool) (c : font_call) : list N :=
  match c with
  | CallAddRune r => [r]
  | CallAddString s => filter (fun r => is_print r || (r =? 32)%N) (runes s)
  end.
(** A list without its repetitions, in the order of first use. *)
Fixpoint first_uses (l : list N) : list N :=
  match l with [] => [] | x :: l' => x :: filter (fun y => negb (y =? x)%N) (first_uses l') end.

(* ---------------------------------------------------------------- *)
(** Numbers *)
Definition w16 (n : N) : bytes := [n2b (n / 256); n2b n].
Definition w32 (n : N) : bytes := w16 (n / 65536) ++ w16 n.
Definition words (l : list N) : bytes := flat_map w16 l.

(* ---------------------------------------------------------------- *)
(** 'cmap' format 12: groups of characters with consecutive glyphs *)
Record group := mkGroup { gStart : N; gEnd : N; gGlyph : N }.
Definition w_group (g : group) : bytes := w32 (gStart g) ++ w32 (gEnd g) ++ w32 (gGlyph g).
Definition table12 (len lang : N) (gs : list group) : bytes :=
  w16 12 ++ w16 0 ++ w32 len ++ w32 lang ++ w32 (N.of_nat (length gs)) ++ flat_map w_group gs.
Definition group_fits (g : group) : Prop :=
  (gStart g < 4294967296)%N /\ (gEnd g < 4294967296)%N /\ (gGlyph g < 4294967296)%N.
Definition in_group (c : N) (g : group) : bool := (gStart g <=? c)%N && (c <=? gEnd g)%N.
(** The glyph of a character: that of the last group it is in. *)
Definition glyph12 (gs : list group) (c : N) : option N :=
  option_map (fun g => ((gGlyph g + (c - gStart g)) mod 65536)%N) (List.find (in_group c) (rev gs)).
(** Groups as the format wants them: increasing, not overlapping. *)
Fixpoint increasing (least : N) (gs : list group) : Prop :=
  match gs with [] => True | g :: gs' => (least <= gStart g)%N /\ (gStart g <= gEnd g)%N /\ increasing (gEnd g + 1) gs' end.

(* ---------------------------------------------------------------- *)
(** 'cmap' format 4: segments *)
Record segment := mkSeg { sStart : N; sEnd : N; sDelta : N; sOffset : N }.
Definition table4 (len lang : N) (search : N * N * N) (pad : N) (ss : list segment) (glyphs : list N) : bytes :=
  words [4%N; len; lang; (2 * N.of_nat (length ss))%N; fst (fst search); snd (fst search); snd search] ++
  words (map sEnd ss) ++ w16 pad ++ words (map sStart ss) ++ words (map sDelta ss) ++ words (map sOffset ss) ++ words glyphs.
Definition segment_fits (s : segment) : Prop :=
  (sStart s < 65536)%N /\ (sEnd s < 65536)%N /\ (sDelta s < 65536)%N /\ (sOffset s < 65536)%N /\ N.even (sOffset s) = true.
(** The offset counts bytes from its own place in the list of offsets, which
    the glyphs follow.  0 is "no glyph". *)
Definition glyph_in (offsets_and_glyphs : list N) (i : nat) (s : segment) (c : N) : N :=
  if (sOffset s =? 0)%N then ((c + sDelta s) mod 65536)%N
  else
    let g := nth (i + N.to_nat (sOffset s / 2) + N.to_nat (c - sStart s)) offsets_and_glyphs 0%N in
    if (g =? 0)%N then 0%N else ((g + sDelta s) mod 65536)%N.
(** OpenType: the first segment whose end is not below the character. *)
Fixpoint glyph4 (words_ : list N) (i : nat) (ss : list segment) (c : N) : N :=
  match ss with
  | [] => 0%N
  | s :: ss' =>
      if (c <=? sEnd s)%N then (if (sStart s <=? c)%N then glyph_in words_ i s c else 0%N)
      else glyph4 words_ (i + 1) ss' c
  end.
Fixpoint increasing4 (least : N) (ss : list segment) : Prop :=
  match ss with [] => True | s :: ss' => (least <= sStart s)%N /\ (sStart s <= sEnd s)%N /\ increasing4 (sEnd s + 1) ss' end.
(** Every offset of a segment stays inside the table. *)
Definition points_inside (ss : list segment) (glyphs : list N) : Prop :=
  forall i s, nth_error ss i = Some s -> sOffset s <> 0%N ->
  (i + N.to_nat (sOffset s / 2) + N.to_nat (sEnd s - sStart s) < length ss + length glyphs)%nat.

(* ---------------------------------------------------------------- *)
(** The 'cmap' table: the subtables by platform and encoding.  Wanted: the
    last Windows full-Unicode one (3, 10), else the first Windows BMP one
    (3, 1), else the first of platform 0. *)
Record encoding := mkEnc { ePlatform : N; eEncoding : N; eOffset : N }.
Definition w_encoding (e : encoding) : bytes := w16 (ePlatform e) ++ w16 (eEncoding e) ++ w32 (eOffset e).
Definition encoding_fits (e : encoding) : Prop := (ePlatform e < 65536)%N /\ (eEncoding e < 65536)%N /\ (eOffset e < 4294967296)%N.
Definition cmap_table (es : list encoding) (body : bytes) : bytes :=
  w16 0 ++ w16 (N.of_nat (length es)) ++ flat_map w_encoding es ++ body.
Definition is_encoding (p e : N) (x : encoding) : bool := ((ePlatform x =? p) && (eEncoding x =? e))%N.
Definition wanted (es : list encoding) : option encoding :=
  match List.find (is_encoding 3 10) (rev es) with
  | Some e => Some e
  | None => match List.find (is_encoding 3 1) es with
            | Some e => Some e
            | None => List.find (fun e => (ePlatform e =? 0)%N) es
            end
  end.

(* ---------------------------------------------------------------- *)
(** 'hmtx': advances with side bearings, then side bearings only; a glyph
    beyond the advances has the last of them. *)
Definition hmtx_table (metrics : list (N * N)) (bearings : list N) : bytes :=
  flat_map (fun m => w16 (fst m) ++ w16 (snd m)) metrics ++ words bearings.
Definition advance (metrics : list (N * N)) (g : nat) : N :=
  fst (nth (Nat.min g (length metrics - 1)) metrics (0, 0)%N).

(* ---------------------------------------------------------------- *)
(** A font file: a directory of tables *)
Record table_record := mkRec { rTag : bytes; rSum : N; rOff : N; rLen : N }.
Definition w_record (r : table_record) : bytes := rTag r ++ w32 (rSum r) ++ w32 (rOff r) ++ w32 (rLen r).
Definition record_fits (file : bytes) (r : table_record) : Prop :=
  length (rTag r) = 4%nat /\ (rSum r < 4294967296)%N /\ (rOff r < 4294967296)%N /\ (rLen r < 4294967296)%N.
Definition slice (off len : N) (s : bytes) : bytes := firstn (N.to_nat len) (skipn (N.to_nat off) s).
Definition font_file (sfnt search : bytes) (rs : list table_record) (body : bytes) : bytes :=
  sfnt ++ w16 (N.of_nat (length rs)) ++ search ++ flat_map w_record rs ++ body.
Definition sfnt_ok (s : bytes) : Prop := s = [x00; x01; x00; x00] \/ s = bs "OTTO".
(** The table with a tag: that of the last record. *)
Definition table_in (file : bytes) (rs : list table_record) (tag : bytes) : option bytes :=
  option_map (fun r => slice (rOff r) (rLen r) file) (List.find (fun r => bytes_eqb tag (rTag r)) (rev rs)).

(* ---------------------------------------------------------------- *)
(** PDF names: a reader takes #xx for a byte (ISO 32000-1, 7.3.5) *)
Definition hex_digit (b : byte) : option N :=
  let c := b2n b in
  if ((48 <=? c) && (c <=? 57))%N then Some (c - 48)%N
  else if ((65 <=? c) && (c <=? 70))%N then Some (c - 55)%N
  else if ((97 <=? c) && (c <=? 102))%N then Some (c - 87)%N else None.
Fixpoint read_name_text (s : bytes) : bytes :=
  match s with
  | [] => []
  | c :: s' =>
      if beqb c "#"%byte then
        match s' with
        | a :: b :: s'' =>
            match hex_digit a, hex_digit b with
            | Some x, Some y => n2b (16 * x + y) :: read_name_text s''
            | _, _ => c :: read_name_text s'
            end
        | _ => c :: read_name_text s'
        end
      else c :: read_name_text s'
  end.
(** a regular character of a PDF file *)
Definition regular (b : byte) : bool := negb (existsb (beqb b) (bs "()<>[]{}/%")) && negb ((b2n b <=? 32)%N).

(* ---------------------------------------------------------------- *)
(** Embedding *)

(** The value of hexadecimal digits, most significant first. *)
Definition hex_value (s : bytes) : option N :=
  fold_left (fun v b => match v, hex_digit b with Some v, Some d => Some (16 * v + d)%N | _, _ => None end) s (Some 0%N).
(** A whole line of a text. *)
Definition has_line (text line : bytes) : Prop := exists a b, text = a ++ [x0a] ++ line ++ [x0a] ++ b.
(** The stream object [n]: its bytes and its dictionary. *)
Definition stream_object (w : writer) (n : Z) (data : bytes) (d : dict) : Prop :=
  exists a, mget n (objects w) = Some (mkObj None (Some data) (Some a)) /\ mget a (dicts w) = Some d.
(** A line of a ToUnicode map: the glyph, and a character the font gives that
    glyph (a space if there is none). *)
Definition line_for (m : zmap N) (g : N) (line : bytes) : Prop :=
  exists code uni, line = bs "<" ++ code ++ bs "> <" ++ uni ++ bs ">" ++ [x0a] /\
    hex_value code = Some g /\ (2 <= length code)%nat /\
    ((exists c, mget (Z.of_N c) m = Some g /\ hex_value uni = Some c /\ (4 <= length uni)%nat) \/
     ((forall c, mget c m <> Some g) /\ uni = bs "0020")).
