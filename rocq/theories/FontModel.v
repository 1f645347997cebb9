(** Model of resources/font/font.go and resources/font/pdf.go.

    As in the other files a slice has no bytes beyond its end: where the code
    slices past the end of a table the model says [Panic] (in Go the bytes of
    the font file behind the table are read, if there are any).
    unicode.IsPrint is an argument. *)
From Verif Require Export PageModel.
From Verif Require PrimModel.
Local Open Scope Z_scope.

(* ---------------------------------------------------------------- *)
(** binary.BigEndian; the bounds are checked by the callers *)
Definition u16 (s : bytes) (i : nat) : N := (256 * at_ s i + at_ s (i + 1))%N.
Definition u32 (s : bytes) (i : nat) : N := (65536 * u16 s i + u16 s (i + 2))%N.
(** int16(v), int32(v) *)
Definition i16 (v : N) : Z := if (v <? 32768)%N then Z.of_N v else Z.of_N v - 65536.
Definition i32 (v : N) : Z := if (v <? 2147483648)%N then Z.of_N v else Z.of_N v - 4294967296.

(** font.go:14-20, without Subtype *)
Record font := mkFont { fName : bytes; fData : bytes; fSubset : list N; fID : bytes }.
(** font.go:23-40; a table is its data.  ItalicAngle is kept as the 16.16
    number of the file; fields that are never read are left out. *)
Record ttf := mkTTF {
  tTables : list (bytes * bytes); tUnitsPerEm : N; tAscent : Z; tDescent : Z; tCapHeight : Z;
  tItalic : Z; tFixedPitch : bool; tFontName : bytes; tFamily : bytes
}.
Definition signature_ok (s : bytes) : bool := (u32 s 0 =? 65536)%N || (u32 s 0 =? 1330926671)%N.
(** font.go:52-68 *)
Definition NewFont (name data : bytes) : result font :=
  if (length data <? 12)%nat then Err
  else if signature_ok data then Ok (mkFont name data [] []) else Err.

(** [i]-th record of a directory: the indices below [n] whose record of
    [size] bytes, from [first], is inside the data.  (The loops stop at the
    first one outside.) *)
Definition records (s : bytes) (first size n : nat) : list nat :=
  map (fun i => (first + i * size)%nat) (seq 0 (Nat.min n ((length s - first) / size))).

(** font.go:90-116: the table directory; [None] is an error *)
Fixpoint read_tables (n : nat) (s : bytes) (off : nat) (m : list (bytes * bytes)) : option (list (bytes * bytes)) :=
  match n with
  | O => Some m
  | S k =>
      if (length s <? off + 16)%nat then None
      else
        let o := u32 s (off + 8) in let l := u32 s (off + 12) in
        if (N.of_nat (length s) <? o + l)%N then None
        else read_tables k s (off + 16)
               (kset (firstn 4 (skipn off s)) (firstn (N.to_nat l) (skipn (N.to_nat o) s)) m)
  end.

(** font.go:214-228: the text of a name record *)
Definition be_runes (s : bytes) : list N := map (fun i => u16 s (2 * i)) (seq 0 (length s / 2)).
Definition name_text_of (platform : N) (d : bytes) : bytes :=
  if (platform =? 3)%N then (if Nat.even (length d) then utf8 (be_runes d) else []) else d.
(** family, full name, PostScript name *)
Definition names3 := (bytes * bytes * bytes)%type.
Definition keep_first (old new : bytes) : bytes := match old with [] => new | _ => old end.
(** font.go:194-247; the offsets are added as uint16 *)
Definition read_name (s : bytes) (strings : N) (r : result names3) (off : nat) : result names3 :=
  rbind r (fun ns =>
  match ns with (fam, full, ps) =>
    let platform := u16 s off in let id := u16 s (off + 6) in
    let l := u16 s (off + 8) in let o := u16 s (off + 10) in
    if ((platform =? 3) || (platform =? 0))%N && (strings + o + l <=? N.of_nat (length s))%N then
      let lo := ((strings + o) mod 65536)%N in let hi := ((strings + o + l) mod 65536)%N in
      if (hi <? lo)%N then Panic
      else
        let t := name_text_of platform (firstn (N.to_nat (hi - lo)) (skipn (N.to_nat lo) s)) in
        Ok (if (id =? 1)%N then (keep_first fam t, full, ps)
            else if (id =? 4)%N then (fam, keep_first full t, ps)
            else if (id =? 6)%N then (fam, full, keep_first ps t) else (fam, full, ps))
    else Ok ns
  end).
Definition parse_name (s : bytes) : result names3 :=
  fold_left (read_name s (u16 s 4)) (records s 6 12 (N.to_nat (u16 s 2))) (Ok ([], [], [])).
(** font.go:249-256 *)
Definition font_name (ns : names3) : bytes :=
  match ns with (fam, full, ps) => match ps, full with [], [] => fam | [], _ => full | _, _ => ps end end.
Definition table_of (tag : bytes) (least : nat) (m : list (bytes * bytes)) : option bytes :=
  match kget tag m with Some t => if (length t <? least)%nat then None else Some t | None => None end.
(** font.go:70-279 ParseTTF *)
Definition ParseTTF (s : bytes) : result ttf :=
  if (length s <? 12)%nat then Err
  else if negb (signature_ok s) then Err
  else match read_tables (N.to_nat (u16 s 4)) s 12 [] with
  | None => Err
  | Some m =>
      match table_of (bs "head") 54 m, table_of (bs "maxp") 6 m, table_of (bs "hhea") 36 m, table_of (bs "name") 6 m with
      | Some head, Some _, Some hhea, Some name =>
          rbind (parse_name name) (fun ns =>
          match table_of (bs "post") 32 m with
          | None => Err
          | Some post =>
              let cap := match table_of (bs "OS/2") 88 m with Some t => i16 (u16 t 68) | None => 0 end in
              Ok (mkTTF m (u16 head 18) (i16 (u16 hhea 4)) (i16 (u16 hhea 6)) cap (i32 (u32 post 4))
                    (negb (u32 post 12 =? 0)%N) (font_name ns) (fst (fst ns)))
          end)
      | _, _, _, _ => Err
      end
  end.

(* ---------------------------------------------------------------- *)
(** Subsets *)

Definition set_subset (f : font) (l : list N) : font := mkFont (fName f) (fData f) l (fID f).
(** font.go:282-290 *)
Definition AddRune (r : N) (f : font) : font :=
  if existsb (N.eqb r) (fSubset f) then f else set_subset f (fSubset f ++ [r]).
(** font.go:293-299 *)
Definition AddString (is_print : N -> bool) (s : bytes) (f : font) : font :=
  fold_left (fun f r => if is_print r || (r =? 32)%N then AddRune r f else f) (runes s) f.

(* ---------------------------------------------------------------- *)
(** Character maps: map[rune]uint16 *)

(** font.go:440-473, one segment; [base] is idRangeOffsetOffset *)
Definition segment_glyph (s : bytes) (base i : nat) (start delta ro code : N) : N :=
  if (ro =? 0)%N then ((code + delta) mod 65536)%N
  else
    let o := (base + i * 2 + N.to_nat ro + N.to_nat (code - start) * 2)%nat in
    if (o + 2 <=? length s)%nat then
      let g := u16 s o in if (g =? 0)%N then 0%N else ((g + delta) mod 65536)%N
    else 0%N.
(** the loop over uint16 codes: it stops before 0xFFFF *)
Definition codes (start end_ : N) : list N :=
  map (fun k => (start + N.of_nat k)%N) (seq 0 (N.to_nat (N.min end_ 65534 + 1 - start))).
Definition add_glyph (code g : N) (m : zmap N) : zmap N := if (g =? 0)%N then m else mset (Z.of_N code) g m.
Fixpoint segments4 (n i : nat) (segs : nat) (s : bytes) (m : zmap N) : result (zmap N) :=
  match n with
  | O => Ok m
  | S k =>
      let start_off := (16 + segs * 2)%nat in
      let delta_off := (start_off + segs * 2)%nat in
      let base := (delta_off + segs * 2)%nat in
      if (length s <? base + i * 2 + 2)%nat then Panic
      else
        let start := u16 s (start_off + i * 2) in
        let end_ := u16 s (14 + i * 2) in
        let delta := u16 s (delta_off + i * 2) in
        let ro := u16 s (base + i * 2) in
        if (end_ =? 65535)%N && (start =? 65535)%N then Ok m
        else segments4 k (i + 1) segs s
               (fold_left (fun m c => add_glyph c (segment_glyph s base i start delta ro c) m) (codes start end_) m)
  end.
(** font.go:428-480 *)
Definition parseCmapFormat4 (s : bytes) : result (zmap N) :=
  if (length s <? 14)%nat then Err
  else if (N.of_nat (length s) <? u16 s 2)%N then Err
  else let segs := N.to_nat (u16 s 6 / 2) in segments4 segs 0 segs s [].

(** font.go:495-508: one group.  The counter is a uint32; [None] when [fuel]
    iterations did not end the loop. *)
Fixpoint group12 (fuel : nat) (start end_ glyph code : N) (m : zmap N) : option (zmap N) :=
  match fuel with
  | O => None
  | S k =>
      if (code <=? end_)%N then
        group12 k start end_ glyph ((code + 1) mod 4294967296)%N
          (mset (i32 code) ((glyph + (code - start)) mod 65536)%N m)
      else Some m
  end.
Fixpoint groups12 (fuel : nat) (s : bytes) (offs : list nat) (m : zmap N) : option (zmap N) :=
  match offs with
  | [] => Some m
  | o :: offs' =>
      match group12 fuel (u32 s o) (u32 s (o + 4)) (u32 s (o + 8)) (u32 s o) m with
      | Some m => groups12 fuel s offs' m
      | None => None
      end
  end.
(** font.go:483-514 *)
Definition parseCmapFormat12 (fuel : nat) (s : bytes) : option (result (zmap N)) :=
  if (length s <? 16)%nat then Some Err
  else if (N.of_nat (length s) <? u32 s 4)%N then Some Err
  else option_map (fun m => Ok m) (groups12 fuel s (records s 16 12 (N.to_nat (u32 s 12))) []).

(** font.go:340-395: the subtable *)
Definition best_table (s : bytes) : option N :=
  let recs := records s 4 8 (N.to_nat (u16 s 2)) in
  let b := fold_left (fun best o =>
    let e := u16 s (o + 2) in
    if (u16 s o =? 3)%N && ((e =? 1) || (e =? 10))%N then
      match best with None => Some (u32 s (o + 4)) | Some _ => if (e =? 10)%N then Some (u32 s (o + 4)) else best end
    else best) recs None in
  match b with
  | Some _ => b
  | None => option_map (fun o => u32 s (o + 4)) (List.find (fun o => (u16 s o =? 0)%N) recs)
  end.
(** font.go:341-425 *)
Definition parseCmap (fuel : nat) (s : bytes) : option (result (zmap N)) :=
  if (length s <? 4)%nat then Some Err
  else if negb (u16 s 0 =? 0)%N then Some Err
  else match best_table s with
  | None => Some Err
  | Some o =>
      if (N.of_nat (length s) <? o)%N then Some Panic
      else
        let t := skipn (N.to_nat o) s in
        if (length t <? 2)%nat then Some Err
        else if (u16 t 0 =? 12)%N then parseCmapFormat12 fuel t
        else Some (parseCmapFormat4 t)
  end.

(** font.go:318-337: a set of glyphs, sorted *)
Fixpoint insert_glyph (g : N) (l : list N) : list N :=
  match l with
  | [] => [g]
  | h :: l' => if (g <? h)%N then g :: l else if (g =? h)%N then l else h :: insert_glyph g l'
  end.
Definition subset_glyphs (m : zmap N) (subset : list N) : list N :=
  fold_left (fun l r => match mget (Z.of_N r) m with Some g => insert_glyph g l | None => l end) subset [0%N].
(** sequencing of [option (result _)] *)
Definition obind {A B} (x : option (result A)) (k : A -> option (result B)) : option (result B) :=
  match x with Some (Ok a) => k a | Some Err => Some Err | Some Panic => Some Panic | None => None end.
Definition font_map (fuel : nat) (t : ttf) : option (result (zmap N)) :=
  match kget (bs "cmap") (tTables t) with None => Some Err | Some s => parseCmap fuel s end.
(** font.go:302-338 *)
Definition GetSubsetGlyphs (fuel : nat) (f : font) : option (result (list N)) :=
  obind (Some (ParseTTF (fData f))) (fun t =>
  obind (font_map fuel t) (fun m => Some (Ok (subset_glyphs m (fSubset f))))).
(** font.go:543-549: gid*4 is a uint16 *)
Definition glyph_width (hmtx : bytes) (upem g : N) : N :=
  if (N.to_nat g * 4 + 2 <=? length hmtx)%nat then u16 hmtx (N.to_nat ((g * 4) mod 65536)) else upem.
(** font.go:525-553 *)
Definition GetWidths (fuel : nat) (f : font) : option (result (list N)) :=
  obind (Some (ParseTTF (fData f))) (fun t =>
  obind (GetSubsetGlyphs fuel f) (fun gs =>
  match kget (bs "hmtx") (tTables t) with
  | None => Some Err
  | Some h => Some (Ok (map (glyph_width h (tUnitsPerEm t)) gs))
  end)).

(* ---------------------------------------------------------------- *)
(** pdf.go *)

(** "%X" of a number, and "%0wX"; for a negative one the sign counts *)
Fixpoint hex_aux (fuel : nat) (n : N) (acc : bytes) : bytes :=
  match fuel with
  | O => acc
  | S k => let acc := hex_upper (n mod 16) :: acc in if (n / 16 =? 0)%N then acc else hex_aux k (n / 16)%N acc
  end.
Definition hexN (n : N) : bytes := hex_aux (S (N.size_nat n)) n [].
Definition pad_hex (w : nat) (n : N) : bytes := let h := hexN n in repeat ("0"%byte : byte) (w - length h) ++ h.
Definition hexZ (w : nat) (z : Z) : bytes :=
  if z <? 0 then bs "-" ++ pad_hex (w - 1) (Z.to_N (- z)) else pad_hex w (Z.to_N z).

(** pdf.go:253-266 *)
Definition name_special (r : N) : bool := existsb (fun c => N.eqb r (b2n c)) (bs " #/()<>[]{}%").
Definition escape_name_rune (r : N) : bytes :=
  if name_special r || (127 <? r)%N then bs "#" ++ pad_hex 2 r else encode_rune r.
Definition escapeName (s : bytes) : bytes := flat_map escape_name_rune (runes s).

(** pdf.go:228-251 *)
Definition getFontFlags (t : ttf) : Z :=
  (if tFixedPitch t then 1 else 0) + 32 + (if tItalic t =? 0 then 0 else 64).

Definition nl1 : bytes := [x0a].
(** pdf.go:104-136 *)
Definition createFontDict (t : ttf) (descriptor to_unicode : Z) (glyphs widths : list N) (prefix : bytes) : bytes :=
  bs "<<" ++ nl1 ++ bs "/Type /Font" ++ nl1 ++ bs "/Subtype /TrueType" ++ nl1 ++
  bs "/BaseFont /" ++ escapeName (prefix ++ tFontName t) ++ nl1 ++
  bs "/FirstChar 0" ++ nl1 ++ bs "/LastChar " ++ decZ (Z.of_nat (length glyphs) - 1) ++ nl1 ++
  bs "/Widths [" ++ join (bs " ") (map (fun w => decZ (Z.of_N w)) widths) ++ bs "]" ++ nl1 ++
  bs "/FontDescriptor " ++ ref descriptor ++ nl1 ++ bs "/ToUnicode " ++ ref to_unicode ++ nl1 ++ bs ">>".
(** pdf.go:139-158; [fmt_angle] is "%.4f" of the float32 *)
Definition createFontDescriptor (fmt_angle : Z -> bytes) (t : ttf) (file : Z) : bytes :=
  let far := decZ (Z.of_N (tUnitsPerEm t) + 100) in
  bs "<<" ++ nl1 ++ bs "/Type /FontDescriptor" ++ nl1 ++ bs "/FontName /" ++ escapeName (tFontName t) ++ nl1 ++
  bs "/FontFamily (" ++ escapeFieldValue (tFamily t) ++ bs ")" ++ nl1 ++ bs "/Flags " ++ decZ (getFontFlags t) ++ nl1 ++
  bs "/FontBBox [-100 -100 " ++ far ++ bs " " ++ far ++ bs "]" ++ nl1 ++
  bs "/ItalicAngle " ++ fmt_angle (tItalic t) ++ nl1 ++ bs "/Ascent " ++ decZ (tAscent t) ++ nl1 ++
  bs "/Descent " ++ decZ (tDescent t) ++ nl1 ++ bs "/CapHeight " ++ decZ (tCapHeight t) ++ nl1 ++
  bs "/StemV 80" ++ nl1 ++ bs "/FontFile2 " ++ ref file ++ nl1 ++ bs ">>".
(** pdf.go:182-186, 214: the first character of a glyph in the iteration of
    the map *)
Definition char_of (order : list Z -> list Z) (m : zmap N) (g : N) : option Z :=
  List.find (fun c => match mget c m with Some h => (h =? g)%N | None => false end) (order (mkeys m)).
Definition bfchar_line (order : list Z -> list Z) (m : zmap N) (g : N) : bytes :=
  bs "<" ++ pad_hex 2 g ++ bs "> <" ++ match char_of order m g with Some c => hexZ 4 c | None => bs "0020" end ++ bs ">" ++ nl1.
Definition cmap_head : bytes :=
  bs "/CIDInit /ProcSet findresource begin" ++ nl1 ++ bs "12 dict begin" ++ nl1 ++ bs "begincmap" ++ nl1 ++
  bs "/CIDSystemInfo" ++ nl1 ++ bs "<< /Registry (Adobe)" ++ nl1 ++ bs "   /Ordering (UCS)" ++ nl1 ++
  bs "   /Supplement 0" ++ nl1 ++ bs ">> def" ++ nl1 ++ bs "/CMapName /Adobe-Identity-UCS def" ++ nl1 ++
  bs "/CMapVersion 1.0 def" ++ nl1 ++ bs "/CMapType 2 def" ++ nl1 ++ bs "1 begincodespacerange" ++ nl1 ++
  bs "<00> <FF>" ++ nl1 ++ bs "endcodespacerange" ++ nl1.
Definition cmap_tail : bytes :=
  bs "endbfchar" ++ nl1 ++ bs "endcmap" ++ nl1 ++ bs "CMapName currentdict /CMap defineresource pop" ++ nl1 ++
  bs "end" ++ nl1 ++ bs "end" ++ nl1.
(** pdf.go:163-225 (the glyphs are sorted already; the error cases cannot
    happen after GetSubsetGlyphs) *)
Definition createToUnicode (order : list Z -> list Z) (m : zmap N) (glyphs : list N) : bytes :=
  cmap_head ++ decZ (Z.of_nat (length glyphs)) ++ bs " beginbfchar" ++ nl1 ++
  flat_map (bfchar_line order m) glyphs ++ cmap_tail.

(** "%v" of a map[string]interface{}: fmt sorts the keys *)
Definition cid_system_info : bytes := bs "map[/Ordering:(UCS) /Registry:(Adobe) /Supplement:0]".
Definition lower_hex (b : byte) : bytes :=
  let d v := if (v <? 10)%N then n2b (48 + v) else n2b (87 + v) in [d (b2n b / 16)%N; d (b2n b mod 16)%N].
Record font_objects := mkFO { foDict : Z; foDescriptor : Z; foFile : Z; foToUnicode : Z; foName : bytes; foPrefix : bytes }.
(** pdf.go:24-95 *)
Definition ToPDFObjects (fuel : nat) (deflate : bytes -> bytes) (fmt_angle : Z -> bytes) (order : list Z -> list Z)
  (f : font) (w : writer) : option (result (font_objects * font * writer)) :=
  obind (Some (ParseTTF (fData f))) (fun t =>
  let id := match fID f with [] => flat_map lower_hex (firstn 6 (PrimModel.md5 (tFontName t))) | i => i end in
  let prefix := id ++ bs "+" in
  obind (GetSubsetGlyphs fuel f) (fun glyphs =>
  obind (GetWidths fuel f) (fun widths =>
  obind (font_map fuel t) (fun m =>
    let n := Z.of_nat (length (fData f)) in
    let (file, w) := add_stream deflate [(bs "/Length1", VInt n); (bs "/Length", VInt n)] (Some (fData f)) true w in
    let (desc, w) := AddObject (Some (createFontDescriptor fmt_angle t file)) w in
    let (tu, w) := add_stream deflate
      [(bs "/Type", VStr (bs "/CMap")); (bs "/CMapName", VStr (bs "/Adobe-Identity-UCS"));
       (bs "/CIDSystemInfo", VText cid_system_info)] (Some (createToUnicode order m glyphs)) false w in
    let (dictn, w) := AddObject (Some (createFontDict t desc tu glyphs widths prefix)) w in
    Some (Ok (mkFO dictn desc file tu (bs "F" ++ decZ (nextObjNum w)) prefix, mkFont (fName f) (fData f) (fSubset f) id, w)))))).
