(** Fonts: the theorems of C50, C51, C70, C71. *)
From Verif Require Import Util Scan Utf8 FontModel FontSpec FontProofs FontProofs2 FontProofs3 FontProofs4 PageSpec.
From Verif Require WriterProps.
From Coq Require Import Permutation.
Local Open Scope Z_scope.

(* ---------------------------------------------------------------- *)
(** A small font for the examples: two segments, three glyphs. *)
Definition ex_table4 : bytes := table4 40 0 (4, 4, 1)%N 0 [mkSeg 65 66 65472 0; mkSeg 97 97 0 4; mkSeg 65535 65535 1 0] [7%N].
Definition ex_cmap : bytes := cmap_table [mkEnc 3 1 12] ex_table4.
Definition ex_hmtx : bytes := hmtx_table [(500, 0); (600, 0); (700, 0)]%N [].
Definition ex_head : bytes := repeat x00 18 ++ w16 1000 ++ repeat x00 34.
Definition ex_tables : list (bytes * bytes) :=
  [(bs "cmap", ex_cmap); (bs "head", ex_head); (bs "hhea", repeat x00 4 ++ w16 800 ++ w16 65336 ++ repeat x00 28); (bs "hmtx", ex_hmtx);
   (bs "maxp", repeat x00 6); (bs "name", repeat x00 6); (bs "post", repeat x00 32)].
Fixpoint layout (off : N) (l : list (bytes * bytes)) : list table_record :=
  match l with [] => [] | (tag, t) :: l' => mkRec tag 0 off (N.of_nat (length t)) :: layout (off + N.of_nat (length t)) l' end.
Definition ex_file : bytes :=
  font_file [x00; x01; x00; x00] (repeat x00 6) (layout 124 ex_tables) (flat_map snd ex_tables).
Definition ex_font : font := mkFont (bs "Ex") ex_file [] [].

(* ---------------------------------------------------------------- *)
(** C50.  After any calls the subset holds the characters added, each once, in
    the order of first use; the font itself is untouched. *)
Theorem C50_subset : forall is_print name data f cs, NewFont name data = Ok f ->
  let f' := fold_left (do_font_call is_print) cs f in
  fSubset f' = first_uses (flat_map (added is_print) cs) /\ NoDup (fSubset f') /\
  (forall r, In r (fSubset f') <-> exists c, In c cs /\ In r (added is_print c)) /\
  fData f' = data /\ fName f' = name.
Proof.
  intros ip name data f cs H f'. unfold f'. rewrite (calls_spec ip cs name data f H). split; [reflexivity|]. split; [apply first_uses_nodup|].
  split; [intros r; rewrite first_uses_in, in_flat_map; reflexivity|]. destruct (calls_data ip cs f) as [-> ->].
  unfold NewFont in H. destruct (length data <? 12)%nat; [discriminate|]. destruct (signature_ok data); [|discriminate].
  apply (f_equal (fun r => match r with Ok x => (fData x, fName x) | _ => ([], []) end)) in H. cbn [fData fName] in H.
  split; congruence.
Qed.
Print Assumptions C50_subset.
(** First use: a later addition only appends what is new. *)
Theorem C50_first_use : forall a b, first_uses (a ++ b) = first_uses a ++ filter (fun y => negb (existsb (N.eqb y) a)) (first_uses b).
Proof. exact first_uses_app. Qed.
Print Assumptions C50_first_use.
(** The glyphs: increasing (so without repetition), glyph 0 and exactly the
    glyphs of the mapped characters of the subset. *)
Theorem C50_glyphs : forall fuel f t m, ParseTTF (fData f) = Ok t -> font_map fuel t = Some (Ok m) ->
  exists gs, GetSubsetGlyphs fuel f = Some (Ok gs) /\ StronglySorted N.lt gs /\
    forall g, In g gs <-> g = 0%N \/ exists c, In c (fSubset f) /\ mget (Z.of_N c) m = Some g.
Proof. exact glyphs_spec. Qed.
Print Assumptions C50_glyphs.
Definition ex_used : font := fold_left (do_font_call (fun r => (32 <? r)%N)) [CallAddString (bs "BAB"); CallAddRune 97; CallAddString [x41; x0a]] ex_font.
Example C50_example :
  NewFont (bs "Ex") ex_file = Ok ex_font /\ fSubset ex_used = [66; 65; 97]%N /\ GetSubsetGlyphs 10 ex_used = Some (Ok [0; 1; 2; 7]%N).
Proof. vm_compute. repeat split. Qed.

(* ---------------------------------------------------------------- *)
(** C51.  Format 12: the character in a group has the group's glyph plus its
    distance from the start; characters outside have none. *)
Theorem C51_format12 : forall len lang gs rest, Forall group_fits gs -> Forall (fun g => gEnd g <> 4294967295%N) gs ->
  (N.of_nat (length gs) < 4294967296)%N ->
  let s := table12 len lang gs ++ rest in (len < 4294967296)%N -> (N.to_nat len <= length s)%nat ->
  exists m n, (forall fuel, (n < fuel)%nat -> parseCmapFormat12 fuel s = Some (Ok m)) /\
    forall c, (c < 2147483648)%N -> mget (Z.of_N c) m = glyph12 gs c.
Proof. exact format12_spec. Qed.
Print Assumptions C51_format12.
Example C51_format12_example : exists m, parseCmapFormat12 10 (table12 40 0 [mkGroup 65 67 5; mkGroup 128512 128512 9]) = Some (Ok m) /\
  mget 67 m = Some 7%N /\ mget 128512 m = Some 9%N /\ mget 68 m = None.
Proof. eexists. split; [vm_compute; reflexivity|]. vm_compute. repeat split. Qed.
(** Reading ends exactly when no group that is read ends at 0xFFFFFFFF. *)
Theorem C51_terminates : forall s,
  (exists fuel, parseCmapFormat12 fuel s <> None) <->
  ((length s < 16)%nat \/ (N.of_nat (length s) < u32 s 4)%N \/
   forall k, (N.of_nat k < u32 s 12)%N -> (16 + k * 12 + 12 <= length s)%nat -> u32 s (16 + k * 12 + 4) <> 4294967295%N).
Proof. exact format12_terminates. Qed.
Print Assumptions C51_terminates.
(** So reading does not end on every table: a 32-bit counter never passes
    0xFFFFFFFF. *)
Theorem C51_forever_refuted : exists s, forall fuel, parseCmapFormat12 fuel s = None.
Proof.
  exists (table12 28 0 [mkGroup 4294967295 4294967295 1]). intros fuel.
  destruct (parseCmapFormat12 fuel (table12 28 0 [mkGroup 4294967295 4294967295 1])) eqn:E; [|reflexivity]. exfalso.
  pose proof (proj1 (C51_terminates (table12 28 0 [mkGroup 4294967295 4294967295 1]))) as T.
  destruct T as [T|[T|T]]; [exists fuel; rewrite E; discriminate|cbn in T; lia|vm_compute in T; discriminate|].
  apply (T 0%nat); [vm_compute; reflexivity|cbn; lia|vm_compute; reflexivity].
Qed.
Print Assumptions C51_forever_refuted.
(** Format 4, for increasing segments: the glyph OpenType says. *)
Theorem C51_format4 : forall len lang search pad ss glyphs rest,
  Forall segment_fits ss -> Forall (fun g => (g < 65536)%N) glyphs -> increasing4 0 ss -> points_inside ss glyphs ->
  (N.of_nat (length ss) < 32768)%N -> (len < 65536)%N ->
  let s := table4 len lang search pad ss glyphs ++ rest in
  (N.to_nat len <= length s)%nat ->
  exists m, parseCmapFormat4 s = Ok m /\
  forall c, mget (Z.of_N c) m =
    let g := glyph4 (map sOffset ss ++ glyphs) 0 ss c in if (g =? 0)%N || (65535 <=? c)%N then None else Some g.
Proof. exact format4_spec. Qed.
Print Assumptions C51_format4.
Example C51_format4_example :
  let ss := [mkSeg 65 66 65472 0; mkSeg 97 97 0 4; mkSeg 65535 65535 1 0] in
  Forall segment_fits ss /\ increasing4 0 ss /\ points_inside ss [7%N] /\
  glyph4 (map sOffset ss ++ [7%N]) 0 ss 66 = 2%N /\ glyph4 (map sOffset ss ++ [7%N]) 0 ss 97 = 7%N /\
  (exists m, parseCmapFormat4 ex_table4 = Ok m /\ mget 66 m = Some 2%N /\ mget 97 m = Some 7%N /\ mget 98 m = None).
Proof.
  split; [repeat constructor|]. split; [cbn; repeat split; lia|]. split.
  - intros i s. destruct i as [|[|[|i]]]; cbn; intros H; try (injection H as <-; cbn; intros; lia). destruct i; discriminate.
  - split; [reflexivity|]. split; [reflexivity|]. eexists. split; [vm_compute; reflexivity|]. vm_compute. repeat split.
Qed.
(** A short format 4 table is not an error: only its declared length is
    checked.  (In a file with data behind the table, that data is read.) *)
Theorem C51_short_table_refuted : parseCmapFormat4 (words [4; 14; 0; 2; 0; 0; 0]%N) = Panic.
Proof. vm_compute. reflexivity. Qed.
Print Assumptions C51_short_table_refuted.
(** Which subtable is read, and what is done with it. *)
Theorem C51_subtable : forall fuel es body, Forall encoding_fits es -> (N.of_nat (length es) < 65536)%N ->
  let s := cmap_table es body in
  parseCmap fuel s =
  match wanted es with
  | None => Some Err
  | Some e =>
      if (N.of_nat (length s) <? eOffset e)%N then Some Panic
      else let t := skipn (N.to_nat (eOffset e)) s in
        if (length t <? 2)%nat then Some Err
        else if (u16 t 0 =? 12)%N then parseCmapFormat12 fuel t else Some (parseCmapFormat4 t)
  end.
Proof. exact cmap_spec. Qed.
Print Assumptions C51_subtable.
Example C51_subtable_example : option_map eOffset (wanted [mkEnc 0 3 20; mkEnc 3 1 30; mkEnc 3 10 40]) = Some 40%N /\
  option_map eOffset (wanted [mkEnc 0 3 20; mkEnc 1 0 40]) = Some 20%N /\ parseCmap 5 ex_cmap <> Some Err.
Proof. split; [reflexivity|]. split; [reflexivity|]. vm_compute. discriminate. Qed.
(** A subtable behind the end of the table: a panic. *)
Theorem C51_subtable_offset_refuted : forall fuel, parseCmap fuel (cmap_table [mkEnc 3 1 1000] []) = Some Panic.
Proof. intros fuel. rewrite C51_subtable; [vm_compute; reflexivity|repeat constructor|vm_compute; reflexivity]. Qed.
Print Assumptions C51_subtable_offset_refuted.
(** Every table is the bytes its (last) record names, and the metrics are those
    of the tables. *)
Theorem C51_tables : forall sfnt search rs body head maxp hhea name post,
  let s := font_file sfnt search rs body in
  sfnt_ok sfnt -> length search = 6%nat -> (N.of_nat (length rs) < 65536)%N -> Forall (record_fits s) rs ->
  Forall (fun r => (rOff r + rLen r <= N.of_nat (length s))%N) rs ->
  table_in s rs (bs "head") = Some head -> (54 <= length head)%nat ->
  table_in s rs (bs "maxp") = Some maxp -> (6 <= length maxp)%nat ->
  table_in s rs (bs "hhea") = Some hhea -> (36 <= length hhea)%nat ->
  table_in s rs (bs "name") = Some name -> (6 <= length name)%nat -> (N.of_nat (length name) < 65536)%N ->
  table_in s rs (bs "post") = Some post -> (32 <= length post)%nat ->
  exists t ns, ParseTTF s = Ok t /\ parse_name name = Ok ns /\
    (forall tag, kget tag (tTables t) = table_in s rs tag) /\
    tUnitsPerEm t = u16 head 18 /\ tAscent t = i16 (u16 hhea 4) /\ tDescent t = i16 (u16 hhea 6) /\
    tItalic t = i32 (u32 post 4) /\ tFontName t = font_name ns /\ tFamily t = fst (fst ns).
Proof. exact parse_ttf_spec. Qed.
Print Assumptions C51_tables.
Example C51_tables_example : exists t, ParseTTF ex_file = Ok t /\ tUnitsPerEm t = 1000%N /\ tAscent t = 800 /\ tDescent t = -200 /\
  kget (bs "hmtx") (tTables t) = Some ex_hmtx /\ kget (bs "glyf") (tTables t) = None.
Proof. eexists. split; [vm_compute; reflexivity|]. vm_compute. repeat split. Qed.
(** A file is accepted as a font exactly when it has at least twelve bytes and
    begins with one of the two signatures; otherwise there is an error. *)
Theorem C51_new_font : forall name data,
  let signed := (12 <= length data)%nat /\ (firstn 4 data = [x00; x01; x00; x00] \/ firstn 4 data = bs "OTTO") in
  (signed -> NewFont name data = Ok (mkFont name data [] [])) /\ (~ signed -> NewFont name data = Err).
Proof. exact new_font. Qed.
Print Assumptions C51_new_font.
(** No font file below 64K makes ParseTTF panic ... *)
Theorem C51_no_panic_partial : forall s, (N.of_nat (length s) < 65536)%N -> ParseTTF s <> Panic.
Proof. exact parse_ttf_no_panic. Qed.
Print Assumptions C51_no_panic_partial.
(** ... but a name table above 128K can: its offsets are added in 16 bits. *)
Theorem C51_name_table_refuted : forall body, (131070 <= N.of_nat (length body))%N ->
  parse_name (words [0; 1; 18; 3; 1; 1033; 4; 65535; 65535]%N ++ body) = Panic.
Proof. exact name_panics. Qed.
Print Assumptions C51_name_table_refuted.

(** Widths: right for the glyphs below 16384 that have an advance. *)
Theorem C51_widths_partial : forall metrics bearings upem g, Forall (fun m : N * N => (fst m < 65536)%N) metrics ->
  (N.to_nat g < length metrics)%nat -> (g < 16384)%N -> glyph_width (hmtx_table metrics bearings) upem g = advance metrics (N.to_nat g).
Proof. exact width_spec. Qed.
Print Assumptions C51_widths_partial.
(** GetWidths gives one width per glyph of the subset, in its order. *)
Theorem C51_widths : forall fuel f gs ws, GetSubsetGlyphs fuel f = Some (Ok gs) -> GetWidths fuel f = Some (Ok ws) ->
  exists t h, ParseTTF (fData f) = Ok t /\ kget (bs "hmtx") (tTables t) = Some h /\ ws = map (glyph_width h (tUnitsPerEm t)) gs.
Proof. exact widths_length. Qed.
Print Assumptions C51_widths.
Example C51_widths_example : GetWidths 10 ex_used = Some (Ok [500; 600; 700; 1000]%N).
Proof. vm_compute. reflexivity. Qed.
(** In a monospaced font (one advance, the other glyphs have side bearings
    only) a glyph gets a side bearing or 1 em instead. *)
Theorem C51_widths_monospaced_refuted :
  advance [(600, 0)%N] 2 = 600%N /\ glyph_width (hmtx_table [(600, 0)%N] [10; 20; 30]%N) 1000 2 = 30%N /\
  glyph_width (hmtx_table [(600, 0)%N] [10; 20; 30]%N) 1000 3 = 1000%N.
Proof. vm_compute. repeat split. Qed.
Print Assumptions C51_widths_monospaced_refuted.
(** From glyph 16384 on the width is that of another glyph: gid*4 is computed
    in 16 bits. *)
Theorem C51_widths_wrap_refuted : forall metrics bearings upem g, Forall (fun m : N * N => (fst m < 65536)%N) metrics ->
  (16384 <= g < 32768)%N -> (N.to_nat g < length metrics)%nat ->
  glyph_width (hmtx_table metrics bearings) upem g = advance metrics (N.to_nat (g - 16384)).
Proof. exact width_wraps. Qed.
Print Assumptions C51_widths_wrap_refuted.

(* ---------------------------------------------------------------- *)
(** C70.  Embedding adds four objects that refer to each other, with a width
    for every glyph; all other objects stay. *)
Theorem C70_objects : forall fuel deflate fmt order f w o f' w',
  ToPDFObjects fuel deflate fmt order f w = Some (Ok (o, f', w')) -> fData f <> [] ->
  let n := nextObjNum w in
  foFile o = n /\ foDescriptor o = n + 1 /\ foToUnicode o = n + 2 /\ foDict o = n + 3 /\ nextObjNum w' = n + 4 /\
  foName o = bs "F" ++ decZ (n + 4) /\ foPrefix o = fID f' ++ bs "+" /\ (fID f <> [] -> fID f' = fID f) /\
  (forall m, ~ (n <= m < n + 4) -> mget m (objects w') = mget m (objects w)) /\
  exists t gs ws m dict_text desc_text,
    ParseTTF (fData f) = Ok t /\ GetSubsetGlyphs fuel f = Some (Ok gs) /\ GetWidths fuel f = Some (Ok ws) /\ font_map fuel t = Some (Ok m) /\
    length ws = length gs /\
    WGetObject (n + 3) w' = Ok dict_text /\ WGetObject (n + 1) w' = Ok desc_text /\
    has_line dict_text (bs "/Type /Font") /\ has_line dict_text (bs "/Subtype /TrueType") /\
    has_line dict_text (bs "/BaseFont /" ++ escapeName (fID f' ++ bs "+" ++ tFontName t)) /\
    has_line dict_text (bs "/LastChar " ++ decZ (Z.of_nat (length gs) - 1)) /\
    has_line dict_text (bs "/Widths [" ++ join (bs " ") (map (fun w => decZ (Z.of_N w)) ws) ++ bs "]") /\
    has_line dict_text (bs "/FontDescriptor " ++ ref (n + 1)) /\ has_line dict_text (bs "/ToUnicode " ++ ref (n + 2)) /\
    has_line desc_text (bs "/FontName /" ++ escapeName (tFontName t)) /\
    has_line desc_text (bs "/Ascent " ++ decZ (tAscent t)) /\ has_line desc_text (bs "/Descent " ++ decZ (tDescent t)) /\
    has_line desc_text (bs "/FontFile2 " ++ ref n) /\
    (exists d, stream_object w' n (deflate (fData f)) d) /\
    (exists d, stream_object w' (n + 2) (createToUnicode order m gs) d).
Proof. exact to_pdf_objects. Qed.
Print Assumptions C70_objects.
Definition ex_named : font := mkFont (fName ex_used) (fData ex_used) (fSubset ex_used) (bs "ABCDEF").
Example C70_example : match ToPDFObjects 10 WriterProps.id_deflate (fun _ => bs "0.0000") (fun l => l) ex_named NewPDFWriter with
  | Some (Ok (o, f, w)) => (foDict o, foName o, foPrefix o, nextObjNum w) = (4, bs "F5", bs "ABCDEF+", 5)
  | _ => False end.
Proof. vm_compute. reflexivity. Qed.
(** The dictionary of the font file has two lengths, the first of them that of
    the data before compression. *)
Theorem C70_length_twice_refuted : forall (deflate : bytes -> bytes) (data : bytes),
  let n := Z.of_nat (length data) in
  formatDictionary (stream_dict [(bs "/Length1", VInt n); (bs "/Length", VInt n)] (Some (deflate data)) true) =
  bs "<</Length " ++ decZ n ++ bs " /Length1 " ++ decZ n ++ bs " /Filter /FlateDecode /Length " ++ decZ (Z.of_nat (length (deflate data : bytes))) ++ bs " >>".
Proof.
  intros deflate data n.
  transitivity (bs "<<" ++ ((bs "/Length" ++ bs " " ++ decZ n ++ bs " ") ++ (bs "/Length1" ++ bs " " ++ decZ n ++ bs " ") ++
    (bs "/Filter" ++ bs " " ++ bs "/FlateDecode" ++ bs " ") ++ (bs "/Length" ++ bs " " ++ decZ (Z.of_nat (length (deflate data : bytes))) ++ bs " ") ++ []) ++ bs ">>");
    [reflexivity|rewrite <- !app_assoc; reflexivity].
Qed.
Print Assumptions C70_length_twice_refuted.
(** The ToUnicode stream's /CIDSystemInfo is not a PDF object: it is the text
    Go prints for a map. *)
Theorem C70_system_info_refuted : forall n, exists a b,
  formatDictionary (stream_dict [(bs "/Type", VStr (bs "/CMap")); (bs "/CMapName", VStr (bs "/Adobe-Identity-UCS")); (bs "/CIDSystemInfo", VText cid_system_info)] n false) =
  a ++ bs "/CIDSystemInfo map[/Ordering:(UCS) /Registry:(Adobe) /Supplement:0]" ++ b.
Proof. intros n. exists (bs "<<"). eexists. reflexivity. Qed.
Print Assumptions C70_system_info_refuted.
(** The widths are in font units, not in thousandths of an em, and /Widths is
    indexed by the place in the subset while ToUnicode is by glyph: here code 7
    is the fourth glyph (index 3). *)
Theorem C70_widths_place_refuted :
  GetSubsetGlyphs 10 ex_used = Some (Ok [0; 1; 2; 7]%N) /\ GetWidths 10 ex_used = Some (Ok [500; 600; 700; 1000]%N) /\
  bfchar_line (fun l => l) [(97, 7%N)] 7 = bs "<07> <0061>" ++ [x0a].
Proof. vm_compute. repeat split. Qed.
Print Assumptions C70_widths_place_refuted.

(* ---------------------------------------------------------------- *)
(** C71.  The ToUnicode map has a line for every glyph, with a character the
    font maps to it. *)
Theorem C71_to_unicode : forall order m gs, (forall l, Permutation (order l) l) -> (forall c h, mget c m = Some h -> 0 <= c) ->
  exists lines, createToUnicode order m gs = cmap_head ++ decZ (Z.of_nat (length gs)) ++ bs " beginbfchar" ++ [x0a] ++ concat lines ++ cmap_tail /\
    Forall2 (line_for m) gs lines.
Proof. exact to_unicode_ok. Qed.
Print Assumptions C71_to_unicode.
Example C71_example : createToUnicode (fun l => l) [(66, 2%N); (128512, 7%N)] [0; 2; 7]%N =
  cmap_head ++ bs "3 beginbfchar" ++ [x0a] ++ bs "<00> <0020>" ++ [x0a] ++ bs "<02> <0042>" ++ [x0a] ++ bs "<07> <1F600>" ++ [x0a] ++ cmap_tail.
Proof. vm_compute. reflexivity. Qed.
(** Two characters with one glyph: which one is written depends on the order
    of a Go map, so two runs differ. *)
Theorem C71_order_refuted : exists m o1 o2 gs, (forall l, Permutation (o1 l) l) /\ (forall l, Permutation (o2 l) l) /\
  createToUnicode o1 m gs <> createToUnicode o2 m gs.
Proof.
  exists [(32, 3%N); (160, 3%N)], (fun l => l), (@rev Z), [3%N]. split; [reflexivity|]. split; [intros l; symmetry; apply Permutation_rev|].
  vm_compute. discriminate.
Qed.
Print Assumptions C71_order_refuted.
(** A glyph above 255 is written with three or four digits, although the code
    space is declared as <00> <FF>; a character above 0xFFFF is written as one
    number instead of UTF-16. *)
Theorem C71_wide_refuted : bfchar_line (fun l => l) [(66, 300%N)] 300 = bs "<12C> <0042>" ++ [x0a] /\
  bfchar_line (fun l => l) [(128512, 7%N)] 7 = bs "<07> <1F600>" ++ [x0a].
Proof. vm_compute. repeat split. Qed.
Print Assumptions C71_wide_refuted.
(** Names of printable ASCII characters read back. *)
Theorem C71_name_partial : forall s, Forall printable s -> read_name_text (escapeName s) = s /\ forallb regular (escapeName s) = true.
Proof. exact escape_name_ok. Qed.
Print Assumptions C71_name_partial.
Example C71_name_example : escapeName (bs "DejaVu Sans #1 (x)") = bs "DejaVu#20Sans#20#231#20#28x#29".
Proof. vm_compute. reflexivity. Qed.
(** Other characters do not: the euro sign becomes "#20AC", a space and "AC". *)
Theorem C71_name_refuted :
  escapeName [xe2; x82; xac] = bs "#20AC" /\ read_name_text (bs "#20AC") = bs " AC" /\
  escapeName [x0a] = [x0a] /\ regular x0a = false.
Proof. vm_compute. repeat split. Qed.
Print Assumptions C71_name_refuted.
