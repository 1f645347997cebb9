(** Theorems about pages, bookmarks, watermarks and images. *)
From Verif Require Import PageModel PageSpec TextSpec PageProofs PageProofs2 PageProofs3.
From Verif Require WriterProps.
Local Open Scope Z_scope.

(* ---------------------------------------------------------------- *)
(** C46.  The outline of any bookmark forest: an item per bookmark at distinct
    new numbers, items linked in order to their siblings, to their first and
    last child and to their parent, counts of all descendants; nothing else in
    the writer changes.  Full statement: top-level items also point to the
    outline dictionary. *)
Theorem C46_outline_partial : forall l pages w, l <> [] -> 0 < nextObjNum w ->
  let (n, w') := WSetBookmarks l pages w in
  exists ps f t,
    siblings_ok w' pages None None l ps /\ first_num ps = Some f /\ last_num ps = Some t /\
    WGetObject n w' = Ok (outlines_text (bookmarks_in l) f t) /\ outlinesRef w' = Some n /\
    NoDup (n :: flat_map place_nums ps) /\
    Forall (fun m => nextObjNum w <= m < nextObjNum w') (n :: flat_map place_nums ps) /\
    (forall m, m < nextObjNum w \/ nextObjNum w' <= m -> mget m (objects w') = mget m (objects w)) /\
    dicts w' = dicts w /\ rootRef w' = rootRef w /\ infoRef w' = infoRef w /\ encryptRef w' = encryptRef w.
Proof. exact set_bookmarks_ok. Qed.
Print Assumptions C46_outline_partial.

Definition ex_forest : list bookmark :=
  [Bookmark (bs "One") 1 [] [] [Bookmark (bs "1.1") 2 [] [] []; Bookmark (bs "1.2") 0 (bs "/here") [] []];
   Bookmark (bs "Two") 0 [] (bs "http://x") []].
Example C46_example : let (n, w) := WSetBookmarks ex_forest [(1, 10); (2, 20)] NewPDFWriter in
  n = 6 /\ bookmarks_in ex_forest = 4 /\
  WGetObject 6 w = Ok (bs "<</Count 4 /First 1 0 R /Last 5 0 R /Type /Outlines >>") /\
  WGetObject 3 w = Ok (bs "<</Dest /here /Parent 1 0 R /Prev 2 0 R /Title ((1.2)) >>") /\
  WGetObject 2 w = Ok (bs "<</Dest ([20 0 R /XYZ 0 792 null]) /Parent 1 0 R /Title ((1.1)) /Next 3 0 R >>").
Proof. vm_compute. repeat split. Qed.

(** Top-level items have no /Parent. *)
Theorem C46_parent_refuted : exists l, l <> [] /\
  let (n, w) := WSetBookmarks l [] NewPDFWriter in
  exists m t, WGetObject m w = Ok t /\ t = bs "<</Title ((a)) >>" /\ contains (bs "/Parent") t = false.
Proof.
  exists [Bookmark (bs "a") 0 [] [] []]. split; [discriminate|]. vm_compute. exists 1, (bs "<</Title ((a)) >>").
  repeat split.
Qed.
Print Assumptions C46_parent_refuted.
(** Every title reads as the text in parentheses... *)
Theorem C46_title_refuted : forall title rest, valid_utf8 title ->
  read_literal (bs "((" ++ escapePDFString title ++ bs "))" ++ rest) = Some (bs "(" ++ title ++ bs ")", rest).
Proof. exact double_paren. Qed.
Print Assumptions C46_title_refuted.
(** ... and the destination of a page is a string, not an array. *)
Theorem C46_destination_refuted : forall n rest, 0 <= n ->
  read_literal (bs "([" ++ ref n ++ bs " /XYZ 0 792 null])" ++ rest) = Some (bs "[" ++ ref n ++ bs " /XYZ 0 792 null]", rest).
Proof. exact dest_literal. Qed.
Print Assumptions C46_destination_refuted.

(* ---------------------------------------------------------------- *)
(** C66.  However pages are built, interleaved with fonts, images, other
    objects and bookmarks, the document has a catalog, a page tree that lists
    the pages in the order in which they were finalised, and each page has its
    size, its resources and its content. *)
Theorem C66_document : forall deflate ord cs s, is_map_order ord -> do_bcalls deflate ord cs = s -> ssDone s <> [] ->
  let w := sbWriter (finish (ssBuilder s)) in
  exists root tree pages,
    rootRef w = Some root /\
    text_object w root (bs "<</Type/Catalog/Pages " ++ decZ tree ++ bs " 0 R>>") /\
    text_object w tree (kids_text pages) /\
    Forall2 (page_object deflate w tree) (ssDone s) pages /\
    NoDup (root :: tree :: pages) /\ Forall (fun n => 0 < n < nextObjNum w) (root :: tree :: pages).
Proof. exact document_ok. Qed.
Print Assumptions C66_document.

Definition ex_calls : list bcall :=
  [BPage (bs "612") (bs "792"); BFont 0 (bs "Helvetica"); BContent 0 (bs "BT /F1 12.0000 Tf ET
"); BPage (bs "595") (bs "842"); BFinalize 1; BObject (bs "<<>>"); BFinalize 0].
Example C66_example :
  let s := do_bcalls WriterProps.id_deflate (fun l => l) ex_calls in
  let w := sbWriter (finish (ssBuilder s)) in
  length (ssDone s) = 2%nat /\ rootRef w = Some 8 /\
  WGetObject 2 w = Ok (bs "<</Type/Pages/Kids[4 0 R 7 0 R ]/Count 2>>") /\
  WGetObject 7 w = Ok (bs "<</Type/Page/Parent 2 0 R/MediaBox[0 0 612 792]/Contents 6 0 R/Resources<</Font<</F1 1 0 R>>>>>>").
Proof. vm_compute. repeat split. Qed.

(** A document without pages has a page tree numbered 0 (which the file
    writes as the free entry's number). *)
Theorem C66_no_pages_refuted :
  let w := sbWriter (finish NewSimplePDFBuilder) in
  WGetObject 1 w = Ok (bs "<</Type/Catalog/Pages 0 0 R>>") /\ WGetObject 0 w = Ok (kids_text []).
Proof. vm_compute. repeat split. Qed.
Print Assumptions C66_no_pages_refuted.
(** Bytes called twice adds a second catalog. *)
Theorem C66_bytes_twice_refuted : forall deflate order b, 0 < sbPagesNum b < nextObjNum (sbWriter b) ->
  let b1 := finish b in let b2 := finish b1 in
  exists r1 r2, rootRef (sbWriter b1) = Some r1 /\ rootRef (sbWriter b2) = Some r2 /\ r1 <> r2 /\
    WGetObject r1 (sbWriter b2) = WGetObject r2 (sbWriter b2) /\
    snd (SBytes deflate order b) = mkBuilder (snd (Write deflate order None (sbWriter b1))) (sbPages b) (sbPagesNum b).
Proof. exact bytes_twice. Qed.
Print Assumptions C66_bytes_twice_refuted.

(* ---------------------------------------------------------------- *)
(** C67.  Resource names: on a page whose fonts all come from
    AddStandardFont, each returned name stands for its font, and no name is
    used twice... *)
Theorem C67_standard_fonts_partial : forall names width height w rs pb w', Forall no_resource_name names ->
  add_fonts names (NewPageBuilder width height) w = (rs, pb, w') ->
  Forall2 (font_resource pb w') names rs /\ NoDup rs.
Proof. exact fonts_named. Qed.
Print Assumptions C67_standard_fonts_partial.
(** ... and images with distinct names keep their objects. *)
Theorem C67_images_partial : forall l pb rs pb', Forall (fun e => fst e <> []) l -> NoDup (map (fun e => unslash (fst e)) l) ->
  add_images l pb = (rs, pb') ->
  rs = map (fun e => bs "/" ++ unslash (fst e)) l /\
  (forall e, In e l -> kget (unslash (fst e)) (pbImages pb') = Some (snd e)) /\
  (forall f, ~ In f (map (fun e => unslash (fst e)) l) -> kget f (pbImages pb') = kget f (pbImages pb)).
Proof. exact add_images_ok. Qed.
Print Assumptions C67_images_partial.
Example C67_example :
  no_resource_name (bs "Helvetica") /\ no_resource_name (bs "Courier") /\
  let '(rs, pb, w) := add_fonts [bs "Helvetica"; bs "Courier"] (NewPageBuilder (bs "1") (bs "1")) NewPDFWriter in
  rs = [bs "/F1"; bs "/F2"] /\ pbFonts pb = [(bs "F1", 1); (bs "F2", 2)].
Proof.
  split; [intros k H; cbn in H; discriminate H|]. split; [intros k H; cbn in H; discriminate H|].
  vm_compute. repeat split.
Qed.

(** The same font again is a new resource and a new object. *)
Theorem C67_same_font_twice_refuted :
  let '(rs, pb, w) := add_fonts [bs "Helvetica"; bs "Helvetica"] (NewPageBuilder (bs "1") (bs "1")) NewPDFWriter in
  rs = [bs "/F1"; bs "/F2"] /\ WGetObject 1 w = WGetObject 2 w.
Proof. vm_compute. repeat split. Qed.
Print Assumptions C67_same_font_twice_refuted.
(** An embedded font that is the first thing in a document (its four objects
    are 1 to 4, so it is called F5), then four standard fonts: the fourth
    takes its name, and the embedded font is lost. *)
Theorem C67_embedded_refuted :
  let w := set_next NewPDFWriter 5 in
  let (r, pb) := add_embedded (bs "F" ++ decZ (nextObjNum w)) 4 (NewPageBuilder (bs "1") (bs "1")) in
  let '(rs, pb', w') := add_fonts [bs "Helvetica"; bs "Helvetica-Bold"; bs "Courier"; bs "Symbol"] pb w in
  r = bs "/F5" /\ kget (bs "F5") (pbFonts pb) = Some 4 /\ In r rs /\ ~ In 4 (map snd (pbFonts pb')).
Proof.
  vm_compute. split; [reflexivity|]. split; [reflexivity|]. split; [tauto|]. intros H. decompose [or] H; try discriminate. assumption.
Qed.
Print Assumptions C67_embedded_refuted.
(** An image called Im2, then an unnamed one: it takes the name, and the
    first image is lost. *)
Theorem C67_image_name_refuted :
  let (rs, pb) := add_images [(bs "Im2", 7); ([], 8)] (NewPageBuilder (bs "1") (bs "1")) in
  rs = [bs "/Im2"; bs "/Im2"] /\ pbImages pb = [(bs "Im2", 8)].
Proof. vm_compute. repeat split. Qed.
Print Assumptions C67_image_name_refuted.

(* ---------------------------------------------------------------- *)
(** C68.  Watermarks.  A text watermark adds calls that leave the graphics
    state as it was, show the text in the font asked for, and keep all other
    resources.  ([named_fonts]: see C67.) *)
Theorem C68_text_partial : forall (F : Type) (fmt : F -> bytes) (one zero : F) o pb w c,
  wmColor o = Some c -> wmImage o = [] -> wmText o <> [] -> no_resource_name (wmFont o) -> named_fonts pb ->
  exists pb' w' cs font, AddWatermark fmt one zero o pb w = Ok (true, pb', w') /\
    pbContent pb' = pbContent pb ++ content_stream fmt one zero cs /\
    (forall d, call_depth d cs = Some d) /\
    In (SetFont F font (wmSize o)) cs /\ In (ShowText F (wmText o)) cs /\
    font_resource pb' w' (wmFont o) font /\
    (valid_utf8 (wmText o) -> Forall sensible cs) /\
    extends w w' /\ (forall f num, kget f (pbFonts pb) = Some num -> kget f (pbFonts pb') = Some num) /\
    same_page pb pb'.
Proof. exact @watermark_text_ok. Qed.
Print Assumptions C68_text_partial.
Theorem C68_image_partial : forall (F : Type) (fmt : F -> bytes) (one zero : F) o pb w c,
  wmColor o = Some c -> wmImage o <> [] -> In (wmImage o) (map fst (pbImages pb)) ->
  exists pb' cs, AddWatermark fmt one zero o pb w = Ok (true, pb', w) /\
    pbContent pb' = pbContent pb ++ content_stream fmt one zero cs /\
    (forall d, call_depth d cs = Some d) /\ In (DrawImage F (wmImage o)) cs /\
    pbFonts pb' = pbFonts pb /\ same_page pb pb'.
Proof. exact @watermark_image_ok. Qed.
Print Assumptions C68_image_partial.

Definition ex_mark (text image : bytes) (color : option (Z * Z * Z)) : @watermark Z :=
  mkWM text (bs "Helvetica") 48 color (306, 396) (Some (1, 2, 3, 4)) image (5, 6) (7, 8) (9, 10).
Definition ex_page : page_builder := snd (PAddImage (bs "/Logo") 3 (NewPageBuilder (bs "612") (bs "792"))).
Example C68_example :
  named_fonts ex_page /\
  exists pb' w', AddWatermark decZ 1 0 (ex_mark (bs "DRAFT") [] (Some (1, 1, 1))) ex_page NewPDFWriter = Ok (true, pb', w') /\
    pbFonts pb' = [(bs "F1", 1)].
Proof. split; [reflexivity|]. eexists _, _. split; vm_compute; reflexivity. Qed.

(** On an error the state stays saved: the page's graphics are unbalanced. *)
Theorem C68_error_refuted : forall (F : Type) (fmt : F -> bytes) (one zero : F) o pb w c,
  wmColor o = Some c -> wmImage o = [] /\ wmText o = [] \/ wmImage o <> [] /\ ~ In (wmImage o) (map fst (pbImages pb)) ->
  exists pb' cs, AddWatermark fmt one zero o pb w = Ok (false, pb', w) /\
    pbContent pb' = pbContent pb ++ content_stream fmt one zero cs /\ forall d, call_depth d cs = Some (S d).
Proof. exact @watermark_error. Qed.
Print Assumptions C68_error_refuted.
(** Options without a colour panic. *)
Theorem C68_no_color_refuted : forall (F : Type) (fmt : F -> bytes) (one zero : F) o pb w,
  wmColor o = None -> AddWatermark fmt one zero o pb w = Panic.
Proof. exact @watermark_panic. Qed.
Print Assumptions C68_no_color_refuted.
(** An image is found only under its name without the slash, and then drawn
    without it: "Logo Do" is not a name and an operator; the resource name that
    AddImage returned is not found. *)
Theorem C68_image_name_refuted :
  fst (PAddImage (bs "/Logo") 3 (NewPageBuilder (bs "612") (bs "792"))) = bs "/Logo" /\
  (exists pb, AddWatermark decZ 1 0 (ex_mark [] (bs "/Logo") (Some (1, 1, 1))) ex_page NewPDFWriter = Ok (false, pb, NewPDFWriter)) /\
  exists pb, AddWatermark decZ 1 0 (ex_mark [] (bs "Logo") (Some (1, 1, 1))) ex_page NewPDFWriter = Ok (true, pb, NewPDFWriter) /\
    exists ts, tokenize (pbContent pb) = Some ts /\ In (KOp (bs "Logo")) ts /\ ~ In (KName (bs "/Logo")) ts.
Proof.
  split; [reflexivity|]. split; [eexists; vm_compute; reflexivity|]. eexists. split; [vm_compute; reflexivity|].
  eexists. split; [vm_compute; reflexivity|]. split; [cbn; tauto|].
  intros H; cbn in H; decompose [or] H; try discriminate; contradiction.
Qed.
Print Assumptions C68_image_name_refuted.

(* ---------------------------------------------------------------- *)
(** C52.  JPEG files: whatever segments come before the frame header (of the
    types C0 to C3), its values are reported... *)
Theorem C52_frame_partial : forall segs code len precision height width components rest,
  Forall segment_ok segs -> (192 <= code <= 195)%N -> length len = 2%nat -> length precision = 1%nat ->
  (height < 65536)%N -> (width < 65536)%N -> (components < 256)%N ->
  parseJPEGHeader (jpeg_file segs (frame_header code len precision height width components rest)) =
  Ok (Z.of_N width, Z.of_N height, space_of components).
Proof. exact jpeg_ok. Qed.
Print Assumptions C52_frame_partial.
(** ... nothing is reported that is not in a frame header... *)
Theorem C52_sound : forall s w h cs, parseJPEGHeader s = Ok (w, h, cs) ->
  exists pre code len precision height width components rest,
    s = [xff; xd8] ++ pre ++ frame_header code len precision height width components rest /\
    (192 <= code <= 195)%N /\ length len = 2%nat /\ length precision = 1%nat /\
    (height < 65536)%N /\ (width < 65536)%N /\ (components < 256)%N /\
    w = Z.of_N width /\ h = Z.of_N height /\ cs = space_of components.
Proof. exact jpeg_sound. Qed.
Print Assumptions C52_sound.
(** ... and the only panic is on a file that ends one byte into what it reads. *)
Theorem C52_panic_partial : forall s, parseJPEGHeader s = Panic ->
  exists pre code cut, s = pre ++ [xff; n2b code] ++ cut /\ (192 <= code <= 195)%N /\ length cut = 7%nat.
Proof. exact jpeg_panic. Qed.
Print Assumptions C52_panic_partial.
(** The image object holds the file unchanged. *)
Theorem C52_image_object : forall data w n width height cs w',
  AddJPEGImage data w = Ok (n, (width, height, cs), w') ->
  parseJPEGHeader data = Ok (width, height, cs) /\ n = nextObjNum w /\ extends w w' /\
  exists a d, mget n (objects w') = Some (mkObj None (Some data) (Some a)) /\ mget a (dicts w') = Some d /\
    kget (bs "Width") d = Some (VInt width) /\ kget (bs "Height") d = Some (VInt height) /\
    kget (bs "ColorSpace") d = Some (VStr cs) /\ kget (bs "Filter") d = Some (VStr (bs "/DCTDecode")) /\
    kget (bs "Length") d = Some (VInt (Z.of_nat (length data))).
Proof. exact jpeg_object. Qed.
Print Assumptions C52_image_object.

Definition ex_jpeg : bytes :=
  jpeg_file [(224%N, bs "JFIF"); (219%N, bs "table")] (frame_header 192 [x00; x11] [x08] 480 640 3 (bs "rest")).
Example C52_example : Forall segment_ok [(224%N, bs "JFIF"); (219%N, bs "table")] /\
  parseJPEGHeader ex_jpeg = Ok (640, 480, bs "/DeviceRGB").
Proof.
  split; [|vm_compute; reflexivity].
  repeat constructor; cbn; try discriminate; intros [H1 H2]; exact (H2 eq_refl) || exact (H1 eq_refl).
Qed.
(** A file cut off after the width panics. *)
Theorem C52_panic_refuted : parseJPEGHeader [xff; xd8; xff; xc0; x00; x11; x08; x01; xe0; x02; x80] = Panic.
Proof. vm_compute. reflexivity. Qed.
Print Assumptions C52_panic_refuted.
(** Other frame types (here C9, arithmetic coding) are passed over: an error. *)
Theorem C52_frame_types_refuted : parseJPEGHeader (jpeg_file [] (frame_header 201 [x00; x11] [x08] 480 640 3 [])) = Err.
Proof. vm_compute. reflexivity. Qed.
Print Assumptions C52_frame_types_refuted.
(** A fill byte (T.81, B.1.1.2) hides the frame header behind it. *)
Theorem C52_fill_byte_refuted :
  parseJPEGHeader (jpeg_file [] (frame_header 192 [x00; x11] [x08] 480 640 3 [])) = Ok (640, 480, bs "/DeviceRGB") /\
  parseJPEGHeader (jpeg_file [] (xff :: frame_header 192 [x00; x11] [x08] 480 640 3 [])) = Err.
Proof. vm_compute. repeat split. Qed.
Print Assumptions C52_fill_byte_refuted.

(* ---------------------------------------------------------------- *)
(** C69.  Other images: the samples of every pixel, row by row, and the mask
    if there is transparency. *)
Theorem C69_picture : forall deflate p w n w', (0 < imWidth p)%nat -> (0 < imHeight p)%nat -> AddImage deflate p w = (n, w') ->
  exists data,
    (forall x y i, (x < imWidth p)%nat -> (y < imHeight p)%nat -> (i < channels p)%nat ->
       sample data (imWidth p) (channels p) x y i =
       Some (if imGray p then imLuma p x y else high_byte (component (imColor p x y) i))) /\
    length data = (imWidth p * imHeight p * channels p)%nat /\
    if imAlpha p then
      exists m mask, m <> n /\
        image_object deflate w' n (imWidth p) (imHeight p) (space_of_picture p) data (Some m) /\
        image_object deflate w' m (imWidth p) (imHeight p) (bs "/DeviceGray") mask None /\
        length mask = (imWidth p * imHeight p)%nat /\
        forall x y, (x < imWidth p)%nat -> (y < imHeight p)%nat ->
          sample mask (imWidth p) 1 x y 0 = Some (high_byte (component (imColor p x y) 3))
    else image_object deflate w' n (imWidth p) (imHeight p) (space_of_picture p) data None.
Proof. exact add_image_ok. Qed.
Print Assumptions C69_picture.
Definition ex_picture : picture :=
  mkPic 2 1 false true (fun x y => straight 255 0 0 (if (x =? 0)%nat then 255 else 128)) (fun _ _ => x00).
Example C69_example : pixel_data ex_picture = [xff; x00; x00; x80; x00; x00] /\
  fst (AddImage WriterProps.id_deflate ex_picture NewPDFWriter) = 1.
Proof. vm_compute. repeat split. Qed.
(** A half transparent red (255, 0, 0) is stored as the dark red (128, 0, 0),
    beside a mask that fades it once more. *)
Theorem C69_transparent_color_refuted :
  rgb_bytes (straight 255 0 0 128) = [x80; x00; x00] /\ alpha_byte (straight 255 0 0 128) = [x80].
Proof. vm_compute. repeat split. Qed.
Print Assumptions C69_transparent_color_refuted.
