(** Property theorems: bookmarks, annotations, resources and images of a
    document, and the output directory (C75 to C79). *)
From Verif Require Import Scan MarksModel MarksSpec ManipSpec ParseSpec PageModel PageSpec MarksProofs MarksProofs2 MarksProofs3 MarksProofs4 MarksProofs5.
From Coq Require Import Permutation.
From Verif Require WriterSpec XPagesProps ExtractProps PageProps WriterProps XPagesSpec.
Local Open Scope Z_scope.

(* ---------------------------------------------------------------- *)
(** C75.  ExtractBookmarks returns the outline of the document: the items in
    order, with their children, titles, destinations and URIs, for any number
    of items and any depth.  Partial: for values that are one word without
    escapes (see the refutations). *)
Theorem C75_outline_partial : forall get root cat out od w r l stack, 0 <= root < 2 ^ 63 -> gap w -> get root = Ok cat ->
  says cat (bs "/Outlines") (decZ out) -> 0 <= out < 2 ^ 63 -> get out = Ok od ->
  says od (bs "/First") (number_text (first_of l)) -> has_items get l -> (total_items l <= stack)%nat ->
  ExtractBookmarks get stack (decZ root ++ w ++ r) = Ok (map marks_of l).
Proof. exact bookmarks_read. Qed.
Print Assumptions C75_outline_partial.

(** What SetBookmarks writes is read again as the same tree, in the same order;
    each title with two pairs of parentheses around it. *)
Theorem C75_written_partial : forall l pages w get root cat g r stack, l <> [] -> 0 < nextObjNum w -> Forall mark_plain l ->
  let (n, w') := WSetBookmarks l pages w in
  nextObjNum w' <= 2 ^ 63 -> reads_added get w w' -> 0 <= root < 2 ^ 63 -> gap g -> get root = Ok cat -> says cat (bs "/Outlines") (decZ n) ->
  bookmarks_in l <= Z.of_nat stack ->
  ExtractBookmarks get stack (decZ root ++ g ++ r) = Ok (map (mark_seen pages) l).
Proof. exact bookmarks_written. Qed.
Print Assumptions C75_written_partial.
Theorem C75_written_shape : forall pages b, shape_of_mark (mark_seen pages b) = bracketed (shape_of_bookmark b).
Proof. exact mark_seen_shape. Qed.
Print Assumptions C75_written_shape.

(** An item that is its own sibling or child exhausts every stack. *)
Theorem C75_cycle_refuted : forall get root cat out od w r n key stack, 0 <= root < 2 ^ 63 -> gap w -> get root = Ok cat ->
  says cat (bs "/Outlines") (decZ out) -> 0 <= out < 2 ^ 63 -> get out = Ok od -> says od (bs "/First") (decZ n) ->
  (key = bs "/Next" \/ key = bs "/First") -> 0 <= n < 2 ^ 63 -> (exists t, get n = Ok t /\ says t key (decZ n)) ->
  ExtractBookmarks get stack (decZ root ++ w ++ r) = Panic.
Proof. exact bookmarks_cycle. Qed.
Print Assumptions C75_cycle_refuted.

Definition ex_cat : Z * bytes := (1, bs "<</Type/Catalog/Pages 2 0 R/Outlines 10 0 R>>").
Definition ex_out : Z * bytes := (10, bs "<</Type/Outlines/First 11 0 R/Last 12 0 R/Count 3>>").
Definition ex_marks (l : list (Z * bytes)) : result (list xmark) := ExtractBookmarks (XPagesProps.ex_get (ex_cat :: ex_out :: l)) 9 (ref 1).
Definition ex_items : list (Z * bytes) :=
  [(11, bs "<</Title (One) /Parent 10 0 R/First 13 0 R/Next 12 0 R/Dest /here >>");
   (12, bs "<</Title (Two) /Parent 10 0 R/Prev 11 0 R/A 14 0 R>>");
   (13, bs "<</Title (Sub) /Parent 11 0 R>>"); (14, bs "<</URI (http://x) /S/URI>>")].
Definition ex_outline : list outline :=
  [Item 11 (bs "(One)") (bs "/here") None [] [Item 13 (bs "(Sub)") [] None [] []];
   Item 12 (bs "(Two)") [] (Some 14) (bs "(http://x)") []].
Ltac says_this a v b := unfold says; exists a, (bs " "), b; split; [reflexivity|]; split; [reflexivity|]; split; [split; [discriminate|reflexivity]|];
  split; [split; [discriminate|split; reflexivity]|reflexivity].
Lemma ex_plain v : existsb (beqb "\") v = false -> unescaped v.
Proof.
  intros H Hi. assert (existsb (beqb "\") v = true); [|congruence]. apply existsb_exists. exists "\"%byte. split; [exact Hi|apply beqb_refl].
Qed.
Example C75_outline_meets : has_items (XPagesProps.ex_get (ex_cat :: ex_out :: ex_items)) ex_outline.
Proof.
  unfold ex_outline. eapply HasItem; [lia|reflexivity| | | |discriminate| | | |].
  - says_this (bs "<<") (bs "(One)") (bs " /Parent 10 0 R/First 13 0 R/Next 12 0 R/Dest /here >>").
  - apply ex_plain. reflexivity.
  - says_this (bs "<</Title (One) /Parent 10 0 R/First 13 0 R/Next 12 0 R") (bs "/here") (bs " >>").
  - says_this (bs "<</Title (One) /Parent 10 0 R") (bs "13") (bs " 0 R/Next 12 0 R/Dest /here >>").
  - says_this (bs "<</Title (One) /Parent 10 0 R/First 13 0 R") (bs "12") (bs " 0 R/Dest /here >>").
  - eapply HasItem; [lia|reflexivity| | |reflexivity| |reflexivity|reflexivity|constructor|constructor].
    + says_this (bs "<<") (bs "(Sub)") (bs " /Parent 11 0 R>>").
    + apply ex_plain. reflexivity.
    + intros _. split; [reflexivity|split; [exact I|reflexivity]].
  - eapply HasItem; [lia|reflexivity| | |reflexivity| |reflexivity|reflexivity|constructor|constructor].
    + says_this (bs "<<") (bs "(Two)") (bs " /Parent 10 0 R/Prev 11 0 R/A 14 0 R>>").
    + apply ex_plain. reflexivity.
    + intros _. split; [|split; [split; [discriminate|reflexivity]|]].
      * says_this (bs "<</Title (Two) /Parent 10 0 R/Prev 11 0 R") (bs "14") (bs " 0 R>>").
      * eexists. split; [reflexivity|]. split; [|apply ex_plain; reflexivity].
        says_this (bs "<<") (bs "(http://x)") (bs " /S/URI>>").
Qed.
Example C75_example : ex_marks ex_items = Ok (map marks_of ex_outline) /\ total_items ex_outline = 3%nat /\
  map marks_of ex_outline = [XMark (bs "(One)") (bs "/here") [] [XMark (bs "(Sub)") [] [] []]; XMark (bs "(Two)") [] (bs "(http://x)") []].
Proof. split; [vm_compute; reflexivity|split; reflexivity]. Qed.
Definition ex_written : list bookmark :=
  [Bookmark (bs "One") 1 [] [] [Bookmark (bs "1.1") 0 (bs "/here") [] []]; Bookmark (bs "Two") 0 [] (bs "http://x") []].
Example C75_written_example : Forall mark_plain ex_written /\
  let (n, w') := WSetBookmarks ex_written [(1, 20)] NewPDFWriter in
  n = 5 /\ nextObjNum w' = 6 /\ ExtractBookmarks (fun k => match k with 9 => Ok (bs "<</Outlines 5 0 R>>") | _ => rmap (object_text k) (WGetObject k w') end) 9 (ref 9)
  = Ok [XMark (bs "((One))") (bs "([20") [] [XMark (bs "((1.1))") (bs "/here") [] []]; XMark (bs "((Two))") [] (bs "/Type") []].
Proof.
  split; [|vm_compute; repeat split].
  repeat (apply Forall_cons || apply Forall_nil); cbn [mark_plain fold_right]; (split; [reflexivity|]); (split; [|auto]).
  - left. reflexivity.
  - split; [|exact I]. split; [reflexivity|]. split; [|exact I]. right. left. exists (bs "here"). repeat split.
  - left. reflexivity.
Qed.
(** The title that is returned is not the title that was set: parentheses
    around it, and only the first word of it. *)
Theorem C75_title_refuted :
  (let (n, w') := WSetBookmarks [Bookmark (bs "One") 0 [] [] []] [] NewPDFWriter in
   ExtractBookmarks (fun k => match k with 9 => Ok (bs "<</Outlines 2 0 R>>") | _ => rmap (object_text k) (WGetObject k w') end) 9 (ref 9)
   = Ok [XMark (bs "((One))") [] [] []]) /\
  ex_marks [(11, bs "<</Title (Chapter One)/Parent 10 0 R>>")] = Ok [XMark (bs "(Chapter") [] [] []] /\
  ex_marks [(11, bs "<</Title(One)/Parent 10 0 R>>")] = Ok [XMark [] [] [] []].
Proof. vm_compute. repeat split. Qed.
Print Assumptions C75_title_refuted.
(** Every URI that SetBookmarks writes is read as "/Type" (C75_written_partial),
    an action in the item itself is not read, and of an array destination only
    the first number is left. *)
Theorem C75_uri_refuted :
  ex_marks [(11, bs "<</Title (One) /A 12 0 R>>"); (12, bs "<</S /URI /URI (http://x) >>")] = Ok [XMark (bs "(One)") [] (bs "/URI") []] /\
  ex_marks [(11, bs "<</Title (One) /A <</S/URI/URI (http://x)>> >>")] = Ok [XMark (bs "(One)") [] [] []] /\
  ex_marks [(11, bs "<</Title (One) /Dest [3 0 R /Fit]>>")] = Ok [XMark (bs "(One)") (bs "[3") [] []].
Proof. vm_compute. repeat split. Qed.
Print Assumptions C75_uri_refuted.
(** A sibling or child that cannot be read takes those after it with it. *)
Theorem C75_damage_refuted :
  ex_marks [(11, bs "<</Title (A) /Next 12 0 R>>"); (13, bs "<</Title (C) >>")] = Ok [XMark (bs "(A)") [] [] []] /\
  ex_marks [(11, bs "<</Title (A) /Next 12 0 R>>"); (12, bs "<</Title (B) /Next 13 0 R>>"); (13, bs "<</Title (C) >>")]
    = Ok [XMark (bs "(A)") [] [] []; XMark (bs "(B)") [] [] []; XMark (bs "(C)") [] [] []].
Proof. vm_compute. repeat split. Qed.
Print Assumptions C75_damage_refuted.

(* ---------------------------------------------------------------- *)
(** C76.  The annotations of a page: one for each object of /Annots that can be
    read, in order, with what the object says.  Partial: /Annots written right
    before its array of references, values of one word. *)
Theorem C76_annotations_partial : forall inflate parse_float to_int get obj page a v b l fp, page = a ++ bs "/Annots" ++ v ++ b -> ref_array l v -> l <> [] ->
  contains (bs "/Annots") a = false -> contains (bs "/Annots") b = false ->
  (forall n, In n l -> get n = Err \/ exists t, get n = Ok t /\ annot_object t) ->
  extractFullPage inflate parse_float to_int get obj page = Ok fp ->
  Forall2 (fun n x => exists t, get n = Ok t /\ annot_says parse_float n obj t x) (filter (fun n => is_ok (get n)) l) (fpAnnots fp).
Proof. exact page_annots. Qed.
Print Assumptions C76_annotations_partial.
Definition ex_page_of (page : bytes) (l : list (Z * bytes)) : result fpage :=
  extractFullPage (fun x => Some x) ExtractProps.ex_parse (fun _ => 0) (XPagesProps.ex_get l) 3 (bs "<</Type/Page" ++ page ++ bs ">>").
Definition ex_annots (page : bytes) (l : list (Z * bytes)) : result (list (bytes * Z * bytes * bytes * bytes)) :=
  rmap (fun p => map (fun a => (xaID a, xaPage a, xaType a, xaContents a, xaURI a)) (fpAnnots p)) (ex_page_of page l).
Definition ex_link : bytes := bs "<</Type /Annot /Subtype /Link /Contents (note) /URI (http://x) >>".
Example C76_example : ref_array [5; 6; 7] (bs "[5 0 R 6 0 R 7 0 R]") /\ annot_object ex_link /\
  ex_annots (bs "/Annots[5 0 R 6 0 R 7 0 R]") [(5, ex_link); (7, bs "<</Subtype /Text /Contents hello >>")]
  = Ok [(bs "5", 3, bs "link", bs "(note)", bs "http://x"); (bs "7", 3, bs "text", bs "hello", [])].
Proof.
  split; [|split; [|vm_compute; reflexivity]].
  - exists (bs "5 0 R 6 0 R 7 0 R"). split; [reflexivity|].
    apply (XPagesProofs5.refs_cons 5 [6; 7] [] (bs " 6 0 R 7 0 R")); [reflexivity|split; [discriminate|reflexivity]|].
    apply (XPagesProofs5.refs_cons 6 [7] (bs " ") (bs " 7 0 R")); [reflexivity|split; [discriminate|reflexivity]|].
    apply (XPagesProofs5.refs_cons 7 [] (bs " ") []); [reflexivity|split; [discriminate|reflexivity]|].
    apply rl_nil. reflexivity.
  - exists (bs "/Link"). split; [discriminate|]. split; [|right; exists (bs "http://x")].
    + says_this (bs "<</Type /Annot ") (bs "/Link") (bs " /Contents (note) /URI (http://x) >>").
    + says_this (bs "<</Type /Annot /Subtype /Link /Contents (note) ") (bs "(http://x)") (bs " >>").
Qed.
(** PageNumber is the number of the page's object, not of the page. *)
Theorem C76_page_number_refuted : exists fps, ExtractFullPages (fun x => Some x) ExtractProps.ex_parse (fun _ => 0)
    (XPagesProps.ex_get [(1, bs "<</Type/Catalog/Pages 2 0 R>>"); (2, bs "<</Type/Pages/Kids[30 0 R]/Count 1>>");
       (30, bs "<</Type/Page/Annots[5 0 R]>>"); (5, ex_link)]) 3 (ref 1) = Ok fps /\
  map (fun p => (xpNumber (fpPage p), map xaPage (fpAnnots p))) fps = [(1, [30])].
Proof. eexists. split; vm_compute; reflexivity. Qed.
Print Assumptions C76_page_number_refuted.
(** A space before the array, or an array in an object of its own: all lost. *)
Theorem C76_lost_refuted :
  ex_annots (bs "/Annots [5 0 R]") [(5, ex_link)] = Ok [] /\ ex_annots (bs "/Annots 6 0 R") [(5, ex_link); (6, bs "[5 0 R]")] = Ok [] /\
  ex_annots (bs "/Annots[5 0 R]") [(5, ex_link)] = Ok [(bs "5", 3, bs "link", bs "(note)", bs "http://x")].
Proof. vm_compute. repeat split. Qed.
Print Assumptions C76_lost_refuted.
(** Contents are cut at the first space and keep their parenthesis; a URI that
    starts with a space kills the process; the usual URI action is not read. *)
Theorem C76_values_refuted :
  ex_annots (bs "/Annots[5 0 R]") [(5, bs "<</Subtype /Text /Contents (two words) >>")] = Ok [(bs "5", 3, bs "text", bs "(two", [])] /\
  ex_annots (bs "/Annots[5 0 R]") [(5, bs "<</Subtype /Link /URI ( x) >>")] = Panic /\
  ex_annots (bs "/Annots[5 0 R]") [(5, bs "<</Subtype /Link /A <</S /URI /URI (http://x)>> >>")] = Ok [(bs "5", 3, bs "link", [], [])].
Proof. vm_compute. repeat split. Qed.
Print Assumptions C76_values_refuted.

(* ---------------------------------------------------------------- *)
(** C77.  ExtractContent: its pages are those of ExtractPages (with resources
    and annotations), its annotations those of the pages in order, its images
    and fonts one for each resource name, of the first page that has it. *)
Theorem C77_content : forall inflate parse_float to_int get stack iorder forder root c,
  (forall l, Permutation (iorder l) l) -> (forall l, Permutation (forder l) l) ->
  ExtractContent inflate parse_float to_int get stack iorder forder root = Ok c ->
  XExtractPages inflate parse_float get stack root = Ok (map fpPage (cPages c)) /\
  cAnnots c = flat_map fpAnnots (cPages c) /\
  (exists im, kept (of_pages xrImages (cPages c)) im /\ Permutation (cImages c) (map snd im)) /\
  (exists fo, kept (of_pages xrFonts (cPages c)) fo /\ Permutation (cFonts c) (map snd fo)) /\
  (ExtractBookmarks get stack root = Ok (cBookmarks c) \/ (ExtractBookmarks get stack root = Err /\ cBookmarks c = [])).
Proof. exact content_of. Qed.
Print Assumptions C77_content.
(** Reading resources and annotations never turns a readable page into an
    error: the two results agree unless the process dies. *)
Theorem C77_pages_agree : forall inflate parse_float to_int get stack root, ExtractFullPages inflate parse_float to_int get stack root = Panic \/
  rmap (map fpPage) (ExtractFullPages inflate parse_float to_int get stack root) = XExtractPages inflate parse_float get stack root.
Proof. exact pages_agree. Qed.
Print Assumptions C77_pages_agree.
Definition ex_two_pages : list (Z * bytes) :=
  [(1, bs "<</Type/Catalog/Pages 2 0 R>>"); (2, bs "<</Type/Pages/Kids[3 0 R 4 0 R]/Count 2>>");
   (3, bs "<</Type/Page/Resources<</Font<</F1 5 0 R>>>>>>"); (4, bs "<</Type/Page/Resources<</Font<</F1 6 0 R>>>>>>");
   (5, bs "<</Type /Font /Subtype /Type1 /BaseFont /Helvetica-Bold >>"); (6, bs "<</Type /Font /Subtype /Type1 /BaseFont /Courier >>")].
Definition ex_content (l : list (Z * bytes)) : result content :=
  ExtractContent (fun x => Some x) ExtractProps.ex_parse (fun _ => 0) (XPagesProps.ex_get l) 3 (fun l => l) (fun l => l) (ref 1).
(** Two pages with different fonts of the same name: one is left out. *)
Theorem C77_same_name_refuted :
  rmap (fun c => map (fun p => match fpResources p with Some r => map (fun f => (fst f, fiName (snd f))) (xrFonts r) | None => [] end) (cPages c)) (ex_content ex_two_pages)
    = Ok [[(bs "F1", bs "/Helvetica-Bold")]; [(bs "F1", bs "/Courier")]] /\
  rmap (fun c => map (fun f => (fiID f, fiName f, fiFamily f)) (cFonts c)) (ex_content ex_two_pages) = Ok [(bs "/F1", bs "/Helvetica-Bold", bs "Helvetica")].
Proof. vm_compute. split; reflexivity. Qed.
Print Assumptions C77_same_name_refuted.

(* ---------------------------------------------------------------- *)
(** C78.  The image of an object: the numbers its dictionary gives and the bytes
    of its stream, for any data and any length. *)
Theorem C78_image_partial : forall inflate get n t data filter fmt w h cs bits, get n = Ok t -> image_stream_of t data ->
  says t (bs "/Filter") filter -> In (filter, fmt) filter_formats -> says t (bs "/Width") (decZ w) -> says t (bs "/Height") (decZ h) ->
  says t (bs "/ColorSpace") cs -> says t (bs "/BitsPerComponent") (decZ bits) -> 0 <= w < 2 ^ 63 -> 0 <= h < 2 ^ 63 -> 0 <= bits < 2 ^ 63 ->
  extractImageData inflate get n = Ok (mkXI (bs "/Im" ++ decZ n) fmt w h cs bits filter
    (if bytes_eqb filter (bs "/FlateDecode") then match inflate data with Some d => d | None => data end else data)).
Proof. exact image_read. Qed.
Print Assumptions C78_image_partial.
(** A JPEG file that was added comes back byte for byte, with the size and the
    colour space that were reported. *)
Theorem C78_jpeg_back : forall inflate get data w n width height cs w', AddJPEGImage data w = Ok (n, (width, height, cs), w') -> 0 <= nextObjNum w ->
  reads_stored get w' -> (forall t, get n = Ok t -> flen t < 2 ^ 63) ->
  extractImageData inflate get n = Ok (mkXI (bs "/Im" ++ decZ n) (bs "jpeg") width height cs 8 (bs "/DCTDecode") data).
Proof. exact jpeg_read_back. Qed.
Print Assumptions C78_jpeg_back.
(** A picture that was added comes back as its samples. *)
Theorem C78_picture_back : forall inflate deflate get p w n w', (0 < imWidth p)%nat -> (0 < imHeight p)%nat -> Z.of_nat (imWidth p) < 2 ^ 63 -> Z.of_nat (imHeight p) < 2 ^ 63 ->
  AddImage deflate p w = (n, w') -> 0 <= nextObjNum w -> (forall x, deflate x <> [] /\ inflate (deflate x) = Some x) ->
  reads_stored get w' -> (forall t, get n = Ok t -> flen t < 2 ^ 63) ->
  exists data, extractImageData inflate get n =
      Ok (mkXI (bs "/Im" ++ decZ n) (bs "png") (Z.of_nat (imWidth p)) (Z.of_nat (imHeight p)) (space_of_picture p) 8 (bs "/FlateDecode") data) /\
    length data = (imWidth p * imHeight p * channels p)%nat /\
    forall x y i, (x < imWidth p)%nat -> (y < imHeight p)%nat -> (i < channels p)%nat ->
      sample data (imWidth p) (channels p) x y i = Some (if imGray p then imLuma p x y else high_byte (component (imColor p x y) i)).
Proof. exact picture_back. Qed.
Print Assumptions C78_picture_back.
Definition ex_reader (w : writer) (n : Z) : result bytes :=
  match mget n (objects w) with
  | None => Err
  | Some o => Ok (object_text n match oStream o, oContent o with
      | None, Some c => c | None, None => []
      | Some s, _ => formatDictionary (match oDict o with Some a => match mget a (dicts w) with Some d => d | None => [] end | None => [] end)
          ++ nl ++ bs "stream" ++ nl ++ s ++ nl ++ bs "endstream" end)
  end.
Lemma ex_reader_ok w : reads_stored (ex_reader w) w.
Proof.
  intros n t (o & H1 & H2). unfold ex_reader. rewrite H1. do 2 f_equal. destruct (oStream o), (oContent o); rewrite H2; reflexivity.
Qed.
Example C78_back_example :
  rbind (AddJPEGImage PageProps.ex_jpeg NewPDFWriter) (fun r => extractImageData (fun _ => None) (ex_reader (snd r)) 1)
    = Ok (mkXI (bs "/Im1") (bs "jpeg") 640 480 (bs "/DeviceRGB") 8 (bs "/DCTDecode") PageProps.ex_jpeg) /\
  extractImageData (fun x => Some (tl x)) (ex_reader (snd (AddImage XPagesProps.ex_deflate PageProps.ex_picture NewPDFWriter))) 1
    = Ok (mkXI (bs "/Im1") (bs "png") 2 1 (bs "/DeviceRGB") 8 (bs "/FlateDecode") [xff; x00; x00; x80; x00; x00]).
Proof. split; vm_compute; reflexivity. Qed.

Definition ex_image_object (len data : bytes) : bytes :=
  bs "<</Type /XObject /Subtype /Image /Width 2 /Height 1 /BitsPerComponent 8 /ColorSpace /DeviceGray /Length " ++ len ++ bs " >>
stream
" ++ data ++ bs "
endstream".
Definition ex_image (len data : bytes) : result bytes := rmap xiData (extractImageData (fun x => Some x) (XPagesProps.ex_get [(5, ex_image_object len data)]) 5).
(** The format "png" is a guess: the data is raw samples.  A /Length in an object
    of its own is read as the number of that object; the largest /Length makes
    the bounds check overflow and kills the process. *)
Theorem C78_length_refuted :
  ex_image (bs "2") (bs "ab") = Ok (bs "ab") /\ ex_image (bs "7 0 R") (bs "0123456789") = Ok (bs "0123456") /\
  ex_image (bs "9223372036854775807") (bs "ab") = Panic.
Proof. vm_compute. repeat split. Qed.
Print Assumptions C78_length_refuted.
Definition ex_images (kids r5 : bytes) : result (list (bytes * bytes)) :=
  let get := XPagesProps.ex_get [(1, bs "<</Type/Catalog/Pages 2 0 R>>"); (2, bs "<</Type /Pages" ++ kids ++ bs ">>");
       (3, bs "<</Type /Page /Resources<</XObject<</Im0 5 0 R>>>>>>"); (5, r5)] in
  rbind (ExtractFullPages (fun x => Some x) ExtractProps.ex_parse (fun _ => 0) get 3 (ref 1)) (fun pages =>
  rmap (map (fun i => (xiID i, xiData i))) (ExtractAllImages (fun x => Some x) get 3 (fun l => l) (fun l => l) (ref 1)
    (match pages with [] => [mkFP (mkXP 1 None fzero fzero None 0 [] [] []) None []] | _ => pages end))).
(** ExtractAllImages reports forms as images, and with a space before the array
    of kids it finds nothing. *)
Theorem C78_all_images_refuted :
  ex_images (bs "/Kids[3 0 R]") (ex_image_object (bs "2") (bs "ab")) = Ok [(bs "/Im5", bs "ab")] /\
  ex_images (bs "/Kids[3 0 R]") (bs "<</Subtype /Form /Length 2 >>
stream
qQ
endstream") = Ok [(bs "/Im5", bs "qQ")] /\
  ex_images (bs "/Kids [3 0 R]") (ex_image_object (bs "2") (bs "ab")) = Ok [].
Proof. vm_compute. repeat split. Qed.
Print Assumptions C78_all_images_refuted.

(* ---------------------------------------------------------------- *)
(** C79.  ExtractToDirectory: the image files have distinct names; references
    and files correspond one to one, with the right size; each image with data
    whose file can be written is written, under the name of its position. *)
Theorem C79_directory_files : forall writable doc images, let o := to_directory writable doc images in
  NoDup (map fst (oFiles o)) /\ map ifName (oRefs o) = map fst (oFiles o) /\
  Forall2 (fun r f => ifName r = fst f /\ ifSize r = flen (snd f) /\
    exists k x, nth_error images k = Some x /\ fst f = file_name k (xiFormat x) /\ snd f = xiData x /\ ifID r = xiID x /\ ifFormat r = xiFormat x /\
      ifWidth r = xiWidth x /\ ifHeight r = xiHeight x /\ ifSpace r = xiSpace x /\ ifFilter r = xiFilter x) (oRefs o) (oFiles o) /\
  (forall k x, nth_error images k = Some x -> xiData x <> [] -> writable (file_name k (xiFormat x)) = true -> In (file_name k (xiFormat x), xiData x) (oFiles o)) /\
  (forall f, In f (oFiles o) -> writable (fst f) = true /\ snd f <> []).
Proof. exact directory_files. Qed.
Print Assumptions C79_directory_files.
(** The counts of the summary. *)
Theorem C79_summary : forall writable doc images, let s := oSummary (to_directory writable doc images) in
  suPages s = Z.of_nat (length (cPages doc)) /\ suImages s = Z.of_nat (length images) /\
  suChars s = flen (flat_map (fun p => flat_map teText (xpTexts (fpPage p))) (cPages doc)) /\
  (suText s = true <-> exists p, In p (cPages doc) /\ xpTexts (fpPage p) <> []) /\
  (suHasImages s = true <-> images <> []) /\ (suBookmarks s = true <-> cBookmarks doc <> []) /\
  (suScanned s = true <-> suHasImages s = true /\ suText s = false /\ cPages doc <> []).
Proof. exact directory_summary. Qed.
Print Assumptions C79_summary.
Definition ex_dir_images : list ximage :=
  [mkXI (bs "/Im5") (bs "jpeg") 2 1 (bs "/DeviceRGB") 8 (bs "/DCTDecode") (bs "data"); mkXI (bs "/Im6") (bs "png") 1 1 [] 8 [] [];
   mkXI (bs "/Im7") (bs "png") 1 1 [] 8 [] (bs "z"); mkXI (bs "/Im8") [] 1 1 [] 8 [] (bs "q")].
Example C79_example : let o := to_directory (fun n => negb (bytes_eqb n (bs "images/image_003.png"))) (mkContent [] [] [] [] []) ex_dir_images in
  oFiles o = [(bs "images/image_001.jpg", bs "data"); (bs "images/image_004.bin", bs "q")] /\
  map (fun r => (ifID r, ifSize r)) (oRefs o) = [(bs "/Im5", 4); (bs "/Im8", 1)].
Proof. vm_compute. split; reflexivity. Qed.
(** HasForms is false for every document; images that were not written are
    counted; the images of pages are named by resource name ("/Im0"), those of
    the directory by object number ("/Im5"), so the two cannot be joined. *)
Theorem C79_summary_refuted :
  (forall writable doc images, suForms (oSummary (to_directory writable doc images)) = false) /\
  (exists images, let o := to_directory (fun _ => true) (mkContent [] [] [] [] []) images in suImages (oSummary o) = 1 /\ oFiles o = []) /\
  (exists p, ex_page_of (bs "/Resources<</XObject<</Im0 5 0 R>>>>") [(5, ex_image_object (bs "2") (bs "ab"))] = Ok p /\
     option_map (fun r => map (fun i => xiID (snd i)) (xrImages r)) (fpResources p) = Some [bs "/Im0"]) /\
  ex_images (bs "/Kids[3 0 R]") (ex_image_object (bs "2") (bs "ab")) = Ok [(bs "/Im5", bs "ab")].
Proof.
  split; [reflexivity|]. split; [exists [mkXI (bs "/Im6") (bs "png") 1 1 [] 8 [] []]; vm_compute; split; reflexivity|].
  split; [eexists; split; vm_compute; reflexivity|vm_compute; reflexivity].
Qed.
Print Assumptions C79_summary_refuted.
