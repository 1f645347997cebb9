(** Model of content/extract/bookmarks.go, annotations.go, resources.go:1-340,
    images.go, extract.go and directory.go, and of the two fields of a page
    that [XPagesModel] leaves out (Resources and Annotations).

    Not modelled: the metadata of a document (see MetaProofs), JSON encoding,
    base64 (a function of the data), log output, and the fields that are never
    set (Actions, Properties, ColorSpaces, Patterns, Shadings).  Go map
    iteration order is an argument where it can be seen.  The goroutine stack
    is an argument, as in [XPagesModel]. *)
From Verif Require Export XPagesModel TextModel.
Local Open Scope Z_scope.

(** types/content_types.go:249-257, the fields that are set *)
Inductive xmark := XMark (title dest uri : bytes) (children : list xmark).

(** types/content_types.go:194-217 *)
Record xcolor := mkXC { xcSpace : bytes; xcRGB : list float; xcCMYK : option (list float) }.
Record xannot := mkXA {
  xaID : bytes; xaType : bytes; xaPage : Z; xaRect : option (list float); xaContents : bytes; xaTitle : bytes; xaSubject : bytes;
  xaColor : option xcolor; xaBorder : option (float * list float); xaURI : bytes; xaDest : bytes; xaOpen : bool; xaIcon : bytes;
  xaQuad : list (float * float) }.

(** types/content_types.go:159-191, 270-277 *)
Record font_info := mkFI { fiID : bytes; fiName : bytes; fiFamily : bytes; fiSubtype : bytes; fiEmbedded : bool; fiEncoding : bytes; fiToUnicode : bool }.
Record ximage := mkXI { xiID : bytes; xiFormat : bytes; xiWidth : Z; xiHeight : Z; xiSpace : bytes; xiBits : Z; xiFilter : bytes; xiData : bytes }.
Record xobject := mkXO { xoID : bytes; xoSubtype : bytes; xoWidth : float; xoHeight : float }.
Record resources := mkXR { xrFonts : list (bytes * font_info); xrImages : list (bytes * ximage); xrObjects : list (bytes * xobject) }.
Record fpage := mkFP { fpPage : xpage; fpResources : option resources; fpAnnots : list xannot }.
Record content := mkContent {
  cPages : list fpage; cBookmarks : list xmark; cAnnots : list xannot; cImages : list ximage; cFonts : list font_info }.

(** annotations.go:65-102 *)
Definition annot_types : list (bytes * bytes) :=
  [(bs "/Link", bs "link"); (bs "/Text", bs "text"); (bs "/Highlight", bs "highlight"); (bs "/Underline", bs "underline");
   (bs "/StrikeOut", bs "strikeout"); (bs "/Squiggly", bs "squiggly"); (bs "/Circle", bs "circle"); (bs "/Square", bs "square");
   (bs "/Line", bs "line"); (bs "/Polygon", bs "polygon"); (bs "/Polyline", bs "polyline"); (bs "/Ink", bs "ink");
   (bs "/Stamp", bs "stamp"); (bs "/Caret", bs "caret"); (bs "/FreeText", bs "freetext"); (bs "/Popup", bs "popup")].
Definition annot_type (subtype : bytes) : bytes :=
  match kget subtype annot_types with Some t => t | None => trim_prefix (bs "/") subtype end.
(** [s[1:len(s)-1]], which panics for a text of one byte *)
Definition inner (s : bytes) : result bytes :=
  if flen s <? 2 then Panic else Ok (firstn (length s - 2) (skipn 1 s)).
(** a value with the escapes undone, "" when there is none *)
Definition text_value (d key : bytes) : bytes := unescapePDFString (x_value d key).

(** NAME\s*<<([^>]* )>> and NAME\s*<<([^>]+) *)
Definition m_dict (key s : bytes) : option bytes :=
  do r <- lit key s; do r <- lit (bs "<<") (ws0 r);
  do _ <- lit (bs ">>") (drop_while (fun b => negb (beqb b ">")) r); Some (take_while (fun b => negb (beqb b ">")) r).
Definition m_dict_open (key s : bytes) : option bytes :=
  do r <- lit key s; do r <- lit (bs "<<") (ws0 r);
  match take_while (fun b => negb (beqb b ">")) r with [] => None | t => Some t end.
(** resources.go:219-233 *)
Definition xobject_entries_text (r : bytes) : bytes :=
  match find (m_dict (bs "/XObject")) r with
  | Some (_, t) => t
  | None => match find (m_dict_open (bs "/XObject")) r with Some (_, t) => t | None => [] end
  end.
(** the number of an entry; what is too large for an int is 0 *)
Definition entry_number (d : bytes) : Z := match atoi d with Some z => z | None => 0 end.

(** images.go:60-72 *)
Definition image_format (filter : bytes) : bytes :=
  match filter with
  | [] => []
  | _ => if contains (bs "DCTDecode") filter then bs "jpeg"
         else if contains (bs "FlateDecode") filter then bs "png"
         else if contains (bs "CCITTFaxDecode") filter then bs "tiff"
         else if contains (bs "JPXDecode") filter then bs "jpeg2000"
         else bs "unknown"
  end.
(** images.go:75-106: the data between "stream" and its end; the sum of the
    start and a /Length wraps around *)
Definition wrap64 (z : Z) : Z := (z + 2 ^ 63) mod 2 ^ 64 - 2 ^ 63.
Definition image_stream (o : bytes) : result bytes :=
  match index (bs "stream") o with
  | None => Ok []
  | Some i =>
      let len := match value_of (find (m_key (bs "/Length")) (firstn i o)) with Some d => atoi_clip d | None => 0 end in
      let start := skip_one_eol o (i + 6) in
      if (0 <? len) && (wrap64 (Z.of_nat start + len) <=? flen o) then
        if wrap64 (Z.of_nat start + len) <? Z.of_nat start then Panic
        else Ok (firstn (Z.to_nat len) (skipn start o))
      else Ok (match index (bs "endstream") (skipn start o) with Some k => firstn k (skipn start o) | None => [] end)
  end.

Section marks.
(** DecodeFlateDecode, strconv.ParseFloat, int(float64), PDF.GetObject *)
Context (inflate : bytes -> option bytes) (parse_float : bytes -> option float) (to_int : float -> Z) (get : Z -> result bytes).

(** bookmarks.go:80-98: the URI of an item without destination *)
Definition action_uri (item : bytes) : result bytes :=
  match x_value item (bs "/A") with
  | [] => Ok []
  | a => match parse_ref a with
         | None => Ok []
         | Some n => rmap (fun o => match o with Some t => text_value t (bs "/URI") | None => [] end) (try_get get n)
         end
  end.
(** bookmarks.go:58-127: errors of children and siblings drop them *)
Definition or_empty {A} (r : result (list A)) : result (list A) := match r with Err => Ok [] | _ => r end.
Fixpoint read_marks (stack : nat) (r : bytes) : result (list xmark) :=
  match stack with
  | O => Panic
  | S k =>
      rbind (parseObjectRef r) (fun n =>
      rbind (get n) (fun t =>
      let dest := x_value t (bs "/Dest") in
      rbind (match dest with [] => action_uri t | _ => Ok [] end) (fun uri =>
      rbind (match x_value t (bs "/First") with [] => Ok [] | f => or_empty (read_marks k f) end) (fun kids =>
      rmap (cons (XMark (text_value t (bs "/Title")) dest uri kids))
        (match x_value t (bs "/Next") with [] => Ok [] | f => or_empty (read_marks k f) end)))))
  end.
(** bookmarks.go:9-55 *)
Definition read_key (key r : bytes) : result (option bytes) :=
  match r with
  | [] => Ok None
  | _ => match parse_ref r with
         | None => Ok None
         | Some n => rmap (fun o => match o with Some t => match x_value t key with [] => None | v => Some v end | None => None end) (try_get get n)
         end
  end.
Definition ExtractBookmarks (stack : nat) (root : bytes) : result (list xmark) :=
  rbind (read_key (bs "/Outlines") root) (fun o =>
  match o with
  | None => Ok []
  | Some o => rbind (read_key (bs "/First") o) (fun f => match f with None => Ok [] | Some f => or_empty (read_marks stack f) end)
  end).

(** annotations.go:161-186 *)
Definition link_uri (t : bytes) : result bytes :=
  match x_value t (bs "/URI") with
  | [] => Ok []
  | u => if prefixb (bs "(") u then rmap unescapePDFString (inner u)
         else match parse_ref u with
              | None => Ok []
              | Some n => rbind (try_get get n) (fun o =>
                  match o with
                  | None => Ok []
                  | Some t => match x_value t (bs "/URI") with [] => Ok [] | v => rmap unescapePDFString (inner v) end
                  end)
              end
  end.
Definition annot_color (t : bytes) : option xcolor :=
  match extractArrayValue parse_float t (bs "/C") with
  | a :: b :: c :: d :: _ => Some (mkXC (bs "cmyk") [a; b; c] (Some [a; b; c; d]))
  | [a; b; c] => Some (mkXC (bs "rgb") [a; b; c] None)
  | _ => None
  end.
(** annotations.go:143-158 *)
Definition annot_border (t : bytes) : option (float * list float) :=
  match x_value t (bs "/Border") with
  | [] => None
  | _ => match extractArrayValue parse_float t (bs "/Border") with
         | [] => None
         | w :: l => Some (w, if (2 <=? length l)%nat then firstn (length l - 1) l else [])
         end
  end.
Definition annot_quad (t : bytes) : list (float * float) :=
  match extractArrayValue parse_float t (bs "/QuadPoints") with
  | a :: b :: c :: d :: e :: f :: g :: h :: _ => [(a, b); (c, d); (e, f); (g, h)]
  | _ => []
  end.
(** annotations.go:45-237; [None] when it is skipped *)
Definition extractAnnotation (n page : Z) : result (option xannot) :=
  rbind (try_get get n) (fun o =>
  match o with
  | None => Ok None
  | Some t =>
      match x_value t (bs "/Subtype") with
      | [] => Ok None
      | st =>
          let ty := annot_type st in
          let link := bytes_eqb ty (bs "link") in
          let text := bytes_eqb ty (bs "text") in
          rmap (fun uri => Some (mkXA (decZ n) ty page (rectangle (extractArrayValue parse_float t (bs "/Rect")))
            (text_value t (bs "/Contents")) (text_value t (bs "/T")) (text_value t (bs "/Subj")) (annot_color t) (annot_border t)
            uri (if link then x_value t (bs "/Dest") else [])
            (text && bytes_eqb (x_value t (bs "/Open")) (bs "true")) (if text then x_value t (bs "/Name") else [])
            (if existsb (bytes_eqb ty) [bs "highlight"; bs "underline"; bs "strikeout"; bs "squiggly"] then annot_quad t else [])))
            (if link then link_uri t else Ok [])
      end
  end).
(** annotations.go:12-42 *)
Fixpoint read_annots (page : Z) (refs : list bytes) : result (list xannot) :=
  match refs with
  | [] => Ok []
  | r :: refs' =>
      match parse_ref r with
      | None => read_annots page refs'
      | Some n => rbind (extractAnnotation n page) (fun a =>
          rmap (fun l => match a with Some x => x :: l | None => l end) (read_annots page refs'))
      end
  end.
Definition extractAnnotations (annots : bytes) (page : Z) : result (list xannot) :=
  read_annots page (match parseObjectRefArray annots with [] => match annots with [] => [] | _ => [annots] end | l => l end).

(** resources.go:134-218; [None] when the object cannot be read *)
Definition two_keys (t : bytes) (k1 k2 : bytes) : bytes := match x_value t k1 with [] => x_value t k2 | v => v end.
Definition extractFontInfo (n : Z) : result (option font_info) :=
  rbind (try_get get n) (fun o =>
  match o with
  | None => Ok None
  | Some t =>
      let st := match two_keys t (bs "/Subtype") (bs "Subtype") with
                | [] => bs "Unknown"
                | s => if prefixb (bs "/") s then s else bs "/" ++ s
                end in
      let name := two_keys t (bs "/BaseFont") (bs "BaseFont") in
      let family := take_while (fun b => negb (beqb b "-")) (trim_prefix (bs "/") name) in
      let emb := contains (bs "/FontFile") t in
      let mk emb family := mkFI [] name family st emb (x_value t (bs "/Encoding")) (contains (bs "/ToUnicode") t) in
      match x_value t (bs "/FontDescriptor") with
      | [] => Ok (Some (mk emb family))
      | r => match parse_ref r with
             | None => Ok (Some (mk emb family))
             | Some m => rmap (fun o => match o with
                  | None => Some (mk emb family)
                  | Some d => Some (mk (emb || contains (bs "/FontFile") d)
                                       (match x_value d (bs "/FontFamily") with [] => family | f => f end))
                  end) (try_get get m)
             end
      end
  end).
(** resources.go:53-131, 221-255: the entries in file order, later ones win *)
Fixpoint read_entries {A} (info : Z -> result (option A)) (name : bytes -> A -> A) (l : list (bytes * bytes)) (acc : list (bytes * A))
  : result (list (bytes * A)) :=
  match l with
  | [] => Ok acc
  | (k, d) :: l' => rbind (info (entry_number d)) (fun o =>
      read_entries info name l' (match o with Some x => kset k (name (bs "/" ++ k) x) acc | None => acc end))
  end.
Definition name_font (i : bytes) (f : font_info) : font_info :=
  mkFI i (fiName f) (fiFamily f) (fiSubtype f) (fiEmbedded f) (fiEncoding f) (fiToUnicode f).
Definition name_xobject (i : bytes) (x : xobject) : xobject := mkXO i (xoSubtype x) (xoWidth x) (xoHeight x).
Definition extractFontsDict (r : bytes) : result (list (bytes * font_info)) :=
  read_entries extractFontInfo name_font (matches m_font_entry (font_entries_text r) 0) [].
(** resources.go:299-334 *)
Definition float_value (d key : bytes) : float :=
  match x_value d key with [] => fzero | v => match parse_float v with Some x => x | None => fzero end end.
Definition extractXObjectInfo (n : Z) : result (option xobject) :=
  rmap (fun o => match o with
    | None => None
    | Some t => match x_value t (bs "/Subtype") with
                | [] => None
                | st => Some (if bytes_eqb st (bs "/Image") then mkXO [] st (float_value t (bs "/Width")) (float_value t (bs "/Height"))
                              else mkXO [] st fzero fzero)
                end
    end) (try_get get n).
Definition extractXObjectsDict (r : bytes) : result (list (bytes * xobject)) :=
  read_entries extractXObjectInfo name_xobject (matches m_font_entry (xobject_entries_text r) 0) [].
(** resources.go:13-50 *)
Definition meta_image (x : bytes * xobject) : bytes * ximage :=
  (fst x, mkXI (bs "/" ++ fst x) (bs "unknown") (to_int (xoWidth (snd x))) (to_int (xoHeight (snd x))) [] 0 [] []).
Definition extractResources (r : bytes) : result resources :=
  rbind (extractFontsDict r) (fun fonts =>
  rmap (fun xs => mkXR fonts (map meta_image (filter (fun x => bytes_eqb (xoSubtype (snd x)) (bs "/Image")) xs)) xs) (extractXObjectsDict r)).
(** pages.go:188-214: no resources object when there is no text to read *)
Definition page_has_resources (page : bytes) : result (option bytes) :=
  match x_value page (bs "/Resources") with
  | [] => Ok (match extractInlineDict page (bs "/Resources") with [] => None | t => Some t end)
  | r => match parse_ref r with
         | None => Ok None
         | Some n => try_get get n
         end
  end.
(** pages.go:153-310; [obj] is the number of the page object *)
Definition extractFullPage (obj : Z) (page : bytes) : result fpage :=
  rbind (page_has_resources page) (fun res =>
  rbind (match res with None => Ok None | Some r => rmap Some (extractResources r) end) (fun res =>
  rbind (extractPage inflate parse_float get page) (fun p =>
  rmap (mkFP p res) (match x_value page (bs "/Annots") with [] => Ok [] | a => extractAnnotations a obj end)))).
Fixpoint kid_fpages (go : Z -> result (list fpage)) (refs : list bytes) : result (list fpage) :=
  match refs with
  | [] => Ok []
  | r :: refs' =>
      match parse_ref r with
      | None => kid_fpages go refs'
      | Some n =>
          match go n with
          | Panic => Panic
          | Err => kid_fpages go refs'
          | Ok l => rmap (app l) (kid_fpages go refs')
          end
      end
  end.
(** pages.go:70-150 *)
Fixpoint full_tree (stack : nat) (n : Z) : result (list fpage) :=
  match stack with
  | O => Panic
  | S k =>
      rbind (get n) (fun t =>
        if is_page t then rmap (fun p => [p]) (extractFullPage n t)
        else kid_fpages (full_tree k) (kids_of t))
  end.
Fixpoint full_numbered (i : nat) (l : list fpage) : list fpage :=
  match l with [] => [] | p :: l' => mkFP (number i (fpPage p)) (fpResources p) (fpAnnots p) :: full_numbered (S i) l' end.
(** pages.go:14-62 *)
Definition ExtractFullPages (stack : nat) (root : bytes) : result (list fpage) :=
  match root with
  | [] => Err
  | _ =>
      rbind (parseObjectRef root) (fun n =>
      rbind (get n) (fun cat =>
      match x_value cat (bs "/Pages") with
      | [] => Err
      | r => rbind (parseObjectRef r) (fun m => rmap (full_numbered 0) (full_tree stack m))
      end))
  end.

(** extract.go:73-100: the first resource of each name, over the pages *)
Definition add_first {A} (acc : list (bytes * A)) (x : bytes * A) : list (bytes * A) :=
  match kget (fst x) acc with Some _ => acc | None => kset (fst x) (snd x) acc end.
Definition collect {A} (f : resources -> list (bytes * A)) (pages : list fpage) : list (bytes * A) :=
  fold_left add_first (flat_map (fun p => match fpResources p with Some r => f r | None => [] end) pages) [].
(** extract.go:16-105 *)
Definition ExtractContent (stack : nat) (iorder : list (bytes * ximage) -> list (bytes * ximage))
  (forder : list (bytes * font_info) -> list (bytes * font_info)) (root : bytes) : result content :=
  rbind (ExtractFullPages stack root) (fun pages =>
  rmap (fun marks => mkContent pages marks (flat_map fpAnnots pages)
    (map snd (iorder (collect xrImages pages))) (map snd (forder (collect xrFonts pages))))
    (or_empty (ExtractBookmarks stack root))).

(** images.go:16-143 *)
Definition int_value (d key : bytes) : Z :=
  match x_value d key with [] => 0 | v => match atoi v with Some z => z | None => 0 end end.
Definition image_data (filter data : bytes) : bytes :=
  if contains (bs "FlateDecode") filter then match inflate data with Some d => d | None => data end else data.
Definition extractImageData (n : Z) : result ximage :=
  rbind (get n) (fun t =>
  let filter := x_value t (bs "/Filter") in
  rmap (fun data => mkXI (bs "/Im" ++ decZ n) (image_format filter) (int_value t (bs "/Width")) (int_value t (bs "/Height"))
    (x_value t (bs "/ColorSpace")) (int_value t (bs "/BitsPerComponent")) filter
    (match data with [] => [] | _ => image_data filter data end)) (image_stream t)).
(** images.go:274-313 *)
Fixpoint kid_numbers (go : Z -> result (list Z)) (refs : list bytes) : result (list Z) :=
  match refs with
  | [] => Ok []
  | r :: refs' =>
      match parse_ref r with
      | None => kid_numbers go refs'
      | Some n => rbind (go n) (fun l => rmap (app l) (kid_numbers go refs'))
      end
  end.
Fixpoint extractPageObjectNumbers (stack : nat) (n : Z) : result (list Z) :=
  match stack with
  | O => Panic
  | S k => rbind (try_get get n) (fun o =>
      match o with
      | None => Ok []
      | Some t =>
          if bytes_eqb (x_value t (bs "/Type")) (bs "/Page") then Ok [n]
          else match x_value t (bs "/Kids") with
               | [] => Ok []
               | kids => kid_numbers (extractPageObjectNumbers k) (parseObjectRefArray kids)
               end
      end)
  end.
(** images.go:197-239: the XObjects of the pages, first of each name *)
Fixpoint image_numbers (pages : list Z) (acc : list (bytes * Z)) : result (list (bytes * Z)) :=
  match pages with
  | [] => Ok acc
  | n :: pages' =>
      rbind (try_get get n) (fun o =>
      match o with
      | None => image_numbers pages' acc
      | Some t => rbind (page_resources get t) (fun res =>
          image_numbers pages' (fold_left add_first
            (fold_left (fun m kd => kset (fst kd) (entry_number (snd kd)) m) (matches m_font_entry (xobject_entries_text res) 0) []) acc))
      end)
  end.
(** images.go:241-257 *)
Fixpoint load_images (l : list (bytes * Z)) (pages : list fpage) : result (list ximage) :=
  match l with
  | [] => Ok []
  | (name, n) :: l' =>
      match extractImageData n with
      | Panic => Panic
      | Ok i => rmap (cons i) (load_images l' pages)
      | Err => rmap (app (match kget name (flat_map (fun p => match fpResources p with Some r => xrImages r | None => [] end) pages) with
                          | Some i => [i] | None => [] end)) (load_images l' pages)
      end
  end.
(** images.go:146-273; the last loop adds what has a name not seen before *)
Definition ExtractAllImages (stack : nat) (norder : list (bytes * Z) -> list (bytes * Z))
  (iorder : list (bytes * ximage) -> list (bytes * ximage)) (root : bytes) (pages : list fpage) : result (list ximage) :=
  match root with
  | [] => Err
  | _ =>
      rbind (parseObjectRef root) (fun n =>
      rbind (get n) (fun cat =>
      match x_value cat (bs "/Pages") with
      | [] => Err
      | r => rbind (parseObjectRef r) (fun m =>
          rbind (extractPageObjectNumbers stack m) (fun objs =>
          rbind (image_numbers (firstn (length pages) objs) []) (fun nums =>
          rmap (fun l => l ++ map snd (filter (fun x => match kget (fst x) nums with Some _ => false | None => true end)
                                              (collect (fun r => iorder (xrImages r)) pages)))
            (load_images (norder nums) pages))))
      end))
  end.
End marks.

(** directory.go *)
Record image_file := mkIF { ifID : bytes; ifName : bytes; ifFormat : bytes; ifWidth : Z; ifHeight : Z; ifSpace : bytes; ifFilter : bytes; ifSize : Z }.
Record summary := mkSummary {
  suPages : Z; suChars : Z; suImages : Z; suText : bool; suHasImages : bool; suForms : bool; suBookmarks : bool; suScanned : bool }.
Record output := mkOutput { oRefs : list image_file; oFiles : list (bytes * bytes); oSummary : summary }.
(** directory.go:147-160 *)
Definition extension (format : bytes) : bytes :=
  if bytes_eqb format (bs "jpeg") then bs ".jpg" else if bytes_eqb format (bs "png") then bs ".png"
  else if bytes_eqb format (bs "tiff") then bs ".tif" else if bytes_eqb format (bs "jpeg2000") then bs ".jp2" else bs ".bin".
Definition file_name (i : nat) (format : bytes) : bytes := bs "images/image_" ++ dec_pad 3 (N.of_nat (i + 1)) ++ extension format.
(** directory.go:136-189; [writable] says which files can be written.  The
    files are written in this order, under the output directory. *)
Fixpoint save_images (writable : bytes -> bool) (i : nat) (l : list ximage) : list (image_file * (bytes * bytes)) :=
  match l with
  | [] => []
  | x :: l' =>
      let name := file_name i (xiFormat x) in
      (if (0 <? flen (xiData x)) && writable name
       then [(mkIF (xiID x) name (xiFormat x) (xiWidth x) (xiHeight x) (xiSpace x) (xiFilter x) (flen (xiData x)), (name, xiData x))]
       else []) ++ save_images writable (S i) l'
  end.
(** directory.go:88-266 after the extraction; [images] is [] when
    ExtractAllImages failed *)
Definition to_directory (writable : bytes -> bool) (doc : content) (images : list ximage) : output :=
  let saved := save_images writable 0 images in
  let has_text := existsb (fun p => negb (length (xpTexts (fpPage p)) =? 0)%nat) (cPages doc) in
  let has_images := (0 <? length images)%nat in
  mkOutput (map fst saved) (map snd saved)
    (mkSummary (Z.of_nat (length (cPages doc)))
      (fold_right Z.add 0 (map (fun p => fold_right Z.add 0 (map (fun t => flen (teText t)) (xpTexts (fpPage p)))) (cPages doc)))
      (Z.of_nat (length images)) has_text has_images false (0 <? length (cBookmarks doc))%nat
      (has_images && negb has_text && (0 <? length (cPages doc))%nat)).
