(** Model of core/write/page.go, core/write/bookmarks.go,
    core/write/watermark.go and the JPEG part of core/write/image.go.

    A page size is kept as the two texts that "%.0f" prints.  The iteration
    order of the maps of fonts and images is the argument [ord]. *)
From Verif Require Export WriterModel TextModel.
Local Open Scope Z_scope.

(* ---------------------------------------------------------------- *)
(** page.go: pages *)

(** page.go:27-35; fonts and images map resource names (without slash) to
    object numbers; [pbContent] is the buffer of the content stream.  The
    fields pageObjNum and pagesObjNum are never read. *)
Record page_builder := mkPB {
  pbWidth : bytes; pbHeight : bytes;
  pbFonts : list (bytes * Z); pbImages : list (bytes * Z);
  pbContent : bytes
}.
(** page.go:38-46 *)
Definition NewPageBuilder (width height : bytes) : page_builder := mkPB width height [] [] [].
Definition set_fonts (pb : page_builder) (m : list (bytes * Z)) : page_builder :=
  mkPB (pbWidth pb) (pbHeight pb) m (pbImages pb) (pbContent pb).
Definition set_images (pb : page_builder) (m : list (bytes * Z)) : page_builder :=
  mkPB (pbWidth pb) (pbHeight pb) (pbFonts pb) m (pbContent pb).
(** content.go: what a call on Content() appends *)
Definition append_content (t : bytes) (pb : page_builder) : page_builder :=
  mkPB (pbWidth pb) (pbHeight pb) (pbFonts pb) (pbImages pb) (pbContent pb ++ t).

(** page.go:64: fmt.Sprintf("F%d", len(pb.fonts)+1) *)
Definition next_font (pb : page_builder) : bytes := bs "F" ++ decZ (Z.of_nat (length (pbFonts pb)) + 1).
Definition font_dict (name : bytes) : bytes := bs "<</Type/Font/Subtype/Type1/BaseFont/" ++ name ++ bs ">>".
(** page.go:55-70.  The search compares resource names with the font name. *)
Definition AddStandardFont (name : bytes) (pb : page_builder) (w : writer) : bytes * page_builder * writer :=
  if existsb (fun e => bytes_eqb (fst e) name) (pbFonts pb) then (bs "/" ++ name, pb, w)
  else
    let r := next_font pb in
    let (n, w') := AddObject (Some (font_dict name)) w in
    (bs "/" ++ r, set_fonts pb (kset r n (pbFonts pb)), w').

(** page.go:79-81, 101-103: a leading slash is removed *)
Definition unslash (s : bytes) : bytes := match s with b :: s' => if beqb b "/" then s' else s | [] => [] end.
(** page.go:73-84; an image is its name and its object number *)
Definition PAddImage (name : bytes) (num : Z) (pb : page_builder) : bytes * page_builder :=
  let r := unslash (match name with [] => bs "Im" ++ decZ (Z.of_nat (length (pbImages pb)) + 1) | _ => name end) in
  (bs "/" ++ r, set_images pb (kset r num (pbImages pb))).
(** page.go:98-106: the part of AddEmbeddedFont after the font's objects have
    been made ([name] and [num] are its ResourceName and FontDictNum) *)
Definition add_embedded (name : bytes) (num : Z) (pb : page_builder) : bytes * page_builder :=
  let r := unslash name in (bs "/" ++ r, set_fonts pb (kset r num (pbFonts pb))).

(** page.go:135-154 *)
Definition resource_entries (l : list (bytes * Z)) : bytes :=
  flat_map (fun e => bs "/" ++ fst e ++ bs " " ++ ref (snd e)) l.
Definition resource_group (key : bytes) (l : list (bytes * Z)) : bytes :=
  match l with [] => [] | _ => key ++ bs "<<" ++ resource_entries l ++ bs ">>" end.
Definition resources (ord : list (bytes * Z) -> list (bytes * Z)) (pb : page_builder) : bytes :=
  bs "<<" ++ resource_group (bs "/Font") (ord (pbFonts pb)) ++
  resource_group (bs "/XObject") (ord (pbImages pb)) ++ bs ">>".
(** page.go:157-158 *)
Definition page_dict (ord : list (bytes * Z) -> list (bytes * Z)) (parent contents : Z) (pb : page_builder) : bytes :=
  bs "<</Type/Page/Parent " ++ ref parent ++ bs "/MediaBox[0 0 " ++ pbWidth pb ++ bs " " ++ pbHeight pb ++
  bs "]/Contents " ++ ref contents ++ bs "/Resources" ++ resources ord pb ++ bs ">>".
(** bytes.Buffer.Bytes: nil when nothing was ever written *)
Definition buffer (t : bytes) : option bytes := match t with [] => None | _ => Some t end.
(** A new Go map, as the argument of AddStreamObject *)
Definition add_stream (deflate : bytes -> bytes) (d : dict) (data : option bytes) (compress : bool) (w : writer)
  : Z * writer :=
  let a := fresh (dicts w) in
  match AddStreamObject deflate a data compress (set_dicts w (mset a d (dicts w))) with
  | Ok r => r
  | _ => (0, w)           (* not reachable: the map exists *)
  end.
(** page.go:127-162 *)
Definition Build (deflate : bytes -> bytes) (ord : list (bytes * Z) -> list (bytes * Z)) (parent : Z)
  (pb : page_builder) (w : writer) : Z * writer :=
  let (c, w) := add_stream deflate [] (buffer (pbContent pb)) true w in
  AddObject (Some (page_dict ord parent c pb)) w.

(* ---------------------------------------------------------------- *)
(** bookmarks.go *)

(** types/content_types.go:249-257 without Color and Style, which the writer
    ignores *)
Inductive bookmark := Bookmark (title : bytes) (page : Z) (dest uri : bytes) (children : list bookmark).

(** bookmarks.go:56-68 *)
Definition dest_of (pages : zmap Z) (page : Z) (dest : bytes) : bytes :=
  if 0 <? page then
    match mget page pages with
    | Some n => bs "[" ++ ref n ++ bs " /XYZ 0 792 null]"
    | None => []
    end
  else dest.
(** bookmarks.go:71-80: the action object, if there is a URI *)
Definition add_action (uri : bytes) (w : writer) : option Z * writer :=
  match uri with
  | [] => (None, w)
  | _ =>
      let (n, w) := AddObject (Some (formatDictionary
        [(bs "/Type", VStr (bs "/Action")); (bs "/S", VStr (bs "/URI"));
         (bs "/URI", VStr (bs "(" ++ escapePDFString uri ++ bs ")"))])) w in
      (Some n, w)
  end.
Definition opt_entry (b : bool) (k : bytes) (v : value) : dict := if b then [(k, v)] else [].
(** bookmarks.go:98-129; [kids] is the first child, the last child and the
    number of descendants *)
Definition item_dict (title dest : bytes) (action : option Z) (parent : Z) (prev : option Z)
  (kids : option (Z * Z * Z)) : dict :=
  [(bs "/Title", VStr (bs "(" ++ escapePDFString title ++ bs ")"))] ++
  match dest with [] => [] | _ => [(bs "/Dest", VStr dest)] end ++
  match action with Some a => [(bs "/A", VStr (ref a))] | None => [] end ++
  (if 0 <? parent then [(bs "/Parent", VStr (ref parent))] else []) ++
  match prev with Some p => [(bs "/Prev", VStr (ref p))] | None => [] end ++
  match kids with
  | Some (f, l, c) => [(bs "/First", VStr (ref f)); (bs "/Last", VStr (ref l)); (bs "/Count", VInt c)]
  | None => []
  end.
(** bookmarks.go:164-181 (both branches add the entry before the last ">>") *)
Definition addDictEntry (t key value : bytes) : bytes :=
  match last_index (bs ">>") t with
  | None => t
  | Some i => firstn i t ++ key ++ bs " " ++ value ++ bs " " ++ skipn i t
  end.
(** bookmarks.go:139-147: the previous item gets its /Next *)
Definition add_next (p n : Z) (w : writer) : writer :=
  match mget p (objects w) with
  | None => w
  | Some o =>
      let t := match oContent o with Some c => c | None => [] end in
      set_objects w (mset p (mkObj (Some (addDictEntry t (bs "/Next") (ref n))) (oStream o) (oDict o)) (objects w))
  end.
(** bookmarks.go:83-84 *)
Definition reserve (w : writer) : Z * writer := (nextObjNum w, set_next w (nextObjNum w + 1)).

(** bookmarks.go:43-164, one iteration of the loop: the number of the item,
    the number of its descendants.  [items] is the loop itself, run on the
    children. *)
Fixpoint create_item (pages : zmap Z) (parent : Z) (prev : option Z) (b : bookmark) (w : writer)
  : Z * Z * writer :=
  match b with
  | Bookmark title page dest uri children =>
      let (action, w) := add_action uri w in
      let (n, w) := reserve w in
      let items := fix items (l : list bookmark) (first : option Z) (prev : option Z) (count : Z) (w : writer)
                     : option Z * option Z * Z * writer :=
        match l with
        | [] => (first, prev, count, w)
        | b :: l' =>
            match create_item pages n prev b w with
            | (m, c, w) => items l' (match first with None => Some m | f => f end) (Some m) (count + 1 + c) w
            end
        end in
      match items children None None 0 w with
      | (first, last, count, w) =>
          let kids := match first, last with Some f, Some l => Some (f, l, count) | _, _ => None end in
          let w := set_objects w (mset n
            (mkObj (Some (formatDictionary (item_dict title (dest_of pages page dest) action parent prev kids))) None None)
            (objects w)) in
          let w := match prev with Some p => add_next p n w | None => w end in
          (n, count, w)
      end
  end.
Fixpoint create_items (pages : zmap Z) (parent : Z) (l : list bookmark) (first prev : option Z) (count : Z) (w : writer)
  : option Z * option Z * Z * writer :=
  match l with
  | [] => (first, prev, count, w)
  | b :: l' =>
      match create_item pages parent prev b w with
      | (m, c, w) => create_items pages parent l' (match first with None => Some m | f => f end) (Some m) (count + 1 + c) w
      end
  end.
(** bookmarks.go:14-40 *)
Definition WSetBookmarks (l : list bookmark) (pages : zmap Z) (w : writer) : Z * writer :=
  match l with
  | [] => (0, w)
  | _ =>
      match create_items pages 0 l None None 0 w with
      | (first, last, count, w) =>
          let (n, w) := AddObject (Some (formatDictionary
            [(bs "/Type", VStr (bs "/Outlines")); (bs "/First", VStr (ref (match first with Some f => f | None => 0 end)));
             (bs "/Last", VStr (ref (match last with Some l => l | None => 0 end))); (bs "/Count", VInt count)])) w in
          (n, set_outlines n w)
      end
  end.

(* ---------------------------------------------------------------- *)
(** page.go: documents *)

(** page.go:165-170; catalogObjNum is never read *)
Record builder := mkBuilder { sbWriter : writer; sbPages : list Z; sbPagesNum : Z }.
(** page.go:173-178 *)
Definition NewSimplePDFBuilder : builder := mkBuilder NewPDFWriter [] 0.
(** page.go:191-200 *)
Definition FinalizePage (deflate : bytes -> bytes) (ord : list (bytes * Z) -> list (bytes * Z)) (pb : page_builder)
  (b : builder) : builder :=
  let (p, w) := if sbPagesNum b =? 0 then reserve (sbWriter b) else (sbPagesNum b, sbWriter b) in
  let (n, w) := Build deflate ord p pb w in
  mkBuilder w (sbPages b ++ [n]) p.
(** page.go:205-213 *)
Definition pages_dict (pages : list Z) : bytes :=
  bs "<</Type/Pages/Kids[" ++ flat_map (fun n => ref n ++ bs " ") pages ++ bs "]/Count " ++
  decZ (Z.of_nat (length pages)) ++ bs ">>".
Definition catalog_dict (pages : Z) : bytes := bs "<</Type/Catalog/Pages " ++ ref pages ++ bs ">>".
(** page.go:203-221, up to the call of writer.Bytes *)
Definition finish (b : builder) : builder :=
  let w := SetObject (sbPagesNum b) (Some (pages_dict (sbPages b))) (sbWriter b) in
  let (c, w) := AddObject (Some (catalog_dict (sbPagesNum b))) w in
  mkBuilder (SetRoot c w) (sbPages b) (sbPagesNum b).
Definition SBytes (deflate : bytes -> bytes) (order : list Z -> list Z) (b : builder) : bytes * builder :=
  let b := finish b in
  let (out, w) := Write deflate order None (sbWriter b) in
  (out, mkBuilder w (sbPages b) (sbPagesNum b)).
(** page.go:225-234: page i has number i+1 *)
Fixpoint number_from (i : Z) (l : list Z) : zmap Z :=
  match l with [] => [] | n :: l' => (i, n) :: number_from (i + 1) l' end.
Definition SSetBookmarks (l : list bookmark) (b : builder) : builder :=
  mkBuilder (snd (WSetBookmarks l (number_from 1 (sbPages b)) (sbWriter b))) (sbPages b) (sbPagesNum b).

(* ---------------------------------------------------------------- *)
(** watermark.go *)

Section watermark.
  (** float64 arithmetic is an argument *)
  Context {F : Type} (fmt : F -> bytes) (one zero : F).

  (** watermark.go:9-19, 38-120.  The numbers that the code computes from the
      options ([color], [center], the rotation if the angle is not 0, the
      translation and scale of an image, the text position) are given; a nil
      Color is [None]. *)
  Record watermark := mkWM {
    wmText : bytes; wmFont : bytes; wmSize : F; wmColor : option (F * F * F);
    wmCenter : F * F; wmRotation : option (F * F * F * F);
    wmImage : bytes; wmImageMove : F * F; wmImageScale : F * F; wmTextPos : F * F
  }.
  Definition calls (l : list (ccall F)) (pb : page_builder) : page_builder :=
    append_content (flat_map (call_text fmt one zero) l) pb.
  Definition watermark_head (o : watermark) (c : F * F * F) : list (ccall F) :=
    match c with (r, g, b) => [SaveState F; SetFillColorRGB F r g b] end ++
    [Translate F (fst (wmCenter o)) (snd (wmCenter o))] ++
    match wmRotation o with Some (a, b, c, d) => [SetMatrix F a b c d zero zero] | None => [] end.
  (** watermark.go:39-130; an error leaves what was already written *)
  Definition AddWatermark (o : watermark) (pb : page_builder) (w : writer) : result (bool * page_builder * writer) :=
    match wmColor o with
    | None => Panic
    | Some c =>
        let pb := calls (watermark_head o c) pb in
        match wmImage o with
        | (_ :: _) as name =>
            if existsb (fun e => bytes_eqb (fst e) name) (pbImages pb) then
              Ok (true, calls [Translate F (fst (wmImageMove o)) (snd (wmImageMove o));
                               Scale F (fst (wmImageScale o)) (snd (wmImageScale o));
                               DrawImage F name; RestoreState F] pb, w)
            else Ok (false, pb, w)
        | [] =>
            match wmText o with
            | [] => Ok (false, pb, w)
            | _ =>
                match AddStandardFont (wmFont o) pb w with
                | (r, pb, w) =>
                    Ok (true, calls [BeginText F; SetFont F r (wmSize o);
                                     SetTextPosition F (fst (wmTextPos o)) (snd (wmTextPos o));
                                     ShowText F (wmText o); EndText F; RestoreState F] pb, w)
                end
            end
        end
    end.
End watermark.

(* ---------------------------------------------------------------- *)
(** image.go *)

Definition at_ (s : bytes) (i : nat) : N := b2n (nth i s x00).
Definition be16 (s : bytes) (i : nat) : Z := Z.of_N (256 * at_ s i + at_ s (i + 1)).
Definition color_space (components : N) : bytes :=
  if (components =? 1)%N then bs "/DeviceGray"
  else if (components =? 4)%N then bs "/DeviceCMYK" else bs "/DeviceRGB".
(** image.go:168-223, the loop; [pos] advances in every iteration, so [fuel]
    (the number of bytes) is not a limit. *)
Fixpoint jpeg_loop (fuel : nat) (s : bytes) (pos : nat) : result (Z * Z * bytes) :=
  match fuel with
  | O => Err
  | S k =>
      if (length s - 1 <=? pos)%nat then Err
      else if negb (at_ s pos =? 255)%N then jpeg_loop k s (pos + 1)
      else
        let marker := at_ s (pos + 1) in
        let pos := (pos + 2)%nat in
        if (marker =? 255)%N then jpeg_loop k s pos
        else if ((192 <=? marker) && (marker <=? 195))%N then
          if (length s <? pos + 7)%nat then Err
          else if (length s <=? pos + 7)%nat then Panic        (* data[pos+7] *)
          else Ok (be16 s (pos + 5), be16 s (pos + 3), color_space (at_ s (pos + 7)))
        else if (length s <=? pos + 1)%nat then Err
        else jpeg_loop k s (pos + Z.to_nat (be16 s pos))
  end.
(** image.go:168-223: width, height, colour space *)
Definition parseJPEGHeader (s : bytes) : result (Z * Z * bytes) :=
  if (length s <? 2)%nat || negb (at_ s 0 =? 255)%N || negb (at_ s 1 =? 216)%N then Err
  else jpeg_loop (length s) s 2.

(** image.go:28-63: the number, width, height, colour space and the writer *)
Definition jpeg_dict (width height : Z) (cs data : bytes) : dict :=
  [(bs "Type", VStr (bs "/XObject")); (bs "Subtype", VStr (bs "/Image")); (bs "Width", VInt width);
   (bs "Height", VInt height); (bs "ColorSpace", VStr cs); (bs "BitsPerComponent", VInt 8);
   (bs "Filter", VStr (bs "/DCTDecode")); (bs "Length", VInt (Z.of_nat (length data)))].
Definition AddJPEGImage (data : bytes) (w : writer) : result (Z * (Z * Z * bytes) * writer) :=
  rbind (parseJPEGHeader data) (fun r =>
  match r with (width, height, cs) =>
    let a := fresh (dicts w) in
    let n := nextObjNum w in
    Ok (n, r, set_next (set_dicts (set_objects w (mset n (mkObj None (Some data) (Some a)) (objects w)))
                          (mset a (jpeg_dict width height cs data) (dicts w))) (n + 1))
  end).

(** image.go:66-148 after image.Decode, for a format other than JPEG: what the
    decoder and the color models of the Go library return is given.  [imGray]
    is the first case of the switch at 92, [imAlpha] the switch at 86,
    [imColor x y] are the four 16-bit values of RGBA() at the pixel and
    [imLuma x y] the result of GrayModel.Convert, both counted from the upper
    left corner. *)
Record picture := mkPic {
  imWidth : nat; imHeight : nat; imGray : bool; imAlpha : bool;
  imColor : nat -> nat -> N * N * N * N; imLuma : nat -> nat -> byte
}.
(** uint8(v >> 8) *)
Definition high_byte (v : N) : byte := n2b (v / 256).
(** The two nested loops: rows, then columns. *)
Definition raster (w h : nat) (f : nat -> nat -> bytes) : bytes :=
  flat_map (fun y => flat_map (fun x => f x y) (seq 0 w)) (seq 0 h).
Definition rgb_bytes (c : N * N * N * N) : bytes := match c with (r, g, b, _) => [high_byte r; high_byte g; high_byte b] end.
Definition alpha_byte (c : N * N * N * N) : bytes := match c with (_, _, _, a) => [high_byte a] end.
Definition pixel_data (p : picture) : bytes :=
  if imGray p then raster (imWidth p) (imHeight p) (fun x y => [imLuma p x y])
  else raster (imWidth p) (imHeight p) (fun x y => rgb_bytes (imColor p x y)).
Definition picture_dict (p : picture) (cs : bytes) : dict :=
  [(bs "Type", VStr (bs "/XObject")); (bs "Subtype", VStr (bs "/Image"));
   (bs "Width", VInt (Z.of_nat (imWidth p))); (bs "Height", VInt (Z.of_nat (imHeight p)));
   (bs "ColorSpace", VStr cs); (bs "BitsPerComponent", VInt 8)].
Definition AddImage (deflate : bytes -> bytes) (p : picture) (w : writer) : Z * writer :=
  let cs := if imGray p then bs "/DeviceGray" else bs "/DeviceRGB" in
  let a := fresh (dicts w) in
  let (n, w) := add_stream deflate (picture_dict p cs) (Some (pixel_data p)) true w in
  if imAlpha p then
    let mask := raster (imWidth p) (imHeight p) (fun x y => alpha_byte (imColor p x y)) in
    let (m, w) := add_stream deflate (picture_dict p (bs "/DeviceGray")) (Some mask) true w in
    match mget a (dicts w) with
    | Some d => (n, set_dicts w (mset a (kset (bs "SMask") (VStr (ref m)) d) (dicts w)))
    | None => (n, w)      (* not reachable: the map was stored above *)
    end
  else (n, w).
