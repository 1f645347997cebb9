(** Small specifications for pages, bookmarks, watermarks and images, stated on
    the objects a client finds in the writer (or in the file). *)
From Verif Require Import PageModel TextSpec.
Local Open Scope Z_scope.

Definition if_some {A} (o : option A) (f : A -> bytes) : bytes := match o with Some a => f a | None => [] end.
Definition ref_entry (key : bytes) (n : Z) : bytes := key ++ bs " " ++ ref n ++ bs " ".

(* ---------------------------------------------------------------- *)
(** Outlines *)

(** Where the objects of a bookmark are: its item, its action if it has one,
    and those of its children. *)
Inductive placed := Placed (num : Z) (action : option Z) (kids : list placed).
Definition place_num (p : placed) : Z := match p with Placed n _ _ => n end.
Fixpoint place_nums (p : placed) : list Z :=
  match p with
  | Placed n a ps => match a with Some m => [m] | None => [] end ++ n :: flat_map place_nums ps
  end.

(** The number of bookmarks in a forest. *)
Fixpoint bookmarks_below (b : bookmark) : Z :=
  match b with Bookmark _ _ _ _ l => fold_right (fun k s => 1 + bookmarks_below k + s) 0 l end.
Definition bookmarks_in (l : list bookmark) : Z := fold_right (fun k s => 1 + bookmarks_below k + s) 0 l.

(** How a destination is written: as a string, unless it starts like a name or
    ends like a reference. *)
Definition written_string (s : bytes) : bytes :=
  if prefixb (bs "/") s || suffixb (bs " R") s then s else bs "(" ++ s ++ bs ")".
Definition dest_entry (pages : zmap Z) (page : Z) (dest : bytes) : bytes :=
  if 0 <? page then
    if_some (mget page pages) (fun n => bs "/Dest ([" ++ ref n ++ bs " /XYZ 0 792 null]) ")
  else match dest with [] => [] | _ => bs "/Dest " ++ written_string dest ++ bs " " end.

Definition last_num (ps : list placed) : option Z := option_map place_num (nth_error ps (length ps - 1)).
Definition first_num (ps : list placed) : option Z := option_map place_num (nth_error ps 0).
Definition count_entry (kids : list bookmark) : bytes :=
  match kids with [] => [] | _ => bs "/Count " ++ decZ (bookmarks_in kids) ++ bs " " end.

(** The dictionary of an item. *)
Definition item_text (pages : zmap Z) (parent prev next : option Z) (b : bookmark) (p : placed) : bytes :=
  match b, p with
  | Bookmark title page dest uri kids, Placed n action ps =>
      bs "<<" ++
      if_some action (ref_entry (bs "/A")) ++
      count_entry kids ++
      dest_entry pages page dest ++
      if_some (first_num ps) (ref_entry (bs "/First")) ++
      if_some (last_num ps) (ref_entry (bs "/Last")) ++
      if_some parent (ref_entry (bs "/Parent")) ++
      if_some prev (ref_entry (bs "/Prev")) ++
      bs "/Title ((" ++ escapePDFString title ++ bs ")) " ++
      if_some next (ref_entry (bs "/Next")) ++
      bs ">>"
  end.
(** The action of a bookmark with a URI. *)
Definition action_ok (w : writer) (uri : bytes) (action : option Z) : Prop :=
  match uri, action with
  | [], None => True
  | _ :: _, Some m => WGetObject m w = Ok (bs "<</S /URI /Type /Action /URI ((" ++ escapePDFString uri ++ bs ")) >>")
  | _, _ => False
  end.

(** The writer holds the outline items of a bookmark / of a list of siblings. *)
Inductive item_ok (w : writer) (pages : zmap Z) : option Z -> option Z -> option Z -> bookmark -> placed -> Prop :=
| ItemOk parent prev next title page dest uri kids n action ps :
    let b := Bookmark title page dest uri kids in
    let p := Placed n action ps in
    WGetObject n w = Ok (item_text pages parent prev next b p) ->
    action_ok w uri action ->
    siblings_ok w pages (Some n) None kids ps ->
    item_ok w pages parent prev next b p
with siblings_ok (w : writer) (pages : zmap Z) : option Z -> option Z -> list bookmark -> list placed -> Prop :=
| NoItems parent prev : siblings_ok w pages parent prev [] []
| MoreItems parent prev b bs p ps :
    item_ok w pages parent prev (first_num ps) b p ->
    siblings_ok w pages parent (Some (place_num p)) bs ps ->
    siblings_ok w pages parent prev (b :: bs) (p :: ps).

Definition outlines_text (count first last : Z) : bytes :=
  bs "<</Count " ++ decZ count ++ bs " /First " ++ ref first ++ bs " /Last " ++ ref last ++ bs " /Type /Outlines >>".

(* ---------------------------------------------------------------- *)
(** Pages *)

(** A client's use of a SimplePDFBuilder.  Page builders are numbered in the
    order of their creation; several can be in use at the same time. *)
Inductive bcall :=
| BPage (width height : bytes)                        (* AddPage *)
| BFont (page : nat) (name : bytes)                   (* AddStandardFont *)
| BEmbedded (page : nat) (name : bytes) (num : Z)     (* AddEmbeddedFont, its last step *)
| BImage (page : nat) (name : bytes) (num : Z)        (* AddImage *)
| BContent (page : nat) (text : bytes)                (* any call on Content() *)
| BFinalize (page : nat)                              (* FinalizePage *)
| BObject (text : bytes)                              (* Writer().AddObject *)
| BStream (d : dict) (data : option bytes) (compress : bool)   (* Writer().AddStreamObject *)
| BBookmarks (l : list bookmark).                     (* SetBookmarks *)

(** The builder, the page builders, and the finalised pages in order. *)
Record session := mkSession { ssBuilder : builder; ssOpen : list page_builder; ssDone : list page_builder }.
Definition new_session : session := mkSession NewSimplePDFBuilder [] [].
Definition with_writer (w : writer) (b : builder) : builder := mkBuilder w (sbPages b) (sbPagesNum b).
Fixpoint replace_nth {A} (i : nat) (a : A) (l : list A) : list A :=
  match l, i with [], _ => [] | _ :: l', O => a :: l' | x :: l', S k => x :: replace_nth k a l' end.

Definition do_bcall (deflate : bytes -> bytes) (ord : list (bytes * Z) -> list (bytes * Z)) (c : bcall) (s : session)
  : session :=
  let b := ssBuilder s in
  let at_page i (f : page_builder -> session) := match nth_error (ssOpen s) i with Some pb => f pb | None => s end in
  let edit i pb w := mkSession (with_writer w b) (replace_nth i pb (ssOpen s)) (ssDone s) in
  match c with
  | BPage width height => mkSession b (ssOpen s ++ [NewPageBuilder width height]) (ssDone s)
  | BFont i name => at_page i (fun pb => match AddStandardFont name pb (sbWriter b) with (_, pb, w) => edit i pb w end)
  | BEmbedded i name num => at_page i (fun pb => edit i (snd (add_embedded name num pb)) (sbWriter b))
  | BImage i name num => at_page i (fun pb => edit i (snd (PAddImage name num pb)) (sbWriter b))
  | BContent i t => at_page i (fun pb => edit i (append_content t pb) (sbWriter b))
  | BFinalize i => at_page i (fun pb => mkSession (FinalizePage deflate ord pb b) (ssOpen s) (ssDone s ++ [pb]))
  | BObject t => mkSession (with_writer (snd (AddObject (Some t) (sbWriter b))) b) (ssOpen s) (ssDone s)
  | BStream d data cmp => mkSession (with_writer (snd (add_stream deflate d data cmp (sbWriter b))) b) (ssOpen s) (ssDone s)
  | BBookmarks l => mkSession (SSetBookmarks l b) (ssOpen s) (ssDone s)
  end.
Definition do_bcalls deflate ord (cs : list bcall) : session :=
  fold_left (fun s c => do_bcall deflate ord c s) cs new_session.

(** An iteration of a map visits every entry once. *)
Definition is_map_order (ord : list (bytes * Z) -> list (bytes * Z)) : Prop := forall l, Permutation (ord l) l.

(** The resources of a page: the entries of the two maps in some order. *)
Definition entries_text (l : list (bytes * Z)) : bytes :=
  flat_map (fun e => bs "/" ++ fst e ++ bs " " ++ decZ (snd e) ++ bs " 0 R") l.
Definition group_of (key : bytes) (l : list (bytes * Z)) : bytes :=
  match l with [] => [] | _ => key ++ bs "<<" ++ entries_text l ++ bs ">>" end.
Definition page_text (parent contents : Z) (width height : bytes) (fonts images : list (bytes * Z)) : bytes :=
  bs "<</Type/Page/Parent " ++ decZ parent ++ bs " 0 R/MediaBox[0 0 " ++ width ++ bs " " ++ height ++
  bs "]/Contents " ++ decZ contents ++ bs " 0 R/Resources<<" ++ group_of (bs "/Font") fonts ++
  group_of (bs "/XObject") images ++ bs ">>>>".
(** Object [c] is the content stream: what was drawn, compressed. *)
Definition content_object (deflate : bytes -> bytes) (w : writer) (c : Z) (content : bytes) : Prop :=
  exists a, match content with
  | [] => mget c (objects w) = Some (mkObj None None (Some a)) /\
          mget a (dicts w) = Some [(bs "Length", VInt 0)]
  | _ => mget c (objects w) = Some (mkObj None (Some (deflate content)) (Some a)) /\
         mget a (dicts w) = Some [(bs "Filter", VStr (bs "/FlateDecode"));
                                  (bs "Length", VInt (Z.of_nat (length (deflate content))))]
  end.
(** Object [n] is stored with the text [t]. *)
Definition text_object (w : writer) (n : Z) (t : bytes) : Prop := mget n (objects w) = Some (mkObj (Some t) None None).
(** Object [n] is the page made from [pb]. *)
Definition page_object (deflate : bytes -> bytes) (w : writer) (parent : Z) (pb : page_builder) (n : Z) : Prop :=
  exists c fonts images,
    Permutation fonts (pbFonts pb) /\ Permutation images (pbImages pb) /\
    text_object w n (page_text parent c (pbWidth pb) (pbHeight pb) fonts images) /\
    0 < c < nextObjNum w /\ content_object deflate w c (pbContent pb).
Definition kids_text (pages : list Z) : bytes :=
  bs "<</Type/Pages/Kids[" ++ flat_map (fun n => decZ n ++ bs " 0 R ") pages ++ bs "]/Count " ++
  decZ (Z.of_nat (length pages)) ++ bs ">>".

(* ---------------------------------------------------------------- *)
(** JPEG files (ITU T.81, B.1): SOI, segments, frame header *)

(** A marker segment that is not a frame header: marker code, contents. *)
Definition segment_ok (seg : N * bytes) : Prop :=
  (fst seg < 256)%N /\ fst seg <> 255%N /\ ~ (192 <= fst seg <= 195)%N /\ Z.of_nat (length (snd seg)) + 2 < 65536.
Definition two_bytes (n : N) : bytes := [n2b (n / 256); n2b n].
Definition segment_bytes (seg : N * bytes) : bytes :=
  [xff; n2b (fst seg)] ++ two_bytes (N.of_nat (length (snd seg) + 2)) ++ snd seg.
(** The frame header of types C0 to C3: length, precision, height, width,
    number of components, and the rest. *)
Definition frame_header (code : N) (len precision : bytes) (height width components : N) (rest : bytes) : bytes :=
  [xff; n2b code] ++ len ++ precision ++ two_bytes height ++ two_bytes width ++ [n2b components] ++ rest.
Definition jpeg_file (segs : list (N * bytes)) (frame : bytes) : bytes :=
  [xff; xd8] ++ flat_map segment_bytes segs ++ frame.
Definition space_of (components : N) : bytes :=
  match components with 1%N => bs "/DeviceGray" | 4%N => bs "/DeviceCMYK" | _ => bs "/DeviceRGB" end.

(* ---------------------------------------------------------------- *)
(** Resource names *)

(** Standard fonts added one after the other: the names returned. *)
Fixpoint add_fonts (names : list bytes) (pb : page_builder) (w : writer) : list bytes * page_builder * writer :=
  match names with
  | [] => ([], pb, w)
  | n :: ns =>
      match AddStandardFont n pb w with
      | (r, pb, w) => match add_fonts ns pb w with (rs, pb, w) => (r :: rs, pb, w) end
      end
  end.
(** Not one of the names F0, F1, ... that the library hands out. *)
Definition no_resource_name (n : bytes) : Prop := forall k, n <> bs "F" ++ decZ k.
Definition standard_font_text (name : bytes) : bytes := bs "<</Type/Font/Subtype/Type1/BaseFont/" ++ name ++ bs ">>".
(** The resource [r] (with its slash) of the page is the font [name]. *)
Definition font_resource (pb : page_builder) (w : writer) (name r : bytes) : Prop :=
  exists f num, r = bs "/" ++ f /\ kget f (pbFonts pb) = Some num /\ WGetObject num w = Ok (standard_font_text name).
(** Images added one after the other. *)
Fixpoint add_images (l : list (bytes * Z)) (pb : page_builder) : list bytes * page_builder :=
  match l with
  | [] => ([], pb)
  | (n, num) :: l' =>
      let (r, pb) := PAddImage n num pb in let (rs, pb) := add_images l' pb in (r :: rs, pb)
  end.

(* ---------------------------------------------------------------- *)
(** Pictures *)

(** An image object: its data and its dictionary. *)
Definition image_object (deflate : bytes -> bytes) (w : writer) (n : Z) (width height : nat) (space data : bytes)
  (mask : option Z) : Prop :=
  exists a d, mget n (objects w) = Some (mkObj None (Some (deflate data)) (Some a)) /\ mget a (dicts w) = Some d /\
    kget (bs "Type") d = Some (VStr (bs "/XObject")) /\ kget (bs "Subtype") d = Some (VStr (bs "/Image")) /\
    kget (bs "Width") d = Some (VInt (Z.of_nat width)) /\ kget (bs "Height") d = Some (VInt (Z.of_nat height)) /\
    kget (bs "ColorSpace") d = Some (VStr space) /\ kget (bs "BitsPerComponent") d = Some (VInt 8) /\
    kget (bs "Filter") d = Some (VStr (bs "/FlateDecode")) /\
    kget (bs "Length") d = Some (VInt (Z.of_nat (length (deflate data)))) /\
    kget (bs "SMask") d = option_map (fun m => VStr (decZ m ++ bs " 0 R")) mask.
(** Sample [i] of [k] of pixel (x, y), rows from the top. *)
Definition sample (data : bytes) (width k x y i : nat) : option byte := nth_error data ((y * width + x) * k + i).
Definition component (c : N * N * N * N) (i : nat) : N :=
  match c, i with (r, _, _, _), 0%nat => r | (_, g, _, _), 1%nat => g | (_, _, b, _), 2%nat => b | (_, _, _, a), _ => a end.
(** What Go's RGBA() returns for a colour with straight (not premultiplied)
    8-bit components, color.NRGBA. *)
Definition straight (r g b a : N) : N * N * N * N :=
  let s v := (257 * v * (257 * a) / 65535)%N in (s r, s g, s b, (257 * a)%N).

(** The samples of a pixel, and their colour space. *)
Definition channels (p : picture) : nat := if imGray p then 1%nat else 3%nat.
Definition space_of_picture (p : picture) : bytes := if imGray p then bs "/DeviceGray" else bs "/DeviceRGB".

(** All fonts of the page came from AddStandardFont. *)
Definition named_fonts (pb : page_builder) : Prop :=
  map fst (pbFonts pb) = map (fun i => bs "F" ++ decZ (Z.of_nat i)) (seq 1 (length (pbFonts pb))).

Definition same_page (pb pb' : page_builder) : Prop :=
  pbWidth pb' = pbWidth pb /\ pbHeight pb' = pbHeight pb /\ pbImages pb' = pbImages pb.


(** Nothing that was there is changed. *)
Definition extends (w w' : writer) : Prop :=
  nextObjNum w <= nextObjNum w' /\
  (forall m, m < nextObjNum w -> mget m (objects w') = mget m (objects w)) /\
  (forall a x, mget a (dicts w) = Some x -> mget a (dicts w') = Some x).
