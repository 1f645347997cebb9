(** Small specifications for reading bookmarks, annotations, resources and
    images of a document, and for the output directory. *)
From Verif Require Import MarksModel ManipSpec PageModel ParseSpec.
From Verif Require PageSpec XPagesSpec WriterSpec.
Local Open Scope Z_scope.

(* ---------------------------------------------------------------- *)
(** [says t key v]: the dictionary text [t] gives [key] the one-word value [v]
    (for a reference, its object number); [""] stands for no such key. *)
Definition says (t key v : bytes) : Prop :=
  match v with
  | [] => contains key t = false
  | _ => exists a w b, t = a ++ key ++ w ++ v ++ b /\ contains key a = false /\ gap w /\ word v /\ word_ends b
  end.
(** the number of an object, when there is one *)
Definition number_text (o : option Z) : bytes := match o with Some n => decZ n | None => [] end.
Definition number_ok (o : option Z) : Prop := match o with Some n => 0 <= n < 2 ^ 63 | None => True end.
(** text without escapes *)
Definition unescaped (v : bytes) : Prop := ~ In "\"%byte v.

(** An outline: objects, and what they say.  [uri] is that of the action. *)
Inductive outline := Item (n : Z) (title dest : bytes) (action : option Z) (uri : bytes) (kids : list outline).
Definition item_num (i : outline) : Z := match i with Item n _ _ _ _ _ => n end.
Definition first_of (l : list outline) : option Z := match l with [] => None | i :: _ => Some (item_num i) end.
(** The objects of [l] are in the file, linked in order. *)
Inductive has_items (get : Z -> result bytes) : list outline -> Prop :=
| HasNone : has_items get []
| HasItem n title dest action uri kids rest t :
    0 <= n < 2 ^ 63 -> get n = Ok t ->
    says t (bs "/Title") title -> unescaped title -> says t (bs "/Dest") dest ->
    (dest = [] -> says t (bs "/A") (number_text action) /\ number_ok action /\
       match action with Some a => exists x, get a = Ok x /\ says x (bs "/URI") uri /\ unescaped uri | None => uri = [] end) ->
    says t (bs "/First") (number_text (first_of kids)) -> says t (bs "/Next") (number_text (first_of rest)) ->
    has_items get kids -> has_items get rest ->
    has_items get (Item n title dest action uri kids :: rest).
(** What should be read; a destination hides the action. *)
Fixpoint marks_of (i : outline) : xmark :=
  match i with Item _ title dest _ uri kids => XMark title dest (match dest with [] => uri | _ => [] end) (map marks_of kids) end.
Fixpoint items_in (i : outline) : nat := match i with Item _ _ _ _ _ kids => S (fold_right (fun k s => items_in k + s) 0 kids)%nat end.
Definition total_items (l : list outline) : nat := fold_right (fun k s => items_in k + s)%nat 0%nat l.

(** Bookmarks as pdfer writes them and reads them again. *)
Definition title_byte (b : byte) : bool :=
  ((33 <=? b2n b) && (b2n b <=? 126))%N && negb (beqb b "\" || beqb b "(" || beqb b ")" || beqb b "<" || beqb b ">" || beqb b "/").
Definition dest_word (d : bytes) : Prop :=
  d = [] \/ (exists n, d = "/"%byte :: n /\ forallb title_byte n = true /\
    existsb (fun k => prefixb (bs k) n) ["Title"; "Dest"; "First"; "Next"]%string = false) \/ forallb title_byte d = true.
Fixpoint mark_plain (b : bookmark) : Prop :=
  match b with
  | Bookmark title _ dest uri kids =>
      forallb title_byte title = true /\ dest_word dest /\ fold_right (fun k P => mark_plain k /\ P) True kids
  end.
(** the first word of what stands in the file *)
Definition dest_seen (pages : zmap Z) (page : Z) (dest : bytes) : bytes :=
  if 0 <? page then match mget page pages with Some n => bs "([" ++ decZ n | None => [] end
  else match dest with [] => [] | _ => PageSpec.written_string dest end.
Fixpoint mark_seen (pages : zmap Z) (b : bookmark) : xmark :=
  match b with
  | Bookmark title page dest uri kids =>
      XMark (bs "((" ++ title ++ bs "))") (dest_seen pages page dest)
        (match dest_seen pages page dest, uri with [], _ :: _ => bs "/Type" | _, _ => [] end) (map (mark_seen pages) kids)
  end.
(** the tree of titles alone *)
Inductive titles := Titles (t : bytes) (kids : list titles).
Fixpoint shape_of_bookmark (b : bookmark) : titles := match b with Bookmark t _ _ _ kids => Titles t (map shape_of_bookmark kids) end.
Fixpoint shape_of_mark (m : xmark) : titles := match m with XMark t _ _ kids => Titles t (map shape_of_mark kids) end.
Fixpoint bracketed (t : titles) : titles := match t with Titles t kids => Titles (bs "((" ++ t ++ bs "))") (map bracketed kids) end.
(** [get] reads the objects that were added to [w] to make [w']. *)
Definition reads_added (get : Z -> result bytes) (w w' : writer) : Prop :=
  forall n t, nextObjNum w <= n < nextObjNum w' -> WGetObject n w' = Ok t -> get n = Ok (object_text n t).

(* ---------------------------------------------------------------- *)
(** Annotations. *)
(** [t] gives [key] an array of numbers. *)
Definition array_says (parse_float : bytes -> option float) (t key : bytes) (l : list float) : Prop :=
  l <> [] /\ exists a g ws b, t = a ++ key ++ g ++ bs "[" ++ flat_map (fun w => w ++ bs " ") ws ++ bs "]" ++ b /\
    contains key a = false /\ forallb space_byte g = true /\
    Forall2 (fun w x => XPagesSpec.numeral w /\ parse_float w = Some x) ws l.
(** The names of PDF 32000-1 table 169 that are known, each reported in lower case; any other subtype is reported as it is written. *)
Definition annotation_names : list bytes :=
  [bs "Link"; bs "Text"; bs "Highlight"; bs "Underline"; bs "StrikeOut"; bs "Squiggly"; bs "Circle"; bs "Square"; bs "Line"; bs "Polygon";
   bs "Polyline"; bs "Ink"; bs "Stamp"; bs "Caret"; bs "FreeText"; bs "Popup"].
Definition lower_byte (b : byte) : byte := if (Byte.to_N "A" <=? Byte.to_N b)%N && (Byte.to_N b <=? Byte.to_N "Z")%N
  then match Byte.of_N (Byte.to_N b + 32) with Some c => c | None => b end else b.
Definition type_named (subtype ty : bytes) : Prop :=
  (exists nm, In nm annotation_names /\ subtype = bs "/" ++ nm /\ ty = map lower_byte nm) \/
  ((forall nm, In nm annotation_names -> subtype <> bs "/" ++ nm) /\ (subtype = bs "/" ++ ty \/ (prefixb (bs "/") subtype = false /\ ty = subtype))).
(** The annotation object [t], read as number [n] of page [page]. *)
Definition annot_says (parse_float : bytes -> option float) (n page : Z) (t : bytes) (a : xannot) : Prop :=
  xaID a = decZ n /\ xaPage a = page /\
  (forall st, says t (bs "/Subtype") st -> type_named st (xaType a)) /\
  (forall l, array_says parse_float t (bs "/Rect") l -> xaRect a = match l with a :: b :: c :: d :: _ => Some [a; b; c; d] | _ => None end) /\
  (forall v, says t (bs "/Contents") v -> unescaped v -> xaContents a = v) /\
  (forall v, says t (bs "/T") v -> unescaped v -> xaTitle a = v) /\
  (forall v, says t (bs "/Subj") v -> unescaped v -> xaSubject a = v) /\
  (forall r g b, array_says parse_float t (bs "/C") [r; g; b] -> xaColor a = Some (mkXC (bs "rgb") [r; g; b] None)) /\
  (forall c m y k, array_says parse_float t (bs "/C") [c; m; y; k] -> xaColor a = Some (mkXC (bs "cmyk") [c; m; y] (Some [c; m; y; k]))) /\
  (forall u, xaType a = bs "link" -> says t (bs "/URI") (bs "(" ++ u ++ bs ")") -> unescaped u -> xaURI a = u) /\
  (forall v, xaType a = bs "link" -> says t (bs "/Dest") v -> xaDest a = v) /\
  (forall v, xaType a = bs "text" -> says t (bs "/Name") v -> xaIcon a = v) /\
  (xaType a = bs "text" -> says t (bs "/Open") (bs "true") -> xaOpen a = true) /\
  (forall x1 y1 x2 y2 x3 y3 x4 y4, In (xaType a) [bs "highlight"; bs "underline"; bs "strikeout"; bs "squiggly"] ->
     array_says parse_float t (bs "/QuadPoints") [x1; y1; x2; y2; x3; y3; x4; y4] -> xaQuad a = [(x1, y1); (x2, y2); (x3, y3); (x4, y4)]).
(** Objects that can be read as annotations: they have a subtype, and no URI or
    one in parentheses without white space. *)
Definition annot_object (t : bytes) : Prop :=
  exists st, st <> [] /\ says t (bs "/Subtype") st /\ (says t (bs "/URI") [] \/ exists u, says t (bs "/URI") (bs "(" ++ u ++ bs ")")).
Definition is_ok {A} (r : result A) : bool := match r with Ok _ => true | _ => false end.

(* ---------------------------------------------------------------- *)
(** Resources: [kept l m]: [m] has each name of [l] once, with the first value. *)
Fixpoint first_value {A} (k : bytes) (l : list (bytes * A)) : option A :=
  match l with [] => None | (k', v) :: l' => if bytes_eqb k k' then Some v else first_value k l' end.
Definition kept {A} (l m : list (bytes * A)) : Prop :=
  NoDup (map fst m) /\ (forall k, kget k m = first_value k l).
Definition of_pages {A} (f : MarksModel.resources -> list (bytes * A)) (pages : list fpage) : list (bytes * A) :=
  flat_map (fun p => match fpResources p with Some r => f r | None => [] end) pages.

(* ---------------------------------------------------------------- *)
(** Images. *)
(** An image object: a dictionary without the word "stream", its stream with a
    /Length, an end-of-line before the data. *)
Definition end_of_line (e data : bytes) : Prop := e = [x0a] \/ e = [x0d; x0a] \/ (e = [x0d] /\ starts_with (beqb x0a) data = false).
Definition image_stream_of (t data : bytes) : Prop :=
  exists d e rest, t = d ++ bs "stream" ++ e ++ data ++ rest /\ (exists x c, d = x ++ [c] /\ space_byte c = true /\ contains (bs "stream") x = false) /\ end_of_line e data /\ data <> [] /\ flen t < 2 ^ 63 /\
    exists a g b, d = a ++ bs "/Length" ++ g ++ decZ (flen data) ++ b /\ contains (bs "/Length") a = false /\ gap g /\ starts_with is_digit b = false.
(** The formats by filter name. *)
Definition filter_formats : list (bytes * bytes) :=
  [(bs "/DCTDecode", bs "jpeg"); (bs "/FlateDecode", bs "png"); (bs "/CCITTFaxDecode", bs "tiff"); (bs "/JPXDecode", bs "jpeg2000"); ([], [])].
(** [get] reads what the writer stores, streams included. *)
Definition reads_stored (get : Z -> result bytes) (w : writer) : Prop :=
  forall n t, WriterSpec.stored_text w n t -> get n = Ok (object_text n t).
