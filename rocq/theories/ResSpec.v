(** What a user expects of the resources of a page: its fonts and images. *)
From Verif Require Import MarksModel MarksSpec ManipSpec PageSpec XPagesSpec.
Local Open Scope Z_scope.

(** [gives t key v]: as [says], or a name that stands right behind the key. *)
Definition gives (t key v : bytes) : Prop :=
  says t key v \/
  exists a nm b, t = a ++ key ++ "/"%byte :: nm ++ b /\ v = "/"%byte :: nm /\ sole key a b /\ name_word nm /\ name_ends b /\ prefixb key v = false.
(** The family of a font: its name up to the hyphen *)
Definition family_of (nm fam : bytes) : Prop :=
  exists r, nm = fam ++ r /\ ~ In "-"%byte fam /\ match r with [] => True | b :: _ => b = "-"%byte end.
(** Object [n] is the font [f]; its descriptor, if it has one, may embed a file
    and name the family. *)
Definition font_object (get : Z -> result bytes) (n : Z) (f : font_info) : Prop :=
  exists t nm fam desc, get n = Ok t /\ gives t (bs "/BaseFont") (fiName f) /\ fiName f = "/"%byte :: nm /\ family_of nm fam /\
    gives t (bs "/Subtype") (fiSubtype f) /\ (exists st, fiSubtype f = "/"%byte :: st) /\ gives t (bs "/Encoding") (fiEncoding f) /\
    fiToUnicode f = contains (bs "/ToUnicode") t /\ says t (bs "/FontDescriptor") (number_text desc) /\ number_ok desc /\
    match desc with
    | None => fiEmbedded f = contains (bs "/FontFile") t /\ fiFamily f = fam
    | Some d => exists x own, get d = Ok x /\ gives x (bs "/FontFamily") own /\
        fiEmbedded f = contains (bs "/FontFile") t || contains (bs "/FontFile") x /\ fiFamily f = match own with [] => fam | _ => own end
    end.
(** Object [n] is an image of [w] by [h], or some other external object. *)
Inductive external := Picture (w h : Z) | Other (subtype : bytes).
Definition external_object (parse_float : bytes -> option float) (to_int : float -> Z) (get : Z -> result bytes) (n : Z) (x : external) : Prop :=
  exists t, get n = Ok t /\
    match x with
    | Picture w h => gives t (bs "/Subtype") (bs "/Image") /\
        exists tw th fw fh, tw <> [] /\ th <> [] /\ says t (bs "/Width") tw /\ says t (bs "/Height") th /\
          parse_float tw = Some fw /\ parse_float th = Some fh /\ to_int fw = w /\ to_int fh = h
    | Other st => st <> [] /\ gives t (bs "/Subtype") st /\ st <> bs "/Image"
    end.
(** The fonts and external objects a page names *)
Definition resource_names (l : list (bytes * Z)) : Prop :=
  NoDup (map fst l) /\ Forall (fun e => name_free (fst e) /\ prefixb (bs "XObject") (fst e) = false /\ 0 <= snd e < 2 ^ 63) l.
(** What the resources of the page should say *)
Definition fonts_known (get : Z -> result bytes) (l : list (bytes * Z)) (m : list (bytes * font_info)) : Prop :=
  map fst m = map fst l /\ forall k n, In (k, n) l -> exists f, kget k m = Some f /\ fiID f = bs "/" ++ k /\ font_object get n f.
Definition picture_known (parse_float : bytes -> option float) (to_int : float -> Z) (get : Z -> result bytes) (l : list (bytes * Z)) (m : list (bytes * ximage)) : Prop :=
  (forall k, ~ In k (map fst l) -> kget k m = None) /\
  forall k n x, In (k, n) l -> external_object parse_float to_int get n x ->
    match x with
    | Picture w h => exists i, kget k m = Some i /\ xiID i = bs "/" ++ k /\ xiWidth i = w /\ xiHeight i = h
    | Other _ => kget k m = None
    end.
Definition externals_known (get : Z -> result bytes) (l : list (bytes * Z)) (m : list (bytes * xobject)) : Prop :=
  map fst m = map fst l /\ forall k n, In (k, n) l -> exists x t, kget k m = Some x /\ xoID x = bs "/" ++ k /\ get n = Ok t /\ gives t (bs "/Subtype") (xoSubtype x).
(** The name of a standard font as AddStandardFont writes it *)
Definition standard_name (nm : bytes) : Prop :=
  name_word nm /\ ~ In ">"%byte nm /\ ~ In "<"%byte nm /\
  existsb (fun k => prefixb k nm) [bs "BaseFont"; bs "Subtype"; bs "Encoding"; bs "ToUnicode"; bs "FontDescriptor"; bs "FontFile"] = false.
(** The page object, its resources and the rest *)
Definition page_resources_known (parse_float : bytes -> option float) (to_int : float -> Z) (get : Z -> result bytes) (fonts images : list (bytes * Z)) (p : fpage) : Prop :=
  exists r, fpResources p = Some r /\ fonts_known get fonts (xrFonts r) /\ externals_known get images (xrObjects r) /\ picture_known parse_float to_int get images (xrImages r).
