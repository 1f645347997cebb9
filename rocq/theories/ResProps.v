(** C105: the fonts and images of a page. *)
From Verif Require Import MarksModel MarksSpec ManipSpec PageSpec PageModel XPagesSpec ParseSpec ResSpec ResProofs XPagesProofs2.
From Verif Require XPagesProps.
Local Open Scope Z_scope.

(** The resources of a page are exactly its fonts and external objects, each
    with what its object says; the images are the external objects that are
    images, with their sizes. *)
Theorem C105_resources_partial : forall parse_float to_int get fonts images, resource_names fonts -> resource_names images ->
  (forall e, In e fonts -> exists f, font_object get (snd e) f) -> (forall e, In e images -> exists x, external_object parse_float to_int get (snd e) x) ->
  exists r, extractResources parse_float to_int get (group_of (bs "/Font") fonts ++ group_of (bs "/XObject") images) = Ok r /\
    fonts_known get fonts (xrFonts r) /\ externals_known get images (xrObjects r) /\ picture_known parse_float to_int get images (xrImages r).
Proof. exact resources_read. Qed.
Print Assumptions C105_resources_partial.
(** So it is for a page as the writer writes it. *)
Theorem C105_page_partial : forall inflate parse_float to_int get n parent c width height fonts images,
  0 <= n -> 0 <= parent -> 0 <= c < 2 ^ 63 -> numeral width -> numeral height ->
  (forall k, get k <> Panic) -> fonts ++ images <> [] -> resource_names fonts -> resource_names images ->
  Forall (entry_ok (bs "Annots")) fonts -> Forall (entry_ok (bs "Annots")) images ->
  (forall e, In e fonts -> exists f, font_object get (snd e) f) -> (forall e, In e images -> exists x, external_object parse_float to_int get (snd e) x) ->
  exists p r, extractFullPage inflate parse_float to_int get n (object_text n (page_text parent c width height fonts images)) = Ok (mkFP p (Some r) []) /\
    extractPage inflate parse_float get (object_text n (page_text parent c width height fonts images)) = Ok p /\
    fonts_known get fonts (xrFonts r) /\ externals_known get images (xrObjects r) /\ picture_known parse_float to_int get images (xrImages r).
Proof. exact page_resources. Qed.
Print Assumptions C105_page_partial.
(** All the pages of the tree, in order, each with its resources and annotations. *)
Theorem C105_pages_partial : forall inflate parse_float to_int get root t ps stack,
  0 <= root < 2 ^ 63 -> names_tree get root (pnum t) -> 0 <= pnum t < 2 ^ 63 -> reads_tree get t -> (height t <= stack)%nat ->
  Forall2 (fun n p => exists x, get n = Ok x /\ extractFullPage inflate parse_float to_int get n x = Ok p) (page_list t) ps ->
  ExtractFullPages inflate parse_float to_int get stack (ref root) = Ok (full_numbered 0 ps).
Proof. exact full_pages. Qed.
Print Assumptions C105_pages_partial.
(** A standard font is read as it was added. *)
Theorem C105_standard_font : forall get n nm fam, 0 <= n -> standard_name nm -> family_of nm fam -> get n = Ok (object_text n (font_dict nm)) ->
  font_object get n (mkFI [] ("/"%byte :: nm) fam (bs "/Type1") false [] false).
Proof. exact (standard_font_object (fun _ => None) (fun _ => None)). Qed.
Print Assumptions C105_standard_font.

Definition ex_font : bytes := object_text 5 (font_dict (bs "Helvetica-Bold")).
Definition ex_image : bytes := bs "<</Type/XObject/Subtype/Image/Width 700 /Height 0 >>".
Definition ex_embedded : bytes := bs "<</Type/Font/Subtype/TrueType/BaseFont/Arial/FontDescriptor 8 0 R/ToUnicode 9 0 R>>".
Definition ex_objects : list (Z * bytes) := [(5, ex_font); (6, ex_image); (7, ex_embedded); (8, bs "<</FontFile2 10 0 R/FontFamily /Mine >>")].
Definition ex_int (f : float) : Z := match f with SpecFloat.S754_zero _ => 0 | _ => 700 end.
Definition ex_fonts : list (bytes * Z) := [(bs "F1", 5); (bs "F2", 7)].
Example C105_example :
  extractResources XPagesProps.ex_parse ex_int (XPagesProps.ex_get ex_objects) (group_of (bs "/Font") ex_fonts ++ group_of (bs "/XObject") [(bs "Im1", 6)]) =
  Ok (mkXR [(bs "F1", mkFI (bs "/F1") (bs "/Helvetica-Bold") (bs "Helvetica") (bs "/Type1") false [] false);
            (bs "F2", mkFI (bs "/F2") (bs "/Arial") (bs "/Mine") (bs "/TrueType") true [] true)]
    [(bs "Im1", mkXI (bs "/Im1") (bs "unknown") 700 0 [] 0 [] [])] [(bs "Im1", mkXO (bs "/Im1") (bs "/Image") ExtractProps.f700 ExtractProps.f0)]).
Proof. vm_compute. reflexivity. Qed.
Example C105_example_hypotheses : resource_names ex_fonts /\ standard_name (bs "Helvetica-Bold") /\ family_of (bs "Helvetica-Bold") (bs "Helvetica") /\
  font_object (XPagesProps.ex_get ex_objects) 5 (mkFI [] (bs "/Helvetica-Bold") (bs "Helvetica") (bs "/Type1") false [] false) /\
  font_object (XPagesProps.ex_get ex_objects) 7 (mkFI [] (bs "/Arial") (bs "/Mine") (bs "/TrueType") true [] true) /\
  external_object XPagesProps.ex_parse ex_int (XPagesProps.ex_get ex_objects) 6 (Picture 700 0).
Proof.
  assert (N : standard_name (bs "Helvetica-Bold")).
  { split; [split; [discriminate|reflexivity]|]. split; [cbn; intuition discriminate|]. split; [cbn; intuition discriminate|reflexivity]. }
  assert (F : family_of (bs "Helvetica-Bold") (bs "Helvetica")).
  { exists (bs "-Bold"). split; [reflexivity|]. split; [cbn; intuition discriminate|reflexivity]. }
  split; [|split; [exact N|split; [exact F|split; [|split]]]].
  - split; [repeat constructor; cbn; intuition discriminate|]. repeat constructor; try reflexivity; try discriminate.
  - apply (C105_standard_font (XPagesProps.ex_get ex_objects) 5 _ _ ltac:(lia) N F eq_refl).
  - exists ex_embedded, (bs "Arial"), (bs "Arial"), (Some 8). split; [reflexivity|]. split.
    { right. exists (bs "<</Type/Font/Subtype/TrueType"), (bs "Arial"), (bs "/FontDescriptor 8 0 R/ToUnicode 9 0 R>>").
      repeat split; try reflexivity; discriminate. }
    split; [reflexivity|]. split; [exists []; repeat split; cbn; intuition discriminate|]. split.
    { right. exists (bs "<</Type/Font"), (bs "TrueType"), (bs "/BaseFont/Arial/FontDescriptor 8 0 R/ToUnicode 9 0 R>>"). repeat split; try reflexivity; discriminate. }
    split; [exists (bs "TrueType"); reflexivity|]. split; [left; reflexivity|]. split; [reflexivity|]. split.
    { exists (bs "<</Type/Font/Subtype/TrueType/BaseFont/Arial"), (bs " "), (bs " 0 R/ToUnicode 9 0 R>>"). repeat split; try reflexivity; discriminate. }
    split; [split; [discriminate|reflexivity]|]. exists (bs "<</FontFile2 10 0 R/FontFamily /Mine >>"), (bs "/Mine"). split; [reflexivity|].
    split; [|split; reflexivity]. left. exists (bs "<</FontFile2 10 0 R"), (bs " "), (bs " >>"). repeat split; try reflexivity; discriminate.
  - exists ex_image. split; [reflexivity|]. split.
    { right. exists (bs "<</Type/XObject"), (bs "Image"), (bs "/Width 700 /Height 0 >>"). repeat split; try reflexivity; discriminate. }
    exists (bs "700"), (bs "0"), ExtractProps.f700, ExtractProps.f0. split; [discriminate|]. split; [discriminate|]. split.
    { exists (bs "<</Type/XObject/Subtype/Image"), (bs " "), (bs " /Height 0 >>"). repeat split; try reflexivity; discriminate. }
    split; [|repeat split].
    exists (bs "<</Type/XObject/Subtype/Image/Width 700 "), (bs " "), (bs " >>"). repeat split; try reflexivity; discriminate.
Qed.
(** A font is lost when its resource name has a hyphen, when it is written in
    the dictionary itself, and when the fonts are in an object of their own. *)
Definition ex_names (r : bytes) : result (list bytes) :=
  rmap (fun r => map fst (xrFonts r)) (extractResources XPagesProps.ex_parse ex_int (XPagesProps.ex_get ((11, bs "<</F1 5 0 R>>") :: ex_objects)) r).
Theorem C105_lost_refuted :
  ex_names (bs "/Font<</F1 5 0 R>>") = Ok [bs "F1"] /\ ex_names (bs "/Font<</F-1 5 0 R>>") = Ok [] /\
  ex_names (bs "/Font<</F1<</Type/Font/Subtype/Type1/BaseFont/Courier>>>>") = Ok [] /\ ex_names (bs "/Font 11 0 R") = Ok [].
Proof. vm_compute. repeat split. Qed.
Print Assumptions C105_lost_refuted.
(** A width that is followed by a name without a space is read with it, and is no number. *)
Theorem C105_size_refuted :
  rmap (fun r => map (fun i => (xiWidth (snd i), xiHeight (snd i))) (xrImages r))
    (extractResources XPagesProps.ex_parse ex_int (XPagesProps.ex_get [(6, bs "<</Subtype/Image/Width 700/Height 700>>")]) (bs "/XObject<</Im1 6 0 R>>")) = Ok [(0, 700)].
Proof. vm_compute. reflexivity. Qed.
Print Assumptions C105_size_refuted.
