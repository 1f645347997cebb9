(** Theorems about adding bookmarks to a catalog. *)
From Verif Require Import Util WriterModel OutlCatSpec OutlCatProofs.
Local Open Scope Z_scope.

(** C55.  A catalog that is a dictionary object keeps every other entry, and
    every other object stays ... *)
Theorem C55_dictionary_partial : forall w root out o a d, rootRef w = Some root -> root <> 0 -> outlinesRef w = Some out -> mget root (objects w) = Some o -> oDict o = Some a -> mget a (dicts w) = Some d ->
  exists d', mget a (dicts (updateCatalogWithOutlines w)) = Some d' /\ kget (bs "/Outlines") d' = Some (VStr (ref out)) /\
    (forall k, k <> bs "/Outlines" -> kget k d' = kget k d) /\
    (oStream o = None -> stored_text (updateCatalogWithOutlines w) root (formatDictionary d')) /\
    forall n, n <> root -> mget n (objects (updateCatalogWithOutlines w)) = mget n (objects w).
Proof. exact dictionary_kept. Qed.
Print Assumptions C55_dictionary_partial.
(** ... and a catalog stored as text gets the entry at its end, if it has no
    /Type or no /Pages (which a catalog must have). *)
Theorem C55_text_partial : forall w root out c a b, text_catalog w root out c -> ~ (holds (bs "/Type") c /\ holds (bs "/Pages") c) -> ~ holds (bs "/Outlines") c ->
  last_after a (bs ">>") c -> a <> [] -> c = a ++ bs ">>" ++ b ->
  stored_text (updateCatalogWithOutlines w) root (a ++ bs "/Outlines " ++ ref out ++ bs " >>" ++ b) /\
  forall n, n <> root -> mget n (objects (updateCatalogWithOutlines w)) = mget n (objects w).
Proof. exact catalog_extended. Qed.
Print Assumptions C55_text_partial.
(** Every other catalog stored as text is replaced by one that has three
    entries only and refers to no page: whatever the catalog said, its
    /Pages is then a string ... *)
Theorem C55_pages_refuted : forall w root out c a v t, text_catalog w root out c -> holds (bs "/Type") c ->
  first_after a (bs "/Pages ") c -> c = a ++ bs "/Pages " ++ v ++ t -> Forall word_byte v -> (match t with [] => True | b :: _ => ~ word_byte b end) -> prefixb (bs "/") v = false ->
  stored_text (updateCatalogWithOutlines w) root (bs "<</Outlines " ++ ref out ++ bs " /Pages (" ++ v ++ bs ") /Type /Catalog >>").
Proof. exact pages_broken. Qed.
Print Assumptions C55_pages_refuted.
(** ... an empty one if white space other than a space follows /Pages. *)
Theorem C55_no_pages_refuted : forall w root out c, text_catalog w root out c -> holds (bs "/Type") c -> holds (bs "/Pages") c -> ~ holds (bs "/Pages ") c ->
  stored_text (updateCatalogWithOutlines w) root (bs "<</Outlines " ++ ref out ++ bs " /Pages () /Type /Catalog >>").
Proof. exact pages_dropped. Qed.
Print Assumptions C55_no_pages_refuted.

Definition ex_with (c : bytes) : writer := set_outlines 9 (SetRoot 1 (SetObject 1 (Some c) NewPDFWriter)).
Example C55_text_example : let c := bs "<</Pages 2 0 R /Lang (en)>>" in
  text_catalog (ex_with c) 1 9 c /\ contains (bs "/Type") c = false /\ contains (bs "/Outlines") c = false /\
  last_after (bs "<</Pages 2 0 R /Lang (en)") (bs ">>") c.
Proof.
  split; [repeat split; discriminate|]. split; [reflexivity|]. split; [reflexivity|]. split; [exists []; reflexivity|].
  intros a' b' E. apply (f_equal (@length byte)) in E. rewrite !app_length in E. change (length (bs "<</Pages 2 0 R /Lang (en)>>")) with 27%nat in E. change (length (bs ">>")) with 2%nat in E. change (length (bs "<</Pages 2 0 R /Lang (en)")) with 25%nat. lia.
Qed.
Example C55_pages_example : let c := bs "<</Type/Catalog/Pages 2 0 R/Lang(en)>>" in
  text_catalog (ex_with c) 1 9 c /\ holds (bs "/Type") c /\ first_after (bs "<</Type/Catalog") (bs "/Pages ") c /\ Forall word_byte (bs "2").
Proof.
  split; [repeat split; discriminate|]. split; [exists (bs "<<"), (bs "/Catalog/Pages 2 0 R/Lang(en)>>"); reflexivity|]. split.
  - split; [eexists; reflexivity|]. intros a' b' E. change (length (bs "<</Type/Catalog")) with 15%nat. 
    assert (Q : prefixb (bs "/Pages ") (skipn (length a') (bs "<</Type/Catalog/Pages 2 0 R/Lang(en)>>")) = true) by (rewrite E, skipn_app, skipn_all, Nat.sub_diag; cbn [app skipn]; apply prefixb_app).
    destruct (Nat.le_gt_cases 15 (length a')) as [L|L]; [exact L|exfalso].
    clear E. revert Q L. generalize (length a'). intros k Q L. do 15 (destruct k as [|k]; [vm_compute in Q; discriminate Q|]). lia.
  - repeat constructor; discriminate.
Qed.
