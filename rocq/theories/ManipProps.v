(** Property theorems: page manipulation. *)
From Verif Require Import WriterModel ParseModel ManipModel ManipSpec ManipProofs ManipProofs2 ManipProofs3 ManipProofs4 ManipProofs5 ManipProofs6 Util Scan.
Local Open Scope Z_scope.

(** A document for the examples: catalog 1, page tree node 2, pages 3, 4, 15
    and 5 in this order. *)
Definition ex_get (kids : string) (n : Z) : result bytes :=
  if n =? 1 then Ok (bs "<</Type/Catalog/Pages 2 0 R>>")
  else if n =? 2 then Ok (bs kids)
  else if existsb (Z.eqb n) [3; 4; 15; 5] then Ok (bs "<</Type/Page/Parent 2 0 R /Rotate 270 /Contents 9 0 R>>")
  else if n =? 9 then Ok (bs "<</Length 0>>")
  else Err.
Definition ex_doc (kids : string) : source := mkSource (bs "1 0 R") [] [] (ex_get kids) [1; 2; 3; 4; 5; 9; 15].
Definition ex_kids : string := "<</Type/Pages/Kids[3 0 R 4 0 R 15 0 R 5 0 R]/Count 4>>".
Definition manip_of (s : source) : manip := match NewPDFManipulator s with Ok m => m | _ => mkManip s [] end.
Definition text_of (n : Z) (r : result manip) : bytes := match r with Ok m => match mget n (mObjects m) with Some t => t | None => [] end | _ => [] end.

(* ---------------------------------------------------------------- *)
(** C27: rotation *)

Theorem C27_rotation_history : forall stack pages m ops (A B : Z -> bytes) (R : Z -> Z),
  getAllPageObjectNumbers stack (mSrc m) = Ok pages ->
  (forall n, In n pages -> rotation_frame (A n) (B n) /\ - 2 ^ 63 <= R n < 2 ^ 63 - 360 /\
     exists t, mget n (mObjects m) = Some t /\ rotation_is t (A n) (B n) (R n)) ->
  Forall (valid_rotation pages) ops ->
  exists m', run_until (fun op => RotatePage stack (fst op) (snd op)) ops m = (Ok tt, m') /\ mSrc m' = mSrc m /\
    (forall n, In n pages -> exists t', mget n (mObjects m') = Some t' /\
        rotation_is t' (A n) (B n) (if touched pages n ops then (R n + turned pages n ops) mod 360 else R n)) /\
    (forall n, ~ In n pages -> mget n (mObjects m') = mget n (mObjects m)).
Proof. exact rotation_history. Qed.
Print Assumptions C27_rotation_history.

(** One rotation, and every other object unchanged. *)
Theorem C27_rotate_page : forall stack pages page angle m n t a b r,
  getAllPageObjectNumbers stack (mSrc m) = Ok pages ->
  1 <= page <= Z.of_nat (length pages) -> nth (Z.to_nat (page - 1)) pages 0 = n ->
  In angle [90; 180; 270] -> mget n (mObjects m) = Some t ->
  rotation_frame a b -> rotation_is t a b r -> int64 r -> int64 (r + angle) ->
  exists m', RotatePage stack page angle m = Ok m' /\ mSrc m' = mSrc m /\
    mget n (mObjects m') = Some (a ++ bs "/Rotate" ++ bs " " ++ decZ ((r + angle) mod 360) ++ b) /\
    forall k, k <> n -> mget k (mObjects m') = mget k (mObjects m).
Proof. exact rotate_page. Qed.
Print Assumptions C27_rotate_page.
(** A page without a rotation. *)
Theorem C27_rotate_absent : forall stack pages page angle m n x y,
  getAllPageObjectNumbers stack (mSrc m) = Ok pages ->
  1 <= page <= Z.of_nat (length pages) -> nth (Z.to_nat (page - 1)) pages 0 = n ->
  In angle [90; 180; 270] -> mget n (mObjects m) = Some (x ++ bs ">>" ++ y) ->
  contains (bs "/Rotate") (x ++ bs ">>" ++ y) = false -> contains (bs ">>") (">"%byte :: y) = false ->
  exists m', RotatePage stack page angle m = Ok m' /\ mSrc m' = mSrc m /\
    mget n (mObjects m') = Some (x ++ bs "/Rotate " ++ decZ angle ++ bs " " ++ bs ">>" ++ y) /\
    forall k, k <> n -> mget k (mObjects m') = mget k (mObjects m).
Proof. exact rotate_absent. Qed.
Print Assumptions C27_rotate_absent.
Theorem C27_rotate_all : forall stack pages m angle (A B : Z -> bytes) (R : Z -> Z),
  getAllPageObjectNumbers stack (mSrc m) = Ok pages -> NoDup pages -> In angle [90; 180; 270] ->
  (forall n, In n pages -> rotation_frame (A n) (B n) /\ - 2 ^ 63 <= R n < 2 ^ 63 - 360 /\
     exists t, mget n (mObjects m) = Some t /\ rotation_is t (A n) (B n) (R n)) ->
  exists m', RotateAllPages stack angle m = (Ok tt, m') /\
    (forall n, In n pages -> exists t', mget n (mObjects m') = Some t' /\ rotation_is t' (A n) (B n) ((R n + angle) mod 360)) /\
    (forall n, ~ In n pages -> mget n (mObjects m') = mget n (mObjects m)).
Proof. exact rotate_all. Qed.
Print Assumptions C27_rotate_all.
Theorem C27_other_angles_rejected : forall stack page angle m,
  (~ In angle [90; 180; 270] -> RotatePage stack page angle m = Err) /\
  (forall m', RotatePage stack page angle m = Ok m' -> In angle [90; 180; 270]).
Proof. exact (fun stack page angle m => conj (rotate_bad stack page angle m) (rotate_only stack page angle m)). Qed.
Print Assumptions C27_other_angles_rejected.

(** Without a space after the number the edit destroys the next key. *)
Theorem C27_compact_refuted :
  let s := mkSource (bs "1 0 R") [] [] (fun n =>
    if n =? 1 then Ok (bs "<</Type/Catalog/Pages 2 0 R>>") else if n =? 2 then Ok (bs "<</Type/Pages/Kids[3 0 R]/Count 1>>")
    else Ok (bs "<</Type/Page/Rotate 90/Parent 2 0 R>>")) [1; 2; 3] in
  text_of 3 (RotatePage 5 1 90 (manip_of s)) = bs "<</Type/Page/Rotate 90 2 0 R>>".
Proof. vm_compute. reflexivity. Qed.
Print Assumptions C27_compact_refuted.
(** The sum wraps around: the rotation of a page at 2^63 - 1 goes wrong. *)
Theorem C27_wrap_refuted : new_rotation (2 ^ 63 - 1) 90 <> (2 ^ 63 - 1 + 90) mod 360.
Proof. vm_compute. discriminate. Qed.
Print Assumptions C27_wrap_refuted.

Example C27_example :
  getAllPageObjectNumbers 5 (ex_doc ex_kids) = Ok [3; 4; 15; 5] /\
  rotation_frame (bs "<</Type/Page/Parent 2 0 R ") (bs " /Contents 9 0 R>>") /\
  (exists t, mget 15 (mObjects (manip_of (ex_doc ex_kids))) = Some t /\
     rotation_is t (bs "<</Type/Page/Parent 2 0 R ") (bs " /Contents 9 0 R>>") 270) /\
  text_of 15 (RotatePage 5 3 180 (manip_of (ex_doc ex_kids))) = bs "<</Type/Page/Parent 2 0 R /Rotate 90 /Contents 9 0 R>>" /\
  rotation_is (bs "<</Rotate -90 >>") (bs "<<") (bs " >>") (-90) /\ new_rotation (-90) 270 = 180.
Proof.
  split; [vm_compute; reflexivity|]. split; [split; [split|]; reflexivity|]. split.
  - eexists. split; [vm_compute; reflexivity|]. exists (bs " "). split; [split; [discriminate|]; reflexivity|vm_compute; reflexivity].
  - split; [vm_compute; reflexivity|]. split; [exists (bs " "); split; [split; [discriminate|]; reflexivity|vm_compute; reflexivity]|].
    vm_compute. reflexivity.
Qed.

(* ---------------------------------------------------------------- *)
(** C28: splitting *)

(** The ranges that SplitPDFByPageCount uses, for any number of pages. *)
Theorem C28_ranges_partition : forall total per, 0 <= total -> 1 <= per ->
  flat_map range_pages (page_ranges total per) = range_pages (1, total) /\
  Forall (fun r => 1 <= fst r <= snd r /\ snd r <= total /\ snd r - fst r + 1 <= per /\
                   (snd r < total -> snd r - fst r + 1 = per)) (page_ranges total per).
Proof. exact page_ranges_cover. Qed.
Print Assumptions C28_ranges_partition.
Theorem C28_split_by_count : forall stack s m all per out, NewPDFManipulator s = Ok m -> getAllPageObjectNumbers stack s = Ok all ->
  SplitPDFByPageCount stack s per = Ok out ->
  1 <= per /\ 1 <= Z.of_nat (length all) /\
  Forall2 (fun r w => ExtractPages stack s (range_pages r) = Ok w) (page_ranges (Z.of_nat (length all)) per) out.
Proof. exact split_by_count. Qed.
Print Assumptions C28_split_by_count.
Theorem C28_split_ranges : forall stack s m all ranges out, NewPDFManipulator s = Ok m -> getAllPageObjectNumbers stack s = Ok all ->
  SplitPDF stack s ranges = Ok out <->
  ranges <> [] /\ Forall (fun r => 1 <= fst r <= snd r /\ snd r <= Z.of_nat (length all)) ranges /\
  Forall2 (fun r w => ExtractPages stack s (range_pages r) = Ok w) ranges out.
Proof. exact split_ok. Qed.
Print Assumptions C28_split_ranges.
Example C28_example : page_ranges 7 3 = [(1, 3); (4, 6); (7, 7)] /\ page_ranges 6 3 = [(1, 3); (4, 6)] /\
  (exists out, SplitPDFByPageCount 5 (ex_doc ex_kids) 3 = Ok out /\ length out = 2%nat).
Proof. split; [reflexivity|]. split; [reflexivity|]. eexists. split; vm_compute; reflexivity. Qed.

(* ---------------------------------------------------------------- *)
(** C29: deletion *)

(** The pages that are left are the right ones; node counts are one too low.
    Missing from the property: the right count, other spellings of the node
    (a space before the array), references to objects whose number ends in the
    digits of a deleted one, and deleting all pages of a node. *)
Theorem C29_delete_pages_partial : forall s t sh m stack pages,
  regular_doc s t sh -> NewPDFManipulator s = Ok m -> (height t <= stack)%nat ->
  (exists r ks, t = PNode r ks) ->
  Forall (fun p => 1 <= p <= Z.of_nat (length (page_list t))) pages ->
  let d := map (fun p => nth (Z.to_nat (p - 1)) (page_list t) 0) pages in
  NoDup d -> (forall k kids, In (k, kids) (nodes t) -> left d kids <> []) ->
  (forall k kids n, In (k, kids) (nodes t) -> In n d -> In (PPage n) kids -> forall q, In q (map pnum kids) -> ends_like q n -> q = n) ->
  exists m', DeletePages stack pages m = (Ok tt, m') /\
    getAllPageObjectNumbers stack (current m') = Ok (except d (page_list t)) /\
    (forall k, ~ In k (map fst (nodes t)) -> mget k (mObjects m') = mget k (mObjects m)) /\
    (forall k kids, In (k, kids) (nodes t) -> exists x c, mget k (mObjects m') = Some x /\
       node_is (sh k) x (map pnum (left d kids)) c /\
       (map pnum (left d kids) <> map pnum kids -> c = Z.max 0 (Z.of_nat (length (left d kids)) - 1))).
Proof. exact delete_pages. Qed.
Print Assumptions C29_delete_pages_partial.

(** The count is wrong after every deletion: three pages are left, and the
    node says two. *)
Theorem C29_count_refuted :
  text_of 2 (DeletePage 5 1 (manip_of (ex_doc ex_kids))) = bs "<</Type/Pages/Kids[4 0 R 15 0 R 5 0 R ] /Count 2>>".
Proof. vm_compute. reflexivity. Qed.
Print Assumptions C29_count_refuted.
(** Deleting page 4, object 5, also removes page 3, object 15. *)
Theorem C29_suffix_refuted :
  text_of 2 (DeletePage 5 4 (manip_of (ex_doc ex_kids))) = bs "<</Type/Pages/Kids[3 0 R 4 0 R ] /Count 1>>".
Proof. vm_compute. reflexivity. Qed.
Print Assumptions C29_suffix_refuted.
(** With a space before the array the old list stays behind the new one. *)
Theorem C29_spaced_array_refuted :
  text_of 2 (DeletePage 5 1 (manip_of (ex_doc "<</Type/Pages /Kids [3 0 R 4 0 R] /Count 2 >>")))
  = bs "<</Type/Pages /Kids [4 0 R ] 0 R 4 0 R] /Count 0 >>".
Proof. vm_compute. reflexivity. Qed.
Print Assumptions C29_spaced_array_refuted.
(** A count that touches the next key takes it along. *)
Theorem C29_compact_count_refuted :
  text_of 2 (DeletePage 5 1 (manip_of (ex_doc "<</Type/Pages/Kids[3 0 R 4 0 R]/Count 2/MediaBox[0 0 9 9]>>")))
  = bs "<</Type/Pages/Kids[4 0 R ] /Count 0 0 9 9]>>".
Proof. vm_compute. reflexivity. Qed.
Print Assumptions C29_compact_count_refuted.
(** Page numbers keep their old meaning: deleting page 1 twice is an error. *)
Theorem C29_repeat_refuted :
  fst (run_until (DeletePage 5) [1; 1] (manip_of (ex_doc ex_kids))) = Err.
Proof. vm_compute. reflexivity. Qed.
Print Assumptions C29_repeat_refuted.
(** The counts of the nodes above the parent stay as they were. *)
Theorem C29_ancestor_count_refuted :
  let s := mkSource (bs "1 0 R") [] [] (fun n =>
    if n =? 1 then Ok (bs "<</Type/Catalog/Pages 2 0 R>>")
    else if n =? 2 then Ok (bs "<</Type/Pages/Kids[3 0 R]/Count 3>>")
    else if n =? 3 then Ok (bs "<</Type/Pages/Kids[4 0 R 5 0 R 6 0 R]/Count 3>>")
    else Ok (bs "<</Type/Page >>")) [1; 2; 3; 4; 5; 6] in
  text_of 2 (DeletePage 5 1 (manip_of s)) = bs "<</Type/Pages/Kids[3 0 R]/Count 3>>" /\
  text_of 3 (DeletePage 5 1 (manip_of s)) = bs "<</Type/Pages/Kids[5 0 R 6 0 R ] /Count 1>>".
Proof. vm_compute. split; reflexivity. Qed.
Print Assumptions C29_ancestor_count_refuted.

Definition ex_shape : shape := mkShape true (bs "<</Type/Pages") [] (bs ">>").
Definition ex_tree : ptree := PNode 2 [PPage 3; PPage 4; PPage 15; PPage 5].
Lemma ex_page_type : page_text (bs "<</Type/Page/Parent 2 0 R /Rotate 270 /Contents 9 0 R>>").
Proof.
  apply (hv_name _ _ _ (bs "<<") (bs "Page") (bs "/Parent 2 0 R /Rotate 270 /Contents 9 0 R>>"));
    try reflexivity; split; try reflexivity; discriminate.
Qed.
Lemma ex_ref_list : ref_array [3; 4; 15; 5] (bs "[3 0 R 4 0 R 15 0 R 5 0 R]").
Proof.
  exists (bs "3 0 R 4 0 R 15 0 R 5 0 R"). split; [reflexivity|].
  apply (rl_cons 3 _ [] (bs " ") (bs "0") (bs " ") (bs " 4 0 R 15 0 R 5 0 R")); try reflexivity; try lia; try discriminate; try (split; [discriminate|reflexivity]).
  apply (rl_cons 4 _ (bs " ") (bs " ") (bs "0") (bs " ") (bs " 15 0 R 5 0 R")); try reflexivity; try lia; try discriminate; try (split; [discriminate|reflexivity]).
  apply (rl_cons 15 _ (bs " ") (bs " ") (bs "0") (bs " ") (bs " 5 0 R")); try reflexivity; try lia; try discriminate; try (split; [discriminate|reflexivity]).
  apply (rl_cons 5 _ (bs " ") (bs " ") (bs "0") (bs " ") []); try reflexivity; try lia; try discriminate; try (split; [discriminate|reflexivity]).
  apply rl_nil. reflexivity.
Qed.
Lemma ex_node : node_text (bs ex_kids) [3; 4; 15; 5].
Proof.
  split.
  - apply (hv_name _ _ _ (bs "<<") (bs "Pages") (bs "/Kids[3 0 R 4 0 R 15 0 R 5 0 R]/Count 4>>"));
      try reflexivity; split; try reflexivity; discriminate.
  - exists (bs "[3 0 R 4 0 R 15 0 R 5 0 R]"). split; [|exact ex_ref_list].
    apply (hv_array _ _ _ (bs "<</Type/Pages") [] (bs "/Count 4>>")); try reflexivity.
    exact (ref_array_flat _ _ ex_ref_list).
Qed.
Lemma ex_page_tree : has_page_tree (ex_doc ex_kids) ex_tree.
Proof.
  exists 1, (bs "<</Type/Catalog/Pages 2 0 R>>"). split; [lia|]. split; [cbn; lia|]. split; [exists (bs "0 R"); reflexivity|].
  split; [reflexivity|]. split.
  - apply (hv_word _ _ _ (bs "<</Type/Catalog") (bs " ") (bs " 0 R>>")); try reflexivity; split; try reflexivity; try discriminate.
    split; reflexivity.
  - cbn [forms_tree ex_tree]. split; [exists (bs ex_kids); split; [reflexivity|exact ex_node]|].
    cbn [fold_right forms_tree]. repeat split; eexists; (split; [reflexivity|exact ex_page_type]).
Qed.
Example C29_example :
  regular_doc (ex_doc ex_kids) ex_tree (fun _ => ex_shape) /\ (height ex_tree <= 5)%nat /\
  Forall (fun p => 1 <= p <= Z.of_nat (length (page_list ex_tree))) [1; 2] /\
  map (fun p => nth (Z.to_nat (p - 1)) (page_list ex_tree) 0) [1; 2] = [3; 4] /\
  left [3; 4] [PPage 3; PPage 4; PPage 15; PPage 5] = [PPage 15; PPage 5] /\
  (forall n q, In n [3; 4] -> In q [3; 4; 15; 5] -> ends_like q n -> q = n).
Proof.
  split; [|split; [cbn; lia|split; [repeat constructor; cbn; lia|split; [reflexivity|split; [reflexivity|]]]]].
  - split; [exact ex_page_tree|]. split; [repeat constructor; cbn; intuition discriminate|]. split.
    { intros z Hz. cbn in Hz. cbn. intuition. }
    split; [cbn; lia|]. split.
    { intros root Hr. vm_compute in Hr. injection Hr as <-. split; [left; reflexivity|]. cbn. intuition discriminate. }
    intros k kids Hk. cbn in Hk. destruct Hk as [Hk|[]]. assert (k = 2 /\ kids = [PPage 3; PPage 4; PPage 15; PPage 5]) as [-> ->] by (split; congruence).
    split.
    + split; [|split; [|split; [|split]]]; try reflexivity.
      * apply (hv_name _ _ _ (bs "<<") (bs "Pages") (bs "/")); try reflexivity; split; try reflexivity; discriminate.
      * intros k Hk0. cbn [In] in Hk0. destruct Hk0 as [<-|[<-|[]]]; repeat split; reflexivity.
    + exists (bs ex_kids), 4. split; [reflexivity|]. split; [|lia].
      exists (bs "[3 0 R 4 0 R 15 0 R 5 0 R]"), [], (bs " "). split; [exact ex_ref_list|]. repeat split; try reflexivity. discriminate.
  - assert (S : forall q n, q <> n -> suffixb (decZ n) (decZ q) = false -> ~ ends_like q n).
    { intros q n _ Hs (x & Ex). rewrite Ex in Hs. unfold suffixb in Hs. rewrite app_length in Hs.
      destruct (Nat.leb_spec (length (decZ n)) (length x + length (decZ n))); [|lia].
      replace (length x + length (decZ n) - length (decZ n))%nat with (length x) in Hs by lia.
      rewrite skipn_app_all, bytes_eqb_refl in Hs. discriminate. }
    intros n q Hn Hq Hl. cbn [In] in Hn, Hq.
    repeat match goal with H : _ \/ _ |- _ => destruct H end; try contradiction; subst; try reflexivity;
      exfalso; revert Hl; apply S; (discriminate || reflexivity).
Qed.

(* ---------------------------------------------------------------- *)
(** C61: insertion *)

Theorem C61_insert_page : forall stack m sh r l all page n content, flat_doc m sh r l ->
  getAllPageObjectNumbers stack (mSrc m) = Ok all -> 0 <= page <= Z.of_nat (length all) + 1 ->
  0 <= n < 2 ^ 63 -> page_text content -> ~ In n l -> n <> r -> parseObjectRef (sRoot (mSrc m)) <> Ok n ->
  parseObjectRef (sRoot (mSrc m)) <> Ok r -> Z.of_nat (length l) + 1 < 2 ^ 63 - 1 ->
  exists m', InsertPage stack page n content m = Ok m' /\ mSrc m' = mSrc m /\
    mget n (mObjects m') = Some content /\
    (exists t, mget r (mObjects m') = Some t /\ node_is sh t (insert_at page n l) (Z.of_nat (length l) + 1)) /\
    (forall k, k <> n -> k <> r -> mget k (mObjects m') = mget k (mObjects m)) /\
    flat_doc m' sh r (insert_at page n l).
Proof. exact insert_page. Qed.
Print Assumptions C61_insert_page.
Theorem C61_pages_read_back : forall m sh r l stack, flat_doc m sh r l -> (2 <= stack)%nat ->
  getAllPageObjectNumbers stack (current m) = Ok l.
Proof. exact flat_doc_pages. Qed.
Print Assumptions C61_pages_read_back.
(** In a nested tree the page is put among the kids of the root: page 2 of
    this document becomes the last page. *)
Theorem C61_nested_refuted :
  let s := mkSource (bs "1 0 R") [] [] (fun n =>
    if n =? 1 then Ok (bs "<</Type/Catalog/Pages 2 0 R>>")
    else if n =? 2 then Ok (bs "<</Type/Pages/Kids[3 0 R]/Count 3>>")
    else if n =? 3 then Ok (bs "<</Type/Pages/Kids[4 0 R 5 0 R 6 0 R]/Count 3>>")
    else Ok (bs "<</Type/Page >>")) [1; 2; 3; 4; 5; 6] in
  match InsertPage 5 2 7 (bs "<</Type/Page >>") (manip_of s) with
  | Ok m' => getAllPageObjectNumbers 5 (current m') = Ok [4; 5; 6; 7] /\
             text_of 2 (Ok m') = bs "<</Type/Pages/Kids[3 0 R 7 0 R ] /Count 2>>"
  | _ => False
  end.
Proof. vm_compute. split; reflexivity. Qed.
Print Assumptions C61_nested_refuted.
(** Positions are checked against the pages before the edits. *)
Theorem C61_second_append_refuted :
  match InsertPage 5 5 16 (bs "<</Type/Page >>") (manip_of (ex_doc ex_kids)) with
  | Ok m' => getAllPageObjectNumbers 5 (current m') = Ok [3; 4; 15; 5; 16] /\ InsertPage 5 6 17 (bs "<</Type/Page >>") m' = Err
  | _ => False
  end.
Proof. vm_compute. split; reflexivity. Qed.
Print Assumptions C61_second_append_refuted.
Example C61_example : flat_doc (manip_of (ex_doc ex_kids)) ex_shape 2 [3; 4; 15; 5] /\
  insert_at 2 16 [3; 4; 15; 5] = [3; 16; 4; 15; 5] /\ insert_at 0 16 [3; 4; 15; 5] = [3; 4; 15; 5; 16].
Proof.
  split; [|split; reflexivity]. destruct C29_example as ((T & _ & _ & _ & _ & N) & _).
  destruct (N 2 [PPage 3; PPage 4; PPage 15; PPage 5]) as [G (x & c & Ex & Nx & Hc)]; [left; reflexivity|].
  split; [exact G|]. split; [cbn; intuition discriminate|]. split; [cbn; lia|]. split; [vm_compute; reflexivity|]. split.
  - destruct T as (root & y & H1 & H2 & H3 & H4 & H5 & H6). exists 1, (bs "<</Type/Catalog/Pages 2 0 R>>").
    split; [lia|]. split; [cbn; lia|]. split; [exists (bs "0 R"); reflexivity|]. split; [vm_compute; reflexivity|]. split.
    + apply (hv_word _ _ _ (bs "<</Type/Catalog") (bs " ") (bs " 0 R>>")); try reflexivity; split; try reflexivity; try discriminate.
      split; reflexivity.
    + cbn [forms_tree map]. split; [exists (bs ex_kids); split; [vm_compute; reflexivity|exact ex_node]|].
      cbn [fold_right forms_tree]. repeat split; exists (bs "<</Type/Page/Parent 2 0 R /Rotate 270 /Contents 9 0 R>>"); (split; [vm_compute; reflexivity|exact ex_page_type]).
  - exists x, c. split; [|auto]. injection Ex as <-. vm_compute. reflexivity.
Qed.

(* ---------------------------------------------------------------- *)
(** C30: merging *)

(** Every object of every document gets a number of its own, the texts are
    kept and their references follow the objects that are listed no later
    than the object itself.  Missing from the property: references to later
    objects (see the refutations). *)
Theorem C30_merge_partial : forall stack P C docs, docs <> [] -> Forall (readable stack P C) docs ->
  let kids := flat_map (fun bs => page_places (fst bs) (sObjs (snd bs)) (P (snd bs))) (bases 1 docs) in
  exists w, MergePDFs stack docs = Ok w /\
    rootRef w = Some (total docs + 2) /\
    WGetObject (total docs + 2) w = Ok (catalog_dict (total docs + 1)) /\
    WGetObject (total docs + 1) w = Ok (pages_dict kids) /\
    (forall b s n k, In (b, s) (bases 1 docs) -> In n (sObjs s) -> place b (sObjs s) n = Some k ->
       WGetObject k w = Ok (shown (map (retarget (place b (upto n (sObjs s)))) (C s n)))).
Proof. exact merge_pdfs. Qed.
Print Assumptions C30_merge_partial.
(** Documents without forward references: every reference follows. *)
Theorem C30_backward_references : forall stack P C docs, docs <> [] -> Forall (readable stack P C) docs -> Forall (backward C) docs ->
  exists w, MergePDFs stack docs = Ok w /\
    forall b s n k, In (b, s) (bases 1 docs) -> In n (sObjs s) -> place b (sObjs s) n = Some k ->
       WGetObject k w = Ok (shown (map (retarget (place b (sObjs s))) (C s n))).
Proof. exact merge_backward. Qed.
Print Assumptions C30_backward_references.
Theorem C30_numbers_distinct : forall docs b s n k b' s' n', In (b, s) (bases 1 docs) -> In (b', s') (bases 1 docs) ->
  place b (sObjs s) n = Some k -> place b' (sObjs s') n' = Some k -> b = b' /\ n = n'.
Proof. exact places_distinct. Qed.
Print Assumptions C30_numbers_distinct.
(** The pages of the merged document: those of the documents, in input order,
    when each document lists its page objects in page order. *)
Theorem C30_page_order_partial : forall stack P C docs k, docs <> [] -> Forall (readable stack P C) docs -> Forall (pages_known P C) docs ->
  Forall (listed_in_order P) docs -> total docs + 2 < 2 ^ 63 -> (2 <= k)%nat ->
  exists w l, MergePDFs stack docs = Ok w /\ getAllPageObjectNumbers k (written w) = Ok l /\
    map Some l = flat_map (fun bs => map (place (fst bs) (sObjs (snd bs))) (P (snd bs))) (bases 1 docs).
Proof. exact merged_pages. Qed.
Print Assumptions C30_page_order_partial.

Definition merged_text (n : Z) (r : result writer) : bytes :=
  match r with Ok w => match WGetObject n w with Ok t => t | _ => [] end | _ => [] end.
Definition two_get (page : string) (n : Z) : result bytes :=
  if n =? 1 then Ok (bs "<</Type/Catalog/Pages 2 0 R>>")
  else if n =? 2 then Ok (bs "<</Type/Pages/Kids[4 0 R 3 0 R]/Count 2>>")
  else if n =? 3 then Ok (bs page)
  else if n =? 4 then Ok (bs "<</Type/Page /Parent 2 0 R>>")
  else if n =? 5 then Ok (bs "<</Length 7>>stream 1 0 RG endstream")
  else Err.
Definition two_doc (page : string) (order : list Z) : source := mkSource (bs "1 0 R") [] [] (two_get page) order.
(** A reference to an object that comes later is not changed: it points into
    the other document. *)
Theorem C30_forward_reference_refuted :
  let d := two_doc "<</Type/Page /Parent 2 0 R /Contents 5 0 R>>" [1; 2; 3; 4; 5] in
  place 6 [1; 2; 3; 4; 5] 3 = Some 8 /\ place 6 [1; 2; 3; 4; 5] 5 = Some 10 /\
  merged_text 8 (MergePDFs 5 [d; d]) = bs "<</Type/Page /Parent 7 0 R /Contents 5 0 R>>".
Proof. vm_compute. repeat split. Qed.
Print Assumptions C30_forward_reference_refuted.
(** The same document listed in another order gives another result. *)
Theorem C30_order_refuted :
  let p := "<</Type/Page /Parent 2 0 R /Contents 5 0 R>>"%string in
  merged_text 6 (MergePDFs 5 [two_doc p [1; 2; 3; 4; 5]]) = bs "<</Type/Pages/Kids[3 0 R  4 0 R ]/Count 2>>" /\
  getAllPageObjectNumbers 5 (two_doc p [1; 2; 3; 4; 5]) = Ok [4; 3].
Proof. vm_compute. repeat split. Qed.
Print Assumptions C30_order_refuted.
(** Page content is rewritten: the operator "1 0 RG" sets a colour. *)
Theorem C30_content_rewritten_refuted :
  merged_text 5 (MergePDFs 5 [two_doc "<</Type/Page>>" [3; 4; 2; 1; 5]]) = bs "<</Length 7>>stream 4 0 RG endstream".
Proof. vm_compute. reflexivity. Qed.
Print Assumptions C30_content_rewritten_refuted.

(** Two copies of a document without forward references. *)
Definition back_get (n : Z) : result bytes :=
  if n =? 1 then Ok (bs "<</Length 0>>")
  else if n =? 3 then Ok (bs "<</Type/Page /Contents 1 0 R>>")
  else if n =? 2 then Ok (bs "<</Type/Pages/Kids[3 0 R]/Count 1>>")
  else Ok (bs "<</Type/Catalog/Pages 2 0 R>>").
Definition back_doc : source := mkSource (bs "4 0 R") [] [] back_get [1; 3; 2; 4].
Definition back_pieces (_ : source) (n : Z) : list piece :=
  let r k := Refer k (bs " ") (bs "0") (bs " ") in
  if n =? 1 then [Text (bs "<</Length 0>>")]
  else if n =? 3 then [Text (bs "<</Type/Page /Contents "); r 1; Text (bs ">>")]
  else if n =? 2 then [Text (bs "<</Type/Pages/Kids["); r 3; Text (bs "]/Count 1>>")]
  else [Text (bs "<</Type/Catalog/Pages "); r 2; Text (bs ">>")].
Example C30_example :
  Forall (ManipSpec.readable 5 (fun _ => [3]) back_pieces) [back_doc; back_doc] /\
  Forall (pages_known (fun _ => [3]) back_pieces) [back_doc; back_doc] /\
  Forall (backward back_pieces) [back_doc; back_doc] /\
  Forall (listed_in_order (fun _ => [3])) [back_doc; back_doc] /\
  merged_text 6 (MergePDFs 5 [back_doc; back_doc]) = bs "<</Type/Page /Contents 5 0 R>>" /\
  merged_text 9 (MergePDFs 5 [back_doc; back_doc]) = bs "<</Type/Pages/Kids[2 0 R  6 0 R ]/Count 2>>".
Proof.
  assert (D : forall Q : source -> Prop, Q back_doc -> Forall Q [back_doc; back_doc]) by (intros Q H; repeat constructor; exact H).
  split; [apply D; split; [|split]|split; [apply D|split; [apply D|split; [apply D; split|split; vm_compute; reflexivity]]]].
  - cbn. repeat constructor; cbn; intuition discriminate.
  - vm_compute. reflexivity.
  - intros n Hn. cbn [In sObjs back_doc] in Hn. assert (G : forall b l, Nat.eqb (length (filter (fun j => match m_reference (skipn j (b ++ shown l)) with None => false | _ => true end) (seq 0 (length b)))) 0 = true ->
       forall j, (j < length b)%nat -> ~ ref_here (skipn j (b ++ shown l))).
    { intros b l E. apply (no_refs_in (b ++ shown l) (length b)). apply Nat.eqb_eq in E. apply forallb_forall. intros j Hj.
      destruct (m_reference (skipn j (b ++ shown l))) as [[x r]|] eqn:R; [|reflexivity]. exfalso.
      assert (In j (filter (fun j => match m_reference (skipn j (b ++ shown l)) with None => false | _ => true end) (seq 0 (length b)))) as Hi
        by (apply filter_In; split; [exact Hj|rewrite R; reflexivity]).
      destruct (filter _ _); [destruct Hi|discriminate E]. }
    destruct Hn as [<-|[<-|[<-|[<-|[]]]]]; (split; [reflexivity|]);
      cbn [back_pieces Z.eqb Pos.eqb separated]; repeat (split; [first [apply G; vm_compute; reflexivity|lia|discriminate|reflexivity|split; [discriminate|reflexivity]]|]);
      repeat split; try (apply G; vm_compute; reflexivity); try discriminate; try lia; try reflexivity.
  - intros n [<-|[]]. split; [cbn; auto|]. intros f. unfold page_text.
    change (shown (map (retarget f) (back_pieces back_doc 3)))
      with (bs "<</Type/Page /Contents " ++ show (retarget f (Refer 1 (bs " ") (bs "0") (bs " "))) ++ bs ">>" ++ []).
    apply (hv_name _ _ _ (bs "<<") (bs "Page") (bs " /Contents " ++ show (retarget f (Refer 1 (bs " ") (bs "0") (bs " "))) ++ bs ">>" ++ [])); try reflexivity.
    + split; [reflexivity|]. change (bs " /Contents " ++ show (retarget f (Refer 1 (bs " ") (bs "0") (bs " "))) ++ bs ">>" ++ [])
        with (bs " " ++ bs "/Contents" ++ bs " " ++ show (retarget f (Refer 1 (bs " ") (bs "0") (bs " "))) ++ bs ">>" ++ []).
      assert (KT : key_name (bs "/Type")) by (exists (bs "Type"); split; reflexivity).
      assert (KC : key_name (bs "/Contents")) by (exists (bs "Contents"); split; reflexivity).
      apply contains_after; [exact KT| |cbn; intuition discriminate].
      apply contains_other; [exact KT|exact KC|reflexivity|].
      assert (S : ~ In "/"%byte (show (retarget f (Refer 1 (bs " ") (bs "0") (bs " "))))).
      { cbn [retarget]. destruct (f 1) as [k|]; cbn [show].
        - rewrite !in_app_iff. intros [H|H]; [|cbn in H; intuition discriminate]. apply (plain_word_slash _ (plain_word_decZ k) H).
        - vm_compute. intuition discriminate. }
      rewrite app_assoc. apply contains_after; [exact KT|reflexivity|]. rewrite in_app_iff. intros [H|H]; [cbn in H; intuition discriminate|exact (S H)].
    + split; [discriminate|reflexivity].
  - intros n q Hn Hq Hi. cbn [In sObjs back_doc] in *.
    destruct Hn as [<-|[<-|[<-|[<-|[]]]]]; cbn in Hq; destruct Hq as [<-|[]] || destruct Hq; vm_compute; auto 10.
  - repeat constructor. intros [].
  - reflexivity.
Qed.

(* ---------------------------------------------------------------- *)
(** C31: extraction *)

(** The listed pages, in the listed order, with their texts (apart from the
    parent) and nothing else.  Missing from the property: everything that the
    pages refer to, pages that are object 1, the old parent entry. *)
Theorem C31_extract_pages_partial : forall stack s m all pages (X Y : Z -> bytes),
  NewPDFManipulator s = Ok m -> getAllPageObjectNumbers stack s = Ok all -> pages <> [] ->
  Forall (fun p => 1 <= p <= Z.of_nat (length all)) pages ->
  (forall n, In n all -> 1 < n < 2 ^ 63 - 1 /\ exists t, mget n (mObjects m) = Some t /\ page_object t (X n) (Y n)) ->
  let nums := map (fun p => nth (Z.to_nat (p - 1)) all 0) pages in
  exists w cat, ExtractPages stack s pages = Ok w /\ rootRef w = Some cat /\ 1 < cat /\ ~ In cat nums /\
    has_page_tree (written w) (PNode 1 (map PPage nums)) /\
    (forall n, In n nums -> WGetObject n w = Ok (with_parent (X n) (Y n) 1)) /\
    (forall k, mget k (objects w) <> None -> k = 1 \/ k = cat \/ In k nums).
Proof. exact extracted_tree. Qed.
Print Assumptions C31_extract_pages_partial.
(** What such a document's pages are: see C49_page_order_partial below. *)

(** The content stream 9 of the page is not copied; *)
Theorem C31_contents_lost_refuted :
  match ExtractPages 5 (ex_doc ex_kids) [1] with
  | Ok w => WGetObject 3 w = Ok (bs "<</Type/Page/Parent 2 0 R /Rotate 270 /Contents 9 0 R/Parent 1 0 R >>") /\ WGetObject 9 w = Err
  | _ => False
  end.
Proof. vm_compute. split; reflexivity. Qed.
Print Assumptions C31_contents_lost_refuted.
(** a page that is object 1 is replaced by the new page tree, its own kid. *)
Definition one_doc : source := mkSource (bs "3 0 R") [] [] (fun n =>
    if n =? 3 then Ok (bs "<</Type/Catalog/Pages 2 0 R>>") else if n =? 2 then Ok (bs "<</Type/Pages/Kids[1 0 R]/Count 1>>")
    else Ok (bs "<</Type/Page/Parent 2 0 R>>")) [1; 2; 3].
Theorem C31_object_one_refuted :
  exists w, ExtractPages 5 one_doc [1] = Ok w /\ WGetObject 1 w = Ok (bs "<</Type/Pages/Kids[1 0 R ]/Count 1>>") /\
    forall k, getAllPageObjectNumbers k (written w) = Panic.
Proof.
  eexists. split; [vm_compute; reflexivity|]. split; [vm_compute; reflexivity|]. intros k. unfold getAllPageObjectNumbers.
  match goal with |- rbind ?p _ = _ => replace p with (Ok 1 : result Z) by (vm_compute; reflexivity) end. cbn [rbind].
  apply cyclic_pages. exists (pages_dict [1]), []. split; [vm_compute; reflexivity|]. apply pages_dict_node. repeat constructor; lia.
Qed.
Print Assumptions C31_object_one_refuted.
Example C31_example : exists m, NewPDFManipulator (ex_doc ex_kids) = Ok m /\
  (forall n, In n [3; 4; 15; 5] -> 1 < n < 2 ^ 63 - 1 /\ exists t, mget n (mObjects m) = Some t /\
     page_object t (bs "<</Type/Page/Parent 2 0 R /Rotate 270 /Contents 9 0 R") []).
Proof.
  eexists. split; [vm_compute; reflexivity|]. intros n Hn.
  assert (PO : page_object (bs "<</Type/Page/Parent 2 0 R /Rotate 270 /Contents 9 0 R>>") (bs "<</Type/Page/Parent 2 0 R /Rotate 270 /Contents 9 0 R") []).
  { split; [reflexivity|]. split; [reflexivity|]. split; [reflexivity|]. split.
    - apply (hv_name _ _ _ (bs "<<") (bs "Page") (bs "/Parent 2 0 R /Rotate 270 /Contents 9 0 R/")); try reflexivity; split; try reflexivity; discriminate.
    - right. exists (bs "<</Type/Page"), (bs " "), (bs "2"), (bs " 0 R /Rotate 270 /Contents 9 0 R>>").
      repeat split; try reflexivity; discriminate. }
  cbn [In] in Hn. destruct Hn as [<-|[<-|[<-|[<-|[]]]]]; (split; [lia|]); eexists; (split; [vm_compute; reflexivity|exact PO]).
Qed.

(* ---------------------------------------------------------------- *)
(** C32: dictionary edits *)

(** Values that are words, names or one-level arrays, or absent, are set as
    asked.  Missing from the property: references and values of several words
    (see the refutations), keys that begin like other keys. *)
Theorem C32_set_get_word_partial : forall key a w v b new, key_name key -> sole key a b -> gap w -> word v -> word_ends b -> word new ->
  extractDictValue (setDictValue (a ++ key ++ w ++ v ++ b) key new) key = new.
Proof. exact set_get_word. Qed.
Print Assumptions C32_set_get_word_partial.
Theorem C32_set_get_name_partial : forall key a v b new, key_name key -> sole key a b -> name_word v -> name_ends b -> prefixb key ("/"%byte :: v) = false ->
  name_word new -> prefixb key ("/"%byte :: new) = false ->
  extractDictValue (setDictValue (a ++ key ++ "/"%byte :: v ++ b) key ("/"%byte :: new)) key = "/"%byte :: new.
Proof. exact set_get_name. Qed.
Print Assumptions C32_set_get_name_partial.
Theorem C32_set_get_array_partial : forall key a v b new, key_name key -> contains key a = false -> contains key (v ++ b) = false -> flat_array v -> flat_array new ->
  extractDictValue (setDictValue (a ++ key ++ v ++ b) key new) key = new.
Proof. exact set_get_array. Qed.
Print Assumptions C32_set_get_array_partial.
Theorem C32_set_get_absent_partial : forall x y key new, key_name key -> contains key (x ++ bs ">>" ++ y) = false -> contains (bs ">>") (">"%byte :: y) = false -> word new ->
  extractDictValue (setDictValue (x ++ bs ">>" ++ y) key new) key = new.
Proof. exact set_get_absent. Qed.
Print Assumptions C32_set_get_absent_partial.
(** The other keys keep their values when a number is replaced by a number. *)
Theorem C32_other_keys_partial : forall k2 key a w v b new, key_name k2 -> key_name key -> prefixb k2 key = false ->
  sole key a b -> gap w -> plain_word v -> word_ends b -> plain_word new ->
  (starts_with (beqb "[") (extractDictValue (a ++ key ++ w ++ v ++ b) k2) = true ->
   contains key (extractDictValue (a ++ key ++ w ++ v ++ b) k2) = false) ->
  extractDictValue (setDictValue (a ++ key ++ w ++ v ++ b) key new) k2 =
  extractDictValue (a ++ key ++ w ++ v ++ b) k2.
Proof. exact set_spaced_other. Qed.
Print Assumptions C32_other_keys_partial.
(** A reference is never set: the key is there twice afterwards, and the old
    value is the one that is read. *)
Theorem C32_reference_refuted : forall a key w v b n, key_name key -> sole key a b -> gap w -> plain_word v -> word_ends b -> 0 <= n ->
  setDictValue (a ++ key ++ w ++ v ++ b) key (ref n) = insert_entry (a ++ key ++ w ++ v ++ b) key (ref n).
Proof. exact set_ref_again. Qed.
Print Assumptions C32_reference_refuted.
Theorem C32_two_entries_refuted :
  setDictValue (bs "<</Parent 2 0 R>>") (bs "/Parent") (bs "7 0 R") = bs "<</Parent 2 0 R/Parent 7 0 R >>" /\
  extractDictValue (setDictValue (bs "<</Parent 2 0 R>>") (bs "/Parent") (bs "7 0 R")) (bs "/Parent") = bs "2".
Proof. vm_compute. split; reflexivity. Qed.
Print Assumptions C32_two_entries_refuted.
(** A value that touches the next key: that key disappears. *)
Theorem C32_next_key_refuted :
  setDictValue (bs "<</Rotate 90/UserUnit 2>>") (bs "/Rotate") (bs "180") = bs "<</Rotate 180 2>>" /\
  extractDictValue (bs "<</Rotate 90/UserUnit 2>>") (bs "/UserUnit") = bs "2".
Proof. vm_compute. split; reflexivity. Qed.
Print Assumptions C32_next_key_refuted.
(** A longer key that starts with the key is taken for it. *)
Theorem C32_longer_key_refuted :
  extractDictValue (bs "<</PagesX 9 /Pages 2 0 R>>") (bs "/Pages") = bs "2" /\
  setDictValue (bs "<</TypeX/A/Type/Page>>") (bs "/Type") (bs "/Pages") = bs "<</TypeX/A/Type/Pages>>" /\
  setDictValue (bs "<</XObject<</Page 1 0 R>>>>") (bs "/Page") (bs "5") = bs "<</XObject<</Page 5 0 R>>>>".
Proof. vm_compute. repeat split. Qed.
Print Assumptions C32_longer_key_refuted.
Example C32_example :
  key_name (bs "/Rotate") /\ sole (bs "/Rotate") (bs "<</Type/Page ") (bs " /UserUnit 2>>") /\ word (bs "90") /\
  setDictValue (bs "<</Type/Page /Rotate  90 /UserUnit 2>>") (bs "/Rotate") (bs "180") = bs "<</Type/Page /Rotate 180 /UserUnit 2>>".
Proof.
  split; [exists (bs "Rotate"); split; reflexivity|]. split; [split; reflexivity|]. split; [split; [discriminate|split; reflexivity]|].
  vm_compute. reflexivity.
Qed.

(* ---------------------------------------------------------------- *)
(** C62: rebuilding *)

Theorem C62_rebuild_objects : forall m k, WGetObject k (Rebuild m) = match mget k (mObjects m) with Some t => Ok t | None => Err end.
Proof. exact rebuild_objects. Qed.
Print Assumptions C62_rebuild_objects.
Theorem C62_rebuild_root : forall m root w r, 0 <= root < 2 ^ 63 -> gap w -> sRoot (mSrc m) = decZ root ++ w ++ r ->
  rootRef (Rebuild m) = Some root.
Proof. exact rebuild_root. Qed.
Print Assumptions C62_rebuild_root.
(** What is read includes "n 0 obj" and "endobj", and writing adds them
    again: the rebuilt objects are not valid. *)
Definition C62_in : bytes := fst (Write (fun b => b) (fun l => l) None
  (SetRoot 1 (SetObject 2 (Some (bs "<</A 1>>")) (SetObject 1 (Some (bs "<</Type/Catalog>>")) NewPDFWriter)))).
Definition C62_open (b : bytes) : result pdf := Open (fun b => Some b) (fun _ => Ok None) b.
Definition C62_rebuilt : result bytes :=
  rbind (C62_open C62_in) (fun p =>
    rbind (NewPDFManipulator (source_of (fun b => Some b) (fun l => l) p)) (fun m =>
      Ok (fst (Write (fun b => b) (fun l => l) None (Rebuild m))))).
Theorem C62_wrapped_twice_refuted :
  rbind (C62_open C62_in) (fun p => PGetObject (fun b => Some b) p 2) = Ok (bs "2 0 obj
<</A 1>>
endobj") /\
  rbind C62_rebuilt (fun b => rbind (C62_open b) (fun p => PGetObject (fun b => Some b) p 2)) = Ok (bs "2 0 obj
2 0 obj
<</A 1>>
endobj").
Proof. vm_compute. split; reflexivity. Qed.
Print Assumptions C62_wrapped_twice_refuted.
Example C62_example : exists m, NewPDFManipulator (ex_doc ex_kids) = Ok m /\ rootRef (Rebuild m) = Some 1 /\
  WGetObject 2 (Rebuild m) = Ok (bs ex_kids).
Proof. eexists. split; [vm_compute; reflexivity|]. split; vm_compute; reflexivity. Qed.

(* ---------------------------------------------------------------- *)
(** C49, in the page manipulation package: the pages are the leaves of the
    page tree from left to right. *)
Theorem C49_manipulator_pages : forall s t stack, has_page_tree s t -> (height t <= stack)%nat ->
  getAllPageObjectNumbers stack s = Ok (page_list t).
Proof. exact source_pages. Qed.
Print Assumptions C49_manipulator_pages.
(** A node among its own kids exhausts every stack. *)
Theorem C49_cyclic_refuted : forall get n, (exists x l, get n = Ok x /\ node_text x (n :: l)) ->
  forall stack, extractPageObjectNumbers stack get n = Panic.
Proof. exact cyclic_pages. Qed.
Print Assumptions C49_cyclic_refuted.
Example C49_manipulator_example : has_page_tree (ex_doc ex_kids) ex_tree /\ page_list ex_tree = [3; 4; 15; 5] /\
  (exists x l, (fun _ : Z => Ok (bs "<</Type/Pages/Kids[2 0 R]>>")) 2 = Ok x /\ node_text x (2 :: l)).
Proof.
  split; [exact ex_page_tree|]. split; [reflexivity|]. eexists _, []. split; [reflexivity|].
  assert (R : ref_array [2] (bs "[2 0 R]")).
  { exists (bs "2 0 R"). split; [reflexivity|]. apply (rl_cons 2 _ [] (bs " ") (bs "0") (bs " ") []); try reflexivity; try lia; try discriminate; try (split; [discriminate|reflexivity]).
    apply rl_nil. reflexivity. }
  split.
  - apply (hv_name _ _ _ (bs "<<") (bs "Pages") (bs "/Kids[2 0 R]>>")); try reflexivity; split; try reflexivity; discriminate.
  - exists (bs "[2 0 R]"). split; [|exact R]. apply (hv_array _ _ _ (bs "<</Type/Pages") [] (bs ">>")); try reflexivity.
    exact (ref_array_flat _ _ R).
Qed.
