(** Property theorems: document comparison. *)
From Verif Require Import CompareModel CompareSpec CompareProofs CompareProofs2 CompareProofs3 CompareProofs4.
Local Open Scope Z_scope.

(* ---------------------------------------------------------------- *)
(** C33 *)
Theorem C33_longest_common_subsequence : forall (A B : Type) (eq : A -> B -> bool) l1 l2,
  common_subsequence eq l1 l2 (findLCSMatches eq l1 l2) /\
  forall ms, common_subsequence eq l1 l2 ms -> (length ms <= length (findLCSMatches eq l1 l2))%nat.
Proof. exact @lcs_ok. Qed.
Print Assumptions C33_longest_common_subsequence.
Example C33_example : findLCSMatches Nat.eqb [1; 2; 3; 2]%nat [2; 1; 2; 4; 2]%nat = [(0, 1); (1, 2); (3, 4)]%nat.
Proof. reflexivity. Qed.

(* ---------------------------------------------------------------- *)
(** C34.  [accounts]: every element of the old text is kept, modified or
    removed once, every element of the new one kept, modified or added once. *)
Theorem C34_text_diff_accounts : forall o t1 t2, exists d, compareText o t1 t2 = Ok d /\
  (exists kept, accounts t1 t2 kept (diff_of d) /\ Forall (fun ab => unchanged o (fst ab) (snd ab)) kept) /\
  subseq (dRemoved (diff_of d)) t1 /\ subseq (dAdded (diff_of d)) t2 /\
  (forall a b, In (a, b) (dModified (diff_of d)) -> In a t1 /\ In b t2 /\ exactly_equal o a b = false) /\
  (forall a b, In a (dRemoved (diff_of d)) -> In b (dAdded (diff_of d)) -> exactly_equal o a b = false) /\
  (d = None <-> diff_of d = mkDiff [] [] []).
Proof.
  intros o t1 t2. destruct (compareText_good o t1 t2) as (d & E & (K & S1 & S2 & M) & N & X). exists d. repeat split; try assumption; apply N || apply (M a b); assumption.
Qed.
Print Assumptions C34_text_diff_accounts.

(** A modification pairs two elements only if they stand at the same place or
    have the same text in the same font. *)
Theorem C34_modified_pairs : forall o t1 t2 d a b,
  compareText o t1 t2 = Ok d -> In (a, b) (dModified (diff_of d)) ->
  same_place (oTolerance o) a b = true \/ (same_text o a b = true /\ eFont a = eFont b).
Proof. exact compareText_pairs. Qed.
Print Assumptions C34_modified_pairs.

Definition at_ (x y : Z) (t : bytes) : elem := mkElem t (fint x) (fint y) (bs "/F1") (fint 12) [].
Example C34_example :
  compareText DefaultCompareOptions [at_ 0 0 (bs "one"); at_ 0 20 (bs "two"); at_ 0 40 (bs "three")]
    [at_ 0 0 (bs "one"); at_ 0 41 (bs "3"); at_ 0 90 (bs "four")] =
  Ok (Some (mkDiff [at_ 0 90 (bs "four")] [at_ 0 20 (bs "two")] [(at_ 0 40 (bs "three"), at_ 0 41 (bs "3"))])).
Proof. vm_compute. reflexivity. Qed.

(* ---------------------------------------------------------------- *)
(** C35.  A document compared with itself.  Go iterates twice over each map of
    image resources, in unrelated orders [iter1] and [iter2]. *)
Theorem C35_self_comparison_partial : forall (B : Type) (deq : list B -> list B -> bool) fmt1 all iter1 iter2 o d,
  (forall l, deq l l = true) -> (forall n l, Permutation (iter1 n l) l) -> (forall n l, Permutation (iter2 n l) l) ->
  flt fzero (oTolerance o) = true -> Forall (plain_page fmt1) (dPages d) ->
  (forall f, dForm d = Some f -> NoDup (map fst (fValues f))) ->
  exists c, compareDocs deq fmt1 all all iter1 iter2 o d d = Ok c /\ cIdentical c = true /\ nothing_reported c.
Proof. exact @docs_self. Qed.
Print Assumptions C35_self_comparison_partial.

Definition blank : page := mkPage (fint 612) (fint 792) 0 [] [] [] None [].
Definition doc1 (p : page) : document unit := mkDoc None [p] [] None.
Definition compare1 (o : options) (iter1 iter2 : nat -> list (bytes * image) -> list (bytes * image)) (p : page) : option bool :=
  match compareDocs (fun _ _ => true) (fun _ => bs "0.0") None None iter1 iter2 o (doc1 p) (doc1 p) with
  | Ok c => Some (cIdentical c) | _ => None end.
Definition same_order (n : nat) (l : list (bytes * image)) := l.

(** Two equal graphics (or annotations) on a page: one is reported as added. *)
Theorem C35_duplicate_graphics_refuted :
  let g := mkShape (bs "rectangle") None [] in
  compare1 DefaultCompareOptions same_order same_order (mkPage (fint 612) (fint 792) 0 [] [g; g] [] None []) = Some false /\
  compare1 DefaultCompareOptions same_order same_order (mkPage (fint 612) (fint 792) 0 [] [] [] None [g; g]) = Some false.
Proof. vm_compute. split; reflexivity. Qed.
Print Assumptions C35_duplicate_graphics_refuted.
(** With TextTolerance 0 no text is at its own position. *)
Theorem C35_zero_tolerance_refuted :
  compare1 (mkOpts false true true fzero GElement Normal false fzero fzero false false) same_order same_order
    (mkPage (fint 612) (fint 792) 0 [at_ 1 1 (bs "x")] [] [] None []) = Some false.
Proof. vm_compute. reflexivity. Qed.
Print Assumptions C35_zero_tolerance_refuted.
(** Two image resources of different sizes, iterated in different orders. *)
Theorem C35_image_order_refuted :
  let i1 := (bs "Im1", mkImage (bs "/Im1") 10 10 (bs "jpeg") (bs "/DeviceRGB") []) in
  let i2 := (bs "Im2", mkImage (bs "/Im2") 20 20 (bs "jpeg") (bs "/DeviceRGB") []) in
  compare1 DefaultCompareOptions same_order (fun _ l => rev l)
    (mkPage (fint 612) (fint 792) 0 [] [] [mkRef (bs "/Im1") (fint 0) (fint 0) []] (Some [i1; i2]) []) = Some false /\
  compare1 DefaultCompareOptions same_order same_order
    (mkPage (fint 612) (fint 792) 0 [] [] [mkRef (bs "/Im1") (fint 0) (fint 0) []] (Some [i1; i2]) []) = Some true.
Proof. vm_compute. split; reflexivity. Qed.
Print Assumptions C35_image_order_refuted.
Example C35_example : plain_page (fun _ => bs "0.0") (mkPage (fint 612) (fint 792) 0 [at_ 1 1 (bs "x"); at_ 1 1 (bs "x")]
    [mkShape (bs "line") None []; mkShape (bs "rectangle") None []] [mkRef (bs "/Im1") (fint 0) (fint 0) []]
    (Some [(bs "Im1", mkImage (bs "/Im1") 10 10 (bs "jpeg") (bs "/DeviceRGB") [])]) []) /\
  flt fzero (oTolerance DefaultCompareOptions) = true.
Proof.
  split; [|reflexivity]. unfold plain_page. cbn [pWidth pHeight pText pGraphics pAnnots pImages pResources].
  split; [reflexivity|]. split; [reflexivity|]. split; [repeat constructor|]. split; [repeat constructor; cbn; intuition discriminate|].
  split; [constructor|]. split; [repeat constructor|]. intros l [= <-]. split; [repeat constructor; intros []|].
  intros a b [<-|[]] [<-|[]]. reflexivity.
Qed.

(* ---------------------------------------------------------------- *)
(** C36.  [fValues] lists the entries of the value maps in any order. *)
Theorem C36_form_difference : forall a b, fType a = fType b -> NoDup (map fst (fValues a)) -> NoDup (map fst (fValues b)) ->
  let d := form_out (compareForms (Some a) (Some b)) in
  (forall n x y, In (change n x y) (fdAdded d) <-> x = None /\ In (n, y) (fValues b) /\ ~ In n (map fst (fValues a))) /\
  (forall n x y, In (change n x y) (fdRemoved d) <-> y = None /\ In (n, x) (fValues a) /\ ~ In n (map fst (fValues b))) /\
  (forall n x y, In (change n x y) (fdModified d) <-> In (n, x) (fValues a) /\ In (n, y) (fValues b) /\ x <> y) /\
  NoDup (names (fdAdded d) ++ names (fdRemoved d) ++ names (fdModified d)) /\ fdType d = None /\
  (compareForms (Some a) (Some b) = None <-> forall n x, In (n, x) (fValues a) <-> In (n, x) (fValues b)).
Proof. exact forms_ok. Qed.
Print Assumptions C36_form_difference.
Example C36_example :
  let a := mkForm (bs "AcroForm") [(bs "name", Some (bs "Ann")); (bs "old", None); (bs "same", Some (bs "1"))] in
  let b := mkForm (bs "AcroForm") [(bs "same", Some (bs "1")); (bs "new", Some (bs "x")); (bs "name", Some (bs "Bob"))] in
  NoDup (map fst (fValues a)) /\ NoDup (map fst (fValues b)) /\
  compareForms (Some a) (Some b) =
    Some (mkFD [change (bs "new") None (Some (bs "x"))] [change (bs "old") None None]
               [change (bs "name") (Some (bs "Ann")) (Some (bs "Bob"))] None).
Proof. split; [repeat constructor; cbn; intuition discriminate|]. split; [repeat constructor; cbn; intuition discriminate|]. reflexivity. Qed.

(* ---------------------------------------------------------------- *)
(** C37 *)
Theorem C37_normalise_idempotent : forall o t, normalize o (normalize o t) = normalize o t.
Proof. exact normalize_idem. Qed.
Print Assumptions C37_normalise_idempotent.
(** The ratio is a fraction, numerator first. *)
Theorem C37_change_ratio : forall a b,
  changeRatio a b = changeRatio b a /\ 0 <= fst (changeRatio a b) <= snd (changeRatio a b) /\ 0 < snd (changeRatio a b) /\
  (fst (changeRatio a b) = 0 <-> a = b).
Proof. intros a b. exact (conj (ratio_sym a b) (conj (proj1 (ratio_bound a b)) (conj (proj2 (ratio_bound a b)) (ratio_zero a b)))). Qed.
Print Assumptions C37_change_ratio.
Definition ignoring (ws case : bool) : options := mkOpts false true true (fint 5) GElement Normal false fzero fzero ws case.
(** IgnoreCase and IgnoreWhitespace have no effect on elements at the same
    place: the raw texts are compared first. *)
Theorem C37_ignore_options_refuted :
  normalize (ignoring true true) (bs "Hello World") = normalize (ignoring true true) (bs "HELLOworld") /\
  compareText (ignoring true true) [at_ 0 0 (bs "Hello World")] [at_ 0 0 (bs "HELLOworld")] =
  Ok (Some (mkDiff [] [] [(at_ 0 0 (bs "Hello World"), at_ 0 0 (bs "HELLOworld"))])).
Proof. vm_compute. split; reflexivity. Qed.
Print Assumptions C37_ignore_options_refuted.
Example C37_example : normalize (ignoring true true) (bs "A b C") = bs "abc" /\ changeRatio (bs "abcd") (bs "abxd") = (1, 4).
Proof. vm_compute. split; reflexivity. Qed.

(* ---------------------------------------------------------------- *)
(** C38 *)
Theorem C38_sensitivity : forall o s t1 t2, exists d, compareText (with_sensitivity Normal o) t1 t2 = Ok d /\
  exists d', compareText (with_sensitivity s o) t1 t2 = Ok d' /\
  dAdded (diff_of d') = dAdded (diff_of d) /\ dRemoved (diff_of d') = dRemoved (diff_of d) /\
  dModified (diff_of d') =
    match s with Relaxed => List.filter (substantial o) (dModified (diff_of d)) | _ => dModified (diff_of d) end.
Proof. exact sensitivity_ok. Qed.
Print Assumptions C38_sensitivity.
(** MinChangeThreshold changes nothing at all ... *)
Theorem C38_threshold_ignored : forall o x t1 t2, compareText (with_threshold x o) t1 t2 = compareText o t1 t2.
Proof. exact threshold_ignored. Qed.
Print Assumptions C38_threshold_ignored.
(** ... so a change far below it is reported. *)
Theorem C38_threshold_refuted :
  changeRatio (bs "aaaaaaaaaa") (bs "aaaaaaaaab") = (1, 10) /\
  compareText (with_threshold (fint 1) DefaultCompareOptions) [at_ 0 0 (bs "aaaaaaaaaa")] [at_ 0 0 (bs "aaaaaaaaab")] =
  Ok (Some (mkDiff [] [] [(at_ 0 0 (bs "aaaaaaaaaa"), at_ 0 0 (bs "aaaaaaaaab"))])).
Proof. vm_compute. split; reflexivity. Qed.
Print Assumptions C38_threshold_refuted.
Example C38_example :
  compareText (with_sensitivity Relaxed DefaultCompareOptions) [at_ 0 0 (bs "aaaaaaaaaa"); at_ 0 50 (bs "abc")]
     [at_ 0 0 (bs "aaaaaaaaab"); at_ 0 50 (bs "xyz")] =
  Ok (Some (mkDiff [] [] [(at_ 0 50 (bs "abc"), at_ 0 50 (bs "xyz"))])).
Proof. vm_compute. reflexivity. Qed.

(* ---------------------------------------------------------------- *)
(** C57.  Graphics and annotations are compared by key: type and rounded
    bounding box. *)
Theorem C57_keyed_difference_partial : forall (A : Type) (key : A -> bytes) l1 l2, NoDup (map key l1) -> NoDup (map key l2) ->
  keyed_out (compareKeyed key l1 l2) =
    (List.filter (fun a => negb (has_key key l1 (key a))) l2, List.filter (fun a => negb (has_key key l2 (key a))) l1) /\
  (compareKeyed key l1 l2 = None <-> forall k, In k (map key l1) <-> In k (map key l2)).
Proof. exact @keyed_ok. Qed.
Print Assumptions C57_keyed_difference_partial.
(** With repeated keys a removed duplicate is not reported. *)
Theorem C57_duplicate_refuted : exists l1 l2 : list bytes,
  length l1 <> length l2 /\ compareKeyed (fun k => k) l1 l2 = None.
Proof. exists [bs "a"; bs "a"], [bs "a"]. vm_compute. split; [discriminate|reflexivity]. Qed.
Print Assumptions C57_duplicate_refuted.
Example C57_example : compareKeyed (fun k => k) [bs "a"; bs "b"] [bs "b"; bs "c"] = Some ([bs "c"], [bs "a"]).
Proof. reflexivity. Qed.

(* ---------------------------------------------------------------- *)
(** C58 *)
Theorem C58_identical_iff_nothing_reported :
  forall (B : Type) (deq : list B -> list B -> bool) fmt1 all1 all2 iter1 iter2 o d1 d2 c,
  compareDocs deq fmt1 all1 all2 iter1 iter2 o d1 d2 = Ok c ->
  (cIdentical c = true <-> nothing_reported c) /\ (cTotal c = 0 <-> nothing_reported c) /\ 0 <= cTotal c.
Proof. exact @identical_ok. Qed.
Print Assumptions C58_identical_iff_nothing_reported.
Example C58_example :
  match compareDocs (fun _ _ => true) (fun _ => []) None None same_order same_order DefaultCompareOptions (doc1 blank) (mkDoc None [blank; blank] [] None) with
  | Ok c => (cIdentical c, cTotal c, cPageCount c, cPages c) = (false, 2, true, [(2%nat, [DPageAdded])]) | _ => False end.
Proof. vm_compute. reflexivity. Qed.

(* ---------------------------------------------------------------- *)
(** C59 *)
Theorem C59_metadata_difference : forall o a b f, oIgnoreMetadata o = false ->
  (In f (meta_out (compareMetadata o (Some a) (Some b))) <-> mignored o f = false /\ mvalue a f <> mvalue b f).
Proof. exact metadata_ok. Qed.
Print Assumptions C59_metadata_difference.
Example C59_example :
  let a := mkDMeta (bs "T") [] [] [] [] (bs "p") [] [] (bs "1.7") 1 false in
  let b := mkDMeta (bs "U") [] [] [] [] (bs "q") [] [] (bs "1.7") 2 false in
  compareMetadata DefaultCompareOptions (Some a) (Some b) = Some [FTitle; FPages].
Proof. reflexivity. Qed.

(* ---------------------------------------------------------------- *)
(** C60.  [n + i] is the zero-based index of the i-th pair of pages; here n = 0. *)
Theorem C60_pages_reported : forall fmt1 all1 all2 iter1 iter2 o l1 l2 pd,
  comparePages fmt1 all1 all2 iter1 iter2 o 0 l1 l2 = Ok pd ->
  StronglySorted lt (map fst pd) /\
  forall k d, In (k, d) pd <->
    exists i, k = S i /\
      match nth_error l1 i, nth_error l2 i with
      | Some p, Some q => compareSinglePage fmt1 all1 all2 iter1 iter2 o i p q = Ok d /\ d <> []
      | Some _, None => d = [DPageRemoved]
      | None, Some _ => d = [DPageAdded]
      | None, None => False
      end.
Proof. exact (fun f a1 a2 i1 i2 o l1 l2 => pages_ok f a1 a2 i1 i2 o l1 l2 0). Qed.
Print Assumptions C60_pages_reported.
