(** Property theorems: the comparison report (C93). *)
From Verif Require Import Util CompareModel CompareSpec CompareProps ReportModel ReportSpec ReportProofs.
Local Open Scope Z_scope.

(** C93, full statement: the report says that the documents are identical
    exactly when the comparison found no difference, says how many it found,
    and has a line for each. *)
Theorem C93_verdict : forall (B : Type) (deq : list B -> list B -> bool) fmt1 all1 all2 iter1 iter2 o d1 d2 c fmt2,
  compareDocs deq fmt1 all1 all2 iter1 iter2 o d1 d2 = Ok c ->
  (GenerateReport fmt2 d1 d2 c = says_identical <-> nothing_reported c) /\
  (~ nothing_reported c -> 0 < cTotal c /\ exists rest, GenerateReport fmt2 d1 d2 c = says_different (cTotal c) ++ rest).
Proof. exact @verdict. Qed.
Print Assumptions C93_verdict.

(** Every difference of a page is a line under the heading of that page, with
    the two pages' own values. *)
Theorem C93_pages : forall (B : Type) (deq : list B -> list B -> bool) fmt1 all1 all2 iter1 iter2 o d1 d2 c fmt2 n ds d,
  (forall x, no_break (fmt2 x)) -> compareDocs deq fmt1 all1 all2 iter1 iter2 o d1 d2 = Ok c ->
  In (n, ds) (cPages c) -> In d ds ->
  exists p q, (needs_pages d = true -> nth_error (dPages d1) (n - 1) = Some p /\ nth_error (dPages d2) (n - 1) = Some q) /\
    listed_under (GenerateReport fmt2 d1 d2 c) n (page_line fmt2 n p q d).
Proof. exact @page_lines. Qed.
Print Assumptions C93_pages.

(** How many texts, graphics, images and annotations were added, removed or
    (texts) modified on a page is said under the heading of that page. *)
Theorem C93_counts : forall (B : Type) fmt2 (d1 d2 : document B) c n ds d kind k,
  cIdentical c = false -> In (n, ds) (cPages c) -> In d ds -> In (kind, k) (counted d) -> k <> O ->
  listed_under (GenerateReport fmt2 d1 d2 c) n (kind ++ bs ": " ++ decZ (Z.of_nat k) ++ bs " elements").
Proof. intros B fmt2. exact (@count_reported fmt2 B). Qed.
Print Assumptions C93_counts.

(** So are the two numbers of pages, when they differ. *)
Theorem C93_page_count : forall (B : Type) fmt2 (d1 d2 : document B) c, cIdentical c = false -> cPageCount c = true ->
  has_line (GenerateReport fmt2 d1 d2 c)
    (bs "  Page Count: " ++ decZ (Z.of_nat (length (dPages d1))) ++ bs " -> " ++ decZ (Z.of_nat (length (dPages d2)))).
Proof. exact @pages_counted. Qed.
Print Assumptions C93_page_count.

(** Every field of the form that was added, removed or changed has a line. *)
Theorem C93_form : forall (B : Type) fmt2 (d1 d2 : document B) c f, cIdentical c = false -> cForm c = Some f ->
  (forall x : fchange, In x (fdAdded f) ->
     has_line (GenerateReport fmt2 d1 d2 c) (bs "    - " ++ fst (fst x) ++ bs ": " ++ value_text (snd x))) /\
  (forall x : fchange, In x (fdRemoved f) ->
     has_line (GenerateReport fmt2 d1 d2 c) (bs "    - " ++ fst (fst x) ++ bs ": " ++ value_text (snd (fst x)))) /\
  (forall x : fchange, In x (fdModified f) ->
     has_line (GenerateReport fmt2 d1 d2 c)
       (bs "    - " ++ fst (fst x) ++ bs ": " ++ value_text (snd (fst x)) ++ bs " -> " ++ value_text (snd x))).
Proof. exact @form_reported. Qed.
Print Assumptions C93_form.

(** Of the metadata: title, author and number of pages, and no other field. *)
Theorem C93_metadata_partial : forall (B : Type) fmt2 (d1 d2 : document B) c a b fs,
  cIdentical c = false -> dMeta d1 = Some a -> dMeta d2 = Some b -> cMeta c = Some fs ->
  exists rest, GenerateReport fmt2 d1 d2 c = says_different (cTotal c) ++ line (bs "Metadata Differences:") ++ line (bs "------------------------------") ++
    flat_map (fun f => match f with
      | FTitle => line (bs "  Title: " ++ mTitle a ++ bs " -> " ++ mTitle b)
      | FAuthor => line (bs "  Author: " ++ mAuthor a ++ bs " -> " ++ mAuthor b)
      | FPages => line (bs "  Page Count: " ++ decZ (mPages a) ++ bs " -> " ++ decZ (mPages b))
      | _ => []
      end) (List.filter reported_field fs) ++ line [] ++ rest.
Proof. exact @meta_reported. Qed.
Print Assumptions C93_metadata_partial.

(** Different bookmarks are counted and nowhere named. *)
Theorem C93_bookmarks_refuted : forall (B : Type) fmt2 (d1 d2 : document B) c, cIdentical c = false -> only_marks c ->
  GenerateReport fmt2 d1 d2 c = says_different (cTotal c).
Proof. exact @marks_unsaid. Qed.
Print Assumptions C93_bookmarks_refuted.

Definition ex_md (subject : bytes) : docmeta := mkDMeta (bs "T") [] subject [] [] [] [] [] (bs "1.7") 1 false.
Definition ex_compare (d1 d2 : document bool) : result bytes :=
  match compareDocs (fun a b => (length a =? length b)%nat) (fun _ => []) None None same_order same_order DefaultCompareOptions d1 d2 with
  | Ok c => Ok (GenerateReport (fun _ => bs "0.00") d1 d2 c)
  | _ => Err
  end.
Definition ex_form (v : bytes) : form := mkForm (bs "acroform") [(bs "name", Some v)].
Example C93_example :
  ex_compare (mkDoc None [blank] [] (Some (ex_form (bs "Ann")))) (mkDoc None [blank; blank] [] (Some (ex_form (bs "Bob")))) =
  Ok (says_different 3 ++ bs "Structure Differences:
------------------------------
  Page Count: 1 -> 2

Page Differences:
------------------------------

Page 2:
  page_content: Page 2 added in second PDF

Form Differences:
------------------------------
  Fields Modified: 1
    - name: Ann -> Bob

") /\
  ex_compare (mkDoc None [blank] [true] None) (mkDoc None [blank] [] None) = Ok (says_different 1) /\
  ex_compare (mkDoc (Some (ex_md (bs "a"))) [] [] None) (mkDoc (Some (ex_md (bs "b"))) [] [] None) = Ok (says_different 1 ++ bs "Metadata Differences:
------------------------------

").
Proof. vm_compute. repeat split; reflexivity. Qed.

(** A page on which two annotations were added and one removed. *)
Definition annotated (types : list bytes) : document bool :=
  mkDoc None [mkPage (fint 612) (fint 792) 0 [] [] [] None (map (fun t => mkShape t None []) types)] [] None.
Example C93_example_counts :
  ex_compare (annotated [bs "Link"]) (annotated [bs "Text"; bs "Stamp"]) = Ok (says_different 1 ++ bs "Page Differences:
------------------------------

Page 1:
  Annotations Added: 2 elements
  Annotations Removed: 1 elements
  annotation: Annotations changed: 2 added, 1 removed

").
Proof. vm_compute. reflexivity. Qed.
