(** Model of core/compare/report.go: GenerateReport.  The comparison keeps
    which metadata fields and page properties differ; their values are taken
    from the two documents. *)
From Verif Require Import Utf8 Util.
From Verif Require Export CompareModel.
Local Open Scope Z_scope.

Definition lf : bytes := [x0a].
Definition dashes (c : byte) (n : nat) : bytes := repeat c n ++ lf.
Definition arrow : bytes := bs " -> ".
Definition num (n : nat) : bytes := decZ (Z.of_nat n).
(** %v of a form value *)
Definition shown_value (v : option bytes) : bytes := match v with Some t => t | None => bs "<nil>" end.
(** A line only when the list is not empty *)
Definition count_line {A} (label : bytes) (l : list A) (after : bytes) : bytes :=
  match l with [] => [] | _ => label ++ num (length l) ++ after ++ lf end.

Section report.
  (** Sprintf("%.2f") *)
  Context (fmt2 : float -> bytes).
  Context {B : Type} (d1 d2 : document B).

  (** report.go:27-35: three of the fields *)
  Definition meta_line (f : mfield) (a b : docmeta) : bytes :=
    match f with
    | FTitle => bs "  Title: " ++ mTitle a ++ arrow ++ mTitle b ++ lf
    | FAuthor => bs "  Author: " ++ mAuthor a ++ arrow ++ mAuthor b ++ lf
    | FPages => bs "  Page Count: " ++ decZ (mPages a) ++ arrow ++ decZ (mPages b) ++ lf
    | _ => []
    end.
  (** report.go:24-37; the fields of [compareMetadata] are in this order *)
  Definition meta_part (m : option (list mfield)) : bytes :=
    match m with
    | None => []
    | Some fs => bs "Metadata Differences:" ++ lf ++ dashes "-" 30 ++
        match dMeta d1, dMeta d2 with
        | Some a, Some b => flat_map (fun f => meta_line f a b) fs
        | _, _ => []
        end ++ lf
    end.
  (** report.go:40-47 *)
  Definition structure_part (changed : bool) : bytes :=
    if changed then bs "Structure Differences:" ++ lf ++ dashes "-" 30 ++
      bs "  Page Count: " ++ num (length (dPages d1)) ++ arrow ++ num (length (dPages d2)) ++ lf ++ lf
    else [].

  (** report.go:57-95: the counts *)
  Definition counts (d : pdiff) : bytes :=
    match d with
    | DText t => count_line (bs "  Text Added: ") (dAdded t) (bs " elements") ++
                 count_line (bs "  Text Removed: ") (dRemoved t) (bs " elements") ++
                 count_line (bs "  Text Modified: ") (dModified t) (bs " elements")
    | DGraphics a r => count_line (bs "  Graphics Added: ") a (bs " elements") ++ count_line (bs "  Graphics Removed: ") r (bs " elements")
    | DImages i => count_line (bs "  Images Added: ") (iAdded i) (bs " elements") ++ count_line (bs "  Images Removed: ") (iRemoved i) (bs " elements")
    | DAnnots a r => count_line (bs "  Annotations Added: ") a (bs " elements") ++ count_line (bs "  Annotations Removed: ") r (bs " elements")
    | _ => []
    end.
  (** compare.go:44-57,375-519: type and description of a difference of page
      [n] *)
  Definition size_text (p : page) : bytes := fmt2 (pWidth p) ++ bs "x" ++ fmt2 (pHeight p).
  Definition degrees (z : Z) : bytes := decZ z ++ [xc2; xb0].
  Definition blank_page : page := mkPage fzero fzero 0 [] [] [] None [].
  Definition page_of (d : document B) (n : nat) : page := nth (n - 1) (dPages d) blank_page.
  Definition describe (n : nat) (d : pdiff) : bytes :=
    match d with
    | DDimensions => bs "page_content: Page dimensions changed: " ++ size_text (page_of d1 n) ++ arrow ++ size_text (page_of d2 n)
    | DRotation => bs "page_content: Page rotation changed: " ++ degrees (pRotation (page_of d1 n)) ++ arrow ++ degrees (pRotation (page_of d2 n))
    | DText t => bs "text: Text content changed: " ++ num (length (dAdded t)) ++ bs " added, " ++
                 num (length (dRemoved t)) ++ bs " removed, " ++ num (length (dModified t)) ++ bs " modified"
    | DGraphics a r => bs "graphic: Graphics changed: " ++ num (length a) ++ bs " added, " ++ num (length r) ++ bs " removed"
    | DImages i => bs "image: Images changed: " ++ num (length (iAdded i)) ++ bs " added, " ++ num (length (iRemoved i)) ++
                   bs " removed, " ++ num (length (iModified i)) ++ bs " modified" ++
                   match iMoved i with [] => [] | m => bs ", " ++ num (length m) ++ bs " moved" end
    | DImageCount => bs "image: Image count changed: " ++ num (length (pImages (page_of d1 n))) ++ arrow ++ num (length (pImages (page_of d2 n)))
    | DAnnots a r => bs "annotation: Annotations changed: " ++ num (length a) ++ bs " added, " ++ num (length r) ++ bs " removed"
    | DPageRemoved => bs "page_content: Page " ++ num n ++ bs " removed in second PDF"
    | DPageAdded => bs "page_content: Page " ++ num n ++ bs " added in second PDF"
    end.
  (** report.go:53-101; text, graphics, images and annotations are counted in
      this order, which is the one of [compareSinglePage] *)
  Definition page_part (p : nat * list pdiff) : bytes :=
    lf ++ bs "Page " ++ num (fst p) ++ bs ":" ++ lf ++ flat_map counts (snd p) ++
    flat_map (fun d => bs "  " ++ describe (fst p) d ++ lf) (snd p).
  Definition pages_part (l : list (nat * list pdiff)) : bytes :=
    match l with
    | [] => []
    | _ => bs "Page Differences:" ++ lf ++ dashes "-" 30 ++ flat_map page_part l ++ lf
    end.

  (** report.go:106-138 *)
  Definition form_part (f : option formdiff) : bytes :=
    match f with
    | None => []
    | Some f => bs "Form Differences:" ++ lf ++ dashes "-" 30 ++
        match fdType f with Some (a, b) => bs "  Form Type: " ++ a ++ arrow ++ b ++ lf | None => [] end ++
        count_line (bs "  Fields Added: ") (fdAdded f) [] ++
        flat_map (fun c : fchange => bs "    - " ++ fst (fst c) ++ bs ": " ++ shown_value (snd c) ++ lf) (fdAdded f) ++
        count_line (bs "  Fields Removed: ") (fdRemoved f) [] ++
        flat_map (fun c : fchange => bs "    - " ++ fst (fst c) ++ bs ": " ++ shown_value (snd (fst c)) ++ lf) (fdRemoved f) ++
        count_line (bs "  Fields Modified: ") (fdModified f) [] ++
        flat_map (fun c : fchange => bs "    - " ++ fst (fst c) ++ bs ": " ++ shown_value (snd (fst c)) ++ arrow ++ shown_value (snd c) ++ lf) (fdModified f) ++
        lf
    end.

  Definition heading : bytes := bs "PDF Comparison Report" ++ lf ++ dashes "=" 50 ++ lf.
  (** report.go:10-141 *)
  Definition GenerateReport (c : comparison) : bytes :=
    heading ++
    if cIdentical c then [xe2; x9c; x85] ++ bs " PDFs are IDENTICAL" ++ lf
    else [xe2; x9d; x8c] ++ bs " PDFs are DIFFERENT" ++ lf ++ lf ++ bs "Total Differences: " ++ decZ (cTotal c) ++ lf ++ lf ++
         meta_part (cMeta c) ++ structure_part (cPageCount c) ++ pages_part (cPages c) ++ form_part (cForm c).
End report.
