(** What a reader of a comparison report relies on. *)
From Verif Require Import Util CompareModel.
Local Open Scope Z_scope.

Definition line (t : bytes) : bytes := t ++ [x0a].
(** The first lines of every report *)
Definition report_title : bytes :=
  line (bs "PDF Comparison Report") ++ line (bs "==================================================") ++ line [].
Definition says_identical : bytes := report_title ++ line ([xe2; x9c; x85] ++ bs " PDFs are IDENTICAL").
Definition says_different (total : Z) : bytes :=
  report_title ++ line ([xe2; x9d; x8c] ++ bs " PDFs are DIFFERENT") ++ line [] ++
  line (bs "Total Differences: " ++ decZ total) ++ line [].
(** Lines set in by two spaces *)
Definition indented (ls : list bytes) : bytes := flat_map (fun l => line (bs "  " ++ l)) ls.
Definition no_break (t : bytes) : Prop := ~ In x0a t.
(** The line [l] stands under the heading of page [n], with nothing but other
    lines of that page between. *)
Definition listed_under (report : bytes) (n : nat) (l : bytes) : Prop :=
  exists before between after, Forall no_break between /\
    report = before ++ line [] ++ line (bs "Page " ++ decZ (Z.of_nat n) ++ bs ":") ++ indented (between ++ [l]) ++ after.
Definition has_line (report l : bytes) : Prop := exists before after, report = before ++ [x0a] ++ line l ++ after.
(** A value as it is shown *)
Definition value_text (v : option bytes) : bytes := match v with Some t => t | None => bs "<nil>" end.
(** Only the bookmarks differ *)
Definition only_marks (c : comparison) : Prop :=
  cMeta c = None /\ cPageCount c = false /\ cPages c = [] /\ cMarks c = true /\ cForm c = None.
(** The metadata fields the report has lines for *)
Definition reported_field (f : mfield) : bool := match f with FTitle | FAuthor | FPages => true | _ => false end.
Definition how_many {A} (l : list A) : bytes := decZ (Z.of_nat (length l)).
(** The line for one difference of the pages [p] and [q], the [n]-th. *)
Definition page_line (fmt2 : float -> bytes) (n : nat) (p q : page) (d : pdiff) : bytes :=
  let number := decZ (Z.of_nat n) in
  let size (r : page) := fmt2 (pWidth r) ++ bs "x" ++ fmt2 (pHeight r) in
  let turn (r : page) := decZ (pRotation r) ++ [xc2; xb0] in
  match d with
  | DDimensions => bs "page_content: Page dimensions changed: " ++ size p ++ bs " -> " ++ size q
  | DRotation => bs "page_content: Page rotation changed: " ++ turn p ++ bs " -> " ++ turn q
  | DText t => bs "text: Text content changed: " ++ how_many (dAdded t) ++ bs " added, " ++ how_many (dRemoved t) ++
               bs " removed, " ++ how_many (dModified t) ++ bs " modified"
  | DGraphics a r => bs "graphic: Graphics changed: " ++ how_many a ++ bs " added, " ++ how_many r ++ bs " removed"
  | DImages i => bs "image: Images changed: " ++ how_many (iAdded i) ++ bs " added, " ++ how_many (iRemoved i) ++ bs " removed, " ++
                 how_many (iModified i) ++ bs " modified" ++ match iMoved i with [] => [] | m => bs ", " ++ how_many m ++ bs " moved" end
  | DImageCount => bs "image: Image count changed: " ++ how_many (pImages p) ++ bs " -> " ++ how_many (pImages q)
  | DAnnots a r => bs "annotation: Annotations changed: " ++ how_many a ++ bs " added, " ++ how_many r ++ bs " removed"
  | DPageRemoved => bs "page_content: Page " ++ number ++ bs " removed in second PDF"
  | DPageAdded => bs "page_content: Page " ++ number ++ bs " added in second PDF"
  end.
Definition needs_pages (d : pdiff) : bool := match d with DPageRemoved | DPageAdded => false | _ => true end.
(** What is counted of a difference: the kind and how many. *)
Definition counted (d : pdiff) : list (bytes * nat) :=
  match d with
  | DText t => [(bs "Text Added", length (dAdded t)); (bs "Text Removed", length (dRemoved t)); (bs "Text Modified", length (dModified t))]
  | DGraphics a r => [(bs "Graphics Added", length a); (bs "Graphics Removed", length r)]
  | DImages i => [(bs "Images Added", length (iAdded i)); (bs "Images Removed", length (iRemoved i))]
  | DAnnots a r => [(bs "Annotations Added", length a); (bs "Annotations Removed", length r)]
  | _ => []
  end.
