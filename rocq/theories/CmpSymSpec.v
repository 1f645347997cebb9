(** What it means that comparing the other way round gives the mirror image. *)
From Verif Require Import CompareModel CompareSpec.
Local Open Scope Z_scope.

(** Old and new exchanged. *)
Definition turned {A B} (p : A * B) : B * A := (snd p, fst p).

(** Two text differences that are each other's mirror image: what one reports
    as added the other reports as removed, and they report the same
    modifications, old and new exchanged. *)
Definition mirrored (d d' : textdiff) : Prop :=
  dAdded d' = dRemoved d /\ dRemoved d' = dAdded d /\ Permutation (dModified d') (map turned (dModified d)).
(** The same, but only for how many there are of each. *)
Definition mirrored_counts (d d' : textdiff) : Prop :=
  length (dAdded d') = length (dRemoved d) /\ length (dRemoved d') = length (dAdded d) /\
  length (dModified d') = length (dModified d).
(** Text is compared exactly when it is compared by words or characters. *)
Definition mirrored_text (o : options) (d d' : textdiff) : Prop :=
  mirrored_counts d d' /\ (oGranularity o <> GElement -> mirrored d d').

Definition mirrored_images (d d' : imagediff) : Prop :=
  iAdded d' = iRemoved d /\ iRemoved d' = iAdded d /\
  Permutation (iModified d') (map turned (iModified d)) /\ Permutation (iMoved d') (map turned (iMoved d)).

Definition turned_change (c : fchange) : fchange := change (fst (fst c)) (snd c) (snd (fst c)).
(** Go iterates over value maps in no particular order. *)
Definition mirrored_forms (d d' : formdiff) : Prop :=
  Permutation (fdAdded d') (map turned_change (fdRemoved d)) /\
  Permutation (fdRemoved d') (map turned_change (fdAdded d)) /\
  Permutation (fdModified d') (map turned_change (fdModified d)) /\
  fdType d' = option_map turned (fdType d).

Inductive mirrored_opt {A} (r : A -> A -> Prop) : option A -> option A -> Prop :=
| mo_none : mirrored_opt r None None
| mo_some a b : r a b -> mirrored_opt r (Some a) (Some b).

(** One entry of the differences of a page. *)
Inductive mirrored_entry (o : options) : pdiff -> pdiff -> Prop :=
| me_dimensions : mirrored_entry o DDimensions DDimensions
| me_rotation : mirrored_entry o DRotation DRotation
| me_text d d' : mirrored_text o d d' -> mirrored_entry o (DText d) (DText d')
| me_graphics a r : mirrored_entry o (DGraphics a r) (DGraphics r a)
| me_images d d' : mirrored_images d d' -> mirrored_entry o (DImages d) (DImages d')
| me_image_count : mirrored_entry o DImageCount DImageCount
| me_annots a r : mirrored_entry o (DAnnots a r) (DAnnots r a)
| me_removed : mirrored_entry o DPageRemoved DPageAdded
| me_added : mirrored_entry o DPageAdded DPageRemoved.

(** The report on one page. *)
Definition mirrored_page (o : options) (p p' : nat * list pdiff) : Prop :=
  fst p = fst p' /\ Forall2 (mirrored_entry o) (snd p) (snd p').

Definition mirrored_comparison (o : options) (c c' : comparison) : Prop :=
  cIdentical c' = cIdentical c /\ cTotal c' = cTotal c /\ cMeta c' = cMeta c /\ cPageCount c' = cPageCount c /\
  Forall2 (mirrored_page o) (cPages c) (cPages c') /\ cMarks c' = cMarks c /\
  mirrored_opt mirrored_forms (cForm c) (cForm c').

(** No two graphics and no two annotations of a page share type and box. *)
Definition distinct_shapes (fmt1 : float -> bytes) (p : page) : Prop :=
  NoDup (map (shapeKey fmt1) (pGraphics p)) /\ NoDup (map (shapeKey fmt1) (pAnnots p)).
(** The value map of a form is a map. *)
Definition is_map (f : option form) : Prop := match f with Some f => NoDup (map fst (fValues f)) | None => True end.
