(** What a comparison of two texts, forms and documents has to satisfy. *)
From Verif Require Import CompareModel.
Local Open Scope Z_scope.

(** A common subsequence of two lists, as the pairs of positions it uses:
    strictly increasing in both lists, and each pair related by [eq]. *)
Section matching.
  Context {A B : Type} (eq : A -> B -> bool).
  Definition related (l1 : list A) (l2 : list B) (p : nat * nat) : Prop :=
    exists a b, nth_error l1 (fst p) = Some a /\ nth_error l2 (snd p) = Some b /\ eq a b = true.
  Definition before (p q : nat * nat) : Prop := (fst p < fst q)%nat /\ (snd p < snd q)%nat.
  Definition common_subsequence (l1 : list A) (l2 : list B) (ms : list (nat * nat)) : Prop :=
    Forall (related l1 l2) ms /\ StronglySorted before ms.
End matching.

(** [a] is [b] with some elements left out. *)
Inductive subseq {A} : list A -> list A -> Prop :=
| sub_nil : subseq [] []
| sub_skip x a b : subseq a b -> subseq a (x :: b)
| sub_keep x a b : subseq a b -> subseq (x :: a) (x :: b).

Definition diff_of (d : option textdiff) : textdiff := match d with Some d => d | None => mkDiff [] [] [] end.

(** Every element of the old text is kept, modified or removed exactly once,
    and every element of the new text is kept, modified or added exactly
    once.  Hence the new text is, as a collection, the old one after replacing
    the kept and modified elements, deleting the removed and inserting the
    added ones. *)
Definition accounts (old new : list elem) (kept : list (elem * elem)) (d : textdiff) : Prop :=
  Permutation old (map fst kept ++ map fst (dModified d) ++ dRemoved d) /\
  Permutation new (map snd kept ++ map snd (dModified d) ++ dAdded d).

(** Two elements that need not be reported: at the same place with the same
    text (or, word by word, the same words); with relaxed sensitivity also
    texts that differ in at most a tenth. *)
Definition unchanged (o : options) (a b : elem) : Prop :=
  (same_place (oTolerance o) a b = true /\
   (same_text o a b = true \/ (oGranularity o = GWord /\ words_same o a b = true))) \/
  (oSensitivity o = Relaxed /\
   10 * fst (changeRatio (normalize o (eText a)) (normalize o (eText b))) <=
   snd (changeRatio (normalize o (eText a)) (normalize o (eText b)))).

(** Same text, place (within the tolerance) and font. *)
Definition exactly_equal (o : options) (a b : elem) : bool :=
  bytes_eqb (eText a) (eText b) && same_place (oTolerance o) a b && same_font a b.

Definition finite (x : float) : bool := match x with S754_zero _ | S754_finite _ _ _ => true | _ => false end.
Definition finite_elem (e : elem) : Prop := finite (eX e) = true /\ finite (eY e) = true /\ finite (eSize e) = true.

(** Documents without the coincidences that confuse the comparison: no two
    graphics or annotations of a page have the same key, and the images of a
    page's resources are the same picture. *)
Definition plain_page (fmt1 : float -> bytes) (p : page) : Prop :=
  finite (pWidth p) = true /\ finite (pHeight p) = true /\
  Forall finite_elem (pText p) /\
  NoDup (map (shapeKey fmt1) (pGraphics p)) /\ NoDup (map (shapeKey fmt1) (pAnnots p)) /\
  Forall (fun r => finite (irX r) = true /\ finite (irY r) = true) (pImages p) /\
  (forall l, pResources p = Some l -> NoDup (map fst l) /\
     forall a b, In a l -> In b l -> imagesEqual (snd a) (snd b) = true).
Definition nothing_reported (c : comparison) : Prop :=
  cMeta c = None /\ cPageCount c = false /\ cPages c = [] /\ cMarks c = false /\ cForm c = None.

(** The value of a metadata field, and whether the options leave it out. *)
Definition mvalue (m : docmeta) (f : mfield) : bytes + (Z + bool) :=
  match f with
  | FTitle => inl (mTitle m) | FAuthor => inl (mAuthor m) | FSubject => inl (mSubject m) | FKeywords => inl (mKeywords m)
  | FCreator => inl (mCreator m) | FProducer => inl (mProducer m) | FCreation => inl (mCreation m) | FMod => inl (mMod m)
  | FVersion => inl (mVersion m) | FPages => inr (inl (mPages m)) | FEncrypted => inr (inr (mEncrypted m))
  end.
Definition mignored (o : options) (f : mfield) : bool :=
  match f with FProducer => oIgnoreProducer o | FCreation | FMod => oIgnoreDates o | _ => false end.

(** The same options with another sensitivity or threshold. *)
Definition with_sensitivity (s : sensitivity) (o : options) : options :=
  mkOpts (oIgnoreMetadata o) (oIgnoreProducer o) (oIgnoreDates o) (oTolerance o) (oGranularity o) s
    (oDetectMoves o) (oMoveTolerance o) (oMinChange o) (oIgnoreWhitespace o) (oIgnoreCase o).
Definition with_threshold (x : float) (o : options) : options :=
  mkOpts (oIgnoreMetadata o) (oIgnoreProducer o) (oIgnoreDates o) (oTolerance o) (oGranularity o) (oSensitivity o)
    (oDetectMoves o) (oMoveTolerance o) x (oIgnoreWhitespace o) (oIgnoreCase o).
(** More than a tenth of the text changes. *)
Definition substantial (o : options) (ab : elem * elem) : bool :=
  ratio_gt_tenth (changeRatio (normalize o (eText (fst ab))) (normalize o (eText (snd ab)))).

(** What a form comparison reports: changes are (name, old value, new value). *)
Definition form_out (d : option formdiff) : formdiff := match d with Some d => d | None => mkFD [] [] [] None end.
Definition change (n : bytes) (a b : option bytes) : fchange := (n, a, b).
Definition names (l : list fchange) : list bytes := map (fun c => fst (fst c)) l.

(** Comparison by key *)
Definition has_key {A} (key : A -> bytes) (l : list A) (k : bytes) : bool := existsb (fun a => bytes_eqb k (key a)) l.
Definition keyed_out {A} (d : option (list A * list A)) : list A * list A := match d with Some d => d | None => ([], []) end.
Definition meta_out (d : option (list mfield)) : list mfield := match d with Some d => d | None => [] end.
