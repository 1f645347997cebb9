(** Property theorems: comparing two documents the other way round (C117). *)
From Verif Require Import CompareModel CompareSpec CompareProofs CmpSymSpec CmpSymProofs.
Local Open Scope Z_scope.

(** Documents in which no two graphics and no two annotations of a page share
    type and box.  Each document keeps its order of iterating over its image
    resources.  Text compared by elements is mirrored in number only. *)
Theorem C117_comparison_partial :
  forall (B : Type) (deq : list B -> list B -> bool) fmt1 all1 all2 iter1 iter2 o d1 d2,
  (forall a b, deq a b = deq b a) ->
  Forall (distinct_shapes fmt1) (dPages d1) -> Forall (distinct_shapes fmt1) (dPages d2) ->
  is_map (dForm d1) -> is_map (dForm d2) ->
  exists c c', compareDocs deq fmt1 all1 all2 iter1 iter2 o d1 d2 = Ok c /\
    compareDocs deq fmt1 all2 all1 iter2 iter1 o d2 d1 = Ok c' /\ mirrored_comparison o c c'.
Proof. exact @docs_turn. Qed.
Print Assumptions C117_comparison_partial.

(** Texts, whatever they are and whatever the options. *)
Theorem C117_text_partial : forall o t1 t2, exists d d',
  compareText o t1 t2 = Ok d /\ compareText o t2 t1 = Ok d' /\ mirrored_opt (mirrored_text o) d d'.
Proof. exact text_turn. Qed.
Print Assumptions C117_text_partial.
(** In particular the verdict on two texts does not depend on the order. *)
Theorem C117_text_verdict : forall o t1 t2, compareText o t1 t2 = Ok None <-> compareText o t2 t1 = Ok None.
Proof.
  intros o t1 t2. destruct (text_turn o t1 t2) as (d & d' & -> & -> & M). destruct M; split; congruence.
Qed.
Print Assumptions C117_text_verdict.

Theorem C117_images : forall m1 m2 l1 l2,
  mirrored_opt mirrored_images (compareImages m1 m2 l1 l2) (compareImages m2 m1 l2 l1).
Proof. exact image_turn. Qed.
Print Assumptions C117_images.
Theorem C117_forms : forall f1 f2, is_map f1 -> is_map f2 ->
  mirrored_opt mirrored_forms (compareForms f1 f2) (compareForms f2 f1).
Proof. exact forms_turn. Qed.
Print Assumptions C117_forms.
Theorem C117_metadata : forall o m1 m2, compareMetadata o m2 m1 = compareMetadata o m1 m2.
Proof. exact metadata_turn. Qed.
Print Assumptions C117_metadata.

Definition put (x y : Z) (t : bytes) : elem := mkElem t (fint x) (fint y) (bs "/F1") (fint 12) [].
(** Two lines that trade places far away: either of the two counts as the
    common one, and the other direction picks the other. *)
Theorem C117_element_text_refuted :
  let a := put 0 0 (bs "one") in let b := put 0 50 (bs "two") in
  let b' := put 300 0 (bs "two") in let a' := put 300 50 (bs "one") in
  exists d d', compareText DefaultCompareOptions [a; b] [b'; a'] = Ok (Some d) /\
    compareText DefaultCompareOptions [b'; a'] [a; b] = Ok (Some d') /\
    dAdded d = [a'] /\ dRemoved d' = [b'] /\ dRemoved d = [a] /\ dAdded d' = [b].
Proof. cbv zeta. eexists. eexists. split; [vm_compute; reflexivity|]. split; [vm_compute; reflexivity|]. repeat split. Qed.
Print Assumptions C117_element_text_refuted.

(** A page with a line, and the same page with the line drawn twice: identical
    one way round, different the other. *)
Definition lines (n : nat) : document unit :=
  mkDoc None [mkPage (fint 612) (fint 792) 0 [] (repeat (mkShape (bs "line") None []) n) [] None []] [] None.
Definition verdict (d1 d2 : document unit) : option bool :=
  match compareDocs (fun _ _ => true) (fun _ => bs "0.0") None None (fun _ l => l) (fun _ l => l) DefaultCompareOptions d1 d2 with
  | Ok c => Some (cIdentical c) | _ => None end.
Theorem C117_verdict_refuted : verdict (lines 2) (lines 1) = Some true /\ verdict (lines 1) (lines 2) = Some false.
Proof. vm_compute. split; reflexivity. Qed.
Print Assumptions C117_verdict_refuted.

(** The hypotheses of the first theorem. *)
Definition shown (k : bytes) (t : list elem) (f : list (bytes * option bytes)) : document unit :=
  mkDoc None [mkPage (fint 612) (fint 792) 0 t [mkShape k None []; mkShape (bs "rectangle") None []] [] None []] []
    (Some (mkForm (bs "AcroForm") f)).
Example C117_example :
  let d1 := shown (bs "line") [put 0 0 (bs "one")] [(bs "name", Some (bs "Ann")); (bs "old", None)] in
  let d2 := shown (bs "curve") [put 0 0 (bs "two"); put 0 50 (bs "more")] [(bs "name", Some (bs "Bob"))] in
  Forall (distinct_shapes (fun _ => [])) (dPages d1) /\ Forall (distinct_shapes (fun _ => [])) (dPages d2) /\
  is_map (dForm d1) /\ is_map (dForm d2).
Proof.
  cbv zeta. unfold distinct_shapes. cbn. repeat split; repeat constructor; cbn; intuition discriminate.
Qed.
Example C117_example_report :
  let d1 := shown (bs "line") [put 0 0 (bs "one")] [(bs "name", Some (bs "Ann")); (bs "old", None)] in
  let d2 := shown (bs "curve") [put 0 0 (bs "two"); put 0 50 (bs "more")] [(bs "name", Some (bs "Bob"))] in
  let line := mkShape (bs "line") None [] in let curve := mkShape (bs "curve") None [] in
  match compareDocs (fun _ _ => true) (fun _ => bs "0.0") None None (fun _ l => l) (fun _ l => l) DefaultCompareOptions d1 d2,
        compareDocs (fun _ _ => true) (fun _ => bs "0.0") None None (fun _ l => l) (fun _ l => l) DefaultCompareOptions d2 d1 with
  | Ok c, Ok c' =>
      cTotal c = 3 /\ cTotal c' = 3 /\
      cPages c = [(1%nat, [DText (mkDiff [put 0 50 (bs "more")] [] [(put 0 0 (bs "one"), put 0 0 (bs "two"))]); DGraphics [curve] [line]])] /\
      cPages c' = [(1%nat, [DText (mkDiff [] [put 0 50 (bs "more")] [(put 0 0 (bs "two"), put 0 0 (bs "one"))]); DGraphics [line] [curve]])]
  | _, _ => False
  end.
Proof. vm_compute. repeat split. Qed.
