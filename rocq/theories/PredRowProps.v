(** Theorems about tables filtered with any PNG predictors. *)
From Verif Require Import Util ParseModel PredRowSpec PredRowProofs.
Local Open Scope Z_scope.

(** C20.  For every table with any of the five filters: the rows are recovered
    exactly if no row filtered with Average or Paeth was changed by its
    filter. *)
Theorem C20_any_filter_partial : forall s p pr co columns rows rest,
  value_of (find m_decodeparms (xstr s)) = Some p ->
  value_of (find (m_key (bs "/Predictor")) p) = Some pr ->
  value_of (find (m_key (bs "/Columns")) p) = Some co ->
  10 <= atoi_clip pr <= 15 -> atoi_clip co = Z.of_nat columns ->
  xdata s = png_encode columns rows ++ rest -> table columns rows -> (length rest <= columns)%nat ->
  (apply_predictor s = concat (map snd rows) <-> average_paeth_trivial (repeat x00 columns) rows).
Proof. exact predictor_any. Qed.
Print Assumptions C20_any_filter_partial.
(** Filtering changes every row whose upper neighbour does not begin with 0
    (Paeth) or 0 or 1 (Average): such a row makes the whole table wrong. *)
Theorem C20_paeth_refuted : forall p prev b row, p <> x00 -> ~ untouched TPaeth (p :: prev) (b :: row).
Proof. exact paeth_touched. Qed.
Print Assumptions C20_paeth_refuted.
Theorem C20_average_refuted : forall p prev b row, (2 <= b2n p)%N -> ~ untouched TAverage (p :: prev) (b :: row).
Proof. exact average_touched. Qed.
Print Assumptions C20_average_refuted.
Definition ex_any : list (png_tag * bytes) := [(TUp, [x00; x00; x09]); (TPaeth, [x00; x00; x09]); (TSub, [x01; x02; x03])].
Definition ex_s (data : bytes) : xstream :=
  mkXStream 1 1 1 [(0, 3)] data (bs "9 0 obj <</Type/XRef/W [1 1 1]/DecodeParms <</Columns 3/Predictor 15>>>>").
Example C20_any_filter_example : table 3 ex_any /\
  (exists p, value_of (find m_decodeparms (xstr (ex_s []))) = Some p /\ value_of (find (m_key (bs "/Predictor")) p) = Some (bs "15") /\ value_of (find (m_key (bs "/Columns")) p) = Some (bs "3")) /\
  average_paeth_trivial (repeat x00 3) [(TPaeth, [x00; x00; x00]); (TSub, [x01; x02; x03])] /\ ~ average_paeth_trivial (repeat x00 3) ex_any.
Proof.
  split; [split; [discriminate|intros tr H; cbn in H; decompose [or] H; subst; try reflexivity; contradiction]|].
  split; [eexists; vm_compute; repeat split|]. split; [vm_compute; auto|]. vm_compute. intros (_ & H & _). discriminate H.
Qed.
