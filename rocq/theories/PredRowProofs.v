From Verif Require Import Util ParseModel ParseSpec ParseProofs XrefProofs PredRowSpec.
Local Open Scope Z_scope.

Lemma average_length row : forall l prev, length prev = length row -> length (png_average l prev row) = length row.
Proof. induction row as [|b r IH]; intros l [|p prev] H; try reflexivity; try discriminate. cbn. rewrite IH; auto. Qed.
Lemma paeth_length row : forall l u prev, length prev = length row -> length (png_paeth l u prev row) = length row.
Proof. induction row as [|b r IH]; intros l u [|p prev] H; try reflexivity; try discriminate. cbn [png_paeth length]. rewrite IH; auto. Qed.
Lemma any_filter_length t prev row : length prev = length row -> length (png_filter t prev row) = S (length row).
Proof.
  intros H. destruct t; cbn [png_filter length]; rewrite ?png_sub_length, ?png_up_length, ?average_length, ?paeth_length by exact H; reflexivity.
Qed.
Lemma undo_row_length row prev : length prev = pred (length row) -> length (undo_row prev row) = pred (length row).
Proof.
  destruct row as [|t r]; [reflexivity|]. cbn [undo_row length pred]. intros H.
  assert (S1 : forall l, length (row_sub l r) = length r). { clear. induction r as [|b r IH]; intros l; [reflexivity|]. cbn [row_sub length]. rewrite IH. reflexivity. }
  assert (S2 : length (row_up prev r) = length r). { clear - H. revert prev H. induction r as [|b r IH]; intros [|p prev] H; try reflexivity; try discriminate. cbn [row_up length]. rewrite IH; auto. }
  destruct (b2n t =? 1)%N; [apply S1|]. destruct (b2n t =? 2)%N; [exact S2|reflexivity].
Qed.
Lemma undo_average_paeth t prev prev' row : t = TAverage \/ t = TPaeth -> undo_row prev' (png_filter t prev row) = tl (png_filter t prev row).
Proof. intros [->| ->]; reflexivity. Qed.
Lemma same_length_app (a b c d : bytes) : a ++ b = c ++ d -> length a = length c -> a = c /\ b = d.
Proof.
  revert c. induction a as [|x a IH]; intros [|y c] E L; try discriminate; [split; [reflexivity|exact E]|].
  cbn in E. injection E as -> E. injection L as L. destruct (IH c E L) as (-> & ->). auto.
Qed.
Lemma undo_rows_any columns : forall rows prev, length prev = columns -> (forall tr, In tr rows -> length (snd tr) = columns) ->
  (undo_rows prev (png_rows prev rows) = concat (map snd rows) <-> average_paeth_trivial prev rows).
Proof.
  induction rows as [|[t row] rows IH]; intros prev Hp H; [split; [exact (fun _ => I)|reflexivity]|].
  pose proof (H (t, row) (or_introl eq_refl)) as Hl. cbn [snd] in Hl.
  cbn [png_rows undo_rows map concat snd average_paeth_trivial].
  assert (HL : length (undo_row prev (png_filter t prev row)) = length row).
  { rewrite undo_row_length; rewrite any_filter_length by congruence; cbn [pred]; congruence. }
  assert (HR : undo_row prev (png_filter t prev row) = row <-> match t with TAverage | TPaeth => untouched t prev row | _ => True end).
  { destruct t; try (split; [exact (fun _ => I)|intros _; apply undo_row_filter; [cbn; lia|congruence]]).
    - rewrite undo_average_paeth by tauto. unfold untouched. cbn [png_filter tl]. split; [intros E; exact (f_equal (cons (n2b (tag_value _))) E)|intros E; injection E as E; exact E].
    - rewrite undo_average_paeth by tauto. unfold untouched. cbn [png_filter tl]. split; [intros E; exact (f_equal (cons (n2b (tag_value _))) E)|intros E; injection E as E; exact E]. }
  specialize (IH row Hl (fun tr I => H tr (or_intror I))). split.
  - intros E. apply same_length_app in E as (E1 & E2); [|exact HL]. split; [apply HR, E1|apply IH; rewrite <- E2; rewrite E1; reflexivity].
  - intros (E1 & E2). apply HR in E1. rewrite E1. f_equal. apply IH, E2.
Qed.
Lemma any_rows_each columns : forall rows prev e, length prev = columns -> (forall tr, In tr rows -> length (snd tr) = columns) ->
  In e (png_rows prev rows) -> length e = S columns.
Proof.
  induction rows as [|[t row] rows IH]; intros prev e Hp H; [intros []|].
  pose proof (H (t, row) (or_introl eq_refl)) as Hl. cbn [snd] in Hl. cbn [png_rows In]. intros [<-|He].
  - rewrite any_filter_length by congruence. congruence.
  - eapply IH; [exact Hl| |exact He]. intros tr Htr. apply H. right. exact Htr.
Qed.
Theorem predictor_any s p pr co columns rows rest :
  value_of (find m_decodeparms (xstr s)) = Some p ->
  value_of (find (m_key (bs "/Predictor")) p) = Some pr ->
  value_of (find (m_key (bs "/Columns")) p) = Some co ->
  10 <= atoi_clip pr <= 15 -> atoi_clip co = Z.of_nat columns ->
  xdata s = png_encode columns rows ++ rest -> table columns rows -> (length rest <= columns)%nat ->
  (apply_predictor s = concat (map snd rows) <-> average_paeth_trivial (repeat x00 columns) rows).
Proof.
  intros H1 H2 H3 Hp Hc Hd (Hne & H) Hr. rewrite <- (undo_rows_any columns) by (rewrite ?repeat_length; auto).
  assert (He : forall e, In e (png_rows (repeat x00 columns) rows) -> length e = S columns).
  { intros e. apply any_rows_each; [apply repeat_length|exact H]. }
  assert (apply_predictor s = undo_rows (repeat x00 columns) (png_rows (repeat x00 columns) rows)) as ->; [|reflexivity].
  unfold apply_predictor. rewrite H1, H2, H3, Hc.
  replace (10 <=? atoi_clip pr) with true by lia. replace (atoi_clip pr <=? 15) with true by lia. cbn [andb].
  assert (columns < length (xdata s))%nat as Hl.
  { rewrite Hd, app_length. unfold png_encode. destruct rows as [|[t row] rows]; [congruence|]. cbn [png_rows concat].
    pose proof (H (t, row) (or_introl eq_refl)) as Hlr. cbn [snd] in Hlr.
    rewrite app_length, any_filter_length by (rewrite repeat_length; congruence). lia. }
  unfold flen. replace (Z.to_nat (Z.min (Z.of_nat columns) (Z.of_nat (length (xdata s))))) with columns by lia.
  rewrite Hd. unfold undo_predictor, png_encode. rewrite chunks_concat; [reflexivity|lia|exact He|lia|].
  rewrite app_length. pose proof (concat_length_ge _ (S columns) ltac:(lia) He) as Hg. eapply Nat.le_trans; [exact Hg|apply Nat.le_add_r].
Qed.
Lemma minus_same a b : minus256 (b2n a) b = a -> (b < 256)%N -> b = 0%N.
Proof.
  unfold minus256. intros E L. apply (f_equal b2n) in E. rewrite b2n_n2b in E. pose proof (b2n_bound a).
  destruct (N.eq_dec b 0) as [|Q]; [assumption|exfalso].
  destruct (N.le_gt_cases b (b2n a)) as [G|G].
  - replace (b2n a + 256 - b)%N with (b2n a - b + 1 * 256)%N in E by lia. rewrite N.mod_add, N.mod_small in E by lia. lia.
  - rewrite N.mod_small in E by lia. lia.
Qed.
(** A row below one that does not begin with 0 (or 1) is touched. *)
Theorem paeth_touched p prev b row : p <> x00 -> ~ untouched TPaeth (p :: prev) (b :: row).
Proof.
  intros Hp E. unfold untouched in E. cbn [png_filter png_paeth] in E. injection E as E _. apply minus_same in E.
  - change (b2n x00) with 0%N in E. unfold paeth in E. cbn [Z.of_N] in E. pose proof (b2n_bound p).
    assert (b2n p <> 0)%N by (intros Q; apply Hp, b2n_inj; exact Q).
    destruct ((Z.abs (0 + Z.of_N (b2n p) - 0 - 0) <=? Z.abs (0 + Z.of_N (b2n p) - 0 - Z.of_N (b2n p))) && (Z.abs (0 + Z.of_N (b2n p) - 0 - 0) <=? Z.abs (0 + Z.of_N (b2n p) - 0 - 0))) eqn:Q1.
    + apply andb_true_iff in Q1 as (Q1 & _). apply Z.leb_le in Q1. lia.
    + destruct (Z.abs (0 + Z.of_N (b2n p) - 0 - Z.of_N (b2n p)) <=? Z.abs (0 + Z.of_N (b2n p) - 0 - 0)) eqn:Q2; [lia|]. apply Z.leb_gt in Q2. lia.
  - pose proof (b2n_bound p). unfold paeth. change (b2n x00) with 0%N. destruct (_ && _); [cbn; lia|]. destruct (_ <=? _); cbn; lia.
Qed.
Theorem average_touched p prev b row : (2 <= b2n p)%N -> ~ untouched TAverage (p :: prev) (b :: row).
Proof.
  intros Hp E. unfold untouched in E. cbn [png_filter png_average] in E. injection E as E _. change (b2n x00) with 0%N in E. apply minus_same in E.
  - pose proof (N.div_le_mono 2 (0 + b2n p) 2 ltac:(lia) ltac:(lia)) as Q. change (2 / 2)%N with 1%N in Q. lia.
  - pose proof (b2n_bound p). apply N.div_lt_upper_bound; lia.
Qed.
