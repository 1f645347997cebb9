From Coq Require Import QArith Lqa.
From Verif Require Import WmarkSpec PageModel PageSpec PageProofs Util.
Local Open Scope Q_scope.

Lemma is0_true q : is0 q = true <-> q == 0.
Proof. unfold is0. split; [apply Qeq_bool_eq|apply Qeq_eq_bool]. Qed.
Lemma is0_false q : is0 q = false -> ~ q == 0.
Proof. intros E Q. apply is0_true in Q. congruence. Qed.
Section W.
Context (cosd sind : Q -> Q) (fmt : Q -> bytes) (trig : cosine_sine cosd sind).
Notation numbers := (watermark_numbers cosd sind).
Definition head_matrix (W H : Q) (o : wopts) : matrix :=
  let t := (1, 0, 0, 1, fst (wmCenter (numbers W H o)), snd (wmCenter (numbers W H o))) in
  match wmRotation (numbers W H o) with Some (a, b, c, d) => after (a, b, c, d, 0, 0) (after t (1, 0, 0, 1, 0, 0)) | None => after t (1, 0, 0, 1, 0, 0) end.
Lemma middle_center W H o : middle W H o (wmCenter (numbers W H o)).
Proof.
  cbn [watermark_numbers wmCenter]. unfold middle. destruct (is0 (oX o)) eqn:E1.
  - destruct (is0 (oY o)) eqn:E2; cbn [andb].
    + left. apply is0_true in E1, E2. repeat split; try assumption; reflexivity.
    + right. apply is0_false in E2. split; [tauto|split; reflexivity].
  - right. apply is0_false in E1. cbn [andb]. split; [tauto|split; reflexivity].
Qed.
Lemma head_applied W H o p : same (apply (head_matrix W H o) p) (moved (wmCenter (numbers W H o)) (turned (cosd (oAngle o)) (sind (oAngle o)) p)).
Proof.
  destruct trig as (cos0 & sin0 & cosp & sinp). unfold head_matrix. cbn [watermark_numbers wmRotation]. set (c := wmCenter _). destruct c as [cx cy], p as [x y]. destruct (is0 (oAngle o)) eqn:E.
  - apply is0_true in E. assert (C : cosd (oAngle o) == 1) by (rewrite <- cos0; apply cosp, E). assert (S : sind (oAngle o) == 0) by (rewrite <- sin0; apply sinp, E).
    unfold same, apply, after, moved, turned. cbn [fst snd]. rewrite C, S. split; ring.
  - unfold same, apply, after, moved, turned. cbn [fst snd]. split; ring.
Qed.
Lemma drawn_head W H o c rest stack s : dM s = (1, 0, 0, 1, 0, 0) ->
  drawn (watermark_head 0 (numbers W H o) c ++ rest) stack s = drawn rest (s :: stack) (mkDr (head_matrix W H o) c (dFont s) (dSize s) (dAt s)).
Proof.
  intros Hs. destruct c as [[r g] b]. unfold watermark_head, head_matrix. destruct (wmRotation (numbers W H o)) as [[[[a b'] c'] d]|]; cbn [app drawn dM dFill dFont dSize dAt]; rewrite Hs; reflexivity.
Qed.
Theorem watermark_text_drawn W H o pb w c : oColor o = Some c -> oImageName o = [] -> oText o <> [] ->
  exists pb' w' cs font m at_, AddWatermarkOptions cosd sind fmt W H (Some o) pb w = Ok (true, pb', w') /\
    pbContent pb' = pbContent pb ++ content_stream fmt 1 0 cs /\
    drawn cs [] blank_drawing = [MText (oText o) (bs "/" ++ font) (oFontSize o) (fill_of o c) m at_] /\
    In font (map fst (pbFonts pb')) /\
    exists mid, middle W H o mid /\
      forall x y, same (apply m (fst at_ + x, snd at_ + y))
        (moved mid (turned (cosd (oAngle o)) (sind (oAngle o)) (x - expected_width (oText o) (oFontSize o) / 2, y - oFontSize o / 2))).
Proof.
  intros Hc Hi Ht. unfold AddWatermarkOptions, AddWatermark. cbn [watermark_numbers wmColor wmImage wmText wmFont wmSize wmTextPos]. rewrite Hc, Hi. cbn [option_map]. destruct (oText o) as [|t0 tx] eqn:Et; [contradiction|].
  match goal with |- context [AddStandardFont ?f ?p ?w] => destruct (AddStandardFont f p w) as [[fr pb1] w1] eqn:Ef end.
  assert (Hr : exists r, fr = bs "/" ++ r /\ In r (map fst (pbFonts pb1))).
  { unfold AddStandardFont in Ef. match type of Ef with (if ?b then _ else _) = _ => destruct b eqn:Eb end.
    - injection Ef as <- <- <-. eexists; split; [reflexivity|]. apply existsb_exists in Eb as (e & I & Q). apply bytes_eqb_eq in Q. rewrite <- Q. apply in_map, I.
    - destruct (AddObject _ w) as [n w0]. injection Ef as <- <- <-. eexists; split; [reflexivity|]. cbn [pbFonts set_fonts]. apply kset_keys. left. reflexivity. }
  destruct Hr as (r & -> & Hr).
  do 2 eexists. exists (watermark_head 0 (numbers W H o) (fill_of o c) ++ [BeginText Q; SetFont Q (bs "/" ++ r) (oFontSize o); SetTextPosition Q (fst (wmTextPos (numbers W H o))) (snd (wmTextPos (numbers W H o))); ShowText Q (t0 :: tx); EndText Q; RestoreState Q]), r.
  do 2 eexists. split; [reflexivity|]. split; [|split; [|split]].
  - assert (Ec : pbContent pb1 = pbContent (calls fmt 1 0 (watermark_head 0 (numbers W H o) (fill_of o c)) pb)).
    { unfold AddStandardFont in Ef. unfold fill_of in *. destruct c as [[cr cg] cb]. revert Ef. repeat (match goal with |- context [match ?x with _ => _ end] => destruct x end); intros Ef; injection Ef as <- <- <-; reflexivity. }
    unfold calls, append_content in *. cbn [pbContent] in *. rewrite Ec. cbn [watermark_numbers wmTextPos fst snd]. rewrite Et. unfold content_stream. rewrite flat_map_app, app_assoc. reflexivity.
  - rewrite drawn_head by reflexivity. cbn [drawn dM dFill dFont dSize dAt]. reflexivity.
  - cbn [pbFonts calls append_content]. match goal with |- In r (map fst (pbFonts ?p)) => change (In r (map fst (pbFonts pb1))) end.
    exact Hr.
  - exists (wmCenter (numbers W H o)). split; [apply middle_center|]. intros x y. destruct (head_applied W H o (0 + fst (wmTextPos (numbers W H o)) + x, 0 + snd (wmTextPos (numbers W H o)) + y)) as (A & B).
    split; [etransitivity; [exact A|]|etransitivity; [exact B|]]; cbn [watermark_numbers wmTextPos fst snd moved turned]; unfold moved, turned, expected_width; cbn [fst snd]; rewrite Et; field.
Qed.
Theorem watermark_image_drawn W H o pb w c : oColor o = Some c -> oImageName o <> [] -> In (oImageName o) (map fst (pbImages pb)) ->
  exists pb' cs m, AddWatermarkOptions cosd sind fmt W H (Some o) pb w = Ok (true, pb', w) /\
    pbContent pb' = pbContent pb ++ content_stream fmt 1 0 cs /\ drawn cs [] blank_drawing = [MImage (oImageName o) m] /\
    exists mid, middle W H o mid /\
      forall x y, same (apply m (x, y)) (moved mid (turned (cosd (oAngle o)) (sind (oAngle o)) ((x - (1 # 2)) * (W / 2), (y - (1 # 2)) * (H / 2)))).
Proof.
  intros Hc Hi Hin. unfold AddWatermarkOptions, AddWatermark. cbn [watermark_numbers wmColor wmImage wmText wmFont wmSize wmTextPos]. rewrite Hc. cbn [option_map]. destruct (oImageName o) as [|t0 tx] eqn:Et; [contradiction|].
  assert (Ex : forall P, existsb (fun e => bytes_eqb (fst e) (t0 :: tx)) (pbImages (calls fmt 1 0 P pb)) = true).
  { intros P. change (pbImages (calls fmt 1 0 P pb)) with (pbImages pb). apply in_map_iff in Hin as (e & E & Q). apply existsb_exists. exists e. split; [exact Q|]. rewrite E. apply bytes_eqb_refl. }
  rewrite Ex. eexists. exists (watermark_head 0 (numbers W H o) (fill_of o c) ++ [Translate Q (- W / 4) (- H / 4); Scale Q (W / 2) (H / 2); DrawImage Q (t0 :: tx); RestoreState Q]). eexists.
  split; [reflexivity|split; [|split]].
  - unfold calls, append_content. cbn [pbContent watermark_numbers wmImageMove wmImageScale fst snd]. unfold content_stream. rewrite flat_map_app, app_assoc. unfold fill_of. destruct c as [[? ?] ?]. reflexivity.
  - rewrite drawn_head by reflexivity. cbn [drawn dM dFill dFont dSize dAt]. reflexivity.
  - exists (wmCenter (numbers W H o)). split; [apply middle_center|]. intros x y.
    destruct (head_applied W H o ((x - (1 # 2)) * (W / 2), (y - (1 # 2)) * (H / 2))) as (A & B). destruct (head_matrix W H o) as [[[[[a b] c1] d] e] f].
    unfold same, apply, after in *. cbn [fst snd] in *. split; [etransitivity; [|exact A]|etransitivity; [|exact B]]; field.
Qed.

Theorem text_watermark_drawn W H text size angle pb w : text <> [] ->
  exists pb' w' cs font m at_, AddTextWatermark cosd sind fmt W H text size angle pb w = Ok (true, pb', w') /\
    pbContent pb' = pbContent pb ++ content_stream fmt 1 0 cs /\ In font (map fst (pbFonts pb')) /\
    exists size' angle' fill, drawn cs [] blank_drawing = [MText text (bs "/" ++ font) size' fill m at_] /\
      (0 < size /\ size' = size \/ size <= 0 /\ size' = 48) /\ (~ angle == 0 /\ angle' = angle \/ angle == 0 /\ angle' = 45) /\
      (match fill with (r, g, b) => r == 15 # 100 /\ g == 15 # 100 /\ b == 15 # 100 end) /\
      forall x y, same (apply m (fst at_ + x, snd at_ + y))
        (moved (W / 2, H / 2) (turned (cosd angle') (sind angle') (x - expected_width text size' / 2, y - size' / 2))).
Proof.
  intros Ht. unfold AddTextWatermark. set (o := mkWO _ _ _ _ _ _ _ _ _).
  destruct (watermark_text_drawn W H o pb w (1 # 2, 1 # 2, 1 # 2) eq_refl eq_refl Ht) as (pb' & w' & cs & font & m & at_ & E & Ec & Ed & If & mid & Hm & Hp).
  exists pb', w', cs, font, m, at_. split; [exact E|]. split; [exact Ec|]. split; [exact If|].
  exists (oFontSize o), (oAngle o), (fill_of o (1 # 2, 1 # 2, 1 # 2)). split; [exact Ed|]. split; [|split; [|split]].
  - unfold o, below. cbn [oFontSize DefaultWatermarkOptions]. destruct (Qle_bool size 0) eqn:E1; cbn [negb].
    + right. split; [apply Qle_bool_iff, E1|reflexivity].
    + left. split; [|reflexivity]. apply Qnot_le_lt. intros L. apply Qle_bool_iff in L. congruence.
  - unfold o. cbn [oAngle DefaultWatermarkOptions]. destruct (is0 angle) eqn:E1; cbn [negb].
    + right. split; [apply is0_true, E1|reflexivity].
    + left. split; [apply is0_false, E1|reflexivity].
  - vm_compute. repeat split.
  - intros x y. assert (Em : same mid (W / 2, H / 2)).
    { destruct Hm as [(_ & _ & Q)|(N & _)]; [exact Q|]. exfalso. apply N. split; reflexivity. }
    destruct Em as (E1 & E2), (Hp x y) as (P1 & P2). split; [etransitivity; [exact P1|]|etransitivity; [exact P2|]]; unfold moved; cbn [fst snd] in *; rewrite ?E1, ?E2; reflexivity.
Qed.
End W.
(** A watermark of opacity 0 is black. *)
Theorem opacity_0 o c : oOpacity o == 0 -> match fill_of o c with (r, g, b) => r == 0 /\ g == 0 /\ b == 0 end.
Proof.
  intros E. destruct c as [[r g] b]. unfold fill_of, below. destruct (Qle_bool 1 (oOpacity o)) eqn:L; cbn [negb].
  - apply Qle_bool_iff in L. rewrite E in L. exfalso. lra.
  - rewrite E. repeat split; ring.
Qed.
Theorem only_y W H o : oX o == 0 -> ~ oY o == 0 -> 0 < W -> forall mid, middle W H o mid -> fst mid == 0 /\ ~ fst mid == W / 2.
Proof.
  intros Hx Hy HW mid [(_ & E & _)|(_ & (E & _))]; [contradiction|]. cbn [fst] in E. rewrite Hx in E. split; [exact E|].
  rewrite E. intros Q. assert (2 * (W / 2) == W) by field. rewrite <- Q in H0. lra.
Qed.
Theorem size_0 (cosd sind : Q -> Q) (fmt : Q -> bytes) : cosine_sine cosd sind ->
  forall W H o pb w c, oColor o = Some c -> oImageName o = [] -> oText o <> [] -> oFontSize o == 0 ->
  exists pb' w' cs font size fill m at_, AddWatermarkOptions cosd sind fmt W H (Some o) pb w = Ok (true, pb', w') /\
    pbContent pb' = pbContent pb ++ content_stream fmt 1 0 cs /\
    drawn cs [] blank_drawing = [MText (oText o) font size fill m at_] /\ size == 0.
Proof.
  intros T W H o pb w c Hc Hi Ht Hs. destruct (watermark_text_drawn cosd sind fmt T W H o pb w c Hc Hi Ht) as (pb' & w' & cs & font & m & at_ & E & Ec & Ed & _).
  exists pb', w', cs, (bs "/" ++ font), (oFontSize o), (fill_of o c), m, at_. auto.
Qed.
Theorem no_options cosd sind fmt W H pb w : exists pb', AddWatermarkOptions cosd sind fmt W H None pb w = Ok (false, pb', w).
Proof. unfold AddWatermarkOptions, AddWatermark. cbn [watermark_numbers DefaultWatermarkOptions wmColor wmImage wmText oColor oImageName oText option_map]. eexists. reflexivity. Qed.
