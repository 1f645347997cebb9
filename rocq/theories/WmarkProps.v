(** Theorems about where and how watermarks are drawn. *)
From Coq Require Import QArith.
From Verif Require Import WmarkSpec WmarkProofs PageModel.
Local Open Scope Q_scope.

(** C116.  A text watermark draws one text, in a font of the page, of the size
    asked for; every point of the text's own space (where a text of the
    expected width and of the height of its size has its lower left corner at
    (0, 0)) is put so that the middle of that rectangle is at the point asked
    for, or at the page's middle, and the text is turned about it by the angle
    asked for.  Partial: exact numbers; the colour is not what the opacity asks
    for (see below). *)
Theorem C116_text_partial : forall (cosd sind : Q -> Q) (fmt : Q -> bytes), cosine_sine cosd sind ->
  forall W H o pb w c, oColor o = Some c -> oImageName o = [] -> oText o <> [] ->
  exists pb' w' cs font m at_, AddWatermarkOptions cosd sind fmt W H (Some o) pb w = Ok (true, pb', w') /\
    pbContent pb' = pbContent pb ++ content_stream fmt 1 0 cs /\
    drawn cs [] blank_drawing = [MText (oText o) (bs "/" ++ font) (oFontSize o) (fill_of o c) m at_] /\
    In font (map fst (pbFonts pb')) /\
    exists mid, middle W H o mid /\
      forall x y, same (apply m (fst at_ + x, snd at_ + y))
        (moved mid (turned (cosd (oAngle o)) (sind (oAngle o)) (x - expected_width (oText o) (oFontSize o) / 2, y - oFontSize o / 2))).
Proof. exact watermark_text_drawn. Qed.
Print Assumptions C116_text_partial.
(** The image of an image watermark is half as wide and half as high as the
    page, its middle is at the point asked for, or at the page's middle, and it
    is turned about it. *)
Theorem C116_image : forall (cosd sind : Q -> Q) (fmt : Q -> bytes), cosine_sine cosd sind ->
  forall W H o pb w c, oColor o = Some c -> oImageName o <> [] -> In (oImageName o) (map fst (pbImages pb)) ->
  exists pb' cs m, AddWatermarkOptions cosd sind fmt W H (Some o) pb w = Ok (true, pb', w) /\
    pbContent pb' = pbContent pb ++ content_stream fmt 1 0 cs /\ drawn cs [] blank_drawing = [MImage (oImageName o) m] /\
    exists mid, middle W H o mid /\
      forall x y, same (apply m (x, y)) (moved mid (turned (cosd (oAngle o)) (sind (oAngle o)) ((x - (1 # 2)) * (W / 2), (y - (1 # 2)) * (H / 2)))).
Proof. exact watermark_image_drawn. Qed.
Print Assumptions C116_image.
(** AddTextWatermark: in the page's middle, of the size asked for if it is
    positive (48 otherwise), in a dark grey, turned by the angle asked for,
    except 0. *)
Theorem C116_simple_partial : forall (cosd sind : Q -> Q) (fmt : Q -> bytes), cosine_sine cosd sind ->
  forall W H text size angle pb w, text <> [] ->
  exists pb' w' cs font m at_, AddTextWatermark cosd sind fmt W H text size angle pb w = Ok (true, pb', w') /\
    pbContent pb' = pbContent pb ++ content_stream fmt 1 0 cs /\ In font (map fst (pbFonts pb')) /\
    exists size' angle' fill, drawn cs [] blank_drawing = [MText text (bs "/" ++ font) size' fill m at_] /\
      (0 < size /\ size' = size \/ size <= 0 /\ size' = 48) /\ (~ angle == 0 /\ angle' = angle \/ angle == 0 /\ angle' = 45) /\
      (match fill with (r, g, b) => r == 15 # 100 /\ g == 15 # 100 /\ b == 15 # 100 end) /\
      forall x y, same (apply m (fst at_ + x, snd at_ + y))
        (moved (W / 2, H / 2) (turned (cosd angle') (sind angle') (x - expected_width text size' / 2, y - size' / 2))).
Proof. exact text_watermark_drawn. Qed.
Print Assumptions C116_simple_partial.

(** Cosine and sine of multiples of 90 degrees, as an instance. *)
Definition quarter_cos (a : Q) : Q := if Qeq_bool a 0 then 1 else if Qeq_bool a 180 then -1 else 0.
Definition quarter_sin (a : Q) : Q := if Qeq_bool a 90 then 1 else if Qeq_bool a 270 then -1 else 0.
Definition ex_options : wopts := mkWO (bs "DRAFT") (bs "Helvetica") 10 1 90 (Some (1, 0, 0)) 100 200 [].
Example C116_example : cosine_sine quarter_cos quarter_sin /\
  oColor ex_options = Some (1, 0, 0) /\ oImageName ex_options = [] /\ oText ex_options <> [] /\
  let n := watermark_numbers quarter_cos quarter_sin 600 800 ex_options in
  wmCenter n = (100, 200) /\ wmRotation n = Some (0, 1, -1, 0) /\ fst (wmTextPos n) == -15 /\ snd (wmTextPos n) == -5.
Proof.
  assert (P : forall a b c, a == b -> Qeq_bool a c = Qeq_bool b c).
  { intros a b c E. destruct (Qeq_bool b c) eqn:Q.
    - apply Qeq_eq_bool. rewrite E. apply Qeq_bool_eq, Q.
    - destruct (Qeq_bool a c) eqn:Q'; [|reflexivity]. apply Qeq_bool_eq in Q'. rewrite E in Q'. apply Qeq_eq_bool in Q'. congruence. }
  split; [|vm_compute; repeat split; discriminate].
  split; [reflexivity|split; [reflexivity|split; intros a b E]]; unfold quarter_cos, quarter_sin; rewrite !(P a b _ E); reflexivity.
Qed.

(** The opacity is not what is drawn: the colour is made darker instead of
    fainter.  A watermark of opacity 0, which should not be seen, is filled
    black, whatever its colour ... *)
Theorem C116_opacity_refuted : forall o c, oOpacity o == 0 -> match fill_of o c with (r, g, b) => r == 0 /\ g == 0 /\ b == 0 end.
Proof. exact opacity_0. Qed.
Print Assumptions C116_opacity_refuted.
(** ... and the grey of the default options is, with its opacity, nearly white
    on paper (white); it is drawn nearly black. *)
Theorem C116_default_refuted :
  seen (oOpacity DefaultWatermarkOptions) 1 (1 # 2) == 85 # 100 /\
  match fill_of DefaultWatermarkOptions (1 # 2, 1 # 2, 1 # 2) with (r, g, b) => r == 15 # 100 /\ g == 15 # 100 /\ b == 15 # 100 end.
Proof. vm_compute. repeat split. Qed.
Print Assumptions C116_default_refuted.
(** "X position (default: center)": with only Y given, the watermark is at the
    page's left edge instead of the centre. *)
Theorem C116_center_refuted : forall W H o, oX o == 0 -> ~ oY o == 0 -> 0 < W -> forall mid, middle W H o mid -> fst mid == 0 /\ ~ fst mid == W / 2.
Proof. exact only_y. Qed.
Print Assumptions C116_center_refuted.
(** "FontSize (default: 48)": options that leave the size 0 draw a text of the
    size 0, all of whose rectangle is one point, and report success. *)
Theorem C116_size_refuted : forall (cosd sind : Q -> Q) (fmt : Q -> bytes), cosine_sine cosd sind ->
  forall W H o pb w c, oColor o = Some c -> oImageName o = [] -> oText o <> [] -> oFontSize o == 0 ->
  exists pb' w' cs font size fill m at_, AddWatermarkOptions cosd sind fmt W H (Some o) pb w = Ok (true, pb', w') /\
    pbContent pb' = pbContent pb ++ content_stream fmt 1 0 cs /\
    drawn cs [] blank_drawing = [MText (oText o) font size fill m at_] /\ size == 0.
Proof. exact size_0. Qed.
Print Assumptions C116_size_refuted.
(** The default options have no text: no options at all is an error. *)
Theorem C116_nil_refuted : forall cosd sind fmt W H pb w, exists pb', AddWatermarkOptions cosd sind fmt W H None pb w = Ok (false, pb', w).
Proof. exact no_options. Qed.
Print Assumptions C116_nil_refuted.
