From Verif Require Import Util Scan Utf8 TextProofs XrefProofs ExtractModel ExtractSpec ExtractProofs ExtractProofs2 ExtractProofs3.
Local Open Scope Z_scope.

Lemma last_of_snoc {A} (f : ccall float -> option A) d b c : last_of f d (b ++ [c]) = match f c with Some v => v | None => last_of f d b end.
Proof. unfold last_of. rewrite fold_left_app. reflexivity. Qed.
Section abs.
Context (fmt : float -> bytes) (parse_float : bytes -> option float) (rd : float -> float) (one zero : float)
  (decoders : option (list (bytes * decoder))).
Notation good := (number_ok fmt parse_float rd).
Notation do_call := (do_call fmt parse_float rd one zero decoders).
Lemma position_app cs b : forall s x y, position rd s x y (b ++ cs) =
  position rd (last_of (fun c => match c with SetFont _ _ s => Some (rd s) | _ => None end) s b) (fst (position rd s x y b)) (snd (position rd s x y b)) cs.
Proof. induction b as [|c b IH]; intros s x y; [reflexivity|]. destruct c; apply IH. Qed.
Lemma matrices_app cs b : forall m st, matrices rd one zero m st (b ++ cs) =
  matrices rd one zero (fst (matrices rd one zero m st b)) (snd (matrices rd one zero m st b)) cs.
Proof. induction b as [|c b IH]; intros m st; [reflexivity|]. destruct c; cbn [app matrices matrix_call]; try apply IH. destruct st; apply IH. Qed.
Definition abs (before : list (ccall float)) (ts : list text_element) (gs : list graphic) (is : list image_ref) : pstate :=
  mkP (mkTS (font_name before) (font_size rd before) (fst (text_position rd before)) (snd (text_position rd before)) (char_spacing rd before)
            (word_spacing rd before) (text_rise rd before) (text_matrix rd before) (font_decoder decoders before))
      (mkGS (line_width rd before) (fill_color rd before) (stroke_color rd before))
      (fst (matrices rd one zero identity [] before)) (snd (matrices rd one zero identity [] before)) ts gs is.
Lemma decoder_snoc b c : font_decoder decoders (b ++ [c]) =
  match c, decoders with SetFont _ n _, Some m => kget n m | _, _ => font_decoder decoders b end.
Proof. unfold font_decoder. destruct decoders; [rewrite last_of_snoc|]; destruct c; reflexivity. Qed.
Lemma show_decoded before s : decodeTextWithFont s (font_decoder decoders before) false = decoded decoders before s.
Proof. unfold decoded, decodeTextWithFont. destruct (font_decoder decoders before); reflexivity. Qed.
Lemma abs_call c before t g i : call_ok fmt parse_float rd c ->
  do_call c (abs before t g i) = abs (before ++ [c]) (t ++ texts_seen rd decoders before c) (g ++ shapes_seen rd before c) (i ++ images_seen rd one zero before c).
Proof.
  intros H. unfold abs.
  unfold font_name, font_size, char_spacing, word_spacing, text_rise, text_matrix, line_width, fill_color, stroke_color.
  rewrite !last_of_snoc, decoder_snoc, matrices_app. unfold text_position. rewrite position_app.
  destruct c; cbn [call_ok] in H; try contradiction; cbn [position matrices matrix_call fst snd]; unfold texts_seen, shapes_seen, images_seen; cbn [text_shown]; rewrite ?app_nil_r; try reflexivity.
  - (* RestoreState *) cbn [ExtractProofs2.do_call]. unfold on_Q. cbn [pStack]. destruct (snd (matrices rd one zero identity [] before)); reflexivity.
  - (* SetFont *) destruct H as [_ (_ & _ & H)]. cbn [ExtractProofs2.do_call]. unfold on_Tf. rewrite H. unfold set_text. cbn. destruct decoders; reflexivity.
Qed.
Lemma abs_calls cs : Forall (call_ok fmt parse_float rd) cs -> forall before t g i,
  fold_left (fun p c => do_call c p) cs (abs before t g i) =
  abs (before ++ cs) (t ++ seen (texts_seen rd decoders) before cs) (g ++ seen (shapes_seen rd) before cs) (i ++ seen (images_seen rd one zero) before cs).
Proof.
  induction 1 as [|c cs H F IH]; intros before t g i; [cbn [fold_left seen]; rewrite !app_nil_r; reflexivity|].
  cbn [fold_left seen]. rewrite abs_call by exact H. rewrite IH, <- !app_assoc. reflexivity.
Qed.
Lemma abs_start : start = abs [] [] [] [].
Proof. unfold start, abs, font_decoder. destruct decoders; reflexivity. Qed.
Lemma extract_calls cs : good one -> good zero -> Forall (call_ok fmt parse_float rd) cs ->
  parseContentStream parse_float decoders (content_stream fmt one zero cs) =
  (seen (texts_seen rd decoders) [] cs, seen (shapes_seen rd) [] cs, seen (images_seen rd one zero) [] cs).
Proof.
  intros H1 H0 F. unfold parseContentStream. rewrite (calls_state fmt parse_float rd one zero decoders H1 H0 cs F). rewrite abs_start, abs_calls by exact F. reflexivity.
Qed.
Lemma texts_calls cs : good one -> good zero -> Forall (call_ok fmt parse_float rd) cs ->
  map teText (fst (fst (parseContentStream parse_float decoders (content_stream fmt one zero cs)))) =
  seen (fun before c => match text_shown decoders before c with Some t => [t] | None => [] end) [] cs.
Proof.
  intros H1 H0 F. rewrite extract_calls by assumption. cbn [fst]. clear. generalize (@nil (ccall float)). induction cs as [|c cs IH]; intros b; [reflexivity|].
  cbn [seen]. rewrite map_app, IH. f_equal. unfold texts_seen. destruct (text_shown decoders b c); reflexivity.
Qed.
End abs.
