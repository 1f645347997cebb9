From Verif Require Import Util Scan Utf8 TextProofs XrefProofs ExtractModel ExtractSpec ExtractProofs ExtractProofs2.
From Verif Require ManipProofs2 MetaProofs.
Local Open Scope Z_scope.

Ltac opok := split; [split; [reflexivity|split; [reflexivity|split; [reflexivity|split]]]|]; intros Hi; cbn in Hi; decompose [or] Hi; try discriminate; contradiction.
Ltac notin := intros Hi; cbn in Hi; decompose [or] Hi; try discriminate; contradiction.
Lemma word_not_nl n : resource_ok n -> ~ In x0a n.
Proof. intros (m & -> & H) K. apply in_app_or in K. destruct K as [[K|[]]|K]; [discriminate|]. rewrite forallb_forall in H. specialize (H _ K). discriminate. Qed.
Lemma m_resource_at n x : resource_ok n -> starts_dark x -> m_resource (n ++ bs " " ++ x) = Some (n, x).
Proof.
  intros (m & -> & H) D. unfold m_resource. change (bs " " ++ x) with (" "%byte :: x).
  destruct (take_stop is_namech (bs "/" ++ m) " "%byte x) as [-> ->]; [|reflexivity|].
  - rewrite forallb_forall in *. intros b Hb. apply in_app_or in Hb. destruct Hb as [[<-|[]]|Hb]; [reflexivity|]. unfold is_namech. rewrite (H b Hb). reflexivity.
  - change (bs "/" ++ m) with ("/"%byte :: m). cbn [ws1]. change (is_ws " ") with true. cbv iota. cbn [Util.obind]. rewrite drop_dark by exact D. reflexivity.
Qed.
Section calls.
Context (fmt : float -> bytes) (parse_float : bytes -> option float) (rd : float -> float) (one zero : float)
  (decoders : option (list (bytes * decoder))).
Notation step := (parse_line parse_float decoders).
Notation lines := (parse_lines parse_float decoders).
Notation good := (number_ok fmt parse_float rd).
Notation text := (call_text fmt one zero).
Notation do_call := (do_call fmt parse_float rd one zero decoders).

Lemma word_call w r p : ~ In x0a w -> lines (line fmt [] w ++ r) p = lines r (step p w).
Proof. intros H. unfold line, nums. cbn [flat_map app]. rewrite <- app_assoc. apply lines_cons, H. Qed.

(** names *)
Lemma step_slash p t : is_space (last ("/"%byte :: t) x00) = false ->
  step p ("/"%byte :: t) =
  match m_Tf ("/"%byte :: t) with
  | Some (n, s) => on_Tf parse_float decoders n s p
  | None => match m_Do ("/"%byte :: t) with Some n => on_Do n p | None => p end
  end.
Proof. intros H. unfold parse_line. rewrite trim_ends; [reflexivity|discriminate|reflexivity|exact H]. Qed.
Lemma font_call n x r p : resource_ok n -> good x -> lines (text (SetFont _ n x) ++ r) p = lines r (do_call (SetFont _ n x) p).
Proof.
  intros H G. cbn [call_text ExtractProofs2.do_call]. rewrite line_numline.
  replace ((n ++ bs " " ++ numline (map fmt [x]) (bs "Tf") ++ nl) ++ r) with ((n ++ bs " " ++ numline [fmt x] (bs "Tf")) ++ nl ++ r) by (rewrite <- !app_assoc; reflexivity).
  pose proof (good_num _ _ _ _ G) as Gn. assert (Forall num_text [fmt x]) as Fx by (constructor; [exact Gn|constructor]).
  rewrite lines_cons.
  2:{ apply not_in_app; [apply word_not_nl, H|]. apply not_in_app; [notin|]. apply numline_no_nl; [repeat constructor; apply Gn|notin]. }
  f_equal. assert (starts_dark (numline [fmt x] (bs "Tf"))) as D.
  { destruct Gn as [N C]. unfold numline. cbn [flat_map]. destruct (fmt x) as [|b t]; [congruence|]. cbn [forallb] in C. apply andb_true_iff in C. destruct C as [C _]. cbn.
    destruct b; try discriminate; reflexivity. }
  pose proof (m_resource_at n _ H D) as M. destruct H as (m & -> & Hm).
  change ((bs "/" ++ m) ++ bs " " ++ numline [fmt x] (bs "Tf")) with ("/"%byte :: m ++ bs " " ++ numline [fmt x] (bs "Tf")) in *.
  assert (m_Tf ("/"%byte :: m ++ bs " " ++ numline [fmt x] (bs "Tf")) = Some (bs "/" ++ m, fmt x)) as E.
  { unfold m_Tf. rewrite M. cbn [Util.obind]. rewrite m_op_line; [reflexivity|exact Fx|reflexivity|reflexivity|reflexivity]. }
  rewrite step_slash, E; [reflexivity|].
  change ("/"%byte :: m ++ bs " " ++ numline [fmt x] (bs "Tf")) with ("/"%byte :: m ++ [] ++ bs " " ++ numline [fmt x] (bs "Tf")).
  rewrite paren_last by (unfold numline; destruct (flat_map _ _); discriminate). unfold numline. rewrite last_app by discriminate. reflexivity.
Qed.
Lemma no_Tf n : resource_ok n -> m_Tf (n ++ bs " " ++ bs "Do") = None.
Proof. intros H. unfold m_Tf. rewrite m_resource_at by (try exact H; reflexivity). reflexivity. Qed.
Lemma draw_call n r p : resource_ok n -> lines ((n ++ bs " Do" ++ nl) ++ r) p = lines r (on_Do n p).
Proof.
  intros H. replace ((n ++ bs " Do" ++ nl) ++ r) with ((n ++ bs " " ++ bs "Do") ++ nl ++ r) by (rewrite <- !app_assoc; reflexivity).
  rewrite lines_cons by (apply not_in_app; [apply word_not_nl, H|notin]). f_equal.
  pose proof (no_Tf n H) as T. pose proof (m_resource_at n (bs "Do") H ltac:(reflexivity)) as M. destruct H as (m & -> & Hm).
  change ((bs "/" ++ m) ++ bs " " ++ bs "Do") with ("/"%byte :: m ++ bs " " ++ bs "Do") in *.
  rewrite step_slash, T. { unfold m_Do. rewrite M. reflexivity. }
  change ("/"%byte :: m ++ bs " " ++ bs "Do") with ("/"%byte :: m ++ [] ++ bs " " ++ bs "Do"). rewrite paren_last by discriminate. reflexivity.
Qed.
(** the dash pattern *)
Lemma in_nums b l : Forall num_text l -> b <> " "%byte -> In b (join (bs " ") l) -> is_numch b = true.
Proof.
  intros F Hb H. apply in_join_space in H; [|exact Hb]. destruct H as (x & Hx & K). rewrite Forall_forall in F. destruct (F _ Hx) as [_ C].
  rewrite forallb_forall in C. auto.
Qed.
Lemma dash_call l x r p : Forall good (x :: l) -> lines (text (SetLineDash _ l x) ++ r) p = lines r p.
Proof.
  intros F. inversion F as [|x' l' G F']; subst x' l'. pose proof (good_num _ _ _ _ G) as Gn. pose proof (good_nums _ _ _ _ F') as Fn.
  cbn [call_text]. rewrite line_numline. set (t := join (bs " ") (map fmt l)). cbn [map].
  replace ((bs "[" ++ t ++ bs "] " ++ numline [fmt x] (bs "d") ++ nl) ++ r) with ((bs "[" ++ t ++ bs "]" ++ bs " " ++ numline [fmt x] (bs "d")) ++ nl ++ r) by (rewrite <- !app_assoc; reflexivity).
  assert (forall b, b <> " "%byte -> is_numch b = false -> ~ In b t) as Nt.
  { intros b Hb Hn K. apply in_nums in K; [congruence|exact Fn|exact Hb]. }
  rewrite lines_cons.
  2:{ apply not_in_app; [notin|]. apply not_in_app; [apply Nt; [discriminate|reflexivity]|]. apply not_in_app; [notin|]. apply not_in_app; [notin|].
      apply numline_no_nl; [repeat constructor; apply Gn|notin]. }
  f_equal. change (bs "[" ++ t ++ bs "]" ++ bs " " ++ numline [fmt x] (bs "d")) with ("["%byte :: t ++ bs "]" ++ bs " " ++ numline [fmt x] (bs "d")).
  assert (exists b u, numline [fmt x] (bs "d") = b :: u /\ is_numch b = true) as (b & u & E & Hb).
  { destruct Gn as [N C]. unfold numline. cbn [flat_map]. destruct (fmt x) as [|b u]; [congruence|]. cbn [forallb] in C. apply andb_true_iff in C. exists b. eexists. split; [reflexivity|apply C]. }
  rewrite step_bracket.
  2:{ rewrite paren_last by (rewrite E; discriminate). unfold numline. rewrite last_app by discriminate. reflexivity. }
  assert (m_TJ ("["%byte :: t ++ bs "]" ++ bs " " ++ numline [fmt x] (bs "d")) = None) as ->; [|reflexivity].
  unfold m_TJ. change ("["%byte :: t ++ bs "]" ++ bs " " ++ numline [fmt x] (bs "d")) with (bs "[" ++ t ++ "]"%byte :: bs " " ++ numline [fmt x] (bs "d")).
  rewrite lit_app. cbn [Util.obind].
  destruct (take_stop (fun b => negb (beqb b "]")) t "]"%byte (bs " " ++ numline [fmt x] (bs "d"))) as [-> ->].
  - apply forallb_forall. intros c Hc. apply negb_true_iff, beqb_neq. intros ->. revert Hc. apply Nt; [discriminate|reflexivity].
  - reflexivity.
  - destruct t as [|c t']; [reflexivity|]. change ("]"%byte :: bs " " ++ numline [fmt x] (bs "d")) with (bs "]" ++ " "%byte :: numline [fmt x] (bs "d")). rewrite lit_app. cbn [Util.obind ws1].
    change (is_ws " ") with true. cbv iota. cbn [Util.obind]. rewrite E. rewrite drop_dark by (cbn; destruct b; try discriminate; reflexivity).
    change (bs "TJ") with ("T"%byte :: bs "J"). rewrite prefix_first by (intros <-; discriminate). reflexivity.
Qed.
Lemma mode_call m r p : lines (text (SetTextRenderMode _ m) ++ r) p = lines r p.
Proof.
  cbn [call_text]. replace ((decZ m ++ bs " Tr" ++ nl) ++ r) with (numline [decZ m] (bs "Tr") ++ nl ++ r) by (unfold numline; cbn [flat_map]; rewrite app_nil_r, <- !app_assoc; reflexivity).
  assert (Forall num_text [decZ m]) as F by (constructor; [apply num_text_dec|constructor]).
  rewrite lines_cons by (apply numline_no_nl; [exact F|notin]). f_equal.
  rewrite step_numbers; [reflexivity|exact F|]. assert (op_ok (bs "Tr")) as [H _] by opok. exact H.
Qed.

Context (Hone : good one) (Hzero : good zero).
Lemma with_floats_good l f p : Forall good l -> with_floats parse_float (map fmt l) f p = f (map rd l) p.
Proof. intros F. unfold with_floats. rewrite (good_floats _ _ _ _ F). reflexivity. Qed.

Lemma call_step c r p : call_ok fmt parse_float rd c -> lines (text c ++ r) p = lines r (do_call c p).
Proof.
  intros H.
  assert (forall x, good x -> Forall good [x]) as one_ok by (intros; apply Forall_cons; [assumption|apply Forall_nil]).
  assert (forall x l op, op_ok op -> Forall good (x :: l) -> lines (line fmt (x :: l) op ++ r) p = lines r (dispatch parse_float (map fmt (x :: l)) op p)) as NC
    by (intros; apply (num_call fmt parse_float rd); assumption).
  destruct c; cbn [call_ok] in H; try contradiction.
  all: try (apply show_call; assumption).
  all: try (apply show_next_call; assumption).
  all: try (apply array_call; apply H).
  all: try (apply hex_call; assumption).
  all: try (apply font_call; apply H).
  all: try (apply mode_call).
  all: try (apply dash_call; exact H).
  all: try (apply draw_call; exact H).
  all: cbn [call_text ExtractProofs2.do_call].
  all: try (rewrite word_call by notin; reflexivity).

  all: try (rewrite NC; [|opok|first [assumption|apply one_ok; assumption]];
    match goal with |- context [dispatch _ (map fmt ?l) _ _] =>
      assert (Forall good l) as G by (first [assumption|apply one_ok; assumption]);
      pose proof (with_floats_good l) as W; pose proof (good_matrix _ _ _ _ G) as M;
      f_equal; first [ reflexivity | exact (W _ _ G) | rewrite <- M; reflexivity ] end).
  - (* Translate *)
    inversion H as [|a b Hx H']; subst. inversion H' as [|a b Hy H'']; subst.
    assert (Forall good [one; zero; zero; one; tx; ty]) as G by (repeat (apply Forall_cons; [assumption|]); apply Forall_nil).
    rewrite NC; [|opok|exact G]. f_equal. rewrite <- (good_matrix _ _ _ _ G). reflexivity.
  - inversion H as [|a b Hx H']; subst. inversion H' as [|a b Hy H'']; subst.
    assert (Forall good [sx; zero; zero; sy; zero; zero]) as G by (repeat (apply Forall_cons; [assumption|]); apply Forall_nil).
    rewrite NC; [|opok|exact G]. f_equal. rewrite <- (good_matrix _ _ _ _ G). reflexivity.
  - (* DrawImageAt *)
    destruct H as [Hn H]. rewrite <- !app_assoc. rewrite word_call by notin.
    assert (Forall good [w; zero; zero; h; x; y]) as G.
    { rewrite Forall_forall in H. repeat (apply Forall_cons; [first [assumption|apply H; cbn; tauto]|]); apply Forall_nil. }
    rewrite (num_call fmt parse_float rd) by (first [exact G|opok]).
    assert (dispatch parse_float (map fmt [w; zero; zero; h; x; y]) (bs "cm") (step p (bs "q")) = on_cm (map rd [w; zero; zero; h; x; y]) (on_q p)) as ->.
    { rewrite <- (good_matrix _ _ _ _ G). reflexivity. }
    pose proof (draw_call name (line fmt [] (bs "Q") ++ r) (on_cm (map rd [w; zero; zero; h; x; y]) (on_q p)) Hn) as D.
    rewrite <- !app_assoc in D. rewrite D. rewrite word_call by notin. reflexivity.
Qed.
Lemma calls_state cs : Forall (call_ok fmt parse_float rd) cs -> forall p, lines (content_stream fmt one zero cs) p = fold_left (fun p c => do_call c p) cs p.
Proof.
  induction 1 as [|c cs H F IH]; intros p; [reflexivity|]. cbn [content_stream flat_map fold_left].
  rewrite call_step by exact H. apply IH.
Qed.
End calls.
