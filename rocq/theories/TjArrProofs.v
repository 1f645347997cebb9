From Verif Require Import Util Scan Utf8 TextProofs ExtractModel ExtractSpec ExtractProofs ExtractProofs2 ExtractProofs3 ExtractProofs4 TjArrSpec.
Local Open Scope Z_scope.

Lemma nested_no_backslash t : nested t -> ~ In "\"%byte t.
Proof.
  induction 1 as [|c t H1 H2 H3 H IH|a t Ha IHa Ht IHt]; [intros []| |].
  - intros [E|I]; [congruence|exact (IH I)].
  - intros I. apply in_app_or in I as [[E|[]]|I]; [discriminate|]. apply in_app_or in I as [I|I]; [exact (IHa I)|].
    apply in_app_or in I as [[E|[]]|I]; [discriminate|exact (IHt I)].
Qed.
Lemma literal_nested t : nested t -> forall d r, array_literal (S d) (t ++ r) = option_map (fun x => (t ++ fst x, snd x)) (array_literal (S d) r).
Proof.
  induction 1 as [|c t H1 H2 H3 H IH|a t Ha IHa Ht IHt]; intros d r.
  - cbn [app]. destruct (array_literal (S d) r) as [[x y]|]; reflexivity.
  - cbn [app array_literal]. assert (beqb c "\" = false) as -> by (apply beqb_neq; exact H3). assert (beqb c "(" = false) as -> by (apply beqb_neq; exact H1).
    assert (beqb c ")" = false) as -> by (apply beqb_neq; exact H2). rewrite IH. destruct (array_literal (S d) r) as [[x y]|]; reflexivity.
  - rewrite <- !app_assoc. change (bs "(" ++ ?x) with ("("%byte :: x). cbn [array_literal]. change (beqb "(" "\") with false. change (beqb "(" "(") with true. cbv iota.
    rewrite IHa. change (bs ")" ++ ?x) with (")"%byte :: x). cbn [array_literal]. change (beqb ")" "\") with false. change (beqb ")" "(") with false.
    change (beqb ")" ")") with true. cbv iota. rewrite IHt. destruct (array_literal (S d) r) as [[x y]|]; [|reflexivity].
    cbn. rewrite <- !app_assoc. reflexivity.
Qed.
Lemma literal_whole t r : nested t -> array_literal 1 (t ++ bs ")" ++ r) = Some (t, r).
Proof.
  intros H. rewrite (literal_nested t H 0). change (bs ")" ++ r) with (")"%byte :: r). cbn [array_literal]. change (beqb ")" "\") with false.
  change (beqb ")" "(") with false. change (beqb ")" ")") with true. cbv iota. cbn [option_map fst snd]. rewrite app_nil_r. reflexivity.
Qed.
Lemma replace_none c p new t : ~ In c t -> ReplaceAll t (c :: p) new = t.
Proof.
  unfold ReplaceAll. induction t as [|b t IH]; [reflexivity|]. intros H. cbn [replace_lit].
  assert (prefixb (c :: p) (b :: t) = false) as ->.
  { cbn [prefixb]. assert (beqb c b = false) as -> by (apply beqb_neq; intros ->; apply H; left; reflexivity). reflexivity. }
  f_equal. apply IH. intros I. apply H. right. exact I.
Qed.
Lemma unescape_plain t : ~ In "\"%byte t -> unescapePDFString t = t.
Proof. intros H. unfold unescapePDFString. repeat rewrite (replace_none "\" _ _ t H). reflexivity. Qed.
Lemma index_single c h r : ~ In c h -> index [c] (h ++ c :: r) = Some (length h).
Proof.
  induction h as [|b h IH]; intros H.
  - cbn [app index prefixb]. rewrite beqb_refl. reflexivity.
  - cbn [app index prefixb]. assert (beqb c b = false) as -> by (apply beqb_neq; intros ->; apply H; left; reflexivity).
    cbn [andb]. rewrite IH by (intros I; apply H; right; exact I). reflexivity.
Qed.
Lemma loop_between d g : ~ In "("%byte g -> ~ In "<"%byte g -> forall fuel s, (length (g ++ s) <= fuel)%nat ->
  exists k, (length s <= k)%nat /\ array_loop fuel d (g ++ s) = array_loop k d s.
Proof.
  induction g as [|b g IH]; intros H1 H2 fuel s L; [exists fuel; split; [exact L|reflexivity]|].
  cbn [app length] in L. destruct fuel as [|k]; [lia|].
  destruct (IH (fun I => H1 (or_intror I)) (fun I => H2 (or_intror I)) k s ltac:(lia)) as (k' & L' & E). exists k'. split; [exact L'|]. rewrite <- E.
  cbn [app array_loop]. assert (beqb b "(" = false) as -> by (apply beqb_neq; intros ->; apply H1; left; reflexivity).
  assert (beqb b "<" = false) as -> by (apply beqb_neq; intros ->; apply H2; left; reflexivity). reflexivity.
Qed.
Lemma loop_piece d p fuel s : piece_ok p -> (length (piece_text p ++ s) <= fuel)%nat ->
  exists k, (length s <= k)%nat /\ array_loop fuel d (piece_text p ++ s) = piece_shows d p ++ array_loop k d s.
Proof.
  destruct p as [t|h|g]; cbn [piece_ok piece_text piece_shows]; intros H L.
  - rewrite <- !app_assoc in *. change (bs "(" ++ ?x) with ("("%byte :: x) in *. cbn [length] in L. rewrite ?app_length in L. change (length (bs ")")) with 1%nat in L. destruct fuel as [|k]; [lia|].
    exists k. split; [lia|]. cbn [array_loop]. change (beqb "(" "(") with true. cbv iota. rewrite literal_whole by exact H.
    rewrite unescape_plain by (apply nested_no_backslash, H). destruct d; reflexivity.
  - rewrite <- !app_assoc in *. change (bs "<" ++ ?x) with ("<"%byte :: x) in *. change (bs ">" ++ ?x) with (">"%byte :: x) in *. cbn [length] in L. rewrite app_length in L. cbn [length] in L.
    destruct fuel as [|k]; [lia|]. exists k. split; [lia|]. cbn [array_loop]. change (beqb "<" "(") with false. change (beqb "<" "<") with true. cbv iota.
    change (bs ">") with [">"%byte]. rewrite index_single by exact H. rewrite firstn_app, Nat.sub_diag, firstn_all, app_nil_r.
    replace (skipn (length h + 1) (h ++ ">"%byte :: s)) with s.
    2:{ rewrite skipn_app, skipn_all2 by lia. replace (length h + 1 - length h)%nat with 1%nat by lia. reflexivity. }
    destruct d; reflexivity.
  - destruct H as [H1 H2]. apply loop_between; assumption.
Qed.
Lemma loop_pieces d l : Forall piece_ok l -> forall fuel, (length (flat_map piece_text l) <= fuel)%nat ->
  array_loop fuel d (flat_map piece_text l) = flat_map (piece_shows d) l.
Proof.
  induction 1 as [|p l H F IH]; intros fuel L; [destruct fuel; reflexivity|]. cbn [flat_map] in *.
  destruct (loop_piece d p fuel _ H L) as (k & L' & ->). rewrite IH by exact L'. reflexivity.
Qed.

Section stream.
Context (fmt : float -> bytes) (parse_float : bytes -> option float) (rd : float -> float) (one zero : float)
  (decoders : option (list (bytes * decoder))).
Notation good := (number_ok fmt parse_float rd).
Notation lines := (parse_lines parse_float decoders).
Lemma lines_calls cs r : good one -> good zero -> Forall (call_ok fmt parse_float rd) cs -> forall p,
  lines (content_stream fmt one zero cs ++ r) p = lines r (fold_left (fun p c => do_call fmt parse_float rd one zero decoders c p) cs p).
Proof.
  intros H1 H0. induction 1 as [|c cs H F IH]; intros p; [reflexivity|]. cbn [content_stream flat_map fold_left].
  rewrite <- app_assoc. rewrite (call_step fmt parse_float rd one zero decoders H1 H0) by exact H. apply IH.
Qed.
Lemma array_line l p : Forall piece_ok l -> one_line l ->
  lines (array_text l) p = show (flat_map (piece_shows (tsDecoder (pText p))) l) p.
Proof.
  intros F (N1 & N2 & N3 & E1 & E2 & E3). unfold array_text. set (t := flat_map piece_text l) in *.
  replace (bs "[" ++ t ++ bs "] TJ" ++ nl) with ((bs "[" ++ t ++ bs "]" ++ bs " " ++ bs "TJ") ++ nl ++ []) by (rewrite app_nil_r, <- !app_assoc; reflexivity).
  rewrite lines_cons.
  2:{ intros I. apply in_app_or in I as [[I|[]]|I]; [discriminate|]. apply in_app_or in I as [I|I]; [exact (N1 I)|].
      repeat (destruct I as [I|I]; [discriminate|]). exact I. }
  change (bs "[" ++ t ++ bs "]" ++ bs " " ++ bs "TJ") with ("["%byte :: t ++ bs "]" ++ bs " " ++ bs "TJ").
  rewrite step_bracket by (rewrite paren_last by discriminate; reflexivity).
  assert (m_TJ ("["%byte :: t ++ bs "]" ++ bs " " ++ bs "TJ") = Some t) as ->.
  { unfold m_TJ. change ("["%byte :: t ++ bs "]" ++ bs " " ++ bs "TJ") with (bs "[" ++ t ++ "]"%byte :: bs " " ++ bs "TJ"). rewrite lit_app. cbn [Util.obind].
    destruct (take_stop (fun b => negb (beqb b "]")) t "]"%byte (bs " " ++ bs "TJ")) as [-> ->]; [|reflexivity|destruct t; [congruence|reflexivity]].
    apply forallb_forall. intros b Hb. apply negb_true_iff, beqb_neq. intros ->. contradiction. }
  change (lines [] ?q) with q. f_equal. unfold parseTextArrayWithDecoder. rewrite trim_ends by assumption.
  change (bs "[") with ["["%byte]. change (bs "]") with ["]"%byte].
  rewrite trim_prefix_no by assumption. rewrite trim_suffix_no; [|intros E; apply N2; rewrite <- E|exact N3].
  - unfold t. apply loop_pieces; [exact F|apply Nat.le_refl].
  - rewrite (app_removelast_last x00 N3) at 2. apply in_or_app. right. left. reflexivity.
Qed.
Lemma array_read cs l : good one -> good zero -> Forall (call_ok fmt parse_float rd) cs -> Forall piece_ok l -> one_line l ->
  parseContentStream parse_float decoders (content_stream fmt one zero cs ++ array_text l) =
  (seen (texts_seen rd decoders) [] cs ++ [array_seen rd decoders cs l], seen (shapes_seen rd) [] cs, seen (images_seen rd one zero) [] cs).
Proof.
  intros H1 H0 F G O. unfold parseContentStream. rewrite (lines_calls cs _ H1 H0 F).
  rewrite (abs_start rd one zero decoders). rewrite (abs_calls fmt parse_float) by exact F. rewrite array_line by assumption. reflexivity.
Qed.
End stream.
