From Verif Require Import Util Scan Utf8 TextProofs XrefProofs ExtractModel ExtractSpec ExtractProofs.
From Verif Require ManipProofs2 MetaProofs.
Local Open Scope Z_scope.

Lemma num_text_dec z : num_text (decZ z).
Proof.
  split; [apply ManipProofs2.decZ_nonnil|]. destruct z as [|q|q]; [reflexivity| |].
  - pose proof (decZ_digits (Z.pos q) ltac:(lia)) as H. rewrite forallb_forall in *. intros b Hb. unfold is_numch. rewrite (H b Hb). reflexivity.
  - pose proof (decZ_digits (Z.pos q) ltac:(lia)) as H. change (decZ (Z.neg q)) with ("-"%byte :: decZ (Z.pos q)). cbn [forallb]. change (is_numch "-") with true. cbn [andb].
    rewrite forallb_forall in *. intros b Hb. unfold is_numch. rewrite (H b Hb). reflexivity.
Qed.

Section calls.
Context (fmt : float -> bytes) (parse_float : bytes -> option float) (rd : float -> float) (one zero : float)
  (decoders : option (list (bytes * decoder))).
Notation step := (parse_line parse_float decoders).
Notation lines := (parse_lines parse_float decoders).
Notation good := (number_ok fmt parse_float rd).
Notation text := (call_text fmt one zero).

(** What a call does to the state. *)
Definition do_call (c : ccall float) (p : pstate) : pstate :=
  let dec := tsDecoder (pText p) in
  match c with
  | SaveState _ => on_q p
  | RestoreState _ => on_Q p
  | SetMatrix _ a b c d e f => on_cm (map rd [a; b; c; d; e; f]) p
  | Translate _ x y => on_cm (map rd [one; zero; zero; one; x; y]) p
  | Scale _ x y => on_cm (map rd [x; zero; zero; y; zero; zero]) p
  | SetFillColorRGB _ r g b => on_rg (map rd [r; g; b]) p
  | SetStrokeColorRGB _ r g b => on_RG (map rd [r; g; b]) p
  | LineTo _ _ _ => on_l p
  | Rectangle _ x y w h => on_re (map rd [x; y; w; h]) p
  | SetLineWidth _ w => on_w [rd w] p
  | SetFont _ n s => on_Tf parse_float decoders n (fmt s) p
  | SetTextPosition _ x y => on_Td (map rd [x; y]) p
  | SetTextMatrix _ a b c d e f => on_Tm (map rd [a; b; c; d; e; f]) p
  | ShowText _ s => show (decodeTextWithFont s dec false) p
  | ShowTextNextLine _ s => next_line (show (decodeTextWithFont s dec false) p)
  | ShowTextArray _ l => show (flat_map (fun e => decodeTextWithFont (string_of e) dec false) l) p
  | ShowTextHex _ s => show (decodeTextWithFont s dec true) p
  | SetCharSpacing _ x => on_Tc [rd x] p
  | SetWordSpacing _ x => on_Tw [rd x] p
  | SetTextRise _ x => on_Ts [rd x] p
  | DrawImage _ n => on_Do n p
  | DrawImageAt _ n x y w h => on_Q (on_Do n (on_cm (map rd [w; zero; zero; h; x; y]) (on_q p)))
  | _ => p
  end.

Lemma lines_cons l r p : ~ In x0a l -> lines (l ++ nl ++ r) p = lines r (step p l).
Proof. intros H. unfold parse_lines. change (nl ++ r) with (x0a :: r). rewrite split_line by exact H. reflexivity. Qed.
Lemma good_num x : good x -> num_text (fmt x).
Proof. intros (H1 & H2 & _). split; assumption. Qed.
Lemma good_nums l : Forall good l -> Forall num_text (map fmt l).
Proof. induction 1; constructor; [apply good_num|]; assumption. Qed.
Lemma good_floats l : Forall good l -> floats parse_float (map fmt l) = Some (map rd l).
Proof. induction 1 as [|x l (_ & _ & H) F IH]; [reflexivity|]. cbn [map floats]. rewrite H, IH. reflexivity. Qed.
Lemma good_matrix l : Forall good l -> matrix_of parse_float (map fmt l) = map rd l.
Proof. induction 1 as [|x l (_ & _ & H) F IH]; [reflexivity|]. unfold matrix_of in *. cbn [map]. rewrite H, IH. reflexivity. Qed.
Lemma line_numline l op : line fmt l op = numline (map fmt l) op ++ nl.
Proof.
  unfold line, nums, numline. rewrite <- app_assoc. f_equal. induction l as [|x l IH]; [reflexivity|]. cbn [flat_map map]. rewrite IH. reflexivity.
Qed.
Lemma numch_no_nl n : num_text n -> ~ In x0a n.
Proof. intros [_ H] K. rewrite forallb_forall in H. specialize (H _ K). discriminate. Qed.
Lemma numline_no_nl l op : Forall num_text l -> ~ In x0a op -> ~ In x0a (numline l op).
Proof. intros F H K. apply H. revert K. apply numline_in; [exact F|reflexivity|discriminate]. Qed.
Definition op_ok (op : bytes) : Prop := op_text op /\ ~ In x0a op.
Ltac opok := split; [split; [reflexivity|split; [reflexivity|split; [reflexivity|split]]]|]; intros Hi; cbn in Hi; decompose [or] Hi; try discriminate; contradiction.
Lemma num_call x l op r p : Forall good (x :: l) -> op_ok op -> lines (line fmt (x :: l) op ++ r) p = lines r (dispatch parse_float (map fmt (x :: l)) op p).
Proof.
  intros F (O & N). rewrite line_numline, <- app_assoc. pose proof (good_nums _ F) as Fn. rewrite lines_cons by (apply numline_no_nl; [exact Fn|exact N]).
  f_equal. cbn [map] in *. apply step_numbers; [exact Fn|exact O].
Qed.
(** strings *)
Lemma step_paren p t : is_space (last ("("%byte :: t) x00) = false ->
  step p ("("%byte :: t) =
  match m_string (bs "Tj") ("("%byte :: t) with
  | Some u => show (decodeTextWithFont (unescapePDFString u) (tsDecoder (pText p)) false) p
  | None => match m_string (bs "'") ("("%byte :: t) with
            | Some u => next_line (show (decodeTextWithFont (unescapePDFString u) (tsDecoder (pText p)) false) p)
            | None => p
            end
  end.
Proof. intros H. unfold parse_line. rewrite trim_ends; [reflexivity|discriminate|reflexivity|exact H]. Qed.
Lemma m_string_at op e x : ~ In ")"%byte e -> starts_dark x -> m_string op (bs "(" ++ e ++ bs ")" ++ bs " " ++ x) = if prefixb op x then Some e else None.
Proof.
  intros H D. unfold m_string. rewrite lit_app. cbn [Util.obind]. change (bs ")" ++ bs " " ++ x) with (")"%byte :: " "%byte :: x).
  destruct (take_stop (fun b => negb (beqb b ")")) e ")"%byte (" "%byte :: x)) as [-> ->].
  - apply forallb_forall. intros b Hb. apply negb_true_iff, beqb_neq. intros ->. contradiction.
  - reflexivity.
  - change (")"%byte :: " "%byte :: x) with (bs ")" ++ " "%byte :: x). rewrite lit_app. cbn [Util.obind ws1]. change (is_ws " ") with true. cbv iota. cbn [Util.obind].
    rewrite drop_dark by exact D. reflexivity.
Qed.
Lemma escape_no_close s : ~ In ")"%byte s -> ~ In ")"%byte (flat_map esc_byte s).
Proof. intros H K. apply H. apply (escape_in _ _ K); discriminate. Qed.
Lemma not_in_app (b : byte) x y : ~ In b x -> ~ In b y -> ~ In b (x ++ y).
Proof. intros H1 H2 K. apply in_app_or in K. destruct K; [apply H1|apply H2]; assumption. Qed.
Lemma paren_last b e c x : x <> [] -> last (b :: e ++ c ++ bs " " ++ x) x00 = last x x00.
Proof. intros H. replace (b :: e ++ c ++ bs " " ++ x) with ((b :: e ++ c ++ bs " ") ++ x) by (cbn [app]; rewrite <- !app_assoc; reflexivity). apply last_app, H. Qed.
Ltac notin := intros Hi; cbn in Hi; decompose [or] Hi; try discriminate; contradiction.
Lemma show_call s r p : string_ok s -> lines (text (ShowText _ s) ++ r) p = lines r (do_call (ShowText _ s) p).
Proof.
  intros (V & B & C). cbn [call_text do_call]. rewrite escape_bytes by exact V.
  replace ((bs "(" ++ flat_map esc_byte s ++ bs ") Tj" ++ nl) ++ r) with ((bs "(" ++ flat_map esc_byte s ++ bs ")" ++ bs " " ++ bs "Tj") ++ nl ++ r) by (rewrite <- !app_assoc; reflexivity).
  rewrite lines_cons by (repeat apply not_in_app; try (notin); apply escape_no_nl). f_equal.
  change (bs "(" ++ flat_map esc_byte s ++ bs ")" ++ bs " " ++ bs "Tj") with ("("%byte :: flat_map esc_byte s ++ bs ")" ++ bs " " ++ bs "Tj").
  rewrite step_paren by (rewrite paren_last by discriminate; reflexivity).
  change ("("%byte :: flat_map esc_byte s ++ bs ")" ++ bs " " ++ bs "Tj") with (bs "(" ++ flat_map esc_byte s ++ bs ")" ++ bs " " ++ bs "Tj").
  rewrite m_string_at by (try reflexivity; apply escape_no_close, C). change (prefixb (bs "Tj") (bs "Tj")) with true. cbv iota.
  rewrite <- escape_bytes, unescape_show by assumption. reflexivity.
Qed.
Lemma show_next_call s r p : string_ok s -> lines (text (ShowTextNextLine _ s) ++ r) p = lines r (do_call (ShowTextNextLine _ s) p).
Proof.
  intros (V & B & C). cbn [call_text do_call]. rewrite escape_bytes by exact V.
  replace ((bs "(" ++ flat_map esc_byte s ++ bs ") '" ++ nl) ++ r) with ((bs "(" ++ flat_map esc_byte s ++ bs ")" ++ bs " " ++ bs "'") ++ nl ++ r) by (rewrite <- !app_assoc; reflexivity).
  rewrite lines_cons by (repeat apply not_in_app; try (notin); apply escape_no_nl). f_equal.
  change (bs "(" ++ flat_map esc_byte s ++ bs ")" ++ bs " " ++ bs "'") with ("("%byte :: flat_map esc_byte s ++ bs ")" ++ bs " " ++ bs "'").
  rewrite step_paren by (rewrite paren_last by discriminate; reflexivity).
  change ("("%byte :: flat_map esc_byte s ++ bs ")" ++ bs " " ++ bs "'") with (bs "(" ++ flat_map esc_byte s ++ bs ")" ++ bs " " ++ bs "'").
  rewrite !m_string_at by (try reflexivity; apply escape_no_close, C). change (prefixb (bs "Tj") (bs "'")) with false. change (prefixb (bs "'") (bs "'")) with true. cbv iota.
  rewrite <- escape_bytes, unescape_show by assumption. reflexivity.
Qed.
(** hexadecimal strings *)
Lemma step_angle p t : is_space (last ("<"%byte :: t) x00) = false ->
  step p ("<"%byte :: t) =
  match m_hexstring (bs "Tj") ("<"%byte :: t) with
  | Some u => show (decodeTextWithFont u (tsDecoder (pText p)) true) p
  | None => match m_hexstring (bs "'") ("<"%byte :: t) with
            | Some u => next_line (show (decodeTextWithFont u (tsDecoder (pText p)) true) p)
            | None => p
            end
  end.
Proof. intros H. unfold parse_line. rewrite trim_ends; [reflexivity|discriminate|reflexivity|exact H]. Qed.
Lemma hex_call s r p : forallb (fun b => is_hex b || beqb b " ") s = true -> lines (text (ShowTextHex _ s) ++ r) p = lines r (do_call (ShowTextHex _ s) p).
Proof.
  intros H. cbn [call_text do_call]. rewrite forallb_forall in H.
  replace ((bs "<" ++ s ++ bs "> Tj" ++ nl) ++ r) with ((bs "<" ++ s ++ bs ">" ++ bs " " ++ bs "Tj") ++ nl ++ r) by (rewrite <- !app_assoc; reflexivity).
  rewrite lines_cons by (repeat apply not_in_app; try (notin); intros K; specialize (H _ K); discriminate). f_equal.
  change (bs "<" ++ s ++ bs ">" ++ bs " " ++ bs "Tj") with ("<"%byte :: s ++ bs ">" ++ bs " " ++ bs "Tj").
  rewrite step_angle by (rewrite paren_last by discriminate; reflexivity).
  assert (m_hexstring (bs "Tj") ("<"%byte :: s ++ bs ">" ++ bs " " ++ bs "Tj") = Some s) as ->; [|reflexivity].
  unfold m_hexstring. change ("<"%byte :: s ++ bs ">" ++ bs " " ++ bs "Tj") with (bs "<" ++ s ++ ">"%byte :: bs " " ++ bs "Tj"). rewrite lit_app. cbn [Util.obind].
  destruct (take_stop hex_or_ws s ">"%byte (bs " " ++ bs "Tj")) as [-> ->]; [| |reflexivity].
  - apply forallb_forall. intros b Hb. specialize (H _ Hb). apply orb_true_iff in H. unfold hex_or_ws. destruct H as [H|H]; [rewrite H; reflexivity|].
    apply beqb_eq in H. subst b. reflexivity.
  - reflexivity.
Qed.

(** arrays *)
Lemma step_bracket p t : is_space (last ("["%byte :: t) x00) = false ->
  step p ("["%byte :: t) =
  match m_TJ ("["%byte :: t) with Some u => show (parseTextArrayWithDecoder u (tsDecoder (pText p))) p | None => p end.
Proof. intros H. unfold parse_line. rewrite trim_ends; [reflexivity|discriminate|reflexivity|exact H]. Qed.
Notation elem_text := (tj_text fmt).
Lemma loop_numbers d n : forall fuel s, forallb is_numch n = true -> (length (n ++ s) <= fuel)%nat -> exists k, (length s <= k)%nat /\ array_loop fuel d (n ++ s) = array_loop k d s.
Proof.
  induction n as [|b n IH]; intros fuel s H L; [exists fuel; split; [exact L|reflexivity]|].
  cbn [forallb] in H. apply andb_true_iff in H. destruct H as [Hb H]. cbn [app length] in L. destruct fuel as [|k]; [lia|].
  destruct (IH k s H) as (k' & L' & E); [lia|]. exists k'. split; [exact L'|]. rewrite <- E. cbn [app array_loop].
  assert (beqb b "(" = false /\ beqb b "<" = false) as [-> ->] by (destruct b; try discriminate; split; reflexivity). reflexivity.
Qed.
Lemma loop_elem d e fuel s : elem_ok fmt parse_float rd e -> (length (elem_text e ++ s) <= fuel)%nat ->
  exists k, (length s <= k)%nat /\ array_loop fuel d (elem_text e ++ s) = decodeTextWithFont (string_of e) d false ++ array_loop k d s.
Proof.
  assert (decodeTextWithFont [] d false = []) as Z by (destruct d; reflexivity).
  intros H L. destruct e as [t|z|x]; cbn [tj_text string_of elem_ok] in *.
  - destruct H as (V & B & _). destruct fuel as [|k]; [exfalso; rewrite !app_length in L; cbn [length] in L; change (length (bs "(")) with 1%nat in L; lia|].
    exists k. split. { rewrite !app_length in L. change (length (bs "(")) with 1%nat in L. lia. }
    rewrite <- !app_assoc. change (bs "(" ++ ?x) with ("("%byte :: x). cbn [array_loop]. change (beqb "(" "(") with true. cbv iota.
    rewrite escape_bytes by exact V. rewrite array_literal_escape, <- escape_bytes, unescape_show by assumption. reflexivity.
  - rewrite Z. apply loop_numbers; [apply num_text_dec|exact L].
  - rewrite Z. apply loop_numbers; [apply H|exact L].
Qed.
Lemma loop_elems d l : Forall (elem_ok fmt parse_float rd) l -> forall fuel, (length (join (bs " ") (map elem_text l)) <= fuel)%nat ->
  array_loop fuel d (join (bs " ") (map elem_text l)) = flat_map (fun e => decodeTextWithFont (string_of e) d false) l.
Proof.
  induction 1 as [|e l H F IH]; intros fuel L; [destruct fuel; reflexivity|]. destruct l as [|e' l].
  - cbn [map join flat_map] in *. rewrite <- (app_nil_r (elem_text e)) in *. destruct (loop_elem d e fuel [] H L) as (k & _ & ->). destruct k; reflexivity.
  - change (join (bs " ") (map elem_text (e :: e' :: l))) with (elem_text e ++ bs " " ++ join (bs " ") (map elem_text (e' :: l))) in *.
    destruct (loop_elem d e fuel _ H L) as (k & L' & ->). change (flat_map ?f (e :: e' :: l)) with (f e ++ flat_map f (e' :: l)). f_equal.
    rewrite app_length in L'. change (length (bs " ")) with 1%nat in L'. destruct k as [|k]; [lia|]. change (bs " " ++ ?x) with (" "%byte :: x). cbn [array_loop]. change (beqb " " "(") with false. change (beqb " " "<") with false. cbv iota. apply IH. lia.
Qed.
Lemma elem_in b e : elem_ok fmt parse_float rd e -> In b (elem_text e) ->
  is_numch b = true \/ b = "("%byte \/ b = ")"%byte \/ exists s, e = TJText _ s /\ In b (flat_map esc_byte s).
Proof.
  intros H K. destruct e as [t|z|x]; cbn [tj_text elem_ok] in *.
  - destruct H as (V & _). rewrite escape_bytes in K by exact V. apply in_app_or in K. destruct K as [[K|[]]|K]; [right; left; symmetry; exact K|].
    apply in_app_or in K. destruct K as [K|[K|[]]]; [right; right; right; eauto|right; right; left; symmetry; exact K].
  - left. destruct (num_text_dec z) as [_ C]. rewrite forallb_forall in C. auto.
  - left. destruct H as (_ & C & _). rewrite forallb_forall in C. auto.
Qed.
Lemma in_join_space (b : byte) l : b <> " "%byte -> In b (join (bs " ") l) -> exists x, In x l /\ In b x.
Proof.
  intros Hb. induction l as [|a l IH]; [intros []|]. destruct l as [|a' l].
  - cbn [join]. intros H. exists a. split; [now left|exact H].
  - change (join (bs " ") (a :: a' :: l)) with (a ++ bs " " ++ join (bs " ") (a' :: l)). intros H. apply in_app_or in H. destruct H as [H|H].
    + exists a. split; [now left|exact H].
    + apply in_app_or in H. destruct H as [[H|[]]|H]; [exfalso; apply Hb; symmetry; exact H|]. destruct (IH H) as (x & Hx & K). exists x. split; [now right|exact K].
Qed.
Lemma elems_in b l : Forall (elem_ok fmt parse_float rd) l -> b <> " "%byte -> In b (join (bs " ") (map elem_text l)) ->
  is_numch b = true \/ b = "("%byte \/ b = ")"%byte \/ exists s, In (TJText _ s) l /\ In b (flat_map esc_byte s).
Proof.
  intros F Hb H. apply in_join_space in H; [|exact Hb]. destruct H as (x & Hx & K). apply in_map_iff in Hx. destruct Hx as (e & <- & He).
  rewrite Forall_forall in F. destruct (elem_in b e (F _ He) K) as [?|[?|[?|(s & -> & ?)]]]; eauto 7.
Qed.
Lemma elem_ends e : elem_ok fmt parse_float rd e -> elem_text e <> [] /\ is_space (hd x00 (elem_text e)) = false /\ is_space (last (elem_text e) x00) = false /\
  hd x00 (elem_text e) <> "["%byte /\ last (elem_text e) x00 <> "]"%byte.
Proof.
  assert (forall n, num_text n -> n <> [] /\ is_space (hd x00 n) = false /\ is_space (last n x00) = false /\ hd x00 n <> "["%byte /\ last n x00 <> "]"%byte) as K.
  { intros n [Hn C]. rewrite forallb_forall in C. destruct n as [|b n]; [congruence|].
    assert (is_numch b = true) as Hb by (apply C; now left). assert (is_numch (last (b :: n) x00) = true) as Hl.
    { apply C. rewrite (app_removelast_last x00 (l := b :: n)) at 2 by discriminate. apply in_or_app. right. now left. }
    cbn [hd]. assert (forall c, is_numch c = true -> is_space c = false /\ c <> "["%byte /\ c <> "]"%byte) as Q by (intros c; destruct c; cbn; intros Hc; try discriminate; repeat split; discriminate).
    destruct (Q _ Hb) as (? & ? & ?), (Q _ Hl) as (? & ? & ?). repeat split; try assumption; discriminate. }
  intros H. destruct e as [t|z|x]; cbn [tj_text elem_ok] in *; [|apply K, num_text_dec|apply K; split; apply H].
  split; [discriminate|]. split; [reflexivity|]. rewrite app_assoc, last_app by discriminate. split; [reflexivity|]. split; discriminate.
Qed.
Lemma join_snoc l (e : bytes) : exists x, join (bs " ") (l ++ [e]) = x ++ e.
Proof.
  induction l as [|a l [x IH]]; [exists []; reflexivity|]. exists (a ++ bs " " ++ x). rewrite <- !app_assoc, <- IH. cbn [app].
  destruct l; reflexivity.
Qed.
Lemma join_last l (e : bytes) : e <> [] -> last (join (bs " ") (l ++ [e])) x00 = last e x00.
Proof. intros H. destruct (join_snoc l e) as [x ->]. apply last_app, H. Qed.
Lemma elems_ends l : l <> [] -> Forall (elem_ok fmt parse_float rd) l -> let t := join (bs " ") (map elem_text l) in
  t <> [] /\ is_space (hd x00 t) = false /\ is_space (last t x00) = false /\ hd x00 t <> "["%byte /\ last t x00 <> "]"%byte.
Proof.
  intros Hl F. cbv zeta.
  assert (exists l' e, l = l' ++ [e]) as (l' & e & El) by (destruct (exists_last Hl) as (l' & e & H); eauto).
  assert (elem_ok fmt parse_float rd e) as He by (rewrite El in F; apply Forall_app in F; destruct F as [_ F]; inversion F; assumption).
  assert (last (join (bs " ") (map elem_text l)) x00 = last (elem_text e) x00) as ->.
  { rewrite El, map_app. cbn [map]. apply join_last, (elem_ends e He). }
  destruct (elem_ends e He) as (_ & _ & L1 & _ & L2).
  destruct l as [|e0 l0]; [congruence|]. inversion F as [|x y H0 F0]; subst x y. destruct (elem_ends e0 H0) as (N & S1 & _ & S2 & _).
  assert (exists r, join (bs " ") (map elem_text (e0 :: l0)) = elem_text e0 ++ r) as [r ->].
  { destruct l0 as [|e1 l1]; [exists []; cbn [map join]; now rewrite app_nil_r|]. eexists. reflexivity. }
  destruct (elem_text e0) as [|b t] eqn:E; [congruence|]. cbn [app hd] in *. repeat split; try assumption; discriminate.
Qed.
Lemma trim_prefix_no c s : hd x00 s <> c -> s <> [] -> trim_prefix [c] s = s.
Proof. intros H N. unfold trim_prefix. destruct s as [|b s]; [congruence|]. cbn [hd prefixb] in *. assert (beqb c b = false) as -> by (apply beqb_neq; congruence). reflexivity. Qed.
Lemma trim_suffix_no c s : last s x00 <> c -> s <> [] -> trim_suffix [c] s = s.
Proof.
  intros H N. unfold trim_suffix. destruct (suffixb [c] s) eqn:E; [|reflexivity]. exfalso. apply H.
  unfold suffixb in E. apply andb_true_iff in E. destruct E as [_ E]. apply bytes_eqb_eq in E.
  rewrite <- (firstn_skipn (length s - length [c]) s). rewrite <- E. apply last_last.
Qed.
Lemma array_call l r p : l <> [] -> Forall (elem_ok fmt parse_float rd) l ->
  lines (text (ShowTextArray _ l) ++ r) p = lines r (do_call (ShowTextArray _ l) p).
Proof.
  intros Hl F. cbn [call_text do_call]. set (t := join (bs " ") (map elem_text l)).
  replace ((bs "[" ++ t ++ bs "] TJ" ++ nl) ++ r) with ((bs "[" ++ t ++ bs "]" ++ bs " " ++ bs "TJ") ++ nl ++ r) by (rewrite <- !app_assoc; reflexivity).
  destruct (elems_ends l Hl F) as (E1 & E2 & E3 & E4 & E5). fold t in E1, E2, E3, E4, E5.
  assert (~ In "]"%byte t) as Nb.
  { intros K. apply elems_in in K; [|exact F|discriminate]. destruct K as [K|[K|[K|(s & Hs & K)]]]; try discriminate.
    rewrite Forall_forall in F. destruct (F _ Hs) as (_ & _ & C). apply C, (escape_in _ _ K); discriminate. }
  rewrite lines_cons.
  2:{ repeat apply not_in_app; try notin. intros K. apply elems_in in K; [|exact F|discriminate]. destruct K as [K|[K|[K|(s & Hs & K)]]]; try discriminate.
      apply escape_no_nl in K. exact K. }
  f_equal. change (bs "[" ++ t ++ bs "]" ++ bs " " ++ bs "TJ") with ("["%byte :: t ++ bs "]" ++ bs " " ++ bs "TJ").
  rewrite step_bracket by (rewrite paren_last by discriminate; reflexivity).
  assert (m_TJ ("["%byte :: t ++ bs "]" ++ bs " " ++ bs "TJ") = Some t) as ->.
  { unfold m_TJ. change ("["%byte :: t ++ bs "]" ++ bs " " ++ bs "TJ") with (bs "[" ++ t ++ "]"%byte :: bs " " ++ bs "TJ"). rewrite lit_app. cbn [Util.obind].
    destruct (take_stop (fun b => negb (beqb b "]")) t "]"%byte (bs " " ++ bs "TJ")) as [-> ->]; [|reflexivity|destruct t; [congruence|reflexivity]].
    apply forallb_forall. intros b Hb. apply negb_true_iff, beqb_neq. intros ->. contradiction. }
  f_equal. unfold parseTextArrayWithDecoder. rewrite trim_ends by assumption. change (bs "[") with ["["%byte]. change (bs "]") with ["]"%byte].
  rewrite trim_prefix_no, trim_suffix_no by assumption. unfold t. apply loop_elems; [exact F|apply Nat.le_refl].
Qed.
End calls.
