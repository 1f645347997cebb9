From Verif Require Import Util Scan Utf8 TextProofs XrefProofs ExtractModel ExtractSpec.
From Verif Require ManipProofs2 MetaProofs.
Local Open Scope Z_scope.

(* ---------------------------------------------------------------- *)
(** Escapes *)
Definition high (b : byte) : bool := (128 <=? b2n b)%N.
Lemma high_n2b n : (128 <= n < 256)%N -> high (n2b n) = true.
Proof. intros H. unfold high. rewrite b2n_n2b_small by lia. apply N.leb_le. lia. Qed.
Lemma big_rune_high r : (128 <= r)%N -> forallb high (encode_rune r) = true.
Proof.
  intros H. unfold encode_rune.
  assert (V : (128 <= (if valid_rune r then r else rune_error) < 1114112)%N).
  { destruct (valid_rune r) eqn:V; [|unfold rune_error; lia]. unfold valid_rune in V.
    apply orb_true_iff in V. rewrite andb_true_iff, N.leb_le, !N.ltb_lt in V. lia. }
  remember (if valid_rune r then r else rune_error) as q. clear Heqq.
  destruct (q <? 128)%N eqn:E1; [apply N.ltb_lt in E1; lia|].
  destruct (q <? 2048)%N eqn:E2.
  { apply N.ltb_lt in E2. cbn [forallb]. rewrite !high_n2b by lia. reflexivity. }
  apply N.ltb_ge in E2. destruct (q <? 65536)%N eqn:E3.
  { apply N.ltb_lt in E3. cbn [forallb]. rewrite !high_n2b by lia. reflexivity. }
  apply N.ltb_ge in E3. cbn [forallb]. rewrite !high_n2b by lia. reflexivity.
Qed.
Lemma esc_highs l : forallb high l = true -> flat_map esc_byte l = l.
Proof.
  induction l as [|b l IH]; [reflexivity|]. cbn [forallb flat_map]. intros H. apply andb_true_iff in H. destruct H as [Hb Hl]. rewrite IH by exact Hl.
  unfold esc_byte. rewrite big_rune_unescaped by (apply N.leb_le, Hb). reflexivity.
Qed.
Lemma esc_rune_bytes r : esc_rune r = flat_map esc_byte (encode_rune r).
Proof.
  destruct (N.lt_ge_cases r 128) as [H|H].
  - destruct (small_rune r H) as (b & -> & -> & _). unfold esc_rune, esc_byte. cbn [flat_map]. rewrite app_nil_r.
    destruct (esc_pair (b2n b)) eqn:E; [reflexivity|]. destruct (small_rune (b2n b) H) as (c & E1 & E2 & _). apply b2n_inj in E1. subst c. exact E2.
  - rewrite esc_highs by (apply big_rune_high, H). unfold esc_rune. rewrite big_rune_unescaped by exact H. reflexivity.
Qed.
Lemma escape_bytes s : valid_utf8 s -> escapePDFString s = flat_map esc_byte s.
Proof.
  intros (rs & V & ->). unfold escapePDFString. rewrite runes_utf8 by exact V. unfold utf8. clear V.
  induction rs as [|r rs IH]; [reflexivity|]. cbn [flat_map]. rewrite flat_map_app, IH, esc_rune_bytes. reflexivity.
Qed.
Lemma unescape_show s : valid_utf8 s -> no_backslash s = true -> unescapePDFString (escapePDFString s) = s.
Proof. intros V B. rewrite escape_bytes, <- metadata_escape by exact V. apply unescape_escape, B. Qed.
(** bytes of an escaped text: no line feed; a bracket only where there was one *)
Lemma escape_in b s : In b (flat_map esc_byte s) -> b <> "\"%byte -> b <> "n"%byte -> b <> "r"%byte -> b <> "t"%byte -> In b s.
Proof.
  intros H. apply in_flat_map in H. destruct H as (c & Hc & H). unfold esc_byte, esc_pair in H. intros.
  repeat match type of H with context [if ?x then _ else _] => destruct x eqn:?E end.
  all: cbn [In] in H; repeat destruct H as [H|H]; try contradiction; try congruence; subst; try exact Hc.
  all: match goal with E : (b2n ?c =? _)%N = true, K : In ?c _ |- _ => apply N.eqb_eq in E; rewrite <- (n2b_b2n c), E in K; exact K end.
Qed.
Lemma escape_no_nl s : ~ In x0a (flat_map esc_byte s).
Proof.
  intros H. apply in_flat_map in H. destruct H as (c & Hc & H). unfold esc_byte in H. destruct (esc_pair (b2n c)) as [d|] eqn:E.
  - unfold esc_pair in E. repeat match type of E with context [if ?x then _ else _] => destruct x end; try discriminate.
    all: injection E as <-; cbn [In] in H; repeat destruct H as [H|H]; try discriminate; contradiction.
  - destruct H as [H|[]]. subst c. discriminate E.
Qed.
Lemma array_literal_escape s r : array_literal 1 (flat_map esc_byte s ++ bs ")" ++ r) = Some (flat_map esc_byte s, r).
Proof.
  induction s as [|b s IH]; [reflexivity|]. cbn [flat_map]. rewrite <- app_assoc. unfold esc_byte at 1 3. destruct (esc_pair (b2n b)) as [c|] eqn:E.
  - cbn [app array_literal]. rewrite beqb_refl. rewrite IH. reflexivity.
  - cbn [app array_literal]. rewrite IH.
    assert (beqb b "\" = false /\ beqb b "(" = false /\ beqb b ")" = false) as (-> & -> & ->) by (destruct b; try discriminate E; repeat split; reflexivity).
    reflexivity.
Qed.

(* ---------------------------------------------------------------- *)
(** Lines *)
Lemma split_line l r : ~ In x0a l -> split_on x0a (l ++ x0a :: r) = l :: split_on x0a r.
Proof.
  induction l as [|b l IH]; intros H; cbn [app split_on].
  - rewrite beqb_refl. reflexivity.
  - assert (beqb b x0a = false) as -> by (apply beqb_neq; intros ->; apply H; now left). rewrite IH by (intros K; apply H; now right). reflexivity.
Qed.
Lemma trim_id b t u c : is_space b = false -> is_space c = false -> b :: t = u ++ [c] -> trim is_space (b :: t) = b :: t.
Proof.
  intros Hb Hc E. unfold trim. cbn [drop_while]. rewrite Hb. rewrite E. unfold rtrim. rewrite rev_app_distr. cbn [rev app drop_while]. rewrite Hc.
  cbn [rev]. rewrite rev_involutive. reflexivity.
Qed.
Lemma trim_ends s : s <> [] -> is_space (hd x00 s) = false -> is_space (last s x00) = false -> trim is_space s = s.
Proof.
  intros Hs Hb Hc. destruct s as [|b t]; [congruence|]. apply (trim_id b t (removelast (b :: t)) (last (b :: t) x00)); [exact Hb|exact Hc|].
  apply app_removelast_last. discriminate.
Qed.

Definition numline (ns : list bytes) (op : bytes) : bytes := flat_map (fun n => n ++ bs " ") ns ++ op.
Definition num_text (n : bytes) : Prop := n <> [] /\ forallb is_numch n = true.
(** an operator: not a number *)
Definition op_start (op : bytes) : Prop := match op with b :: _ => is_numch b = false | [] => False end.
Lemma numline_cons n ns op : numline (n :: ns) op = n ++ bs " " ++ numline ns op.
Proof. unfold numline. cbn [flat_map]. rewrite <- !app_assoc. reflexivity. Qed.
Lemma take_stop f a b r : forallb f a = true -> f b = false -> take_while f (a ++ b :: r) = a /\ drop_while f (a ++ b :: r) = b :: r.
Proof.
  intros Ha Hb. induction a as [|x a IH]; cbn [app take_while drop_while forallb] in *; [rewrite Hb; split; reflexivity|].
  apply andb_true_iff in Ha. destruct Ha as [Hx Ha]. rewrite Hx. destruct (IH Ha) as [-> ->]. split; reflexivity.
Qed.
Definition starts_dark (s : bytes) : Prop := match s with b :: _ => is_ws b = false | [] => True end.
Lemma drop_dark s : starts_dark s -> drop_while is_ws s = s.
Proof. destruct s as [|b s]; cbn [starts_dark drop_while]; [reflexivity|intros ->; reflexivity]. Qed.
Lemma m_num_at n r : num_text n -> starts_dark r -> m_num (n ++ bs " " ++ r) = Some (n, r).
Proof.
  intros [Hn H] D. unfold m_num. change (bs " " ++ r) with (" "%byte :: r). destruct (take_stop is_numch n " "%byte r H eq_refl) as [-> ->].
  destruct n; [congruence|]. cbn [ws1]. change (is_ws " ") with true. cbv iota. cbn [Util.obind]. rewrite drop_dark by exact D. reflexivity.
Qed.
Lemma numch_dark b : is_numch b = true -> is_ws b = false.
Proof. destruct b; cbn; intros H; try reflexivity; discriminate. Qed.
Lemma numline_dark ns op : Forall num_text ns -> starts_dark op -> starts_dark (numline ns op).
Proof.
  intros F D. destruct F as [|n ns [Hn H] F]; [exact D|]. rewrite numline_cons. destruct n as [|b n]; [congruence|]. cbn [app starts_dark].
  cbn [forallb] in H. apply andb_true_iff in H. apply numch_dark, H.
Qed.
Lemma m_num_none op : op_start op -> m_num op = None.
Proof. unfold m_num. destruct op as [|b op]; cbn [op_start take_while]; [tauto|]. intros ->. reflexivity. Qed.
Lemma m_nums_line ns op : Forall num_text ns -> op_start op -> starts_dark op -> forall k,
  m_nums k (numline ns op) = if (k <=? length ns)%nat then Some (firstn k ns, numline (skipn k ns) op) else None.
Proof.
  intros F O D. induction F as [|n ns H F IH]; intros [|k]; try reflexivity.
  - cbn [m_nums length Nat.leb]. unfold numline. cbn [flat_map app]. rewrite m_num_none by exact O. reflexivity.
  - cbn [m_nums]. rewrite numline_cons, m_num_at by (try exact H; apply numline_dark; assumption). cbn [Util.obind]. rewrite IH.
    cbn [length Nat.leb]. destruct (k <=? length ns)%nat; reflexivity.
Qed.
Lemma m_op_line ns op x k : Forall num_text ns -> op_start op -> starts_dark op -> op_start x ->
  m_op k x (numline ns op) = if (k =? length ns)%nat && prefixb x op then Some ns else None.
Proof.
  intros F O D X. unfold m_op. rewrite m_nums_line by assumption. destruct (Nat.eqb_spec k (length ns)) as [->|N].
  - rewrite Nat.leb_refl. cbn [Util.obind]. rewrite firstn_all, skipn_all. unfold numline. cbn [flat_map app andb]. reflexivity.
  - cbn [andb]. destruct (Nat.leb_spec k (length ns)); [|reflexivity]. cbn [Util.obind].
    destruct (skipn k ns) as [|n l] eqn:E. { apply (f_equal (@length bytes)) in E. rewrite skipn_length in E. cbn [length] in E. lia. }
    assert (num_text n) as [Hn Hf]. { assert (In n ns) by (apply (MetaProofs.skipn_incl k); rewrite E; now left). rewrite Forall_forall in F. auto. }
    rewrite numline_cons. destruct x as [|c x]; [contradiction|]. destruct n as [|b n]; [congruence|]. cbn [app prefixb]. cbn [op_start] in X.
    cbn [forallb] in Hf. apply andb_true_iff in Hf. destruct Hf as [Hb _]. destruct (beqb c b) eqn:Ec; [|reflexivity]. apply beqb_eq in Ec. congruence.
Qed.

(** a match of an operator pattern contains the operator *)
Lemma in_drop_while f (b : byte) s : In b (drop_while f s) -> In b s.
Proof. induction s as [|c s IH]; intros H; [exact H|]. cbn [drop_while] in H. destruct (f c); [right; apply IH, H|exact H]. Qed.
Lemma ws1_in b s r : ws1 s = Some r -> In b r -> In b s.
Proof. unfold ws1. destruct s as [|c s]; [discriminate|]. destruct (is_ws c); [|discriminate]. intros E H. assert (r = drop_while is_ws s) as -> by congruence. right. apply in_drop_while in H. exact H. Qed.
Lemma m_num_in b s n r : m_num s = Some (n, r) -> In b r -> In b s.
Proof.
  unfold m_num. destruct (take_while is_numch s); [discriminate|]. destruct (ws1 (drop_while is_numch s)) as [u|] eqn:E; [|discriminate]. cbn [Util.obind].
  intros H Hb. assert (r = u) as -> by congruence. apply in_drop_while with (f := is_numch). apply (ws1_in _ _ _ E Hb).
Qed.
Lemma m_resource_in b s n r : m_resource s = Some (n, r) -> In b r -> In b s.
Proof.
  unfold m_resource. destruct (take_while is_namech s); [discriminate|]. destruct (ws1 (drop_while is_namech s)) as [u|] eqn:E; [|discriminate]. cbn [Util.obind].
  intros H Hb. assert (r = u) as -> by congruence. apply in_drop_while with (f := is_namech). apply (ws1_in _ _ _ E Hb).
Qed.
Lemma prefix_in b p s : prefixb p s = true -> In b p -> In b s.
Proof. intros H K. apply prefixb_spec in H. destruct H as [t ->]. apply in_or_app. now left. Qed.
Lemma m_Tf_none s : ~ In "f"%byte s -> m_Tf s = None.
Proof.
  intros H. unfold m_Tf. destruct (m_resource s) as [[n r]|] eqn:E; [|reflexivity]. cbn [Util.obind]. unfold m_op. cbn [m_nums].
  destruct (m_num r) as [[x u]|] eqn:E2; [|reflexivity]. cbn [Util.obind]. destruct (prefixb (bs "Tf") u) eqn:E3; [|reflexivity].
  exfalso. apply H. apply (m_resource_in _ _ _ _ E), (m_num_in _ _ _ _ E2), (prefix_in _ _ _ E3). right. now left.
Qed.
Lemma m_Do_none s : ~ In "o"%byte s -> m_Do s = None.
Proof.
  intros H. unfold m_Do. destruct (m_resource s) as [[n r]|] eqn:E; [|reflexivity]. cbn [Util.obind]. destruct (prefixb (bs "Do") r) eqn:E3; [|reflexivity].
  exfalso. apply H. apply (m_resource_in _ _ _ _ E), (prefix_in _ _ _ E3). right. now left.
Qed.
Lemma lit_first c p b s : c <> b -> lit (c :: p) (b :: s) = None.
Proof. intros H. unfold lit. cbn [prefixb]. assert (beqb c b = false) as -> by (apply beqb_neq, H). reflexivity. Qed.
Lemma prefix_first c p b s : c <> b -> prefixb (c :: p) (b :: s) = false.
Proof. intros H. cbn [prefixb]. assert (beqb c b = false) as -> by (apply beqb_neq, H). reflexivity. Qed.

Lemma last_app (a b : bytes) d : b <> [] -> last (a ++ b) d = last b d.
Proof. intros H. induction a as [|x a IH]; [reflexivity|]. cbn [app]. rewrite <- IH. destruct (a ++ b) eqn:E; [apply app_eq_nil in E; tauto|reflexivity]. Qed.

Lemma numline_in b l op : Forall num_text l -> is_numch b = false -> b <> " "%byte -> In b (numline l op) -> In b op.
Proof.
  intros F Hb Hs H. unfold numline in H. apply in_app_or in H. destruct H as [H|H]; [|exact H]. exfalso.
  apply in_flat_map in H. destruct H as (n & Hn & H). apply in_app_or in H. rewrite Forall_forall in F. destruct (F n Hn) as [_ C]. destruct H as [H|[H|[]]]; [|apply Hs; symmetry; exact H].
  rewrite forallb_forall in C. rewrite C in Hb by exact H. discriminate.
Qed.

Section steps.
Context (parse_float : bytes -> option float) (decoders : option (list (bytes * decoder))).
Notation step := (parse_line parse_float decoders).
Notation with_floats := (with_floats parse_float).
Definition is_op (k : nat) (x : string) (l : list bytes) (op : bytes) : bool := (k =? length l)%nat && prefixb (bs x) op.
Definition dispatch (l : list bytes) (op : bytes) (p : pstate) : pstate :=
  if is_op 2 "Td" l op then with_floats l on_Td p else
  if is_op 6 "Tm" l op then on_Tm (matrix_of parse_float l) p else
  if is_op 1 "Tc" l op then with_floats l on_Tc p else
  if is_op 1 "Tw" l op then with_floats l on_Tw p else
  if is_op 1 "Ts" l op then with_floats l on_Ts p else
  if is_op 4 "re" l op then with_floats l on_re p else
  if is_op 2 "m" l op then p else
  if is_op 2 "l" l op then on_l p else
  if is_op 6 "cm" l op then on_cm (matrix_of parse_float l) p else
  if is_op 1 "w" l op then with_floats l on_w p else
  if is_op 3 "rg" l op then with_floats l on_rg p else
  if is_op 3 "RG" l op then with_floats l on_RG p else p.
Definition op_text (op : bytes) : Prop :=
  op_start op /\ starts_dark op /\ is_space (last op x00) = false /\ ~ In "f"%byte op /\ ~ In "o"%byte op.
Lemma step_numbers n l op p : Forall num_text (n :: l) -> op_text op -> step p (numline (n :: l) op) = dispatch (n :: l) op p.
Proof.
  intros F (O & D & L & Nf & No).
  assert (~ In "f"%byte (numline (n :: l) op)) as Kf by (intros H; apply Nf; revert H; apply numline_in; [exact F|reflexivity|discriminate]).
  assert (~ In "o"%byte (numline (n :: l) op)) as Ko by (intros H; apply No; revert H; apply numline_in; [exact F|reflexivity|discriminate]).
  assert (exists b t, numline (n :: l) op = b :: t /\ is_numch b = true) as (b & t & E & Hb).
  { rewrite numline_cons. inversion F as [|x y [Hn Hc] F']; subst. destruct n as [|b n]; [congruence|]. cbn [forallb] in Hc. apply andb_true_iff in Hc. exists b. eexists. split; [reflexivity|apply Hc]. }
  unfold parse_line. rewrite trim_ends.
  2:{ rewrite E. discriminate. }
  2:{ rewrite E. cbn [hd]. revert Hb. clear. destruct b; cbn; intros H; try reflexivity; discriminate. }
  2:{ unfold numline. rewrite last_app; [exact L|]. intros ->. contradiction. }
  cbv zeta. rewrite E at 1.
  assert (forall c q, is_numch c = false -> prefixb (c :: q) (numline (n :: l) op) = false) as Pf.
  { intros c q Hc. rewrite E. apply prefix_first. intros ->. congruence. }
  assert (forall c q, is_numch c = false -> lit (c :: q) (numline (n :: l) op) = None) as Lf.
  { intros c q Hc. rewrite E. apply lit_first. intros ->. congruence. }
  change (bs "BT") with ("B"%byte :: bs "T"). change (bs "ET") with ("E"%byte :: bs "T"). rewrite (Pf "B"%byte _ eq_refl), (Pf "E"%byte _ eq_refl). cbv iota.
  change (bs "S") with ("S"%byte :: []). change (bs "f") with ("f"%byte :: []). rewrite (Pf "S"%byte _ eq_refl), (Pf "f"%byte _ eq_refl). cbv iota.
  rewrite (m_Tf_none _ Kf), (m_Do_none _ Ko).
  unfold m_string, m_hexstring, m_TJ. change (bs "(") with ("("%byte :: []). change (bs "<") with ("<"%byte :: []). change (bs "[") with ("["%byte :: []).
  rewrite !(Lf "("%byte _ eq_refl), !(Lf "<"%byte _ eq_refl), !(Lf "["%byte _ eq_refl). cbn [Util.obind].
  assert (bytes_eqb (numline (n :: l) op) (bs "q") = false) as ->.
  { destruct (bytes_eqb _ _) eqn:Q; [|reflexivity]. apply bytes_eqb_eq in Q. rewrite Q in E. injection E as <- _. discriminate. }
  assert (bytes_eqb (numline (n :: l) op) (bs "Q") = false) as ->.
  { destruct (bytes_eqb _ _) eqn:Q; [|reflexivity]. apply bytes_eqb_eq in Q. rewrite Q in E. injection E as <- _. discriminate. }
  rewrite !m_op_line by (try assumption; reflexivity). unfold dispatch, is_op.
  repeat (match goal with |- context [(?k =? length (n :: l))%nat && prefixb ?x op] => destruct ((k =? length (n :: l))%nat && prefixb x op) end; [reflexivity|]).
  reflexivity.
Qed.
End steps.
