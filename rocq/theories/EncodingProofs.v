From Verif Require Import Util Scan Utf8 EncodingModel EncodingSpec FontModel FontSpec FontProofs4.
Local Open Scope Z_scope.

(* ---------------------------------------------------------------- *)
(** Codes *)
Lemma byte_char_means d c : means d c (byte_char d c).
Proof.
  unfold byte_char. destruct (mget c (toUnicode d)) eqn:E1; [now constructor|].
  destruct (mget c (differences d)) eqn:E2; [now apply by_difference|].
  destruct (mget c (baseEncoding d)) eqn:E3; [now apply by_base|now apply by_itself].
Qed.
Lemma means_fun d c r r' : means d c r -> means d c r' -> r = r'.
Proof. intros [] []; congruence. Qed.
Lemma lookup_means d c : base_small d -> c < 65536 -> means d c (lookupCode d c).
Proof.
  intros B H. unfold lookupCode. destruct (mget c (toUnicode d)) eqn:E1; [now constructor|].
  destruct (mget c (differences d)) eqn:E2; [now apply by_difference|]. destruct (Z.ltb_spec c 256).
  - destruct (mget c (baseEncoding d)) eqn:E3; [now apply by_base|]. destruct (Z.ltb_spec c 65536); [|lia]. now apply by_itself.
  - destruct (Z.ltb_spec c 65536); [|lia]. apply by_itself; [assumption..|]. destruct (mget c (baseEncoding d)) eqn:E3; [|reflexivity]. apply B in E3. lia.
Qed.
Lemma write_text rs : Forall is_char rs -> flat_map write_rune rs = text_of rs.
Proof.
  intros F. unfold text_of, utf8. induction F as [|r rs [H V] F IH]; [reflexivity|]. cbn [flat_map map]. rewrite IH. f_equal.
  unfold write_rune. destruct (Z.ltb_spec r 0); [lia|reflexivity].
Qed.
Lemma decode_spec d s : exists rs, Forall2 (means d) (byte_codes s) rs /\ (Forall is_char rs -> Decode d s = text_of rs).
Proof.
  exists (map (byte_char d) (byte_codes s)). split.
  - induction (byte_codes s); constructor; [apply byte_char_means|assumption].
  - intros F. rewrite <- write_text by exact F. unfold Decode, byte_codes. rewrite flat_map_concat_map, (flat_map_concat_map write_rune), !map_map. reflexivity.
Qed.

(* ---------------------------------------------------------------- *)
(** Hexadecimal numbers *)
Lemma hexval_digit b : hexval b = option_map Z.of_N (hex_digit b).
Proof. destruct b; reflexivity. Qed.
Lemma hex_fold_from s : forall v : option N, fold_left (fun v b => match v, hexval b with Some v, Some d => Some (16 * v + d) | _, _ => None end) s (option_map Z.of_N v) =
  option_map Z.of_N (fold_left (fun v b => match v, hex_digit b with Some v, Some d => Some (16 * v + d)%N | _, _ => None end) s v).
Proof.
  induction s as [|b s IH]; intros v; [reflexivity|]. cbn [fold_left]. rewrite <- IH. f_equal. rewrite hexval_digit.
  destruct v as [v|]; [|reflexivity]. cbn [option_map]. destruct (hex_digit b) as [h|]; [|reflexivity]. cbn [option_map]. f_equal. lia.
Qed.
Lemma hex_fold_value s n : hex_value s = Some n -> hex_fold s = Some (Z.of_N n).
Proof. intros H. unfold hex_fold. change (Some 0) with (option_map Z.of_N (Some 0%N)). rewrite hex_fold_from. unfold hex_value in H. rewrite H. reflexivity. Qed.
Lemma hex_upper_is d : (d < 16)%N -> is_hex (hex_upper d) = true.
Proof. intros H. unfold is_hex. rewrite hexval_digit, hex_upper_digit by exact H. reflexivity. Qed.
Lemma hex_aux_class fuel : forall n acc, forallb is_hex acc = true -> forallb is_hex (hex_aux fuel n acc) = true.
Proof.
  induction fuel as [|fuel IH]; intros n acc H; [exact H|]. cbn [hex_aux]. assert (n mod 16 < 16)%N by (apply N.mod_lt; lia).
  assert (forallb is_hex (hex_upper (n mod 16) :: acc) = true) as K by (cbn [forallb]; rewrite hex_upper_is, H by assumption; reflexivity).
  destruct (n / 16 =? 0)%N; [exact K|apply IH, K].
Qed.
(** upper case digits *)
Definition upper_hex (b : byte) : bool := is_digit b || ((65 <=? b2n b) && (b2n b <=? 70))%N.
Lemma hex_upper_class d : (d < 16)%N -> upper_hex (hex_upper d) = true.
Proof.
  intros H. assert (In d [0;1;2;3;4;5;6;7;8;9;10;11;12;13;14;15]%N) as Hi by (cbn [In]; lia).
  cbn [In] in Hi. decompose [or] Hi; subst; try reflexivity. contradiction.
Qed.
Lemma hex_aux_upper fuel : forall n acc, forallb upper_hex acc = true -> forallb upper_hex (hex_aux fuel n acc) = true.
Proof.
  induction fuel as [|fuel IH]; intros n acc H; [exact H|]. cbn [hex_aux]. assert (n mod 16 < 16)%N by (apply N.mod_lt; lia).
  assert (forallb upper_hex (hex_upper (n mod 16) :: acc) = true) as K by (cbn [forallb]; rewrite hex_upper_class, H by assumption; reflexivity).
  destruct (n / 16 =? 0)%N; [exact K|apply IH, K].
Qed.
Lemma upper_is_hex b : upper_hex b = true -> is_hex b = true.
Proof. destruct b; cbn; intros H; try reflexivity; discriminate. Qed.
Lemma pad_hex_upper w n : forallb upper_hex (pad_hex w n) = true.
Proof.
  unfold pad_hex. rewrite forallb_app. apply andb_true_iff. split; [|apply hex_aux_upper; reflexivity].
  induction (w - length (hexN n))%nat as [|k IH]; [reflexivity|]. cbn [repeat forallb]. rewrite IH. reflexivity.
Qed.
Lemma pad_hex_class w n : forallb is_hex (pad_hex w n) = true.
Proof.
  pose proof (pad_hex_upper w n) as H. rewrite forallb_forall in *. intros b Hb. apply upper_is_hex, H, Hb.
Qed.
Lemma pad_hex_nonnil w n : pad_hex w n <> [].
Proof. unfold pad_hex. destruct (hexN_value n) as [_ L]. intros E. apply (f_equal (@length byte)) in E. rewrite app_length in E. cbn [length] in E. lia. Qed.
Lemma parse_hex_class s n : forallb is_hex s = true -> s <> [] -> hex_value s = Some n -> (n < 2147483648)%N -> parse_hex_int s = Some (Z.of_N n).
Proof.
  intros C Ne H Hn. destruct s as [|c s]; [congruence|]. unfold parse_hex_int. cbn [forallb] in C. apply andb_true_iff in C. destruct C as [C _].
  assert (beqb c "-" = false /\ beqb c "+" = false) as [E1 E2] by (destruct c; try discriminate; split; reflexivity).
  rewrite E1, E2. cbn [orb]. rewrite (hex_fold_value _ _ H). destruct (Z.leb_spec (Z.of_N n) 2147483647); [reflexivity|lia].
Qed.
Lemma parse_pad w n : (n < 2147483648)%N -> parse_hex_int (pad_hex w n) = Some (Z.of_N n).
Proof. intros H. apply parse_hex_class; [apply pad_hex_class|apply pad_hex_nonnil|apply pad_hex_value|exact H]. Qed.
Lemma hex_aux_len fuel : forall n acc k, (n < 16 ^ N.of_nat k)%N -> (1 <= k)%nat -> (length (hex_aux fuel n acc) <= k + length acc)%nat.
Proof.
  induction fuel as [|fuel IH]; intros n acc k H Hk; [cbn [hex_aux]; lia|]. cbn [hex_aux]. destruct (N.eqb_spec (n / 16) 0); [cbn [length]; lia|].
  destruct k as [|[|k]]; [lia| |].
  - change (16 ^ N.of_nat 1)%N with 16%N in H. rewrite N.div_small in * by exact H. contradiction.
  - pose proof (IH (n / 16)%N (hex_upper (n mod 16) :: acc) (S k)) as K. cbn [length] in K. etransitivity; [apply K|lia]; [|lia].
    apply N.div_lt_upper_bound; [lia|]. rewrite <- N.pow_succ_r'. replace (N.succ (N.of_nat (S k))) with (N.of_nat (S (S k))) by lia. exact H.
Qed.
Lemma pad4_len n : (n < 65536)%N -> length (pad_hex 4 n) = 4%nat.
Proof.
  intros H. unfold pad_hex. rewrite app_length, repeat_length. assert (length (hexN n) <= 4)%nat; [|lia].
  unfold hexN. etransitivity; [apply (hex_aux_len _ n [] 4); [exact H|lia]|]. cbn [length]. lia.
Qed.
Lemma runes_pad4 n : (n < 65536)%N -> hexToUnicodeRunes (pad_hex 4 n) = [Z.of_N n].
Proof. intros H. unfold hexToUnicodeRunes. rewrite pad4_len by exact H. cbn [Nat.eqb orb]. rewrite parse_pad by lia. reflexivity. Qed.
Lemma pad2_len n : (n < 256)%N -> length (pad_hex 2 n) = 2%nat.
Proof.
  intros H. unfold pad_hex. rewrite app_length, repeat_length. assert (length (hexN n) <= 2)%nat; [|lia].
  unfold hexN. etransitivity; [apply (hex_aux_len _ n [] 2); [exact H|lia]|]. cbn [length]. lia.
Qed.
Lemma runes_pad e : (bcUni e < if bcShort e then 256 else 65536)%N -> hexToUnicodeRunes (pad_hex (uni_digits e) (bcUni e)) = [Z.of_N (bcUni e)].
Proof.
  unfold uni_digits. destruct (bcShort e); intros H; [|apply runes_pad4, H]. unfold hexToUnicodeRunes. rewrite pad2_len by exact H.
  cbn [Nat.eqb orb]. rewrite parse_pad by lia. reflexivity.
Qed.

(* ---------------------------------------------------------------- *)
(** Find-all *)
Lemma matches_skip {A} (m : bytes -> option (A * bytes)) x : forall r, matches m (x ++ r) (length x) = matches m r 0.
Proof. induction x as [|b x IH]; intros r; [reflexivity|]. cbn [app length matches]. apply IH. Qed.
Lemma matches_at {A} (m : bytes -> option (A * bytes)) x r a : x <> [] -> m (x ++ r) = Some (a, r) -> matches m (x ++ r) 0 = a :: matches m r 0.
Proof.
  intros Hx H. destruct x as [|b x]; [congruence|]. cbn [app matches] in *. rewrite H. f_equal.
  replace (length (b :: x ++ r) - length r - 1)%nat with (length x) by (cbn [length]; rewrite app_length; lia). apply matches_skip.
Qed.
Lemma matches_none {A} (m : bytes -> option (A * bytes)) gap : forall r, (forall j, (j < length gap)%nat -> m (skipn j (gap ++ r)) = None) -> matches m (gap ++ r) 0 = matches m r 0.
Proof.
  induction gap as [|b gap IH]; intros r H; [reflexivity|]. cbn [app matches]. pose proof (H 0%nat ltac:(cbn; lia)) as H0. cbn [skipn app] in H0. rewrite H0.
  apply IH. intros j Hj. apply (H (S j)). cbn [length]. lia.
Qed.
Lemma matches_nofire {A} (m : bytes -> option (A * bytes)) gap r : nofire m gap -> matches m (gap ++ r) 0 = matches m r 0.
Proof. intros H. apply matches_none. intros j Hj. apply H, Hj. Qed.
Lemma matches_nil {A} (m : bytes -> option (A * bytes)) s : (forall j, m (skipn j s) = None) -> matches m s 0 = [].
Proof. intros H. rewrite <- (app_nil_r s). rewrite matches_none; [reflexivity|]. intros j Hj. rewrite app_nil_r. apply H. Qed.

Lemma m_hex_at w n r : m_hex (hx w n ++ r) = Some (pad_hex w n, r).
Proof.
  unfold m_hex, hx. rewrite <- !app_assoc, lit_app. cbn [Util.obind]. rewrite take_while_app, drop_while_app by (try apply pad_hex_class; reflexivity).
  pose proof (pad_hex_nonnil w n). destruct (pad_hex w n) eqn:E; [congruence|]. cbn [app]. change (">"%byte :: r) with (bs ">" ++ r). cbn [Util.obind].
  rewrite lit_app. reflexivity.
Qed.
Lemma ws0_hx w n r : ws0 (bs " " ++ hx w n ++ r) = hx w n ++ r. Proof. reflexivity. Qed.
Lemma m_pair_at w e r : m_pair (hx w (bcCode e) ++ bs " " ++ hx (uni_digits e) (bcUni e) ++ r) = Some ((pad_hex w (bcCode e), pad_hex (uni_digits e) (bcUni e)), r).
Proof. unfold m_pair. rewrite m_hex_at. cbn [Util.obind]. rewrite ws0_hx, m_hex_at. reflexivity. Qed.
Lemma m_triple_at w e r : m_triple (hx w (brLo e) ++ bs " " ++ hx w (brHi e) ++ bs " " ++ hx 4 (brUni e) ++ r) =
  Some ((pad_hex w (brLo e), pad_hex w (brHi e), pad_hex 4 (brUni e)), r).
Proof. unfold m_triple, m_pair. rewrite m_hex_at. cbn [Util.obind]. rewrite ws0_hx, m_hex_at. cbn [Util.obind fst snd]. rewrite ws0_hx, m_hex_at. reflexivity. Qed.
Lemma m_hex_nl s : m_hex (x0a :: s) = None. Proof. reflexivity. Qed.
Lemma m_pair_nl s : m_pair (x0a :: s) = None. Proof. reflexivity. Qed.
Lemma m_triple_nl s : m_triple (x0a :: s) = None. Proof. reflexivity. Qed.
Lemma nofire_one {A} (m : bytes -> option A) b : (forall s, m (b :: s) = None) -> nofire m [b].
Proof. intros H r j Hj. cbn [length] in Hj. replace j with 0%nat by lia. apply H. Qed.

Definition char_core (w : nat) (e : bfchar) : bytes := hx w (bcCode e) ++ bs " " ++ hx (uni_digits e) (bcUni e).
Definition range_core (w : nat) (e : bfrange) : bytes := hx w (brLo e) ++ bs " " ++ hx w (brHi e) ++ bs " " ++ hx 4 (brUni e).
Definition char_hit (w : nat) (e : bfchar) := (pad_hex w (bcCode e), pad_hex (uni_digits e) (bcUni e)).
Definition range_hit (w : nat) (e : bfrange) := (pad_hex w (brLo e), pad_hex w (brHi e), pad_hex 4 (brUni e)).
Lemma char_line_core w e : char_line w e = char_core w e ++ [x0a].
Proof. unfold char_line, char_core. rewrite <- !app_assoc. reflexivity. Qed.
Lemma range_line_core w e : range_line w e = range_core w e ++ [x0a].
Proof. unfold range_line, range_core. rewrite <- !app_assoc. reflexivity. Qed.

(** lines, in general *)
Section Lines.
Context {E A : Type} (core : E -> bytes) (hit : E -> A) (m : bytes -> option (A * bytes)).
Hypothesis Hat : forall e r, m (core e ++ r) = Some (hit e, r).
Hypothesis Hne : forall e, exists c, core e = c ++ bs ">".
Hypothesis Hst : forall e, exists c, core e = bs "<" ++ c.
Hypothesis Hnl : forall s, m (x0a :: s) = None.
Lemma core_nonnil e : core e <> []. Proof. destruct (Hst e) as [c ->]. discriminate. Qed.
Lemma lines_matches l : forall r, matches m (flat_map (fun e => core e ++ [x0a]) l ++ r) 0 = map hit l ++ matches m r 0.
Proof.
  induction l as [|e l IH]; intros r; [reflexivity|]. cbn [flat_map map app]. rewrite <- !app_assoc.
  rewrite (matches_at m (core e) _ (hit e)) by (try apply core_nonnil; apply Hat). f_equal.
  rewrite matches_nofire by (apply nofire_one, Hnl). apply IH.
Qed.
Lemma rtrim_gt s : rtrim is_ws (s ++ bs ">") = s ++ bs ">".
Proof.
  unfold rtrim. rewrite rev_app_distr. change (rev (bs ">") ++ rev s) with (">"%byte :: rev s). cbn [drop_while].
  change (is_ws ">") with false. cbv iota. rewrite <- (rev_involutive (s ++ bs ">")). rewrite rev_app_distr. reflexivity.
Qed.
Lemma rtrim_nl s : rtrim is_ws (s ++ [x0a]) = rtrim is_ws s.
Proof. unfold rtrim. rewrite rev_app_distr. reflexivity. Qed.
Lemma block_matches l : matches m (trim is_ws ([x0a] ++ flat_map (fun e => core e ++ [x0a]) l)) 0 = map hit l.
Proof.
  unfold trim. destruct l as [|e0 l0]; [reflexivity|].
  assert (drop_while is_ws ([x0a] ++ flat_map (fun e => core e ++ [x0a]) (e0 :: l0)) = flat_map (fun e => core e ++ [x0a]) (e0 :: l0)) as ->.
  { cbn [flat_map app drop_while]. change (is_ws x0a) with true. cbv iota. destruct (Hst e0) as [c ->]. reflexivity. }
  assert (exists l e, e0 :: l0 = l ++ [e]) as [l [e ->]].
  { destruct (exists_last (l := e0 :: l0)) as [l [e H]]; [discriminate|]. exists l, e. exact H. }
  rewrite flat_map_app. cbn [flat_map app]. rewrite app_nil_r, app_assoc, rtrim_nl. destruct (Hne e) as [c Hc]. rewrite Hc, app_assoc, rtrim_gt, <- app_assoc, <- Hc.
  rewrite lines_matches, map_app. f_equal. rewrite <- (app_nil_r (core e)). rewrite (matches_at m (core e) [] (hit e)) by (try apply core_nonnil; apply Hat). reflexivity.
Qed.
End Lines.

Lemma chars_block w l : matches m_pair (trim is_ws ([x0a] ++ flat_map (char_line w) l)) 0 = map (char_hit w) l.
Proof.
  rewrite <- (block_matches (char_core w) (char_hit w) m_pair).
  - f_equal. f_equal. f_equal. apply flat_map_ext. intros e. apply char_line_core.
  - intros e r. unfold char_core. rewrite <- !app_assoc. apply m_pair_at.
  - intros e. exists (hx w (bcCode e) ++ bs " " ++ bs "<" ++ pad_hex (uni_digits e) (bcUni e)). unfold char_core, hx. rewrite <- !app_assoc. reflexivity.
  - intros e. eexists. unfold char_core, hx. rewrite <- !app_assoc. reflexivity.
  - apply m_pair_nl.
Qed.
Lemma ranges_block w l : matches m_triple (trim is_ws ([x0a] ++ flat_map (range_line w) l)) 0 = map (range_hit w) l.
Proof.
  rewrite <- (block_matches (range_core w) (range_hit w) m_triple).
  - f_equal. f_equal. f_equal. apply flat_map_ext. intros e. apply range_line_core.
  - intros e r. unfold range_core. rewrite <- !app_assoc. apply m_triple_at.
  - intros e. exists (hx w (brLo e) ++ bs " " ++ hx w (brHi e) ++ bs " " ++ bs "<" ++ pad_hex 4 (brUni e)). unfold range_core, hx. rewrite <- !app_assoc. reflexivity.
  - intros e. eexists. unfold range_core, hx. rewrite <- !app_assoc. reflexivity.
  - apply m_triple_nl.
Qed.
(** no arrays without a bracket *)
Lemma in_skipn {A} (x : A) n l : In x (skipn n l) -> In x l.
Proof. revert l. induction n as [|n IH]; intros [|a l] H; cbn [skipn] in H; auto. right. apply IH, H. Qed.
Lemma in_drop f (x : byte) l : In x (drop_while f l) -> In x l.
Proof. induction l as [|a l IH]; intros H; [exact H|]. cbn [drop_while] in H. destruct (f a); [right; apply IH, H|exact H]. Qed.
Lemma m_hex_in s h r b : m_hex s = Some (h, r) -> In b r -> In b s.
Proof.
  unfold m_hex. destruct (lit (bs "<") s) as [t|] eqn:E; [|discriminate]. apply lit_some in E. cbn [Util.obind].
  destruct (take_while is_hex t) as [|x y] eqn:Et; [discriminate|]. destruct (lit (bs ">") (drop_while is_hex t)) as [u|] eqn:Eu; [|discriminate]. cbn [Util.obind].
  intros H Hb. assert (r = u) as -> by congruence. apply lit_some in Eu. subst s. apply in_or_app. right. apply in_drop with (f := is_hex). rewrite Eu. apply in_or_app. now right.
Qed.
Lemma m_array_in s a : m_array s = Some a -> In "["%byte s.
Proof.
  unfold m_array, m_pair. destruct (m_hex s) as [[h r]|] eqn:E; [|discriminate]. cbn [Util.obind].
  destruct (m_hex (ws0 r)) as [[h2 r2]|] eqn:E2; [|discriminate]. cbn [Util.obind].
  destruct (lit (bs "[") (ws0 r2)) as [r3|] eqn:E3; [|discriminate]. intros _. apply lit_some in E3.
  apply (m_hex_in _ _ _ _ E). unfold ws0 in *. apply in_drop with (f := is_ws). apply (m_hex_in _ _ _ _ E2). apply in_drop with (f := is_ws). rewrite E3. now left.
Qed.
Lemma no_arrays s : ~ In "["%byte s -> matches m_array s 0 = [].
Proof. intros H. apply matches_nil. intros j. destruct (m_array (skipn j s)) eqn:E; [|reflexivity]. apply m_array_in in E. apply in_skipn in E. contradiction. Qed.
Lemma in_rtrim f (x : byte) s : In x (rtrim f s) -> In x s.
Proof. unfold rtrim. intros H. apply in_rev in H. apply in_drop in H. apply in_rev. exact H. Qed.
Lemma in_trim f (x : byte) s : In x (trim f s) -> In x s.
Proof. unfold trim. intros H. apply in_rtrim in H. apply in_drop in H. exact H. Qed.

(** the bytes of the lines *)
Definition line_byte (b : byte) : bool := upper_hex b || beqb b "<" || beqb b ">" || beqb b " " || beqb b x0a.
Lemma class_weaken (f g : byte -> bool) s : (forall b, f b = true -> g b = true) -> forallb f s = true -> forallb g s = true.
Proof. intros H. rewrite !forallb_forall. auto. Qed.
Lemma hx_class w n : forallb line_byte (hx w n) = true.
Proof.
  unfold hx. rewrite !forallb_app. apply andb_true_iff. split; [reflexivity|]. apply andb_true_iff. split; [|reflexivity].
  eapply class_weaken; [|apply pad_hex_upper]. intros b Hb. unfold line_byte. rewrite Hb. reflexivity.
Qed.
Lemma char_lines_class w l : forallb line_byte (flat_map (char_line w) l) = true.
Proof. induction l as [|e l IH]; [reflexivity|]. cbn [flat_map]. rewrite forallb_app, IH. unfold char_line. rewrite !forallb_app, !hx_class. reflexivity. Qed.
Lemma range_lines_class w l : forallb line_byte (flat_map (range_line w) l) = true.
Proof. induction l as [|e l IH]; [reflexivity|]. cbn [flat_map]. rewrite forallb_app, IH. unfold range_line. rewrite !forallb_app, !hx_class. reflexivity. Qed.

Lemma m_block_at begin_ end_ body r : nostart end_ body -> m_block begin_ end_ (begin_ ++ body ++ end_ ++ r) = Some (trim is_ws body, r).
Proof.
  intros H. unfold m_block. rewrite lit_app. cbn [Util.obind]. rewrite index_at by exact H. f_equal. f_equal.
  - f_equal. rewrite firstn_app, Nat.sub_diag, firstn_all. cbn [firstn]. apply app_nil_r.
  - rewrite app_assoc. rewrite <- app_length. rewrite skipn_app, skipn_all, Nat.sub_diag. reflexivity.
Qed.
Lemma m_block_none begin_ end_ s : prefixb begin_ s = false -> m_block begin_ end_ s = None.
Proof. intros H. unfold m_block. rewrite (proj2 (lit_none _ _) H). reflexivity. Qed.
Lemma nostart_fire begin_ end_ t : nostart begin_ t -> nofire (m_block begin_ end_) t.
Proof. apply nostart_nofire. apply m_block_none. Qed.

Notation bc := (bs "beginbfchar"). Notation br := (bs "beginbfrange").
Lemma chars_quiet_ranges w l : nostart bc (section_text w (Ranges l)).
Proof.
  cbn [section_text]. apply nostart_app; [apply nostartb_ok; reflexivity|]. apply nostart_app; [apply nostartb_ok; reflexivity|].
  apply nostart_app; [|apply nostartb_ok; reflexivity]. apply (nostart_class line_byte); [apply range_lines_class|reflexivity].
Qed.
Lemma ranges_quiet_chars w l : nostart br (section_text w (Chars l)).
Proof.
  cbn [section_text]. apply nostart_app; [apply nostartb_ok; reflexivity|]. apply nostart_app; [apply nostartb_ok; reflexivity|].
  apply nostart_app; [|apply nostartb_ok; reflexivity]. apply (nostart_class line_byte); [apply char_lines_class|reflexivity].
Qed.
Definition char_blocks (w : nat) (ss : list (bytes * section)) : list bytes :=
  flat_map (fun s => match snd s with Chars l => [trim is_ws ([x0a] ++ flat_map (char_line w) l)] | Ranges _ => [] end) ss.
Definition range_blocks (w : nat) (ss : list (bytes * section)) : list bytes :=
  flat_map (fun s => match snd s with Ranges l => [trim is_ws ([x0a] ++ flat_map (range_line w) l)] | Chars _ => [] end) ss.
Lemma tail_quiet p e t : contains p t = false -> matches (m_block p e) t 0 = [].
Proof.
  intros H. apply matches_nil. intros j. apply m_block_none. destruct (Nat.le_gt_cases j (length t)).
  - rewrite contains_false in H. apply H. assumption.
  - rewrite skipn_all2 by lia. rewrite contains_false in H. specialize (H (length t) (Nat.le_refl _)). rewrite skipn_all in H. exact H.
Qed.
Lemma find_char_blocks w ss tail : Forall (fun s => quiet (fst s)) ss -> contains bc tail = false ->
  matches (m_block bc (bs "endbfchar")) (cmap_text w ss tail) 0 = char_blocks w ss.
Proof.
  intros Q T. induction Q as [|[gap s] ss H Q IH]; [apply tail_quiet, T|].
  unfold cmap_text in *. cbn [flat_map fst snd] in *. rewrite <- !app_assoc. unfold quiet in H. destruct H as [H _].
  rewrite matches_nofire by (apply nostart_fire, H). unfold char_blocks. cbn [flat_map snd]. destruct s as [l|l].
  - cbn [section_text]. rewrite <- !app_assoc. rewrite (app_assoc [x0a]).
    rewrite (app_assoc bc), (app_assoc (bc ++ _)). erewrite matches_at.
    + cbn [app]. f_equal. exact IH.
    + discriminate.
    + rewrite <- !app_assoc. rewrite (app_assoc [x0a]). apply m_block_at. apply (nostart_app _ [x0a]); [apply nostartb_ok; reflexivity|].
      apply (nostart_class line_byte); [apply char_lines_class|reflexivity].
  - rewrite matches_nofire by (apply nostart_fire, chars_quiet_ranges). exact IH.
Qed.
Lemma find_range_blocks w ss tail : Forall (fun s => quiet (fst s)) ss -> contains br tail = false ->
  matches (m_block br (bs "endbfrange")) (cmap_text w ss tail) 0 = range_blocks w ss.
Proof.
  intros Q T. induction Q as [|[gap s] ss H Q IH]; [apply tail_quiet, T|].
  unfold cmap_text in *. cbn [flat_map fst snd] in *. rewrite <- !app_assoc. unfold quiet in H. destruct H as [_ H].
  rewrite matches_nofire by (apply nostart_fire, H). unfold range_blocks. cbn [flat_map snd]. destruct s as [l|l].
  - rewrite matches_nofire by (apply nostart_fire, ranges_quiet_chars). exact IH.
  - cbn [section_text]. rewrite <- !app_assoc. rewrite (app_assoc [x0a]).
    rewrite (app_assoc br), (app_assoc (br ++ _)). erewrite matches_at.
    + cbn [app]. f_equal. exact IH.
    + discriminate.
    + rewrite <- !app_assoc. rewrite (app_assoc [x0a]). apply m_block_at. apply (nostart_app _ [x0a]); [apply nostartb_ok; reflexivity|].
      apply (nostart_class line_byte); [apply range_lines_class|reflexivity].
Qed.

(** what the entries do to the map *)
Lemma find_rev_cons {A} (p : A -> bool) x l : List.find p (rev (x :: l)) = match List.find p (rev l) with Some y => Some y | None => if p x then Some x else None end.
Proof.
  cbn [rev]. induction (rev l) as [|y k IH]; cbn [app List.find]; [reflexivity|]. destruct (p y); [reflexivity|exact IH].
Qed.
Lemma add_chars w l : Forall char_fits l -> forall m c,
  mget (Z.of_N c) (fold_left add_bfchar (map (char_hit w) l) m) =
  match List.find (fun e => bcCode e =? c)%N (rev l) with Some e => Some (Z.of_N (bcUni e)) | None => mget (Z.of_N c) m end.
Proof.
  induction 1 as [|e l [H1 H2] F IH]; intros m c; [reflexivity|]. cbn [map fold_left]. rewrite IH, find_rev_cons.
  destruct (List.find (fun e => bcCode e =? c)%N (rev l)) as [x|]; [reflexivity|].
  unfold add_bfchar, char_hit. cbn [fst snd]. rewrite parse_pad, runes_pad by assumption. rewrite mget_mset.
  destruct (N.eqb_spec (bcCode e) c), (Z.eqb_spec (Z.of_N c) (Z.of_N (bcCode e))); try lia; reflexivity.
Qed.
Lemma zrange_in lo hi x : In x (zrange lo hi) <-> lo <= x <= hi.
Proof.
  unfold zrange. rewrite in_map_iff. split.
  - intros [k [<- H]]. apply in_seq in H. lia.
  - intros H. exists (Z.to_nat (x - lo)). split; [lia|]. apply in_seq. lia.
Qed.
Lemma set_all (f : Z -> Z) l : forall m c, mget c (fold_left (fun m i => mset i (f i) m) l m) = if existsb (Z.eqb c) l then Some (f c) else mget c m.
Proof.
  induction l as [|x l IH]; intros m c; [reflexivity|]. cbn [fold_left existsb]. rewrite IH, mget_mset. destruct (Z.eqb_spec c x) as [->|]; cbn [orb]; [|reflexivity].
  destruct (existsb (Z.eqb x) l); reflexivity.
Qed.
Lemma to_rune_small v : 0 <= v < 2147483648 -> to_rune v = v.
Proof. intros H. unfold to_rune. rewrite Z.mod_small by lia. lia. Qed.
Lemma add_ranges w l : Forall range_fits l -> forall m c,
  mget (Z.of_N c) (fold_left add_bfrange (map (range_hit w) l) m) =
  match List.find (fun r => (brLo r <=? c) && (c <=? brHi r))%N (rev l) with Some r => Some (Z.of_N (brUni r + (c - brLo r))) | None => mget (Z.of_N c) m end.
Proof.
  induction 1 as [|e l [H1 [H2 H3]] F IH]; intros m c; [reflexivity|]. cbn [map fold_left]. rewrite IH, find_rev_cons.
  destruct (List.find _ (rev l)) as [x|]; [reflexivity|].
  unfold add_bfrange, range_hit. cbn [fst snd]. rewrite !parse_pad by lia. rewrite (set_all (fun i => to_rune (Z.of_N (brUni e) + (i - Z.of_N (brLo e))))).
  destruct (existsb (Z.eqb (Z.of_N c)) (zrange (Z.of_N (brLo e)) (Z.of_N (brHi e)))) eqn:Ex.
  - apply existsb_exists in Ex. destruct Ex as [x [Hx E]]. apply Z.eqb_eq in E. subst x. apply zrange_in in Hx.
    rewrite (proj2 (N.leb_le _ _)), (proj2 (N.leb_le c _)) by lia. cbn [andb]. f_equal. rewrite to_rune_small by lia. lia.
  - destruct (N.leb_spec (brLo e) c), (N.leb_spec c (brHi e)); cbn [andb]; try reflexivity. exfalso. apply not_true_iff_false in Ex. apply Ex.
    apply existsb_exists. exists (Z.of_N c). split; [apply zrange_in; lia|apply Z.eqb_refl].
Qed.
Lemma fold_chars w ss : forall m, fold_left parseBfcharBlock (char_blocks w ss) m = fold_left add_bfchar (map (char_hit w) (all_chars ss)) m.
Proof.
  induction ss as [|[gap s] ss IH]; intros m; [reflexivity|]. unfold char_blocks, all_chars in *. cbn [flat_map snd]. rewrite map_app, (fold_left_app add_bfchar).
  destruct s as [l|l]; cbn [app fold_left map].
  - rewrite IH. f_equal. unfold parseBfcharBlock. f_equal. apply chars_block.
  - apply IH.
Qed.
Lemma fold_ranges w ss : forall m, fold_left parseBfrangeBlock (range_blocks w ss) m = fold_left add_bfrange (map (range_hit w) (all_ranges ss)) m.
Proof.
  induction ss as [|[gap s] ss IH]; intros m; [reflexivity|]. unfold range_blocks, all_ranges in *. cbn [flat_map snd]. rewrite map_app, (fold_left_app add_bfrange).
  destruct s as [l|l]; cbn [app fold_left map].
  - apply IH.
  - rewrite IH. f_equal. unfold parseBfrangeBlock.
    rewrite no_arrays; [cbn [fold_left]; f_equal; apply ranges_block|].
    intros H. apply in_trim in H. cbn [app In] in H. destruct H as [H|H]; [discriminate|].
    pose proof (range_lines_class w l) as C. rewrite forallb_forall in C. specialize (C _ H). discriminate.
Qed.
Lemma sections_fit ss : Forall (fun s => section_fits (snd s)) ss -> Forall char_fits (all_chars ss) /\ Forall range_fits (all_ranges ss).
Proof.
  induction 1 as [|[g s] ss H F [I1 I2]]; [split; constructor|]. unfold all_chars, all_ranges. cbn [flat_map snd] in *. split; apply Forall_app; split; try assumption; destruct s; try assumption; constructor.
Qed.
Lemma cmap_ok w ss tail d c : Forall (fun s => quiet (fst s)) ss -> Forall (fun s => section_fits (snd s)) ss ->
  contains bc tail = false -> contains br tail = false ->
  mget (Z.of_N c) (toUnicode (ParseToUnicodeCMap (cmap_text w ss tail) d)) =
  match cmap_char ss c with Some u => Some (Z.of_N u) | None => mget (Z.of_N c) (toUnicode d) end.
Proof.
  intros Q F T1 T2. unfold ParseToUnicodeCMap. cbn [toUnicode set_toUnicode]. rewrite find_char_blocks, find_range_blocks by assumption.
  rewrite fold_chars, fold_ranges. destruct (sections_fit ss F) as [Fc Fr]. rewrite add_ranges by exact Fr. unfold cmap_char.
  destruct (List.find _ (rev (all_ranges ss))) as [r|]; [reflexivity|]. rewrite add_chars by exact Fc.
  destruct (List.find _ (rev (all_chars ss))); reflexivity.
Qed.
