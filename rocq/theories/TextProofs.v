(** Proofs about escapes, content streams and metadata. *)
From Verif Require Import TextModel TextSpec Scan.
Local Open Scope Z_scope.

Definition outs (v : bytes) (r : option (bytes * bytes)) : option (bytes * bytes) := fold_right out r v.

Lemma outs_app a b r : outs (a ++ b) r = outs a (outs b r).
Proof. unfold outs. apply fold_right_app. Qed.
Lemma outs_some v a b : outs v (Some (a, b)) = Some (v ++ a, b).
Proof. induction v as [|x v IH]; [reflexivity|]. cbn [outs fold_right] in *. unfold outs in IH. rewrite IH. reflexivity. Qed.

Definition ordinary (b : byte) : bool := negb (beqb b "(") && negb (beqb b ")") && negb (beqb b "\") && negb (beqb b x0d).
Lemma literal_ordinary d b s : ordinary b = true -> literal_body d (b :: s) = out b (literal_body d s).
Proof.
  unfold ordinary. rewrite !andb_true_iff, !negb_true_iff. intros [[[H1 H2] H3] H4].
  cbn [literal_body]. rewrite H1, H2, H3, H4. reflexivity.
Qed.
Lemma literal_ordinaries d v s : forallb ordinary v = true -> literal_body d (v ++ s) = outs v (literal_body d s).
Proof.
  induction v as [|b v IH]; intros H; [reflexivity|]. cbn [forallb] in H. apply andb_true_iff in H. destruct H as [H1 H2].
  cbn [app]. rewrite literal_ordinary by exact H1. rewrite IH by exact H2. reflexivity.
Qed.

Lemma high_ordinary n : (128 <= n < 256)%N -> ordinary (n2b n) = true.
Proof.
  intros H. unfold ordinary, beqb. rewrite b2n_n2b_small by lia.
  change (b2n "(") with 40%N. change (b2n ")") with 41%N. change (b2n "\") with 92%N. change (b2n x0d) with 13%N.
  rewrite !andb_true_iff, !negb_true_iff, !N.eqb_neq. lia.
Qed.

(** A rune below 128 is the byte of that value. *)
Lemma small_rune r : (r < 128)%N -> exists b, r = b2n b /\ encode_rune r = [b] /\ (b2n b < 128)%N.
Proof.
  intros H. exists (n2b r). rewrite b2n_n2b_small by lia. split; [reflexivity|]. split; [|exact H].
  unfold encode_rune, valid_rune. replace (r <? 55296)%N with true by (symmetry; apply N.ltb_lt; lia). cbn [orb].
  apply N.ltb_lt in H. rewrite H. reflexivity.
Qed.

Lemma esc_pair_spec (b : byte) d s :
  match esc_pair (b2n b) with
  | Some c => literal_body d ("\"%byte :: c :: s) = out b (literal_body d s)
  | None => ordinary b = true
  end.
Proof. destruct b; reflexivity. Qed.

Lemma big_rune_ordinary r : (128 <= r)%N -> forallb ordinary (encode_rune r) = true.
Proof.
  intros H. unfold encode_rune.
  assert (V : (128 <= (if valid_rune r then r else rune_error) < 1114112)%N).
  { destruct (valid_rune r) eqn:V; [|unfold rune_error; lia]. unfold valid_rune in V.
    apply orb_true_iff in V. rewrite andb_true_iff, N.leb_le, !N.ltb_lt in V. lia. }
  remember (if valid_rune r then r else rune_error) as q. clear Heqq.
  destruct (q <? 128)%N eqn:E1; [apply N.ltb_lt in E1; lia|].
  destruct (q <? 2048)%N eqn:E2.
  { apply N.ltb_lt in E2. cbn [forallb]. rewrite !high_ordinary by lia. reflexivity. }
  apply N.ltb_ge in E2. destruct (q <? 65536)%N eqn:E3.
  { apply N.ltb_lt in E3. cbn [forallb]. rewrite !high_ordinary by lia. reflexivity. }
  apply N.ltb_ge in E3. cbn [forallb]. rewrite !high_ordinary by lia. reflexivity.
Qed.

Lemma big_rune_unescaped r : (128 <= r)%N -> esc_pair r = None.
Proof.
  intros H. unfold esc_pair.
  repeat match goal with |- context [(?a =? ?b)%N] => destruct (N.eqb_spec a b); [lia|] end. reflexivity.
Qed.

Lemma literal_esc_rune d r s : literal_body d (esc_rune r ++ s) = outs (encode_rune r) (literal_body d s).
Proof.
  destruct (N.lt_ge_cases r 128) as [H|H].
  - destruct (small_rune r H) as (b & -> & E & _). unfold esc_rune. pose proof (esc_pair_spec b d s) as P.
    rewrite E. destruct (esc_pair (b2n b)); cbn [app outs fold_right]; [exact P|].
    apply literal_ordinary. exact P.
  - unfold esc_rune. rewrite big_rune_unescaped by exact H. apply literal_ordinaries, big_rune_ordinary, H.
Qed.

Lemma literal_escaped d rs s : literal_body d (flat_map esc_rune rs ++ s) = outs (utf8 rs) (literal_body d s).
Proof.
  induction rs as [|r rs IH]; [reflexivity|]. cbn [flat_map utf8]. rewrite <- app_assoc, literal_esc_rune, IH.
  unfold utf8. rewrite outs_app. reflexivity.
Qed.

Lemma literal_escape d s rest : valid_utf8 s ->
  literal_body d (escapePDFString s ++ rest) = outs s (literal_body d rest).
Proof. intros (rs & V & ->). unfold escapePDFString. rewrite runes_utf8 by exact V. apply literal_escaped. Qed.

Lemma read_open x : read_literal (bs "(" ++ x) = literal_body 0 x.
Proof. reflexivity. Qed.
Lemma literal_close x : literal_body 0 (bs ")" ++ x) = Some ([], x).
Proof. reflexivity. Qed.

Lemma escape_reads_back s rest : valid_utf8 s ->
  read_literal (bs "(" ++ escapePDFString s ++ bs ")" ++ rest) = Some (s, rest).
Proof.
  intros V. rewrite read_open, literal_escape by exact V. rewrite literal_close, outs_some, app_nil_r. reflexivity.
Qed.

(** Any string: what comes back is the string with invalid bytes replaced. *)
Lemma escape_reads_runes s rest :
  read_literal (bs "(" ++ escapePDFString s ++ bs ")" ++ rest) = Some (utf8 (runes s), rest).
Proof.
  rewrite read_open.
  unfold escapePDFString. rewrite literal_escaped. rewrite literal_close, outs_some, app_nil_r. reflexivity.
Qed.

(** One byte per rune. *)
Lemma literal_esc_rune8 d (b : byte) s : literal_body d (esc_rune8 (b2n b) ++ s) = out b (literal_body d s).
Proof. destruct b; reflexivity. Qed.

Lemma field_escape_reads_back rs rest : forallb (fun r => (r <? 256)%N) rs = true ->
  read_literal (bs "(" ++ escapeFieldValue (utf8 rs) ++ bs ")" ++ rest) = Some (latin1 rs, rest).
Proof.
  intros H. rewrite read_open.
  unfold escapeFieldValue. rewrite runes_utf8.
  2:{ apply forallb_forall. intros r Hr. rewrite forallb_forall in H. specialize (H r Hr). apply N.ltb_lt in H.
      unfold valid_rune. replace (r <? 55296)%N with true by (symmetry; apply N.ltb_lt; lia). reflexivity. }
  assert (forall t, literal_body 0 (flat_map esc_rune8 rs ++ t) = outs (latin1 rs) (literal_body 0 t)) as E.
  { intros t. induction rs as [|r rs IH]; [reflexivity|].
    cbn [forallb] in H. apply andb_true_iff in H. destruct H as [H1 H2]. apply N.ltb_lt in H1.
    cbn [flat_map]. rewrite <- app_assoc. replace r with (b2n (n2b r)) at 1 by (apply b2n_n2b_small; exact H1).
    rewrite literal_esc_rune8, IH by exact H2. reflexivity. }
  rewrite E. rewrite literal_close, outs_some, app_nil_r. reflexivity.
Qed.

(** ReplaceAll of a single byte. *)
Lemma ReplaceAll_1 s c new : ReplaceAll s [c] new = flat_map (fun b => if beqb c b then new else [b]) s.
Proof.
  unfold ReplaceAll. induction s as [|b s IH]; [reflexivity|]. cbn [replace_lit prefixb length Nat.sub flat_map].
  rewrite andb_true_r. rewrite IH. destruct (beqb c b); reflexivity.
Qed.
Lemma flat_map_flat_map {A B C} (f : A -> list B) (g : B -> list C) l :
  flat_map g (flat_map f l) = flat_map (fun a => flat_map g (f a)) l.
Proof. induction l as [|a l IH]; [reflexivity|]. cbn [flat_map]. rewrite flat_map_app, IH. reflexivity. Qed.

Definition esc_byte (b : byte) : bytes := match esc_pair (b2n b) with Some c => ["\"%byte; c] | None => [b] end.
Lemma metadata_escape s : escapePDFStringForMetadata s = flat_map esc_byte s.
Proof.
  unfold escapePDFStringForMetadata. rewrite !ReplaceAll_1, !flat_map_flat_map.
  apply flat_map_ext. intros b. destruct b; reflexivity.
Qed.
Lemma metadata_reads_back s rest :
  read_literal (bs "(" ++ escapePDFStringForMetadata s ++ bs ")" ++ rest) = Some (s, rest).
Proof.
  rewrite metadata_escape. rewrite read_open.
  assert (forall t, literal_body 0 (flat_map esc_byte s ++ t) = outs s (literal_body 0 t)) as E.
  { intros t. induction s as [|b s IH]; [reflexivity|]. cbn [flat_map]. rewrite <- app_assoc.
    unfold esc_byte at 1. pose proof (esc_pair_spec b 0 (flat_map esc_byte s ++ t)) as P.
    destruct (esc_pair (b2n b)); cbn [app].
    - rewrite P, IH. reflexivity.
    - rewrite literal_ordinary, IH by exact P. reflexivity. }
  rewrite E. rewrite literal_close, outs_some, app_nil_r. reflexivity.
Qed.

(** ReplaceAll of a backslash pair in text made of escapes and plain bytes. *)
Definition esc_step (t : bytes) (c d : byte) (t' : bytes) : Prop :=
  (exists x, t = [x] /\ x <> "\"%byte /\ t' = [x]) \/
  (exists y, t = ["\"%byte; y] /\ y <> "\"%byte /\ t' = if beqb c y then [d] else t).
Lemma ReplaceAll_2 c d (g g' : byte -> bytes) (s : bytes) : c <> "\"%byte -> (forall b, In b s -> esc_step (g b) c d (g' b)) ->
  ReplaceAll (flat_map g s) ["\"%byte; c] [d] = flat_map g' s.
Proof.
  intros Hc H. unfold ReplaceAll. induction s as [|b s IH]; [reflexivity|]. cbn [flat_map].
  pose proof (IH (fun b' Hb => H b' (or_intror Hb))) as IH'. clear IH.
  destruct (H b (or_introl eq_refl)) as [(x & -> & Hx & ->)|(y & -> & Hy & ->)].
  - cbn [app replace_lit prefixb]. destruct (beqb "\" x) eqn:E; [apply beqb_eq in E; congruence|].
    cbn [andb]. rewrite IH'. reflexivity.
  - cbn [app replace_lit prefixb]. change (beqb "\" "\") with true. cbn [andb].
    rewrite andb_true_r. destruct (beqb c y) eqn:E.
    + cbn [length Nat.sub replace_lit app]. rewrite IH'. reflexivity.
    + cbn [replace_lit prefixb app]. destruct (beqb "\" y) eqn:E2; [apply beqb_eq in E2; congruence|].
      cbn [andb]. rewrite IH'. reflexivity.
Qed.
Lemma ReplaceAll_id old new s : old <> [] -> contains old s = false -> ReplaceAll s old new = s.
Proof.
  intros Ho H. unfold ReplaceAll. induction s as [|b s IH]; [reflexivity|]. cbn [replace_lit].
  rewrite contains_false in H. pose proof (H 0%nat ltac:(lia)) as H0. cbn [skipn] in H0. rewrite H0. f_equal. apply IH.
  apply contains_false. intros j Hj. apply (H (S j)). cbn [length]. lia.
Qed.

Definition no_backslash (s : bytes) : bool := forallb (fun b => negb (beqb b "\")) s.

Definition un_step (g : byte -> bytes) (c d : byte) (b : byte) : bytes :=
  match g b with
  | [s0; y] => if beqb c y && beqb s0 "\" then [d] else g b
  | t => t
  end.
Lemma unescape_escape s : no_backslash s = true -> unescapePDFString (escapePDFStringForMetadata s) = s.
Proof.
  intros H. rewrite metadata_escape. unfold unescapePDFString.
  assert (Hs : forall b, In b s -> b <> "\"%byte).
  { intros b Hb E. unfold no_backslash in H. rewrite forallb_forall in H. specialize (H b Hb). subst. discriminate. }
  pose (g1 := un_step esc_byte "n" x0a). pose (g2 := un_step g1 "r" x0d). pose (g3 := un_step g2 "t" x09).
  pose (g4 := un_step g3 "(" "("). pose (g5 := un_step g4 ")" ")").
  rewrite (ReplaceAll_2 "n" x0a esc_byte g1) by (try discriminate; intros b Hb; specialize (Hs b Hb); clear - Hs;
    destruct b; try congruence; (left; eexists; split; [reflexivity|split; [discriminate|reflexivity]]) || (right; eexists; split; [reflexivity|split; [discriminate|reflexivity]])).
  rewrite (ReplaceAll_2 "r" x0d g1 g2) by (try discriminate; intros b Hb; specialize (Hs b Hb); clear - Hs;
    destruct b; try congruence; (left; eexists; split; [reflexivity|split; [discriminate|reflexivity]]) || (right; eexists; split; [reflexivity|split; [discriminate|reflexivity]])).
  rewrite (ReplaceAll_2 "t" x09 g2 g3) by (try discriminate; intros b Hb; specialize (Hs b Hb); clear - Hs;
    destruct b; try congruence; (left; eexists; split; [reflexivity|split; [discriminate|reflexivity]]) || (right; eexists; split; [reflexivity|split; [discriminate|reflexivity]])).
  rewrite (ReplaceAll_2 "(" "(" g3 g4) by (try discriminate; intros b Hb; specialize (Hs b Hb); clear - Hs;
    destruct b; try congruence; (left; eexists; split; [reflexivity|split; [discriminate|reflexivity]]) || (right; eexists; split; [reflexivity|split; [discriminate|reflexivity]])).
  rewrite (ReplaceAll_2 ")" ")" g4 g5) by (try discriminate; intros b Hb; specialize (Hs b Hb); clear - Hs;
    destruct b; try congruence; (left; eexists; split; [reflexivity|split; [discriminate|reflexivity]]) || (right; eexists; split; [reflexivity|split; [discriminate|reflexivity]])).
  assert (E : flat_map g5 s = s).
  { clear H. induction s as [|b s IH]; [reflexivity|]. cbn [flat_map]. rewrite IH by (intros b' Hb'; apply Hs; right; exact Hb').
    specialize (Hs b (or_introl eq_refl)). destruct b; try congruence; reflexivity. }
  rewrite E. apply ReplaceAll_id; [discriminate|].
  apply contains_false. intros j Hj. destruct (skipn j s) as [|b t] eqn:Es; [reflexivity|].
  assert (In b s) as Hb by (rewrite <- (firstn_skipn j s), Es; apply in_or_app; right; left; reflexivity).
  specialize (Hs b Hb). cbn [prefixb]. destruct (beqb "\" b) eqn:Eb; [apply beqb_eq in Eb; congruence|reflexivity].
Qed.
