(** Proofs about core/manipulate: dictionary texts. *)
From Verif Require Import WriterModel ParseModel ManipModel ManipSpec Scan ReadProofs.
From Coq Require Import Lia ZArith.
Local Open Scope Z_scope.

Lemma space_is_ws b : space_byte b = is_ws b.
Proof. destruct b; reflexivity. Qed.
Lemma plain_is_tok b : plain_byte b = is_tok b.
Proof. destruct b; reflexivity. Qed.
Lemma name_is_tok b : plain_byte b && negb (beqb b "/") = is_name_tok b.
Proof. destruct b; reflexivity. Qed.

(* -------------------- searching around a key -------------------- *)

Lemma prefixb_true_app p s : prefixb p s = true -> exists t, s = p ++ t.
Proof. apply prefixb_spec. Qed.

(** No occurrence of a key starts in [a] when what follows starts with a byte
    that cannot continue a key. *)
Definition stopper (key : bytes) (r : bytes) : Prop :=
  match r with [] => True | c :: _ => ~ In c (tl key) end.

Lemma before_key key a r : key <> [] -> contains key a = false -> stopper key r ->
  forall j, (j < length a)%nat -> prefixb key (skipn j (a ++ r)) = false.
Proof.
  intros Hk Hc Hs j Hj. rewrite skipn_app_l by lia.
  destruct (prefixb key (skipn j a ++ r)) eqn:E; [|reflexivity]. exfalso.
  apply prefixb_spec in E. destruct E as [t E].
  assert (Hx : (0 < length (skipn j a))%nat) by (rewrite skipn_length; lia).
  destruct (Nat.le_gt_cases (length key) (length (skipn j a))) as [H|H].
  - assert (prefixb key (skipn j a) = true).
    { apply prefixb_spec. exists (skipn (length key) (skipn j a)).
      rewrite <- (firstn_skipn (length key) (skipn j a)) at 1. f_equal.
      assert (E2 := f_equal (firstn (length key)) E).
      rewrite firstn_app, firstn_app in E2.
      replace (length key - length (skipn j a))%nat with 0%nat in E2 by lia.
      rewrite firstn_all, Nat.sub_diag in E2. cbn [firstn] in E2. rewrite !app_nil_r in E2. exact E2. }
    rewrite contains_false in Hc. rewrite Hc in H0 by lia. discriminate.
  - destruct r as [|c r].
    + rewrite app_nil_r in E. apply (f_equal (@length byte)) in E. rewrite app_length in E. lia.
    + apply Hs. destruct key as [|k0 key]; [contradiction|]. cbn [tl].
      destruct (skipn j a) as [|x0 x]; [cbn in Hx; lia|].
      cbn [app] in E. injection E as _ E.
      assert (E2 := f_equal (fun l => nth_error l (length x)) E). cbn beta in E2.
      rewrite nth_error_app2 in E2 by lia. rewrite Nat.sub_diag in E2. cbn [nth_error] in E2.
      rewrite nth_error_app1 in E2 by (cbn [length] in H; lia).
      symmetry in E2. apply nth_error_In in E2. exact E2.
Qed.

Lemma index_before key a r : key <> [] -> contains key a = false -> stopper key r ->
  index key (a ++ r) = option_map (Nat.add (length a)) (index key r).
Proof.
  intros Hk Hc Hs. pose proof (before_key key a r Hk Hc Hs) as B.
  destruct (index key r) as [i|] eqn:E; cbn [option_map].
  - apply index_some in E. destruct E as (E1 & E2 & E3).
    apply index_some. repeat split.
    + rewrite skipn_app_r by lia. replace (length a + i - length a)%nat with i by lia. exact E1.
    + rewrite app_length. lia.
    + intros j Hj. destruct (Nat.lt_ge_cases j (length a)) as [H|H]; [apply B; exact H|].
      rewrite skipn_app_r by lia. apply E3. lia.
  - rewrite index_none in E. apply index_none. intros i Hi. rewrite app_length in Hi.
    destruct (Nat.lt_ge_cases i (length a)) as [H|H]; [apply B; exact H|].
    rewrite skipn_app_r by lia. apply E. lia.
Qed.

Definition needs (m : bytes -> option (bytes * bytes)) (key : bytes) : Prop :=
  forall s, prefixb key s = false -> m s = None.

Lemma needs_spaced key : needs (m_spaced key) key.
Proof. intros s H. unfold m_spaced. apply lit_none in H. rewrite H. reflexivity. Qed.
Lemma needs_named key : needs (m_named key) key.
Proof.
  intros s H. unfold m_named. destruct (lit (key ++ bs "/") s) eqn:E; [|reflexivity].
  apply lit_some in E. subst s. rewrite <- app_assoc in H. rewrite prefixb_app in H. discriminate.
Qed.

Lemma find_before m key a r : needs m key -> key <> [] -> contains key a = false -> stopper key r ->
  find m (a ++ r) = match find m r with Some (i, x) => Some ((length a + i)%nat, x) | None => None end.
Proof. intros Hm Hk Hc Hs. apply find_app. intros j Hj. apply Hm, before_key; assumption. Qed.

Lemma find_absent m key s : needs m key -> contains key s = false -> find m s = None.
Proof. intros Hm Hc. apply find_none_intro. intros j Hj. apply Hm. rewrite contains_false in Hc. apply Hc, Hj. Qed.

Lemma replace_before (m : bytes -> option bytes) repl a r :
  (forall j, (j < length a)%nat -> m (skipn j (a ++ r)) = None) ->
  replace_all m repl (a ++ r) 0 = a ++ replace_all m repl r 0.
Proof.
  induction a as [|x a IH]; intros H; [reflexivity|].
  cbn [app replace_all]. pose proof (H 0%nat ltac:(cbn [length]; lia)) as H0. cbn [skipn app] in H0. rewrite H0.
  f_equal. apply IH. intros j Hj. apply (H (S j)). cbn [length]. lia.
Qed.
Lemma replace_skip (m : bytes -> option bytes) repl a r :
  replace_all m repl (a ++ r) (length a) = replace_all m repl r 0.
Proof. induction a as [|x a IH]; [reflexivity|]. cbn [app length replace_all]. exact IH. Qed.
Lemma replace_none (m : bytes -> option bytes) repl s :
  (forall j, (j < length s)%nat -> m (skipn j s) = None) -> replace_all m repl s 0 = s.
Proof.
  intros H. rewrite <- (app_nil_r s) at 1. rewrite replace_before.
  - cbn [replace_all]. apply app_nil_r.
  - intros j Hj. rewrite app_nil_r. apply H, Hj.
Qed.
Lemma replace_here (m : bytes -> option bytes) repl a r : a <> [] -> m (a ++ r) = Some r ->
  replace_all m repl (a ++ r) 0 = repl ++ replace_all m repl r 0.
Proof.
  intros Ha Hm. destruct a as [|x a]; [contradiction|]. cbn [app replace_all].
  cbn [app] in Hm. rewrite Hm. f_equal.
  replace (length (x :: a ++ r) - length r - 1)%nat with (length a) by (cbn [length]; rewrite app_length; lia).
  apply replace_skip.
Qed.
(** The general form: one occurrence. *)
Lemma replace_one m key repl a mid b : needs m key -> key <> [] ->
  contains key a = false -> stopper key (mid ++ b) -> mid <> [] ->
  option_map snd (m (mid ++ b)) = Some b -> contains key b = false ->
  replace_all (fun s => option_map snd (m s)) repl (a ++ mid ++ b) 0 = a ++ repl ++ b.
Proof.
  intros Hm Hk Ha Hs Hmid Hfire Hb.
  rewrite replace_before.
  2:{ intros j Hj. rewrite Hm; [reflexivity|]. apply before_key; assumption. }
  rewrite replace_here by assumption. rewrite replace_none; [reflexivity|].
  intros j Hj. rewrite Hm; [reflexivity|]. rewrite contains_false in Hb. apply Hb. lia.
Qed.

(* -------------------- the three forms -------------------- *)

Lemma key_name_nonnil k : key_name k -> k <> [].
Proof. intros (w & -> & _). discriminate. Qed.
Lemma key_name_tail k : key_name k -> forall c, In c (tl k) -> plain_byte c = true /\ c <> "/"%byte.
Proof.
  intros (w & -> & H) c Hc. cbn [tl] in Hc. rewrite forallb_forall in H. specialize (H c Hc).
  split; [|intros ->; discriminate]. unfold key_byte in H. destruct (plain_byte c); [reflexivity|discriminate].
Qed.
Lemma stopper_slash k r : key_name k -> stopper k ("/"%byte :: r).
Proof. intros Hk H. apply (key_name_tail k Hk) in H. tauto. Qed.
Lemma stopper_key k k' r : key_name k -> key_name k' -> stopper k (k' ++ r).
Proof. intros Hk (w & -> & _). apply stopper_slash, Hk. Qed.
Lemma stopper_space k r : key_name k -> starts_with plain_byte r = false -> stopper k r.
Proof.
  intros Hk H. destruct r as [|c r]; [exact I|]. intros Hc. apply (key_name_tail k Hk) in Hc.
  cbn [starts_with] in H. destruct Hc. congruence.
Qed.

Lemma gap_not_plain w r : gap w -> starts_with plain_byte (w ++ r) = false.
Proof.
  intros [H1 H2]. destruct w as [|c w]; [contradiction|]. cbn [app starts_with]. cbn [forallb] in H2.
  apply andb_prop in H2. destruct H2 as [H2 _]. unfold plain_byte. rewrite H2. reflexivity.
Qed.

Lemma ws1_gap w r : gap w -> starts_with is_ws r = false -> ws1 (w ++ r) = Some r.
Proof.
  intros [H1 H2] Hr. unfold ws1.
  assert (Hd : drop_while is_ws (w ++ r) = r).
  { rewrite drop_while_app.
    - reflexivity.
    - rewrite <- H2. clear. induction w; [reflexivity|]. cbn [forallb]. rewrite space_is_ws. f_equal. exact IHw.
    - destruct r as [|c r]; [exact I|]. exact Hr. }
  destruct w as [|c w]; [contradiction|]. cbn [app]. cbn [app] in Hd.
  cbn [forallb] in H2. apply andb_prop in H2. rewrite space_is_ws in H2. destruct H2 as [H2 _].
  rewrite H2. unfold ws0. cbn [drop_while] in Hd. rewrite H2 in Hd. exact (f_equal Some Hd).
Qed.

Lemma forallb_ext {A} (f g : A -> bool) l : (forall x, f x = g x) -> forallb f l = forallb g l.
Proof. intros H. induction l; cbn [forallb]; [reflexivity|]. rewrite H, IHl. reflexivity. Qed.

Lemma word_not_ws v b : word v -> starts_with is_ws (v ++ b) = false.
Proof.
  intros (H1 & H2 & _). destruct v as [|c v]; [contradiction|]. cbn [app starts_with]. cbn [forallb] in H2.
  apply andb_prop in H2. destruct H2 as [H2 _]. unfold plain_byte in H2. rewrite space_is_ws in H2.
  destruct (is_ws c); [discriminate|reflexivity].
Qed.

Lemma take_tok v b : word v -> word_ends b -> take_while is_tok (v ++ b) = v /\ drop_while is_tok (v ++ b) = b.
Proof.
  intros (H1 & H2 & _) Hb.
  assert (forallb is_tok v = true) by (rewrite <- H2; apply forallb_ext; intros; symmetry; apply plain_is_tok).
  assert (match b with [] => True | x :: _ => is_tok x = false end).
  { destruct b; [exact I|]. rewrite <- plain_is_tok. exact Hb. }
  split; [apply take_while_app|apply drop_while_app]; assumption.
Qed.

Lemma spaced_fires key w v b : gap w -> word v -> word_ends b -> m_spaced key (key ++ w ++ v ++ b) = Some (v, b).
Proof.
  intros Hw Hv Hb. unfold m_spaced. rewrite lit_app. cbn [obind].
  rewrite ws1_gap by (try apply word_not_ws; assumption). cbn [obind].
  destruct (take_tok v b Hv Hb) as [E1 E2]. rewrite E1, E2. destruct v; [destruct Hv; contradiction|reflexivity].
Qed.

Lemma named_not_spaced key r : m_spaced key (key ++ "/"%byte :: r) = None.
Proof. unfold m_spaced. rewrite lit_app. reflexivity. Qed.
Lemma array_not_spaced key r : m_spaced key (key ++ "["%byte :: r) = None.
Proof. unfold m_spaced. rewrite lit_app. reflexivity. Qed.
Lemma lit_app_r key p r : lit (key ++ p) (key ++ r) = lit p r.
Proof.
  destruct (lit p r) eqn:E.
  - apply lit_some in E. subst r. rewrite app_assoc. apply lit_app.
  - apply lit_none in E. apply lit_none. induction key; [exact E|]. cbn [app prefixb]. rewrite beqb_refl. exact IHkey.
Qed.
Lemma array_not_named key r : m_named key (key ++ "["%byte :: r) = None.
Proof. unfold m_named. rewrite lit_app_r. reflexivity. Qed.
Lemma gap_not_named key w r : gap w -> m_named key (key ++ w ++ r) = None.
Proof.
  intros [H1 H2]. unfold m_named. rewrite lit_app_r. destruct w as [|c w]; [contradiction|].
  cbn [forallb] in H2. apply andb_prop in H2. destruct H2 as [H2 _].
  destruct (lit (bs "/") ((c :: w) ++ r)) eqn:E; [|reflexivity].
  apply lit_some in E. cbn in E. injection E as -> _. discriminate.
Qed.
Lemma named_fires key v b : name_word v -> name_ends b ->
  m_named key (key ++ "/"%byte :: v ++ b) = Some (v, b).
Proof.
  intros [H1 H2] Hb. unfold m_named. rewrite lit_app_r.
  change ("/"%byte :: v ++ b) with (bs "/" ++ v ++ b). rewrite lit_app. cbn [obind].
  assert (forallb is_name_tok v = true) by (rewrite <- H2; apply forallb_ext; intros; symmetry; apply name_is_tok).
  assert (match b with [] => True | x :: _ => is_name_tok x = false end).
  { destruct b; [exact I|]. rewrite <- name_is_tok. exact Hb. }
  rewrite take_while_app, drop_while_app by assumption. destruct v; [contradiction|reflexivity].
Qed.

Lemma index_sole key a r : key_name key -> contains key a = false ->
  index key (a ++ key ++ r) = Some (length a).
Proof.
  intros Hk Ha. rewrite index_before; [|apply key_name_nonnil, Hk|exact Ha|apply stopper_key; exact Hk].
  rewrite index_here. cbn [option_map]. f_equal. lia.
Qed.
Lemma skip_sole (a key r : bytes) : skipn (length a + length key) (a ++ key ++ r) = r.
Proof.
  rewrite app_assoc. rewrite skipn_app_r by (rewrite app_length; lia).
  rewrite app_length, Nat.sub_diag. reflexivity.
Qed.

(** After the key come no second occurrences that the patterns could match. *)
Lemma contains_after key r b : key_name key -> contains key b = false -> ~ In "/"%byte r ->
  contains key (r ++ b) = false.
Proof.
  intros (w & -> & _) Hb Hr. apply contains_false. intros j Hj.
  destruct (Nat.lt_ge_cases j (length r)) as [H|H].
  - rewrite skipn_app_l by lia. destruct (skipn j r) as [|c x] eqn:E.
    + apply (f_equal (@length byte)) in E. rewrite skipn_length in E. cbn [length] in E. lia.
    + cbn [app prefixb]. destruct (beqb "/" c) eqn:E2; [|reflexivity].
      apply beqb_eq in E2. subst c. exfalso. apply Hr.
      rewrite <- (firstn_skipn j r), E. apply in_or_app. right. left. reflexivity.
  - rewrite skipn_app_r by lia. rewrite contains_false in Hb. apply Hb. rewrite app_length in Hj. lia.
Qed.

(** No match of a pattern for [key] at the key itself nor later. *)
Lemma find_only_at m key a r : needs m key -> key_name key -> contains key a = false ->
  m (key ++ r) = None -> contains key (tl key ++ r) = false -> find m (a ++ key ++ r) = None.
Proof.
  intros Hm Hk Ha H0 Hr.
  rewrite (find_before m key); [|exact Hm|apply key_name_nonnil, Hk|exact Ha|apply stopper_key; exact Hk].
  enough (find m (key ++ r) = None) as -> by reflexivity.
  destruct Hk as (w & E & _). rewrite E in *. cbn [tl] in Hr. cbn [app].
  apply find_none_intro. intros j Hj. destruct j as [|j]; [cbn [skipn]; exact H0|].
  cbn [skipn]. apply Hm. rewrite contains_false in Hr. apply Hr. cbn [length app] in Hj. lia.
Qed.

Lemma tail_no_slash key : key_name key -> ~ In "/"%byte (tl key).
Proof. intros Hk H. apply (key_name_tail key Hk) in H. tauto. Qed.

(* -------------------- extractDictValue -------------------- *)

Lemma array_at_not r : starts_with (beqb "[") r = false -> array_at r = None.
Proof. destruct r as [|c r]; [reflexivity|]. cbn [starts_with array_at]. rewrite beqb_sym. intros ->. reflexivity. Qed.

Lemma blank_skip_array w v b : forallb space_byte w = true -> word v ->
  array_at (drop_while is_blank (w ++ v ++ b)) = None.
Proof.
  intros Hw (Hn & Hp & Hv). apply array_at_not. induction w as [|c w IH].
  - destruct v as [|c v]; [contradiction|]. cbn [forallb] in Hp. apply andb_prop in Hp. destruct Hp as [Hp _].
    cbn [starts_with] in Hv. cbn [app drop_while].
    replace (is_blank c) with false; [exact Hv|]. destruct c; try reflexivity; discriminate.
  - cbn [forallb] in Hw. apply andb_prop in Hw. destruct Hw as [Hc Hw]. cbn [app drop_while].
    destruct (is_blank c) eqn:E; [apply IH, Hw|]. cbn [starts_with]. destruct c; try reflexivity; discriminate.
Qed.

Lemma extract_absent d key : contains key d = false -> extractDictValue d key = [].
Proof. unfold contains, extractDictValue. destruct (index key d); [discriminate|reflexivity]. Qed.

Lemma extract_spaced a key w v b : key_name key -> contains key a = false -> gap w -> word v -> word_ends b ->
  extractDictValue (a ++ key ++ w ++ v ++ b) key = v.
Proof.
  intros Hk Ha Hw Hv Hb. unfold extractDictValue. rewrite index_sole by assumption. rewrite skip_sole.
  rewrite blank_skip_array by (try apply Hw; exact Hv).
  rewrite (find_before _ key); [|apply needs_spaced|apply key_name_nonnil, Hk|exact Ha|apply stopper_key; exact Hk].
  rewrite (find_at0 _ _ _ (spaced_fires key w v b Hw Hv Hb)). reflexivity.
Qed.

Lemma name_no_slash v : name_word v -> ~ In "/"%byte v.
Proof. intros [_ H] Hi. rewrite forallb_forall in H. specialize (H _ Hi). discriminate. Qed.

Lemma named_rest key v b : key_name key -> contains key b = false -> name_word v -> name_ends b ->
  prefixb key ("/"%byte :: v) = false -> contains key ("/"%byte :: v ++ b) = false.
Proof.
  intros Hk Hb Hv He Ep. apply contains_false. intros j Hj.
  change ("/"%byte :: v ++ b) with (("/"%byte :: v) ++ b).
  destruct (Nat.lt_ge_cases j (length ("/"%byte :: v))) as [H|H].
  - apply before_key; [apply key_name_nonnil, Hk| | |exact H].
    + apply contains_false. intros i Hi. destruct i as [|i]; [exact Ep|]. cbn [skipn].
      destruct Hk as (k & -> & _). cbn [length] in Hi.
      destruct (skipn i v) as [|c x] eqn:E; [reflexivity|]. cbn [prefixb].
      destruct (beqb "/" c) eqn:E2; [|reflexivity]. apply beqb_eq in E2. subst c. exfalso.
      apply (name_no_slash v Hv). rewrite <- (firstn_skipn i v), E. apply in_or_app. right. left. reflexivity.
    + destruct b as [|c b]; [exact I|]. intros Hc. apply (key_name_tail key Hk) in Hc. unfold name_ends in He.
      cbn [starts_with] in He. destruct Hc as [Hc1 Hc2]. rewrite Hc1 in He. cbn [andb] in He.
      apply negb_false_iff, beqb_eq in He. contradiction.
  - rewrite skipn_app_r by lia. rewrite contains_false in Hb. apply Hb.
    cbn [length] in Hj, H |- *. rewrite app_length in Hj. lia.
Qed.

Lemma extract_named a key v b : key_name key -> sole key a b -> name_word v -> name_ends b ->
  prefixb key ("/"%byte :: v) = false ->
  extractDictValue (a ++ key ++ "/"%byte :: v ++ b) key = "/"%byte :: v.
Proof.
  intros Hk [Ha Hb] Hv He Ep.
  unfold extractDictValue. rewrite index_sole by assumption. rewrite skip_sole.
  rewrite array_at_not by reflexivity.
  assert (Hc : contains key (tl key ++ "/"%byte :: v ++ b) = false).
  { apply contains_after; [exact Hk| |apply tail_no_slash, Hk]. apply named_rest; assumption. }
  rewrite (find_only_at (m_spaced key) key); [|apply needs_spaced|exact Hk|exact Ha|apply named_not_spaced|exact Hc].
  rewrite (find_before _ key); [|apply needs_named|apply key_name_nonnil, Hk|exact Ha|apply stopper_key; exact Hk].
  rewrite (find_at0 _ _ _ (named_fires key v b Hv He)). reflexivity.
Qed.

Lemma array_end_flat (x b : bytes) : ~ In "["%byte x -> ~ In "]"%byte x ->
  array_end (Z.succ 0) (x ++ "]"%byte :: b) = Some (S (length x)).
Proof.
  intros H1 H2. induction x as [|c x IH]; [reflexivity|].
  cbn [app array_end]. assert (Hc : beqb c "[" = false /\ beqb c "]" = false).
  { split; apply beqb_neq; intros ->; [apply H1|apply H2]; left; reflexivity. }
  destruct Hc as [-> ->]. rewrite IH; [reflexivity| |]; intros Hi; [apply H1|apply H2]; right; exact Hi.
Qed.
Lemma array_at_flat v b : flat_array v -> array_at (v ++ b) = Some (length v).
Proof.
  intros (x & -> & H1 & H2). cbn [app array_at]. change (beqb "[" "[") with true. cbn iota. cbn [array_end].
  change (beqb "[" "[") with true. cbn iota.
  rewrite <- app_assoc. cbn [app]. change (0 + 1) with (Z.succ 0).
  rewrite (array_end_flat x b H1 H2). cbn [option_map length]. rewrite app_length. cbn [length].
  f_equal. lia.
Qed.
Lemma flat_not_blank v b : flat_array v -> drop_while is_blank (v ++ b) = v ++ b.
Proof. intros (x & -> & _). reflexivity. Qed.
Lemma firstn_app_all {A} (v b : list A) : firstn (length v) (v ++ b) = v.
Proof. rewrite firstn_app, Nat.sub_diag, firstn_all. cbn [firstn]. apply app_nil_r. Qed.
Lemma skipn_app_all {A} (v b : list A) : skipn (length v) (v ++ b) = b.
Proof. rewrite skipn_app, Nat.sub_diag, skipn_all. reflexivity. Qed.

Lemma drop_blanks w r : forallb is_blank w = true -> starts_with is_blank r = false -> drop_while is_blank (w ++ r) = r.
Proof. intros H1 H2. apply drop_while_app; [exact H1|]. destruct r; [exact I|exact H2]. Qed.

Lemma extract_array a key w v b : key_name key -> contains key a = false -> forallb is_blank w = true ->
  flat_array v -> extractDictValue (a ++ key ++ w ++ v ++ b) key = v.
Proof.
  intros Hk Ha Hw Hv. unfold extractDictValue. rewrite index_sole by assumption. rewrite skip_sole.
  rewrite drop_blanks; [|exact Hw|destruct Hv as (x & -> & _); reflexivity].
  rewrite array_at_flat by exact Hv. apply firstn_app_all.
Qed.

(* -------------------- setDictValue -------------------- *)

Lemma space_gap : gap (bs " ").
Proof. split; [discriminate|reflexivity]. Qed.

Lemma set_spaced a key w v b new : key_name key -> sole key a b -> gap w -> word v -> word_ends b -> word new ->
  setDictValue (a ++ key ++ w ++ v ++ b) key new = a ++ key ++ bs " " ++ new ++ b.
Proof.
  intros Hk [Ha Hb] Hw Hv He Hn. unfold setDictValue. rewrite extract_spaced by assumption.
  assert (Hv0 : v <> []) by apply Hv. destruct v as [|v0 v]; [contradiction|]. remember (v0 :: v) as vv eqn:Ev.
  rewrite (find_before _ key _ _ (needs_spaced key) (key_name_nonnil _ Hk) Ha (stopper_key _ _ _ Hk Hk)).
  rewrite (find_at0 _ _ _ (spaced_fires key w vv b Hw Hv He)). cbn [found].
  replace (a ++ key ++ w ++ vv ++ b) with (a ++ (key ++ w ++ vv) ++ b) by (rewrite <- !app_assoc; reflexivity).
  rewrite (replace_one (m_spaced key) key).
  - rewrite <- !app_assoc. rewrite extract_spaced by (try apply space_gap; assumption).
    rewrite bytes_eqb_refl. reflexivity.
  - apply needs_spaced.
  - apply key_name_nonnil, Hk.
  - exact Ha.
  - rewrite <- !app_assoc. apply stopper_key; exact Hk.
  - destruct Hk as (k & -> & _). discriminate.
  - rewrite <- !app_assoc. rewrite spaced_fires by assumption. reflexivity.
  - exact Hb.
Qed.

Lemma set_named a key v b new : key_name key -> sole key a b -> name_word v -> name_ends b ->
  prefixb key ("/"%byte :: v) = false ->
  setDictValue (a ++ key ++ "/"%byte :: v ++ b) key new = a ++ key ++ bs "/" ++ trim_prefix (bs "/") new ++ b.
Proof.
  intros Hk [Ha Hb] Hv He Ep. unfold setDictValue. rewrite extract_named by (assumption || (split; assumption)).
  assert (Hc : contains key (tl key ++ "/"%byte :: v ++ b) = false).
  { apply contains_after; [exact Hk| |apply tail_no_slash, Hk]. apply named_rest; assumption. }
  rewrite (find_only_at (m_spaced key) key); [|apply needs_spaced|exact Hk|exact Ha|apply named_not_spaced|exact Hc].
  cbn [found].
  rewrite (find_before _ key _ _ (needs_named key) (key_name_nonnil _ Hk) Ha (stopper_key _ _ _ Hk Hk)).
  rewrite (find_at0 _ _ _ (named_fires key v b Hv He)). cbn [found].
  replace (a ++ key ++ "/"%byte :: v ++ b) with (a ++ (key ++ "/"%byte :: v) ++ b) by (rewrite <- !app_assoc; reflexivity).
  rewrite (replace_one (m_named key) key).
  - rewrite <- !app_assoc. reflexivity.
  - apply needs_named.
  - apply key_name_nonnil, Hk.
  - exact Ha.
  - rewrite <- !app_assoc. apply stopper_key; exact Hk.
  - destruct Hk as (k & -> & _). discriminate.
  - rewrite <- !app_assoc. cbn [app]. rewrite named_fires by assumption. reflexivity.
  - exact Hb.
Qed.

Lemma set_array a key v b new : key_name key -> contains key a = false -> contains key (v ++ b) = false -> flat_array v ->
  setDictValue (a ++ key ++ v ++ b) key new = a ++ key ++ new ++ bs " " ++ b.
Proof.
  intros Hk Ha Hb Hv. unfold setDictValue.
  pose proof (extract_array a key [] v b Hk Ha eq_refl Hv) as E. cbn [app] in E. rewrite E.
  assert (exists x, v = "["%byte :: x) as [x Ex] by (destruct Hv as (x & -> & _); eauto).
  assert (Hc : contains key (tl key ++ v ++ b) = false).
  { apply contains_after; [exact Hk|exact Hb|apply tail_no_slash, Hk]. }
  rewrite (find_only_at (m_spaced key) key _ (v ++ b));
    [|apply needs_spaced|exact Hk|exact Ha|subst v; apply array_not_spaced|exact Hc].
  rewrite (find_only_at (m_named key) key _ (v ++ b));
    [|apply needs_named|exact Hk|exact Ha|subst v; apply array_not_named|exact Hc].
  cbn [found]. unfold replace_array. rewrite index_sole by assumption. cbn [obind]. rewrite skip_sole.
  rewrite flat_not_blank by exact Hv. rewrite array_at_flat by exact Hv. cbn [obind].
  rewrite firstn_app_all, skipn_app_all.
  subst v. reflexivity.
Qed.

Lemma last_index_at p x y : (forall j, (0 < j)%nat -> (j <= length (p ++ y))%nat -> prefixb p (skipn j (p ++ y)) = false) ->
  last_index p (x ++ p ++ y) = Some (length x).
Proof.
  intros H. apply last_index_some. repeat split.
  - rewrite skipn_app_all. apply prefixb_app.
  - rewrite app_length. lia.
  - intros j H1 H2. rewrite skipn_app_r by lia. apply H; rewrite app_length in H2; lia.
Qed.

Lemma set_absent x y key new : contains key (x ++ bs ">>" ++ y) = false ->
  contains (bs ">>") (">"%byte :: y) = false ->
  setDictValue (x ++ bs ">>" ++ y) key new = x ++ key ++ bs " " ++ new ++ bs " " ++ bs ">>" ++ y.
Proof.
  intros Hc Hy. unfold setDictValue. rewrite extract_absent by exact Hc. unfold insert_entry.
  rewrite last_index_at.
  - rewrite firstn_app_all, skipn_app_all. reflexivity.
  - intros j H1 H2. destruct j as [|j]; [lia|].
    change (bs ">>" ++ y) with (">"%byte :: ">"%byte :: y). cbn [skipn].
    rewrite contains_false in Hy. apply Hy. change (bs ">>" ++ y) with (">"%byte :: ">"%byte :: y) in H2.
    cbn [length] in H2 |- *. lia.
Qed.

(* -------------------- other keys -------------------- *)

Definition token_of (m : bytes -> option (bytes * bytes)) (s : bytes) : option bytes :=
  option_map (fun p => fst (snd p)) (find m s).
Lemma extract_tokens d key : extractDictValue d key =
  match index key d with
  | None => []
  | Some i =>
      let r := drop_while is_blank (skipn (i + length key) d) in
      match array_at r with
      | Some e => firstn e r
      | None => match token_of (m_spaced key) d with
                | Some t => t
                | None => match token_of (m_named key) d with Some t => bs "/" ++ t | None => [] end
                end
      end
  end.
Proof.
  unfold extractDictValue, token_of. destruct (index key d); [|reflexivity]. cbn zeta. destruct (array_at _); [reflexivity|].
  destruct (find (m_spaced key) d) as [[i [t r]]|]; [reflexivity|]. cbn [option_map].
  destruct (find (m_named key) d) as [[i [t r]]|]; reflexivity.
Qed.

Lemma token_of_app (m : bytes -> option (bytes * bytes)) x y y' :
  (forall j, (j < length x)%nat -> option_map fst (m (skipn j (x ++ y))) = option_map fst (m (skipn j (x ++ y')))) ->
  token_of m y = token_of m y' -> token_of m (x ++ y) = token_of m (x ++ y').
Proof.
  intros H Hy. unfold token_of in *. induction x as [|c x IH]; [exact Hy|].
  cbn [app]. rewrite (find_unfold m (c :: x ++ y)), (find_unfold m (c :: x ++ y')).
  pose proof (H 0%nat ltac:(cbn [length]; lia)) as H0. cbn [skipn app] in H0.
  destruct (m (c :: x ++ y)) as [[t1 r1]|], (m (c :: x ++ y')) as [[t2 r2]|]; cbn in H0; try discriminate.
  - injection H0 as ->. reflexivity.
  - assert (IH' := IH (fun j Hj => H (S j) ltac:(cbn [length]; lia))).
    destruct (find m (x ++ y)) as [[i1 [t1 r1]]|], (find m (x ++ y')) as [[i2 [t2 r2]]|]; cbn in IH' |- *; congruence.
Qed.
Lemma token_of_skip (m : bytes -> option (bytes * bytes)) x y :
  (forall j, (j < length x)%nat -> m (skipn j (x ++ y)) = None) -> token_of m (x ++ y) = token_of m y.
Proof. intros H. unfold token_of. rewrite find_app by exact H. destruct (find m y) as [[i [t r]]|]; reflexivity. Qed.

Lemma prefixb_app_long p x y : prefixb p (x ++ y) = true -> (length p <= length x)%nat -> prefixb p x = true.
Proof.
  revert p. induction x as [|c x IH]; intros p H Hl.
  - destruct p; [reflexivity|cbn in Hl; lia].
  - destruct p as [|k p]; [reflexivity|]. cbn [app prefixb] in *. apply andb_prop in H. destruct H as [-> H].
    cbn [andb]. apply IH; [exact H|cbn [length] in Hl; lia].
Qed.
Lemma prefixb_app_mono p x y : prefixb p x = true -> prefixb p (x ++ y) = true.
Proof. intros H. apply prefixb_spec in H. destruct H as [t ->]. rewrite <- app_assoc. apply prefixb_app. Qed.

(** A key cannot straddle a stopper. *)
Lemma prefixb_stop k x r : key_name k -> x <> [] -> stopper k r -> prefixb k (x ++ r) = prefixb k x.
Proof.
  intros Hk Hx Hs. destruct (prefixb k x) eqn:E; [apply prefixb_app_mono, E|].
  pose proof (fun H => before_key k x r (key_name_nonnil k Hk) H Hs 0%nat) as B. cbn [skipn] in B.
  destruct (prefixb k (x ++ r)) eqn:E2; [|reflexivity]. exfalso.
  apply prefixb_spec in E2. destruct E2 as [t E2].
  destruct (Nat.le_gt_cases (length k) (length x)) as [H|H].
  - assert (prefixb k x = true); [|congruence]. apply prefixb_app_long with (y := r); [|exact H].
    rewrite E2. apply prefixb_app.
  - destruct r as [|c r].
    + rewrite app_nil_r in E2. apply (f_equal (@length byte)) in E2. rewrite app_length in E2. lia.
    + apply Hs. destruct Hk as (w & -> & _). cbn [tl]. destruct x as [|x0 x]; [contradiction|].
      cbn [app] in E2. injection E2 as _ E2.
      assert (E3 := f_equal (fun l => nth_error l (length x)) E2). cbn beta in E3.
      rewrite nth_error_app2 in E3 by lia. rewrite Nat.sub_diag in E3. cbn [nth_error] in E3.
      rewrite nth_error_app1 in E3 by (cbn [length] in H; lia).
      symmetry in E3. apply nth_error_In in E3. exact E3.
Qed.

Lemma take_same (f : byte -> bool) x k r r' : starts_with f r = false -> starts_with f r' = false ->
  take_while f (x ++ k ++ r) = take_while f (x ++ k ++ r').
Proof.
  intros H1 H2. rewrite !app_assoc. generalize (x ++ k). intros y. induction y as [|c y IH]; cbn [app].
  - destruct r as [|c r], r' as [|c' r']; cbn [starts_with] in *; cbn [take_while]; rewrite ?H1, ?H2; reflexivity.
  - cbn [take_while]. destruct (f c); [f_equal; exact IH|reflexivity].
Qed.
Lemma drop_stop (f : byte -> bool) x r : starts_with f r = false -> drop_while f (x ++ r) = drop_while f x ++ r.
Proof.
  intros H. induction x as [|c x IH].
  - destruct r as [|c r]; [reflexivity|]. cbn [app drop_while starts_with] in *. rewrite H. reflexivity.
  - cbn [app drop_while]. destruct (f c); [exact IH|reflexivity].
Qed.

Lemma tok_ends r : starts_with plain_byte r = false -> starts_with is_tok r = false.
Proof. destruct r as [|c r]; [reflexivity|]. cbn [starts_with]. rewrite plain_is_tok. auto. Qed.
Lemma name_tok_ends r : starts_with plain_byte r = false -> starts_with is_name_tok r = false.
Proof.
  destruct r as [|c r]; [reflexivity|]. cbn [starts_with]. rewrite <- name_is_tok. intros ->. reflexivity.
Qed.

Lemma key_head key r f : key_name key -> f "/"%byte = false -> starts_with f (key ++ r) = false.
Proof. intros (w & -> & _) H. exact H. Qed.

Lemma prefix_lit k s : prefixb k s = true -> lit k s = Some (skipn (length k) s).
Proof. intros H. apply prefixb_spec in H. destruct H as [t ->]. rewrite lit_app, skipn_app_all. reflexivity. Qed.

Lemma spaced_same k2 s0 key r r' : key_name k2 -> key_name key -> s0 <> [] ->
  starts_with plain_byte r = false -> starts_with plain_byte r' = false ->
  option_map fst (m_spaced k2 (s0 ++ key ++ r)) = option_map fst (m_spaced k2 (s0 ++ key ++ r')).
Proof.
  intros Hk2 Hk H0 Hr Hr'. unfold m_spaced. destruct (prefixb k2 s0) eqn:E.
  - apply prefixb_spec in E. destruct E as [s1 ->]. rewrite <- !app_assoc, !lit_app. cbn [obind].
    destruct s1 as [|c s1].
    + cbn [app]. destruct Hk as (kw & -> & _). reflexivity.
    + cbn [app ws1]. destruct (is_ws c); [|reflexivity]. cbn [obind].
      rewrite (drop_stop is_ws s1 (key ++ r)), (drop_stop is_ws s1 (key ++ r')) by (apply key_head; [exact Hk|reflexivity]).
      rewrite (take_same is_tok _ key r r') by (apply tok_ends; assumption).
      destruct (take_while is_tok (drop_while is_ws s1 ++ key ++ r')); reflexivity.
  - assert (forall y, stopper k2 y -> lit k2 (s0 ++ y) = None) as N.
    { intros y Hy. apply lit_none. rewrite prefixb_stop by assumption. exact E. }
    rewrite !N by (apply stopper_key; assumption). reflexivity.
Qed.

Lemma named_same k2 s0 key r r' : key_name k2 -> key_name key -> s0 <> [] ->
  starts_with plain_byte r = false -> starts_with plain_byte r' = false ->
  option_map fst (m_named k2 (s0 ++ key ++ r)) = option_map fst (m_named k2 (s0 ++ key ++ r')).
Proof.
  intros Hk2 Hk H0 Hr Hr'. unfold m_named. destruct (prefixb k2 s0) eqn:E.
  - apply prefixb_spec in E. destruct E as [s1 ->]. rewrite <- !app_assoc, !lit_app_r.
    destruct s1 as [|c s1].
    + cbn [app]. destruct Hk as (kw & -> & _). change (("/"%byte :: kw) ++ r) with (bs "/" ++ kw ++ r).
      change (("/"%byte :: kw) ++ r') with (bs "/" ++ kw ++ r'). rewrite !lit_app. cbn [obind].
      pose proof (take_same is_name_tok [] kw r r' (name_tok_ends r Hr) (name_tok_ends r' Hr')) as T. cbn [app] in T.
      rewrite T. destruct (take_while is_name_tok (kw ++ r')); reflexivity.
    + destruct (beqb "/" c) eqn:Ec.
      * apply beqb_eq in Ec. subst c. change (("/"%byte :: s1) ++ key ++ r) with (bs "/" ++ s1 ++ key ++ r).
        change (("/"%byte :: s1) ++ key ++ r') with (bs "/" ++ s1 ++ key ++ r'). rewrite !lit_app. cbn [obind].
        rewrite (take_same is_name_tok _ key r r') by (apply name_tok_ends; assumption).
        destruct (take_while is_name_tok (s1 ++ key ++ r')); reflexivity.
      * assert (forall y, lit (bs "/") ((c :: s1) ++ y) = None) as N.
        { intros y. apply lit_none. cbn [app]. change (bs "/") with ["/"%byte]. cbn [prefixb]. rewrite Ec. reflexivity. }
        rewrite !N. reflexivity.
  - assert (forall y, stopper k2 y -> lit (k2 ++ bs "/") (s0 ++ y) = None) as N.
    { intros y Hy. apply lit_none. destruct (prefixb (k2 ++ bs "/") (s0 ++ y)) eqn:E2; [|reflexivity].
      apply prefixb_spec in E2. destruct E2 as [t E2]. rewrite <- app_assoc in E2.
      assert (prefixb k2 (s0 ++ y) = true) by (rewrite E2; apply prefixb_app).
      rewrite prefixb_stop in H by assumption. congruence. }
    rewrite !N by (apply stopper_key; assumption). reflexivity.
Qed.

(** The edited region holds no other key. *)
Lemma region_free k2 key mid b : key_name k2 -> key_name key -> prefixb k2 key = false ->
  starts_with plain_byte mid = false -> mid <> [] -> ~ In "/"%byte mid ->
  forall j, (j < length (key ++ mid))%nat -> prefixb k2 (skipn j ((key ++ mid) ++ b)) = false.
Proof.
  intros Hk2 Hk Hp Hm Hm0 Hs j Hj. rewrite <- app_assoc. rewrite app_length in Hj.
  destruct j as [|j].
  - cbn [skipn]. rewrite prefixb_stop; [exact Hp|exact Hk2|apply key_name_nonnil, Hk|].
    apply stopper_space; [exact Hk2|]. destruct mid; [contradiction|exact Hm].
  - destruct Hk2 as (w2 & -> & _).
    assert (Hn : ~ In "/"%byte (tl key ++ mid)).
    { intros Hi. apply in_app_or in Hi. destruct Hi as [Hi|Hi]; [apply (tail_no_slash key Hk Hi)|exact (Hs Hi)]. }
    assert (Hl : (j < length (tl key ++ mid))%nat).
    { destruct Hk as (w & -> & _). cbn [tl]. rewrite app_length. cbn [length] in Hj. lia. }
    replace (skipn (S j) (key ++ mid ++ b)) with (skipn j (tl key ++ mid) ++ b).
    2:{ destruct Hk as (w & -> & _). cbn [tl app skipn]. rewrite app_assoc. symmetry. apply skipn_app_l.
        cbn [tl] in Hl. lia. }
    destruct (skipn j (tl key ++ mid)) as [|c x] eqn:E.
    + apply (f_equal (@length byte)) in E. rewrite skipn_length in E. cbn [length] in E. lia.
    + cbn [app prefixb]. destruct (beqb "/" c) eqn:E2; [|reflexivity]. apply beqb_eq in E2. subst c. exfalso.
      apply Hn. rewrite <- (firstn_skipn j (tl key ++ mid)), E. apply in_or_app. right. left. reflexivity.
Qed.

Definition no_brackets (s : bytes) : Prop := ~ In "["%byte s /\ ~ In "]"%byte s.
Lemma array_end_skip x : no_brackets x -> forall d y, array_end d (x ++ y) = option_map (Nat.add (length x)) (array_end d y).
Proof.
  intros [H1 H2] d y. induction x as [|c x IH].
  - cbn [app length]. destruct (array_end d y); reflexivity.
  - cbn [app array_end]. assert (beqb c "[" = false) as -> by (apply beqb_neq; intros ->; apply H1; left; reflexivity).
    assert (beqb c "]" = false) as -> by (apply beqb_neq; intros ->; apply H2; left; reflexivity).
    rewrite IH; [|intros Hi; apply H1; right; exact Hi|intros Hi; apply H2; right; exact Hi].
    destruct (array_end d y); reflexivity.
Qed.

Lemma array_end_edit x e1 e2 b : no_brackets e1 -> no_brackets e2 -> forall d,
  match array_end d (x ++ e1 ++ b), array_end d (x ++ e2 ++ b) with
  | Some n1, Some n2 => (n1 = n2 /\ (n1 <= length x)%nat) \/ (length x + length e1 <= n1)%nat
  | None, None => True
  | _, _ => False
  end.
Proof.
  intros H1 H2. induction x as [|c x IH]; intros d.
  - cbn [app]. rewrite !array_end_skip by assumption. destruct (array_end d b) as [n|]; cbn [option_map]; [|exact I].
    right. cbn [length]. lia.
  - cbn [app array_end]. destruct (beqb c "["); [|destruct (beqb c "]"); [destruct (d - 1 =? 0)|]].
    + specialize (IH (d + 1)). destruct (array_end _ (x ++ e1 ++ b)), (array_end _ (x ++ e2 ++ b)); cbn [option_map length]; lia || exact IH.
    + left. cbn [length]. lia.
    + specialize (IH (d - 1)). destruct (array_end _ (x ++ e1 ++ b)), (array_end _ (x ++ e2 ++ b)); cbn [option_map length]; lia || exact IH.
    + specialize (IH d). destruct (array_end _ (x ++ e1 ++ b)), (array_end _ (x ++ e2 ++ b)); cbn [option_map length]; lia || exact IH.
Qed.

Lemma key_no_brackets key : key_name key -> no_brackets key.
Proof.
  intros (w & -> & H). rewrite forallb_forall in H.
  split; intros [Hi|Hi]; try discriminate; specialize (H _ Hi); discriminate.
Qed.
Lemma no_brackets_app a b : no_brackets a -> no_brackets b -> no_brackets (a ++ b).
Proof. intros [A1 A2] [B1 B2]. split; intros Hi; apply in_app_or in Hi; tauto. Qed.

Lemma blank_key key r : key_name key -> starts_with is_blank (key ++ r) = false.
Proof. intros Hk. apply key_head; [exact Hk|reflexivity]. Qed.

Lemma contains_mid key x y : contains key (x ++ key ++ y) = true.
Proof.
  destruct (contains key (x ++ key ++ y)) eqn:E; [reflexivity|]. rewrite contains_false in E.
  specialize (E (length x) ltac:(rewrite app_length; lia)). rewrite skipn_app_all, prefixb_app in E. discriminate.
Qed.

(** Editing the value of [key] from [mid] to [mid'] leaves the values of other
    keys alone. *)
Lemma other_key k2 key a mid mid' b : key_name k2 -> key_name key -> prefixb k2 key = false ->
  starts_with plain_byte mid = false -> mid <> [] -> ~ In "/"%byte mid -> no_brackets mid ->
  starts_with plain_byte mid' = false -> mid' <> [] -> ~ In "/"%byte mid' -> no_brackets mid' ->
  (starts_with (beqb "[") (extractDictValue (a ++ key ++ mid ++ b) k2) = true ->
   contains key (extractDictValue (a ++ key ++ mid ++ b) k2) = false) ->
  extractDictValue (a ++ key ++ mid' ++ b) k2 = extractDictValue (a ++ key ++ mid ++ b) k2.
Proof.
  intros Hk2 Hk Hp M1 M2 M3 M4 N1 N2 N3 N4 Harr.
  assert (RA : forall mm, starts_with plain_byte mm = false -> mm <> [] -> ~ In "/"%byte mm ->
            forall j, (j < length (key ++ mm))%nat -> prefixb k2 (skipn j ((key ++ mm) ++ b)) = false)
    by (intros mm ? ? ?; apply region_free; assumption).
  assert (TOK : forall m, needs m k2 ->
     (forall s0 r r', s0 <> [] -> starts_with plain_byte r = false -> starts_with plain_byte r' = false ->
        option_map fst (m (s0 ++ key ++ r)) = option_map fst (m (s0 ++ key ++ r'))) ->
     token_of m (a ++ key ++ mid ++ b) = token_of m (a ++ key ++ mid' ++ b)).
  { intros m Hn Hsame. apply token_of_app.
    - intros j Hj. rewrite !skipn_app_l by lia. apply Hsame.
      + intros E. apply (f_equal (@length byte)) in E. rewrite skipn_length in E. cbn [length] in E. lia.
      + destruct mid; [contradiction|exact M1].
      + destruct mid'; [contradiction|exact N1].
    - rewrite !(app_assoc key). rewrite !token_of_skip; [reflexivity| |];
        intros j Hj; apply Hn; apply RA; assumption. }
  rewrite !extract_tokens in *.
  rewrite <- (TOK (m_spaced k2)), <- (TOK (m_named k2));
    [|apply needs_named|intros; apply named_same; assumption|apply needs_spaced|intros; apply spaced_same; assumption].
  clear TOK.
  assert (IX : forall mm, starts_with plain_byte mm = false -> mm <> [] -> ~ In "/"%byte mm ->
     index k2 (a ++ key ++ mm ++ b) =
       match index k2 a with
       | Some i => Some i
       | None => option_map (fun i => (length a + length (key ++ mm) + i)%nat) (index k2 b)
       end).
  { intros mm K1 K2 K3. destruct (index k2 a) as [i|] eqn:E.
    - apply index_some in E. destruct E as (E1 & E2 & E3). apply index_some. repeat split.
      + rewrite skipn_app_l by lia. apply prefixb_app_mono, E1.
      + rewrite app_length. lia.
      + intros j Hj. rewrite skipn_app_l by lia.
        rewrite prefixb_stop; [apply E3, Hj|exact Hk2| |apply stopper_key; assumption].
        intros E. apply (f_equal (@length byte)) in E. rewrite skipn_length in E. cbn [length] in E. lia.
    - rewrite index_before; [|apply key_name_nonnil, Hk2|unfold contains; rewrite E; reflexivity|apply stopper_key; assumption].
      replace (index k2 (key ++ mm ++ b)) with (option_map (Nat.add (length (key ++ mm))) (index k2 b)).
      + destruct (index k2 b); cbn [option_map]; [f_equal; lia|reflexivity].
      + rewrite app_assoc. symmetry. destruct (index k2 b) as [i|] eqn:Eb; cbn [option_map].
        * apply index_some in Eb. destruct Eb as (E1 & E2 & E3). apply index_some. repeat split.
          -- rewrite skipn_app_r by lia. replace (length (key ++ mm) + i - length (key ++ mm))%nat with i by lia. exact E1.
          -- rewrite (app_length (key ++ mm)). lia.
          -- intros j Hj. destruct (Nat.lt_ge_cases j (length (key ++ mm))) as [H|H]; [apply RA; assumption|].
             rewrite skipn_app_r by lia. apply E3. lia.
        * rewrite index_none in Eb. apply index_none. intros i Hi. rewrite (app_length (key ++ mm)) in Hi.
          destruct (Nat.lt_ge_cases i (length (key ++ mm))) as [H|H]; [apply RA; assumption|].
          rewrite skipn_app_r by lia. apply Eb. lia. }
  rewrite (IX mid), (IX mid') in * by assumption. clear IX.
  destruct (index k2 a) as [i|] eqn:Ei.
  - apply index_bound in Ei. cbn zeta in *.
    rewrite !(skipn_app_l (i + length k2)) in * by lia.
    rewrite !(drop_stop is_blank (skipn (i + length k2) a)) in * by (apply blank_key; exact Hk).
    generalize dependent (drop_while is_blank (skipn (i + length k2) a)). intros x Hx.
    destruct x as [|c x].
    + cbn [app] in *. rewrite !array_at_not by (apply key_head; [exact Hk|reflexivity]). reflexivity.
    + cbn [app array_at] in *. destruct (beqb c "[") eqn:Ec; [|reflexivity].
      pose proof (array_end_edit (c :: x) (key ++ mid) (key ++ mid') b
        (no_brackets_app _ _ (key_no_brackets _ Hk) M4) (no_brackets_app _ _ (key_no_brackets _ Hk) N4) 0) as AE.
      rewrite <- !app_assoc in AE. cbn [app] in AE.
      destruct (array_end 0 (c :: x ++ key ++ mid ++ b)) as [n1|], (array_end 0 (c :: x ++ key ++ mid' ++ b)) as [n2|];
        try contradiction; [|reflexivity].
      destruct AE as [[<- AE]|AE].
      * change (c :: x ++ key ++ mid' ++ b) with ((c :: x) ++ key ++ mid' ++ b).
        change (c :: x ++ key ++ mid ++ b) with ((c :: x) ++ key ++ mid ++ b).
        rewrite !firstn_app. replace (n1 - length (c :: x))%nat with 0%nat by lia. reflexivity.
      * exfalso. assert (n1 = length ((c :: x) ++ key) + (n1 - length ((c :: x) ++ key)))%nat as En
          by (rewrite app_length in AE |- *; lia).
        assert (F : firstn n1 (c :: x ++ key ++ mid ++ b) = (c :: x) ++ key ++ firstn (n1 - length ((c :: x) ++ key)) (mid ++ b)).
        { change (c :: x ++ key ++ mid ++ b) with ((c :: x) ++ key ++ mid ++ b). rewrite (app_assoc (c :: x)).
          rewrite En at 1. rewrite firstn_app_2. rewrite <- app_assoc. reflexivity. }
        rewrite F in Hx. rewrite contains_mid in Hx. cbn [app starts_with] in Hx.
        rewrite beqb_sym, Ec in Hx. discriminate (Hx eq_refl).
  - destruct (index k2 b) as [i|]; cbn [option_map]; [|reflexivity]. cbn zeta.
    assert (SK : forall mm, skipn (length a + length (key ++ mm) + i + length k2) (a ++ key ++ mm ++ b)
                 = skipn (i + length k2) b).
    { intros mm. rewrite (app_assoc key), (app_assoc a). rewrite skipn_app_r by (rewrite !app_length; lia).
      f_equal. rewrite !app_length. lia. }
    rewrite !SK. reflexivity.
Qed.
