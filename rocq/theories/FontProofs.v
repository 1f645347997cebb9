From Verif Require Import Util Scan FontModel FontSpec.
Local Open Scope Z_scope.

(* ---------------------------------------------------------------- *)
(** C50 *)
Lemma existsb_in r l : existsb (N.eqb r) l = true <-> In r l.
Proof.
  rewrite existsb_exists. split.
  - intros [x [H E]]. apply N.eqb_eq in E. subst. exact H.
  - intros H. exists r. split; [exact H|apply N.eqb_refl].
Qed.
(** what [AddRune] does to the subset *)
Definition snoc (l : list N) (r : N) : list N := if existsb (N.eqb r) l then l else l ++ [r].
Lemma add_rune_subset r f : fSubset (AddRune r f) = snoc (fSubset f) r.
Proof. unfold AddRune, snoc. destruct (existsb (N.eqb r) (fSubset f)); reflexivity. Qed.
Lemma add_string_subset ip s : forall f, fSubset (AddString ip s f) = fold_left snoc (filter (fun r => ip r || (r =? 32)%N) (runes s)) (fSubset f).
Proof.
  unfold AddString. induction (runes s) as [|r l IH]; intros f; [reflexivity|].
  cbn [fold_left filter]. rewrite IH. destruct (ip r || (r =? 32)%N); [|reflexivity].
  cbn [fold_left]. rewrite add_rune_subset. reflexivity.
Qed.
Lemma filter_filter {A} (p q : A -> bool) l : filter p (filter q l) = filter (fun x => p x && q x) l.
Proof.
  induction l as [|a l IH]; [reflexivity|]. cbn [filter]. destruct (q a); cbn [filter].
  - rewrite IH, andb_true_r. reflexivity.
  - rewrite IH, andb_false_r. reflexivity.
Qed.
Lemma first_uses_in x l : In x (first_uses l) <-> In x l.
Proof.
  induction l as [|a l IH]; [reflexivity|]. cbn [first_uses In]. rewrite filter_In, IH.
  destruct (N.eqb_spec x a); cbn [negb]; intuition congruence.
Qed.
Lemma first_uses_nodup l : NoDup (first_uses l).
Proof.
  induction l as [|a l IH]; [constructor|]. cbn [first_uses]. constructor.
  - rewrite filter_In, N.eqb_refl. intros [_ H]. discriminate.
  - apply NoDup_filter, IH.
Qed.
Lemma filter_nil {A} (p : A -> bool) l : (forall x, In x l -> p x = false) -> filter p l = [].
Proof.
  induction l as [|a l IH]; intros H; [reflexivity|]. cbn [filter]. rewrite (H a) by now left. apply IH. intros x Hx. apply H. now right.
Qed.
Lemma filter_all {A} (p : A -> bool) l : (forall x, p x = true) -> filter p l = l.
Proof. intros H. induction l as [|a l IH]; [reflexivity|]. cbn [filter]. now rewrite H, IH. Qed.
Lemma first_uses_app a b : first_uses (a ++ b) = first_uses a ++ filter (fun y => negb (existsb (N.eqb y) a)) (first_uses b).
Proof.
  induction a as [|x a IH]; cbn [app first_uses existsb negb].
  - symmetry. apply filter_all. reflexivity.
  - rewrite IH, filter_app, filter_filter. f_equal. f_equal. apply filter_ext. intros y. rewrite negb_orb. reflexivity.
Qed.
Lemma snoc_spec l : forall d, fold_left snoc l d = d ++ filter (fun y => negb (existsb (N.eqb y) d)) (first_uses l).
Proof.
  induction l as [|r l IH]; intros d; cbn [fold_left first_uses filter]; [now rewrite app_nil_r|].
  rewrite IH. unfold snoc. destruct (existsb (N.eqb r) d) eqn:E; cbn [negb].
  - f_equal. rewrite filter_filter. apply filter_ext. intros y. destruct (N.eqb_spec y r).
    + subst. rewrite E. reflexivity.
    + now rewrite andb_true_r.
  - rewrite <- app_assoc. cbn [app]. f_equal. f_equal. rewrite filter_filter. apply filter_ext. intros y.
    rewrite existsb_app. cbn [existsb]. rewrite orb_false_r, negb_orb. reflexivity.
Qed.
Lemma calls_subset ip cs : forall f, fSubset (fold_left (do_font_call ip) cs f) = fold_left snoc (flat_map (added ip) cs) (fSubset f).
Proof.
  induction cs as [|c cs IH]; intros f; [reflexivity|]. cbn [fold_left flat_map]. rewrite IH, fold_left_app. f_equal.
  destruct c; cbn [do_font_call added]; [apply add_rune_subset|apply add_string_subset].
Qed.
Lemma calls_spec ip cs name data f : NewFont name data = Ok f ->
  fSubset (fold_left (do_font_call ip) cs f) = first_uses (flat_map (added ip) cs).
Proof.
  intros H. rewrite calls_subset, snoc_spec. unfold NewFont in H.
  destruct (length data <? 12)%nat; [discriminate|]. destruct (signature_ok data); [|discriminate].
  injection H as <-. cbn [fSubset app]. apply filter_all. reflexivity.
Qed.
Lemma calls_data ip cs : forall f, fData (fold_left (do_font_call ip) cs f) = fData f /\ fName (fold_left (do_font_call ip) cs f) = fName f.
Proof.
  induction cs as [|c cs IH]; intros f; [split; reflexivity|]. cbn [fold_left]. destruct (IH (do_font_call ip f c)) as [E1 E2]. rewrite E1, E2.
  assert (forall r f, fData (AddRune r f) = fData f /\ fName (AddRune r f) = fName f) as H.
  { intros r g. unfold AddRune. destruct (existsb _ _); split; reflexivity. }
  destruct c as [r|s]; cbn [do_font_call]; [apply H|]. unfold AddString. clear - H. revert f. induction (runes s) as [|r l IH]; intros f; [split; reflexivity|].
  cbn [fold_left]. destruct (IH (if ip r || (r =? 32)%N then AddRune r f else f)) as [E1 E2]. rewrite E1, E2. destruct (ip r || (r =? 32)%N); [apply H|split; reflexivity].
Qed.

(** glyph lists *)
Lemma insert_in g l x : In x (insert_glyph g l) <-> x = g \/ In x l.
Proof.
  induction l as [|h l IH]; cbn [insert_glyph]; [cbn; intuition congruence|].
  destruct (g <? h)%N; [cbn; intuition congruence|]. destruct (N.eqb_spec g h); [cbn; intuition congruence|].
  cbn [In]. rewrite IH. intuition congruence.
Qed.
Lemma insert_sorted g l : StronglySorted N.lt l -> StronglySorted N.lt (insert_glyph g l).
Proof.
  induction l as [|h l IH]; intros H; cbn [insert_glyph]; [repeat constructor|].
  apply StronglySorted_inv in H. destruct H as [H F]. destruct (N.ltb_spec g h).
  - constructor; [constructor; assumption|]. constructor; [assumption|]. eapply Forall_impl; [|exact F]. cbn beta. intros; lia.
  - destruct (N.eqb_spec g h); [constructor; assumption|]. constructor; [auto|]. apply Forall_forall. intros x Hx. apply insert_in in Hx.
    destruct Hx as [->|Hx]; [lia|]. rewrite Forall_forall in F. apply F, Hx.
Qed.
Lemma subset_glyphs_spec m subset : forall l, StronglySorted N.lt l ->
  let r := fold_left (fun l r => match mget (Z.of_N r) m with Some g => insert_glyph g l | None => l end) subset l in
  StronglySorted N.lt r /\ forall g, In g r <-> In g l \/ exists c, In c subset /\ mget (Z.of_N c) m = Some g.
Proof.
  induction subset as [|c subset IH]; intros l Hl; cbn [fold_left].
  - split; [exact Hl|]. intros g. split; [auto|]. intros [H|[c [[] _]]]. exact H.
  - specialize (IH (match mget (Z.of_N c) m with Some g => insert_glyph g l | None => l end)). destruct IH as [S I].
    { destruct (mget (Z.of_N c) m); [apply insert_sorted|]; exact Hl. }
    split; [exact S|]. intros g. rewrite I. destruct (mget (Z.of_N c) m) as [h|] eqn:E.
    + rewrite insert_in. split.
      * intros [[->|H]|[d [Hd Hg]]]; [right; exists c; split; [now left|exact E]|now left|right; exists d; split; [now right|exact Hg]].
      * intros [H|[d [[<-|Hd] Hg]]]; [auto|left; left; congruence|right; exists d; auto].
    + split.
      * intros [H|[d [Hd Hg]]]; [now left|right; exists d; split; [now right|exact Hg]].
      * intros [H|[d [[<-|Hd] Hg]]]; [auto|congruence|right; exists d; auto].
Qed.
Lemma glyphs_spec fuel f t m : ParseTTF (fData f) = Ok t -> font_map fuel t = Some (Ok m) ->
  exists gs, GetSubsetGlyphs fuel f = Some (Ok gs) /\ StronglySorted N.lt gs /\
    forall g, In g gs <-> g = 0%N \/ exists c, In c (fSubset f) /\ mget (Z.of_N c) m = Some g.
Proof.
  intros Ht Hm. unfold GetSubsetGlyphs. rewrite Ht. cbn [obind]. rewrite Hm. cbn [obind]. exists (subset_glyphs m (fSubset f)).
  split; [reflexivity|]. destruct (subset_glyphs_spec m (fSubset f) [0%N]) as [S I]; [repeat constructor|].
  split; [exact S|]. intros g. unfold subset_glyphs. rewrite I. cbn [In]. intuition congruence.
Qed.

(* ---------------------------------------------------------------- *)
(** Numbers *)
Lemma at_app a s i : at_ (a ++ s) (length a + i) = at_ s i.
Proof. unfold at_. rewrite app_nth2 by lia. f_equal. f_equal. lia. Qed.
Lemma u16_app a s i : u16 (a ++ s) (length a + i) = u16 s i.
Proof. unfold u16. rewrite <- Nat.add_assoc, !at_app. reflexivity. Qed.
Lemma u32_app a s i : u32 (a ++ s) (length a + i) = u32 s i.
Proof. unfold u32. rewrite <- Nat.add_assoc, !u16_app. reflexivity. Qed.
Lemma u16_front n s : (n < 65536)%N -> u16 (w16 n ++ s) 0 = n.
Proof.
  intros H. unfold u16, w16, at_. cbn [app nth Nat.add]. rewrite !b2n_n2b, (N.mod_small (n / 256)) by (apply N.div_lt_upper_bound; lia).
  pose proof (N.div_mod n 256 ltac:(lia)). lia.
Qed.
Lemma u16_mod n s : u16 (w16 n ++ s) 0 = (n mod 65536)%N.
Proof.
  unfold u16, w16, at_. cbn [app nth Nat.add]. rewrite !b2n_n2b.
  change 65536%N with (256 * 256)%N. rewrite N.mod_mul_r by lia. lia.
Qed.
Lemma u32_front n s : (n < 4294967296)%N -> u32 (w32 n ++ s) 0 = n.
Proof.
  intros H. unfold u32, w32. cbn [Nat.add]. rewrite <- app_assoc, u16_front by (apply N.div_lt_upper_bound; lia).
  change 2%nat with (length (w16 (n / 65536)) + 0)%nat. rewrite u16_app, u16_mod.
  pose proof (N.div_mod n 65536 ltac:(lia)). lia.
Qed.
Lemma u16_lt s i : (u16 s i < 65536)%N.
Proof. unfold u16, at_. pose proof (b2n_bound (nth i s x00)). pose proof (b2n_bound (nth (i+1) s x00)). lia. Qed.
Lemma u32_lt s i : (u32 s i < 4294967296)%N.
Proof. unfold u32. pose proof (u16_lt s i). pose proof (u16_lt s (i+2)). lia. Qed.
Lemma w16_len n : length (w16 n) = 2%nat. Proof. reflexivity. Qed.
Lemma w32_len n : length (w32 n) = 4%nat. Proof. reflexivity. Qed.
Lemma words_len l : length (words l) = (2 * length l)%nat.
Proof. induction l as [|n l IH]; [reflexivity|]. unfold words in *. cbn [flat_map]. rewrite app_length, IH, w16_len. cbn [length]. lia. Qed.
Lemma u16_words l : forall i s, Forall (fun n => (n < 65536)%N) l -> (i < length l)%nat -> u16 (words l ++ s) (2 * i) = nth i l 0%N.
Proof.
  induction l as [|n l IH]; intros i s F Hi; [cbn in Hi; lia|]. inversion F; subst. unfold words. cbn [flat_map]. rewrite <- app_assoc.
  destruct i as [|i]; [apply u16_front; assumption|].
  replace (2 * S i)%nat with (length (w16 n) + 2 * i)%nat by (rewrite w16_len; lia). rewrite u16_app. cbn [nth]. apply IH; [assumption|cbn in Hi; lia].
Qed.
