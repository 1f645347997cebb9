(** Character maps. *)
From Verif Require Import Util Scan FontModel FontSpec FontProofs.
Local Open Scope Z_scope.

Lemma i32_inj a b : (a < 4294967296)%N -> (b < 4294967296)%N -> i32 a = i32 b -> a = b.
Proof. unfold i32. destruct (N.ltb_spec a 2147483648), (N.ltb_spec b 2147483648); lia. Qed.
Lemma i32_small a : (a < 2147483648)%N -> i32 a = Z.of_N a.
Proof. intros H. unfold i32. destruct (N.ltb_spec a 2147483648); lia. Qed.

(** One group. *)
Lemma group12_ends start end_ glyph : (end_ < 4294967295)%N -> forall n code m, (start <= code)%N -> N.to_nat (end_ + 1 - code) = n ->
  exists m', (forall fuel, (n < fuel)%nat -> group12 fuel start end_ glyph code m = Some m') /\
  (forall c, (c < 4294967296)%N -> mget (i32 c) m' =
     if ((code <=? c) && (c <=? end_))%N then Some ((glyph + (c - start)) mod 65536)%N else mget (i32 c) m) /\
  (forall z, (forall c, (c < 4294967296)%N -> z <> i32 c) -> mget z m' = mget z m).
Proof.
  intros He. induction n as [|n IH]; intros code m Hs Hn.
  - exists m. split; [|split].
    + intros [|fuel] Hf; [lia|]. cbn [group12]. destruct (N.leb_spec code end_); [lia|reflexivity].
    + intros c Hc. destruct (N.leb_spec code c), (N.leb_spec c end_); cbn [andb]; try reflexivity. lia.
    + reflexivity.
  - assert (code <= end_)%N as Hle by lia.
    destruct (IH (code + 1)%N (mset (i32 code) ((glyph + (code - start)) mod 65536)%N m) ltac:(lia) ltac:(lia)) as [m' [H1 [H2 H3]]].
    exists m'. split; [|split].
    + intros [|fuel] Hf; [lia|]. cbn [group12]. destruct (N.leb_spec code end_); [|lia]. rewrite N.mod_small by lia. apply H1. lia.
    + intros c Hc. rewrite H2 by exact Hc. destruct (N.eq_dec c code) as [->|Hne].
      * destruct (N.leb_spec (code + 1) code); [lia|]. cbn [andb]. rewrite mget_mset, Z.eqb_refl, (proj2 (N.leb_le code code)) by lia.
        rewrite (proj2 (N.leb_le code end_)) by lia. reflexivity.
      * rewrite mget_mset. destruct (Z.eqb_spec (i32 c) (i32 code)) as [E|_]; [apply i32_inj in E; lia|].
        replace (code + 1 <=? c)%N with (code <=? c)%N by (destruct (N.leb_spec code c), (N.leb_spec (code + 1) c); lia). reflexivity.
    + intros z Hz. rewrite H3 by exact Hz. rewrite mget_mset. destruct (Z.eqb_spec z (i32 code)) as [E|_]; [exfalso; apply (Hz code); [lia|exact E]|reflexivity].
Qed.
(** ... that never ends *)
Lemma group12_forever start glyph fuel : forall code m, (code < 4294967296)%N -> group12 fuel start 4294967295 glyph code m = None.
Proof.
  induction fuel as [|fuel IH]; intros code m H; [reflexivity|]. cbn [group12]. rewrite (proj2 (N.leb_le code 4294967295)) by lia.
  apply IH. apply N.mod_lt. lia.
Qed.

Definition group_at (s : bytes) (o : nat) : group := mkGroup (u32 s o) (u32 s (o + 4)) (u32 s (o + 8)).
Lemma group_at_fits s o : group_fits (group_at s o).
Proof. unfold group_fits, group_at. cbn [gStart gEnd gGlyph]. repeat split; apply u32_lt. Qed.
(** all groups, over any map *)
Definition glyph12_over (gs : list group) (m : zmap N) (c : N) : option N :=
  match glyph12 gs c with Some g => Some g | None => mget (i32 c) m end.
Lemma glyph12_cons g gs m m' c : mget (i32 c) m' = (if in_group c g then Some ((gGlyph g + (c - gStart g)) mod 65536)%N else mget (i32 c) m) ->
  glyph12_over (g :: gs) m c = glyph12_over gs m' c.
Proof.
  intros E. unfold glyph12_over, glyph12. cbn [rev]. 
  assert (forall l, List.find (in_group c) (l ++ [g]) = match List.find (in_group c) l with Some x => Some x | None => if in_group c g then Some g else None end) as F.
  { induction l as [|x l IH]; cbn [app List.find]; [reflexivity|]. destruct (in_group c x); [reflexivity|exact IH]. }
  rewrite F. destruct (List.find (in_group c) (rev gs)) as [x|]; cbn [option_map]; [reflexivity|].
  rewrite E. destruct (in_group c g); reflexivity.
Qed.
Lemma groups12_ends s offs : Forall (fun o => u32 s (o + 4) <> 4294967295%N) offs -> forall m,
  exists m' n, (forall fuel, (n < fuel)%nat -> groups12 fuel s offs m = Some m') /\
  (forall c, (c < 4294967296)%N -> mget (i32 c) m' = glyph12_over (map (group_at s) offs) m c) /\
  (forall z, (forall c, (c < 4294967296)%N -> z <> i32 c) -> mget z m' = mget z m).
Proof.
  induction offs as [|o offs IH]; intros F m.
  - exists m, 0%nat. split; [reflexivity|]. split; reflexivity.
  - inversion F as [|? ? He F']; subst. pose proof (u32_lt s (o + 4)) as Hb.
    destruct (group12_ends (u32 s o) (u32 s (o + 4)) (u32 s (o + 8)) ltac:(lia) _ (u32 s o) m ltac:(lia) eq_refl) as [m1 [H1 [H2 H3]]].
    destruct (IH F' m1) as [m2 [n [K1 [K2 K3]]]].
    exists m2, (Nat.max n (N.to_nat (u32 s (o + 4) + 1 - u32 s o))). split; [|split].
    + intros fuel Hf. cbn [groups12]. rewrite H1 by lia. apply K1. lia.
    + intros c Hc. rewrite K2 by exact Hc. cbn [map]. symmetry. apply glyph12_cons. rewrite H2 by exact Hc. reflexivity.
    + intros z Hz. rewrite K3, H3 by exact Hz. reflexivity.
Qed.
Lemma groups12_forever s fuel offs o : In o offs -> u32 s (o + 4) = 4294967295%N -> forall m, groups12 fuel s offs m = None.
Proof.
  induction offs as [|p offs IH]; intros Hi He m; [destruct Hi|]. cbn [groups12]. destruct Hi as [->|Hi].
  - rewrite He, group12_forever by apply u32_lt. reflexivity.
  - destruct (group12 fuel _ _ _ _ m); [apply IH; assumption|reflexivity].
Qed.

(** the records of a table that is long enough *)
Lemma records_all s first size n : (0 < size)%nat -> (first + n * size <= length s)%nat ->
  records s first size n = map (fun i => (first + i * size)%nat) (seq 0 n).
Proof.
  intros Hs H. unfold records. rewrite Nat.min_l; [reflexivity|]. apply Nat.div_le_lower_bound; lia.
Qed.
Lemma records_in s first size n o : (0 < size)%nat -> In o (records s first size n) ->
  exists i, (i < n)%nat /\ o = (first + i * size)%nat /\ (o + size <= length s)%nat.
Proof.
  intros Hs H. unfold records in H. apply in_map_iff in H. destruct H as [i [<- H]]. apply in_seq in H. exists i. split; [lia|].
  split; [reflexivity|]. assert (i < (length s - first) / size)%nat as Hi by lia.
  pose proof (Nat.mul_div_le (length s - first) size ltac:(lia)). assert (first <= length s)%nat.
  { destruct (Nat.le_gt_cases first (length s)); [assumption|]. replace (length s - first)%nat with 0%nat in Hi by lia. rewrite Nat.div_0_l in Hi; lia. }
  nia.
Qed.
Lemma records_back s first size n i : (0 < size)%nat -> (i < n)%nat -> (first + i * size + size <= length s)%nat ->
  In (first + i * size)%nat (records s first size n).
Proof.
  intros Hs Hi Hl. unfold records. apply in_map_iff. exists i. split; [reflexivity|]. apply in_seq. split; [lia|]. cbn [Nat.add].
  apply Nat.min_glb_lt; [exact Hi|]. assert (S i <= (length s - first) / size)%nat; [|lia]. apply Nat.div_le_lower_bound; [lia|]. nia.
Qed.

Lemma w_group_len g : length (w_group g) = 12%nat. Proof. reflexivity. Qed.
Lemma groups_len gs : length (flat_map w_group gs) = (12 * length gs)%nat.
Proof. induction gs as [|g gs IH]; [reflexivity|]. cbn [flat_map]. rewrite app_length, IH, w_group_len. cbn [length]. lia. Qed.
Lemma group_at_front g s : group_fits g -> group_at (w_group g ++ s) 0 = g.
Proof.
  intros [A [B C]]. unfold group_at, w_group. rewrite <- !app_assoc. cbn [Nat.add].
  rewrite u32_front by exact A. change 4%nat with (length (w32 (gStart g)) + 0)%nat at 1. rewrite u32_app, u32_front by exact B.
  change 8%nat with (length (w32 (gStart g)) + 4)%nat. rewrite u32_app. change 4%nat with (length (w32 (gEnd g)) + 0)%nat. rewrite u32_app, u32_front by exact C.
  destruct g; reflexivity.
Qed.
Lemma group_at_app a s i : group_at (a ++ s) (length a + i) = group_at s i.
Proof. unfold group_at. rewrite <- !Nat.add_assoc, !u32_app. reflexivity. Qed.
Lemma groups_at gs : forall pre s, Forall group_fits gs ->
  map (group_at (pre ++ flat_map w_group gs ++ s)) (map (fun i => (length pre + i * 12)%nat) (seq 0 (length gs))) = gs.
Proof.
  induction gs as [|g gs IH]; intros pre s F; [reflexivity|]. inversion F; subst. cbn [flat_map length seq map].
  rewrite <- app_assoc. f_equal.
  - replace (length pre + 0 * 12)%nat with (length pre + 0)%nat by lia. rewrite group_at_app. apply group_at_front. assumption.
  - rewrite app_assoc. rewrite <- seq_shift, map_map, map_map. rewrite <- (IH (pre ++ w_group g) s) at 2 by assumption. rewrite map_map.
    apply map_ext. intros i. f_equal. rewrite app_length, w_group_len. lia.
Qed.

(** C51: format 12 *)
Lemma format12_spec len lang gs rest : Forall group_fits gs -> Forall (fun g => gEnd g <> 4294967295%N) gs ->
  (N.of_nat (length gs) < 4294967296)%N ->
  let s := table12 len lang gs ++ rest in (len < 4294967296)%N -> (N.to_nat len <= length s)%nat ->
  exists m n, (forall fuel, (n < fuel)%nat -> parseCmapFormat12 fuel s = Some (Ok m)) /\
    forall c, (c < 2147483648)%N -> mget (Z.of_N c) m = glyph12 gs c.
Proof.
  intros F E Hn s Hl Hlen.
  pose (head := w16 12 ++ w16 0 ++ w32 len ++ w32 lang ++ w32 (N.of_nat (length gs))).
  assert (s = head ++ flat_map w_group gs ++ rest) as Hs. { unfold s, table12, head. rewrite <- !app_assoc. reflexivity. }
  assert (length head = 16%nat) as Hh by reflexivity.
  assert (length s = 16 + 12 * length gs + length rest)%nat as Ls. { rewrite Hs, !app_length, groups_len, Hh. lia. }
  assert (u32 s 4 = len) as H4.
  { rewrite Hs. unfold head. rewrite <- !app_assoc. change 4%nat with (length (w16 12 ++ w16 0) + 0)%nat. rewrite (app_assoc (w16 12)), u32_app. apply u32_front, Hl. }
  assert (u32 s 12 = N.of_nat (length gs)) as H12.
  { rewrite Hs. unfold head. rewrite !app_assoc. rewrite <- (app_assoc _ (flat_map w_group gs)). rewrite <- (app_assoc _ (w32 (N.of_nat (length gs)))).
    change 12%nat with (length (((w16 12 ++ w16 0) ++ w32 len) ++ w32 lang) + 0)%nat. rewrite u32_app. apply u32_front, Hn. }
  unfold parseCmapFormat12. destruct (Nat.ltb_spec (length s) 16); [lia|]. rewrite H4, H12.
  destruct (N.ltb_spec (N.of_nat (length s)) len); [lia|]. rewrite Nat2N.id, records_all by lia.
  assert (map (group_at s) (map (fun i => (16 + i * 12)%nat) (seq 0 (length gs))) = gs) as Hg.
  { rewrite Hs. apply (groups_at gs head rest F). }
  destruct (groups12_ends s (map (fun i => (16 + i * 12)%nat) (seq 0 (length gs)))) with (m := @nil (Z * N)) as [m [n [H1 [H2 _]]]].
  { rewrite Forall_forall in *. intros o Ho. apply (in_map (group_at s)) in Ho. rewrite Hg in Ho. apply (E _ Ho). }
  exists m, n. split.
  - intros fuel Hf. rewrite H1 by exact Hf. reflexivity.
  - intros c Hc. rewrite <- i32_small by exact Hc. rewrite H2 by lia. unfold glyph12_over. rewrite Hg. destruct (glyph12 gs c); reflexivity.
Qed.
(** Termination, for every table. *)
Definition group_in (s : bytes) (k : nat) (g : group) : Prop :=
  (N.of_nat k < u32 s 12)%N /\ (16 + k * 12 + 12 <= length s)%nat /\ g = group_at s (16 + k * 12).
Lemma format12_terminates s :
  (exists fuel, parseCmapFormat12 fuel s <> None) <->
  ((length s < 16)%nat \/ (N.of_nat (length s) < u32 s 4)%N \/ forall k, (N.of_nat k < u32 s 12)%N -> (16 + k * 12 + 12 <= length s)%nat -> u32 s (16 + k * 12 + 4) <> 4294967295%N).
Proof.
  unfold parseCmapFormat12. destruct (Nat.ltb_spec (length s) 16) as [H|H].
  { split; [left; lia|intros _; exists 0%nat; discriminate]. }
  destruct (N.ltb_spec (N.of_nat (length s)) (u32 s 4)) as [K|K].
  { split; [right; left; lia|intros _; exists 0%nat; discriminate]. }
  split.
  - intros [fuel Hf]. right. right. intros k Hk Hl He. apply Hf.
    rewrite (groups12_forever s fuel _ (16 + k * 12)); [reflexivity| |exact He]. apply records_back; lia.
  - intros [C|[C|C]]; [lia|lia|].
    destruct (groups12_ends s (records s 16 12 (N.to_nat (u32 s 12)))) with (m := @nil (Z * N)) as [m [n [H1 _]]].
    + apply Forall_forall. intros o Ho. apply records_in in Ho; [|lia]. destruct Ho as [i [Hi [-> Hl]]]. apply C; lia.
    + exists (S n). rewrite H1 by lia. discriminate.
Qed.
(** More fuel does not change an answer. *)
Lemma group12_mono start end_ glyph k : forall fuel code m r, group12 fuel start end_ glyph code m = Some r -> group12 (fuel + k) start end_ glyph code m = Some r.
Proof.
  induction fuel as [|fuel IH]; intros code m r H; [discriminate|]. cbn [group12 Nat.add] in *. destruct (code <=? end_)%N; [apply IH; exact H|exact H].
Qed.
Lemma groups12_mono s k fuel offs : forall m r, groups12 fuel s offs m = Some r -> groups12 (fuel + k) s offs m = Some r.
Proof.
  induction offs as [|o offs IH]; intros m r H; [exact H|]. cbn [groups12] in *. destruct (group12 fuel _ _ _ _ m) as [m1|] eqn:E; [|discriminate].
  rewrite (group12_mono _ _ _ _ _ _ _ _ E). apply IH, H.
Qed.

(* ---------------------------------------------------------------- *)
(** Format 4 *)
Lemma codes_in start end_ c : In c (codes start end_) <-> (start <= c <= end_)%N /\ (c < 65535)%N.
Proof.
  unfold codes. rewrite in_map_iff. split.
  - intros [k [<- H]]. apply in_seq in H. lia.
  - intros [H1 H2]. exists (N.to_nat (c - start)). split; [lia|]. apply in_seq. lia.
Qed.
Lemma fold_glyphs (f : N -> N) l : forall m c, NoDup l -> (forall x, In x l -> (x < 65536)%N) ->
  mget (Z.of_N c) (fold_left (fun m c => add_glyph c (f c) m) l m) =
  if existsb (N.eqb c) l && negb (f c =? 0)%N then Some (f c) else mget (Z.of_N c) m.
Proof.
  induction l as [|x l IH]; intros m c Nd Hb; cbn [fold_left existsb andb]; [reflexivity|].
  inversion Nd as [|? ? Hx Nd']; subst. rewrite IH by (auto; intros y Hy; apply Hb; now right).
  destruct (N.eqb_spec c x) as [->|Hne]; cbn [orb].
  - assert (existsb (N.eqb x) l = false) as E. { apply not_true_is_false. intros E. apply existsb_in in E. contradiction. }
    rewrite E. cbn [andb]. unfold add_glyph. destruct (f x =? 0)%N; cbn [negb]; [reflexivity|]. rewrite mget_mset, Z.eqb_refl. reflexivity.
  - destruct (existsb (N.eqb c) l && negb (f c =? 0)%N); [reflexivity|]. unfold add_glyph. destruct (f x =? 0)%N; [reflexivity|].
    rewrite mget_mset. destruct (Z.eqb_spec (Z.of_N c) (Z.of_N x)); [lia|reflexivity].
Qed.
Lemma codes_nodup start end_ : NoDup (codes start end_).
Proof.
  unfold codes. apply FinFun.Injective_map_NoDup; [|apply seq_NoDup]. intros a b H. lia.
Qed.
Lemma existsb_codes c start end_ : existsb (N.eqb c) (codes start end_) = ((start <=? c) && (c <=? end_) && (c <? 65535))%N.
Proof.
  destruct (existsb (N.eqb c) (codes start end_)) eqn:E.
  - apply existsb_in, codes_in in E. symmetry. rewrite !andb_true_iff, !N.leb_le, N.ltb_lt. tauto.
  - symmetry. apply not_true_is_false. intros H. rewrite !andb_true_iff, !N.leb_le, N.ltb_lt in H.
    apply not_true_iff_false in E. apply E. apply existsb_in, codes_in. tauto.
Qed.

Section Format4.
Variables (head : bytes) (ss : list segment) (pad : N) (glyphs : list N) (rest : bytes).
Let n := length ss.
Let all := map sOffset ss ++ glyphs.
Let s := head ++ words (map sEnd ss) ++ w16 pad ++ words (map sStart ss) ++ words (map sDelta ss) ++ words (map sOffset ss) ++ words glyphs ++ rest.
Hypothesis Hhead : length head = 14%nat.
Hypothesis Hfit : Forall segment_fits ss.
Hypothesis Hglyphs : Forall (fun g => (g < 65536)%N) glyphs.

Let seg (i : nat) : segment := nth i ss (mkSeg 0 0 0 0).
Lemma seg_fits i : (i < n)%nat -> segment_fits (seg i).
Proof. intros H. rewrite Forall_forall in Hfit. apply Hfit, nth_In, H. Qed.
Lemma fits_map (f : segment -> N) : (forall x, segment_fits x -> (f x < 65536)%N) -> Forall (fun v => (v < 65536)%N) (map f ss).
Proof. intros H. rewrite Forall_forall in *. intros v Hv. apply in_map_iff in Hv. destruct Hv as [x [<- Hx]]. apply H, Hfit, Hx. Qed.
Lemma seg_map (f : segment -> N) i : (i < n)%nat -> nth i (map f ss) 0%N = f (seg i).
Proof. intros H. unfold seg. rewrite (nth_indep _ 0%N (f (mkSeg 0 0 0 0))) by (rewrite map_length; exact H). apply map_nth. Qed.
Lemma word_at pre l tail i o : Forall (fun v => (v < 65536)%N) l -> (i < length l)%nat -> o = (length pre + i * 2)%nat ->
  u16 (pre ++ words l ++ tail) o = nth i l 0%N.
Proof. intros F H ->. rewrite u16_app. replace (i * 2)%nat with (2 * i)%nat by lia. apply u16_words; assumption. Qed.
Lemma read_end i : (i < n)%nat -> u16 s (14 + i * 2) = sEnd (seg i).
Proof.
  intros H. unfold s. rewrite word_at with (i := i); [apply seg_map, H| |rewrite map_length; exact H|lia].
  apply fits_map. unfold segment_fits. tauto.
Qed.
Lemma read_start i : (i < n)%nat -> u16 s (16 + n * 2 + i * 2) = sStart (seg i).
Proof.
  intros H. unfold s. rewrite (app_assoc head), (app_assoc (head ++ _)). rewrite word_at with (i := i); [apply seg_map, H| |rewrite map_length; exact H|].
  - apply fits_map. unfold segment_fits. tauto.
  - rewrite !app_length, words_len, map_length, w16_len. fold n. lia.
Qed.
Lemma read_delta i : (i < n)%nat -> u16 s (16 + n * 2 + n * 2 + i * 2) = sDelta (seg i).
Proof.
  intros H. unfold s. rewrite (app_assoc head), (app_assoc (head ++ _)), (app_assoc ((head ++ _) ++ _)). rewrite word_at with (i := i); [apply seg_map, H| |rewrite map_length; exact H|].
  - apply fits_map. unfold segment_fits. tauto.
  - rewrite !app_length, !words_len, !map_length, w16_len. fold n. lia.
Qed.
Lemma words_app a b : words (a ++ b) = words a ++ words b.
Proof. unfold words. apply flat_map_app. Qed.
Lemma s_all : s = (head ++ words (map sEnd ss) ++ w16 pad ++ words (map sStart ss) ++ words (map sDelta ss)) ++ words all ++ rest.
Proof. unfold s, all. rewrite words_app, <- !app_assoc. reflexivity. Qed.
Lemma pre_len : length (head ++ words (map sEnd ss) ++ w16 pad ++ words (map sStart ss) ++ words (map sDelta ss)) = (16 + n * 2 + n * 2 + n * 2)%nat.
Proof. rewrite !app_length, !words_len, !map_length, w16_len. fold n. lia. Qed.
Lemma all_fits : Forall (fun v => (v < 65536)%N) all.
Proof. unfold all. apply Forall_app. split; [|exact Hglyphs]. apply fits_map. unfold segment_fits. tauto. Qed.
Lemma all_len : length all = (n + length glyphs)%nat.
Proof. unfold all. rewrite app_length, map_length. reflexivity. Qed.
Lemma read_all j : (j < length all)%nat -> u16 s (16 + n * 2 + n * 2 + n * 2 + j * 2) = nth j all 0%N.
Proof.
  intros H. rewrite s_all. apply word_at; [exact all_fits|exact H|]. rewrite pre_len. reflexivity.
Qed.
Lemma s_len : length s = (16 + n * 2 + n * 2 + n * 2 + length all * 2 + length rest)%nat.
Proof. rewrite s_all, app_length, pre_len, app_length, words_len. lia. Qed.

(** the loop from segment [i] on *)
Hypothesis Hin : points_inside ss glyphs.
Lemma segment_value i c : (i < n)%nat -> (sStart (seg i) <= c <= sEnd (seg i))%N -> 
  segment_glyph s (16 + n * 2 + n * 2 + n * 2) i (sStart (seg i)) (sDelta (seg i)) (sOffset (seg i)) c = glyph_in all i (seg i) c.
Proof.
  intros Hi Hc. unfold segment_glyph, glyph_in. destruct (N.eqb_spec (sOffset (seg i)) 0) as [E|E]; [reflexivity|].
  assert (nth_error ss i = Some (seg i)) as Hne by (apply nth_error_nth', Hi). pose proof (Hin i _ Hne E) as Hlt. fold n in Hlt.
  destruct (seg_fits i Hi) as [_ [_ [_ [_ Ev]]]]. apply N.even_spec in Ev. destruct Ev as [h Hh].
  rewrite Hh in *. rewrite (N.mul_comm 2 h), N.div_mul in * by lia.
  set (j := (i + N.to_nat h + N.to_nat (c - sStart (seg i)))%nat).
  replace (16 + n * 2 + n * 2 + n * 2 + i * 2 + N.to_nat (h * 2) + N.to_nat (c - sStart (seg i)) * 2)%nat with (16 + n * 2 + n * 2 + n * 2 + j * 2)%nat by (unfold j; lia).
  pose proof s_len as Ls. pose proof all_len as La. assert (j < length all)%nat as Hj by (unfold j; lia).
  destruct (Nat.leb_spec (16 + n * 2 + n * 2 + n * 2 + j * 2 + 2) (length s)) as [L|L]; [|lia].
  rewrite read_all by exact Hj. reflexivity.
Qed.
Lemma glyph4_below l : forall i least c, increasing4 least l -> (c < least)%N -> glyph4 all i l c = 0%N.
Proof.
  induction l as [|x l IH]; intros i least c H Hc; [reflexivity|]. cbn [increasing4] in H. destruct H as [A [B C]]. cbn [glyph4].
  rewrite (proj2 (N.leb_le c (sEnd x))) by lia. destruct (N.leb_spec (sStart x) c); [lia|reflexivity].
Qed.
Lemma segments4_spec k : forall i least m, (i + k = n)%nat -> increasing4 least (skipn i ss) ->
  exists m', segments4 k i n s m = Ok m' /\
  (forall c, (c < 65535)%N -> mget (Z.of_N c) m' = let g := glyph4 all i (skipn i ss) c in if (g =? 0)%N then mget (Z.of_N c) m else Some g) /\
  (forall c, (65535 <= c)%N -> mget (Z.of_N c) m' = mget (Z.of_N c) m).
Proof.
  induction k as [|k IH]; intros i least m Hk Hinc.
  - exists m. split; [reflexivity|]. split; [|reflexivity]. intros c Hc. rewrite skipn_all2 by (fold n; lia). reflexivity.
  - assert (i < n)%nat as Hi by lia. assert (skipn i ss = seg i :: skipn (i + 1) ss) as Hsk.
    { unfold seg. clear -Hi. unfold n in Hi. revert i Hi. induction ss as [|a l IH]; intros i Hi; [cbn in Hi; lia|].
      destruct i as [|i]; [reflexivity|]. cbn [skipn nth Nat.add]. apply IH. cbn in Hi. lia. }
    rewrite Hsk in Hinc. cbn [increasing4] in Hinc. destruct Hinc as [H1 [H2 H3]].
    destruct (seg_fits i Hi) as [F1 [F2 [F3 [F4 _]]]].
    cbn [segments4]. pose proof s_len as Ls. pose proof all_len as La.
    destruct (Nat.ltb_spec (length s) (16 + n * 2 + n * 2 + n * 2 + i * 2 + 2)); [lia|].
    rewrite (read_start i Hi), (read_end i Hi), (read_delta i Hi).
    rewrite (read_all i) by lia.
    assert (nth i all 0%N = sOffset (seg i)) as Ho. { unfold all. rewrite app_nth1 by (rewrite map_length; exact Hi). apply seg_map, Hi. }
    rewrite Ho. destruct ((sEnd (seg i) =? 65535) && (sStart (seg i) =? 65535))%N eqn:Eb.
    { apply andb_true_iff in Eb. destruct Eb as [Ee Es]. apply N.eqb_eq in Ee, Es. exists m. split; [reflexivity|]. split; [|reflexivity]. intros c Hc. rewrite Hsk. cbn [glyph4]. rewrite (proj2 (N.leb_le c _)) by lia.
      destruct (N.leb_spec (sStart (seg i)) c); [lia|reflexivity]. }
    match goal with |- context [fold_left ?f ?l m] => destruct (IH (i + 1)%nat (sEnd (seg i) + 1)%N (fold_left f l m) ltac:(lia) H3) as [m' [K1 [K2 K3]]] end;
      exists m'; (split; [exact K1|]);
      assert (forall c, mget (Z.of_N c) (fold_left (fun m c => add_glyph c (segment_glyph s (16 + n * 2 + n * 2 + n * 2) i (sStart (seg i)) (sDelta (seg i)) (sOffset (seg i)) c) m) (codes (sStart (seg i)) (sEnd (seg i))) m) =
         if ((sStart (seg i) <=? c) && (c <=? sEnd (seg i)) && (c <? 65535) && negb (glyph_in all i (seg i) c =? 0))%N then Some (glyph_in all i (seg i) c) else mget (Z.of_N c) m) as Hm
       by (intros c; rewrite fold_glyphs by (first [apply codes_nodup|intros x Hx; apply codes_in in Hx; lia]); rewrite existsb_codes;
           destruct (N.leb_spec (sStart (seg i)) c), (N.leb_spec c (sEnd (seg i))); cbn [andb]; try reflexivity; rewrite segment_value by lia; reflexivity);
      (split; [|intros c Hc; rewrite K3 by exact Hc; rewrite Hm; destruct (N.ltb_spec c 65535); [lia|]; rewrite andb_false_r; reflexivity]);
      intros c Hc; rewrite K2 by exact Hc; cbv zeta; rewrite Hm, Hsk; cbn [glyph4]; rewrite (proj2 (N.ltb_lt c 65535)) by exact Hc; rewrite andb_true_r;
      (destruct (N.leb_spec c (sEnd (seg i))); 
        [rewrite (glyph4_below _ _ _ c H3) by lia; rewrite N.eqb_refl; destruct (N.leb_spec (sStart (seg i)) c); cbn [andb];
           [destruct (glyph_in all i (seg i) c =? 0)%N; reflexivity|reflexivity]
        |rewrite andb_false_r; cbn [andb]; reflexivity]).
Qed.
End Format4.

Lemma format4_spec len lang search pad ss glyphs rest :
  Forall segment_fits ss -> Forall (fun g => (g < 65536)%N) glyphs -> increasing4 0 ss -> points_inside ss glyphs ->
  (N.of_nat (length ss) < 32768)%N -> (len < 65536)%N ->
  let s := table4 len lang search pad ss glyphs ++ rest in
  (N.to_nat len <= length s)%nat ->
  exists m, parseCmapFormat4 s = Ok m /\
  forall c, mget (Z.of_N c) m = let g := glyph4 (map sOffset ss ++ glyphs) 0 ss c in if (g =? 0)%N || (65535 <=? c)%N then None else Some g.
Proof.
  intros Hf Hg Hinc Hin Hn Hlen s Hl.
  pose (head := words [4%N; len; lang; (2 * N.of_nat (length ss))%N; fst (fst search); snd (fst search); snd search]).
  assert (s = head ++ words (map sEnd ss) ++ w16 pad ++ words (map sStart ss) ++ words (map sDelta ss) ++ words (map sOffset ss) ++ words glyphs ++ rest) as Hs.
  { unfold s, table4. rewrite <- !app_assoc. reflexivity. }
  assert (length head = 14%nat) as Hh by reflexivity.
  destruct (segments4_spec head ss pad glyphs rest Hh Hf Hg Hin (length ss) 0 0%N [] eq_refl Hinc) as [m [K1 [K2 K3]]].
  exists m. split.
  - unfold parseCmapFormat4. assert (14 <= length s)%nat as Ls by (rewrite Hs, app_length, Hh; lia).
    destruct (Nat.ltb_spec (length s) 14); [lia|].
    assert (u16 s 2 = len) as E2. { rewrite Hs. unfold head, words at 1. cbn [flat_map]. rewrite <- app_assoc. change 2%nat with (length (w16 4) + 0)%nat. rewrite u16_app, <- app_assoc. apply u16_front, Hlen. }
    assert (u16 s 6 = 2 * N.of_nat (length ss))%N as E6.
    { rewrite Hs. unfold head. change 6%nat with (length (words [4%N; len; lang]) + 0)%nat.
      change (words [4%N; len; lang; (2 * N.of_nat (length ss))%N; fst (fst search); snd (fst search); snd search]) with (words [4%N; len; lang] ++ w16 (2 * N.of_nat (length ss)) ++ words [fst (fst search); snd (fst search); snd search]).
      rewrite <- !app_assoc, u16_app. apply u16_front. lia. }
    rewrite E2, E6. destruct (N.ltb_spec (N.of_nat (length s)) len); [lia|]. rewrite (N.mul_comm 2), N.div_mul, Nat2N.id by lia.
    rewrite Hs. exact K1.
  - intros c. cbv zeta. destruct (N.leb_spec 65535 c); [rewrite orb_true_r, K3 by lia; reflexivity|]. rewrite orb_false_r, K2 by lia. reflexivity.
Qed.
