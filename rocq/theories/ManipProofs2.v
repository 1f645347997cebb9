(** Proofs about core/manipulate: rotation, references, the page tree. *)
From Verif Require Import WriterModel ParseModel ManipModel ManipSpec Scan ReadProofs ManipProofs.
From Coq Require Import Lia ZArith.
Local Open Scope Z_scope.

Lemma has_value_extract d key v : key_name key -> has_value d key v -> extractDictValue d key = v.
Proof.
  intros Hk [a w b -> Ha Hw Hv Hb|a n b -> -> Hs Hn Hb Hp|a w b -> Ha Hw Hv].
  - apply extract_spaced; assumption.
  - apply extract_named; assumption.
  - apply extract_array; assumption.
Qed.

(** decZ *)
Lemma decZ_neg z : z < 0 -> decZ z = "-"%byte :: dec (Z.to_N (- z)).
Proof. destruct z; intros H; try lia. reflexivity. Qed.
Lemma atoi_decZ64 z : int64 z -> atoi (decZ z) = Some z.
Proof.
  intros [H1 H2]. destruct (Z_lt_le_dec z 0) as [H|H].
  - rewrite decZ_neg by exact H. cbn [atoi]. change (beqb "-" "-") with true. cbn iota.
    pose proof (dec_nonnil (Z.to_N (- z))) as Hn. destruct (dec (Z.to_N (- z))) as [|c r] eqn:E; [contradiction|].
    rewrite <- E. rewrite dec_digits, num_dec. cbn [andb].
    destruct (N.leb_spec (Z.to_N (- z)) (int64_max + 1)); [f_equal; lia|]. unfold int64_max in *. lia.
  - apply atoi_decZ. lia.
Qed.
Lemma digit_key b : is_digit b = true -> key_byte b = true.
Proof. destruct b; cbn; intros H; try reflexivity; discriminate. Qed.
Lemma forallb_imp {A} (f g : A -> bool) l : (forall x, f x = true -> g x = true) -> forallb f l = true -> forallb g l = true.
Proof. intros H. rewrite !forallb_forall. auto. Qed.
Lemma plain_word_decZ z : plain_word (decZ z).
Proof.
  destruct (Z_lt_le_dec z 0) as [H|H].
  - rewrite decZ_neg by exact H. split; [discriminate|]. cbn [forallb]. change (key_byte "-") with true. cbn [andb].
    apply (forallb_imp is_digit); [apply digit_key|apply dec_digits].
  - rewrite decZ_nonneg by exact H. split; [apply dec_nonnil|].
    apply (forallb_imp is_digit); [apply digit_key|apply dec_digits].
Qed.
Lemma plain_word_word v : plain_word v -> word v.
Proof.
  intros [H1 H2]. split; [exact H1|]. split.
  - apply (forallb_imp key_byte); [|exact H2]. intros b. unfold key_byte. destruct (plain_byte b); [reflexivity|discriminate].
  - destruct v as [|c v]; [reflexivity|]. cbn [forallb starts_with] in *. apply andb_prop in H2. destruct H2 as [H2 _].
    destruct c; try reflexivity; discriminate.
Qed.
Lemma word_decZ z : word (decZ z).
Proof. apply plain_word_word, plain_word_decZ. Qed.
Lemma plain_word_slash v : plain_word v -> ~ In "/"%byte v.
Proof. intros [_ H] Hi. rewrite forallb_forall in H. specialize (H _ Hi). discriminate. Qed.
Lemma plain_word_brackets v : plain_word v -> no_brackets v.
Proof. intros [_ H]. rewrite forallb_forall in H. split; intros Hi; specialize (H _ Hi); discriminate. Qed.
Lemma gap_slash w : gap w -> ~ In "/"%byte w.
Proof. intros [_ H] Hi. rewrite forallb_forall in H. specialize (H _ Hi). discriminate. Qed.
Lemma gap_brackets w : gap w -> no_brackets w.
Proof. intros [_ H]. rewrite forallb_forall in H. split; intros Hi; specialize (H _ Hi); discriminate. Qed.

Ltac key := eexists; split; [reflexivity|reflexivity].
Lemma key_Rotate : key_name (bs "/Rotate"). Proof. key. Qed.
Lemma key_Count : key_name (bs "/Count"). Proof. key. Qed.
Lemma key_Kids : key_name (bs "/Kids"). Proof. key. Qed.
Lemma key_Type : key_name (bs "/Type"). Proof. key. Qed.
Lemma key_Pages : key_name (bs "/Pages"). Proof. key. Qed.
Lemma key_Parent : key_name (bs "/Parent"). Proof. key. Qed.

(** Setting a number leaves other keys alone. *)
Lemma set_spaced_other k2 key a w v b new : key_name k2 -> key_name key -> prefixb k2 key = false ->
  sole key a b -> gap w -> plain_word v -> word_ends b -> plain_word new ->
  (starts_with (beqb "[") (extractDictValue (a ++ key ++ w ++ v ++ b) k2) = true ->
   contains key (extractDictValue (a ++ key ++ w ++ v ++ b) k2) = false) ->
  extractDictValue (setDictValue (a ++ key ++ w ++ v ++ b) key new) k2 =
  extractDictValue (a ++ key ++ w ++ v ++ b) k2.
Proof.
  intros Hk2 Hk Hp Hs Hw Hv Hb Hn Harr.
  rewrite set_spaced by (try apply plain_word_word; assumption).
  replace (w ++ v ++ b) with ((w ++ v) ++ b) in * by (symmetry; apply app_assoc).
  replace (bs " " ++ new ++ b) with ((bs " " ++ new) ++ b) by (symmetry; apply app_assoc).
  apply other_key; try assumption.
  - apply gap_not_plain, Hw.
  - destruct Hw as [Hw _]. destruct w; [contradiction|discriminate].
  - intros Hi. apply in_app_or in Hi. destruct Hi as [Hi|Hi]; [apply (gap_slash _ Hw Hi)|apply (plain_word_slash _ Hv Hi)].
  - apply no_brackets_app; [apply gap_brackets, Hw|apply plain_word_brackets, Hv].
  - apply gap_not_plain, space_gap.
  - discriminate.
  - intros Hi. apply in_app_or in Hi. destruct Hi as [Hi|Hi]; [apply (gap_slash _ space_gap Hi)|apply (plain_word_slash _ Hn Hi)].
  - apply no_brackets_app; [apply gap_brackets, space_gap|apply plain_word_brackets, Hn].
Qed.

(* -------------------- rotation -------------------- *)

Lemma new_rotation_mod cur angle : int64 (cur + angle) -> new_rotation cur angle = (cur + angle) mod 360.
Proof.
  intros [H1 H2]. unfold new_rotation, wrap64.
  rewrite (Z.mod_small (cur + angle + 2 ^ 63)) by lia.
  replace (cur + angle + 2 ^ 63 - 2 ^ 63) with (cur + angle) by lia.
  set (s := cur + angle). pose proof (Z.rem_bound_abs s 360 ltac:(lia)) as B. pose proof (Z.quot_rem' s 360) as Q.
  destruct (Z.ltb_spec (Z.rem s 360) 0) as [H|H].
  - apply (Z.mod_unique s 360 (Z.quot s 360 - 1)); [left; lia|lia].
  - apply (Z.mod_unique s 360 (Z.quot s 360)); [left; lia|lia].
Qed.

Lemma current_decZ z : int64 z -> current_int (decZ z) = z.
Proof.
  intros H. unfold current_int. pose proof (atoi_decZ64 z H) as E.
  destruct (decZ z); [discriminate|]. rewrite E. reflexivity.
Qed.

Definition angle_ok (a : Z) : bool := (a =? 90) || (a =? 180) || (a =? 270).
Lemma angle_ok_in a : In a [90; 180; 270] <-> angle_ok a = true.
Proof.
  unfold angle_ok. split.
  - intros [<-|[<-|[<-|[]]]]; reflexivity.
  - rewrite !orb_true_iff, !Z.eqb_eq. intros [[->| ->]| ->]; cbn; tauto.
Qed.

Lemma rotate_bad stack page angle m : ~ In angle [90; 180; 270] -> RotatePage stack page angle m = Err.
Proof.
  intros H. unfold RotatePage. fold (angle_ok angle). destruct (angle_ok angle) eqn:E; [|reflexivity].
  apply angle_ok_in in E. contradiction.
Qed.
Lemma rotate_only stack page angle m m' : RotatePage stack page angle m = Ok m' -> In angle [90; 180; 270].
Proof.
  intros H. destruct (angle_ok angle) eqn:E; [apply angle_ok_in, E|].
  unfold RotatePage in H. fold (angle_ok angle) in H. rewrite E in H. discriminate.
Qed.

Lemma rotate_text t a b r angle : rotation_frame a b -> rotation_is t a b r -> int64 r -> int64 (r + angle) ->
  setDictValue t (bs "/Rotate") (decZ (new_rotation (current_int (extractDictValue t (bs "/Rotate"))) angle))
  = a ++ bs "/Rotate" ++ bs " " ++ decZ ((r + angle) mod 360) ++ b.
Proof.
  intros [Hs Hb] (w & Hw & ->) Hr Ha.
  rewrite extract_spaced by (try apply key_Rotate; try apply word_decZ; try apply Hs; assumption).
  rewrite current_decZ by exact Hr. rewrite new_rotation_mod by exact Ha.
  apply set_spaced; try assumption; [apply key_Rotate|apply word_decZ|apply word_decZ].
Qed.

Lemma rotate_page stack pages page angle m n t a b r :
  getAllPageObjectNumbers stack (mSrc m) = Ok pages ->
  1 <= page <= Z.of_nat (length pages) -> nth (Z.to_nat (page - 1)) pages 0 = n ->
  In angle [90; 180; 270] -> mget n (mObjects m) = Some t ->
  rotation_frame a b -> rotation_is t a b r -> int64 r -> int64 (r + angle) ->
  exists m', RotatePage stack page angle m = Ok m' /\ mSrc m' = mSrc m /\
    mget n (mObjects m') = Some (a ++ bs "/Rotate" ++ bs " " ++ decZ ((r + angle) mod 360) ++ b) /\
    forall k, k <> n -> mget k (mObjects m') = mget k (mObjects m).
Proof.
  intros Hp Hr Hn Ha Ht Hf Hi Hr1 Hr2. unfold RotatePage, getPageObjectNumber.
  apply angle_ok_in in Ha. fold (angle_ok angle). rewrite Ha. cbn [negb]. rewrite Hp. cbn [rbind].
  destruct (Z.ltb_spec page 1); [lia|]. destruct (Z.ltb_spec (Z.of_nat (length pages)) page); [lia|]. cbn [orb].
  rewrite (nth_error_nth' pages 0) by lia. rewrite Hn. cbn [rbind]. rewrite Ht.
  eexists. split; [reflexivity|]. cbn [mSrc mObjects]. repeat split.
  - rewrite mget_mset_eq. rewrite (rotate_text t a b r) by assumption. reflexivity.
  - intros k Hk. apply mget_mset_neq, Hk.
Qed.

(** Histories of rotations. *)
Lemma rotation_history stack pages m ops (A B : Z -> bytes) (R : Z -> Z) :
  getAllPageObjectNumbers stack (mSrc m) = Ok pages ->
  (forall n, In n pages -> rotation_frame (A n) (B n) /\ - 2 ^ 63 <= R n < 2 ^ 63 - 360 /\
     exists t, mget n (mObjects m) = Some t /\ rotation_is t (A n) (B n) (R n)) ->
  Forall (valid_rotation pages) ops ->
  exists m', run_until (fun op => RotatePage stack (fst op) (snd op)) ops m = (Ok tt, m') /\ mSrc m' = mSrc m /\
    (forall n, In n pages -> exists t', mget n (mObjects m') = Some t' /\
        rotation_is t' (A n) (B n) (if touched pages n ops then (R n + turned pages n ops) mod 360 else R n)) /\
    (forall n, ~ In n pages -> mget n (mObjects m') = mget n (mObjects m)).
Proof.
  revert m R. induction ops as [|[p g] ops IH]; intros m R Hp Hinv Hops.
  - exists m. cbn [run_until turned touched existsb fold_right]. repeat split; auto.
    intros n Hn. destruct (Hinv n Hn) as (F & B1 & t & Ht & Hi). exists t. auto.
  - inversion Hops as [|? ? [V1 V2] Hops']; subst. cbn [fst snd] in V1, V2.
    remember (nth (Z.to_nat (p - 1)) pages 0) as n eqn:En.
    assert (Hin : In n pages) by (subst n; apply nth_In; lia).
    destruct (Hinv n Hin) as (F & B1 & t & Ht & Hi).
    assert (Hg : 0 <= g < 360) by (destruct V2 as [<-|[<-|[<-|[]]]]; lia).
    destruct (rotate_page stack pages p g m n t (A n) (B n) (R n)) as (m1 & E1 & S1 & G1 & O1);
      auto; try (unfold int64; lia).
    destruct (IH m1 (fun k => if k =? n then (R n + g) mod 360 else R k)) as (m' & E2 & S2 & G2 & O2).
    + rewrite S1. exact Hp.
    + intros k Hk. destruct (Hinv k Hk) as (Fk & Bk & tk & Htk & Hik).
      destruct (Z.eqb_spec k n) as [->|Hkn].
      * split; [exact F|]. split; [pose proof (Z.mod_pos_bound (R n + g) 360 ltac:(lia)); lia|].
        eexists. split; [exact G1|]. exists (bs " "). split; [apply space_gap|reflexivity].
      * split; [exact Fk|]. split; [exact Bk|]. exists tk. rewrite O1 by exact Hkn. split; assumption.
    + exact Hops'.
    + exists m'. split; [|split; [congruence|split]].
      * cbn [run_until fst snd]. rewrite E1. exact E2.
      * intros k Hk. destruct (G2 k Hk) as (t' & T1 & T2). exists t'. split; [exact T1|].
        cbn [touched existsb turned fold_right fst snd]. rewrite <- En. fold (turned pages k ops). fold (touched pages k ops).
        destruct (Z.eqb_spec k n) as [->|Hkn].
        -- rewrite Z.eqb_refl. cbn [orb].
           replace ((R n + (g + turned pages n ops)) mod 360) with
             (if touched pages n ops then ((R n + g) mod 360 + turned pages n ops) mod 360 else (R n + g) mod 360); [exact T2|].
           destruct (touched pages n ops) eqn:Et.
           ++ rewrite Z.add_mod_idemp_l by lia. f_equal. lia.
           ++ f_equal. assert (turned pages n ops = 0); [|lia]. clear - Et.
              induction ops as [|op ops IHo]; [reflexivity|]. cbn [touched existsb] in Et. apply orb_false_elim in Et. destruct Et as [E1 E2].
              cbn [turned fold_right]. rewrite E1. fold (turned pages n ops). rewrite IHo by exact E2. reflexivity.
        -- destruct (Z.eqb_spec n k); [congruence|]. cbn [orb]. exact T2.
      * intros k Hk. rewrite O2 by exact Hk. apply O1. intros ->. contradiction.
Qed.

(* -------------------- splitting -------------------- *)

Lemma seq_map_shift (a : Z) (s k : nat) :
  map (fun i => a + Z.of_nat i) (seq s k) = map (fun i => a + Z.of_nat s + Z.of_nat i) (seq 0 k).
Proof.
  revert s a. induction k as [|k IH]; intros s a; [reflexivity|]. cbn [seq map]. f_equal; [lia|].
  rewrite (IH (S s)), (IH 1%nat (a + Z.of_nat s)). apply map_ext. intros i. lia.
Qed.
Lemma range_split (a : Z) (s k : nat) :
  map (fun i => a + Z.of_nat i) (seq 0 (s + k)) =
  map (fun i => a + Z.of_nat i) (seq 0 s) ++ map (fun i => a + Z.of_nat s + Z.of_nat i) (seq 0 k).
Proof. rewrite seq_app, map_app. f_equal. apply seq_map_shift. Qed.

(** The ranges cover [start..total] in order, each has [per] pages except
    perhaps the last. *)
Lemma ranges_cover fuel start total per : 1 <= per -> start <= total + 1 -> total - start + 1 <= Z.of_nat fuel * per ->
  flat_map range_pages (ranges_from fuel start total per) = range_pages (start, total) /\
  Forall (fun r => start <= fst r <= snd r /\ snd r <= total /\ snd r - fst r + 1 <= per /\
                   (snd r < total -> snd r - fst r + 1 = per)) (ranges_from fuel start total per).
Proof.
  intros Hp. revert start. induction fuel as [|fuel IH]; intros start Hs Hf.
  - cbn [ranges_from flat_map]. split; [|constructor]. unfold range_pages. cbn [fst snd].
    replace (Z.to_nat (total - start + 1)) with 0%nat by lia. reflexivity.
  - cbn [ranges_from]. destruct (Z.ltb_spec total start) as [H|H].
    + split; [|constructor]. unfold range_pages. cbn [flat_map fst snd].
      replace (Z.to_nat (total - start + 1)) with 0%nat by lia. reflexivity.
    + cbn zeta. destruct (Z.ltb_spec total (start + per - 1)) as [H2|H2].
      * assert (E : ranges_from fuel (start + per) total per = []).
        { destruct fuel; [reflexivity|]. cbn [ranges_from]. destruct (Z.ltb_spec total (start + per)); [reflexivity|lia]. }
        rewrite E. cbn [flat_map]. rewrite app_nil_r. split; [reflexivity|].
        constructor; [cbn [fst snd]; lia|constructor].
      * destruct (IH (start + per)) as [IH1 IH2]; [lia|nia|]. split.
        -- cbn [flat_map]. rewrite IH1. unfold range_pages. cbn [fst snd].
           replace (Z.to_nat (total - start + 1)) with (Z.to_nat (start + per - 1 - start + 1) + Z.to_nat (total - (start + per) + 1))%nat by lia.
           rewrite range_split. f_equal. apply map_ext. intros i. lia.
        -- constructor; [cbn [fst snd]; lia|]. apply Forall_forall. intros r Hr.
           rewrite Forall_forall in IH2. specialize (IH2 r Hr). lia.
Qed.
Lemma page_ranges_cover total per : 0 <= total -> 1 <= per ->
  flat_map range_pages (page_ranges total per) = range_pages (1, total) /\
  Forall (fun r => 1 <= fst r <= snd r /\ snd r <= total /\ snd r - fst r + 1 <= per /\
                   (snd r < total -> snd r - fst r + 1 = per)) (page_ranges total per).
Proof. intros H1 H2. apply ranges_cover; [exact H2|lia|]. nia. Qed.

Lemma result_map_ok {A B} (f : A -> result B) l r : result_map f l = Ok r <-> Forall2 (fun a b => f a = Ok b) l r.
Proof.
  revert r. induction l as [|a l IH]; intros r; cbn [result_map].
  - split; [intros H; injection H as <-; constructor|intros H; inversion H; reflexivity].
  - destruct (f a) as [b| |] eqn:E; cbn [rbind].
    + destruct (result_map f l) as [r'| |] eqn:E2; cbn [rmap].
      * split.
        -- intros H. assert (r = b :: r') by congruence. subst r. constructor; [exact E|]. apply IH. reflexivity.
        -- intros H. inversion H as [|? ? ? ? H1 H2]; subst. apply IH in H2. congruence.
      * split; [discriminate|]. intros H. inversion H as [|? ? ? ? H1 H2]; subst. apply IH in H2. discriminate.
      * split; [discriminate|]. intros H. inversion H as [|? ? ? ? H1 H2]; subst. apply IH in H2. discriminate.
    + split; [discriminate|]. intros H. inversion H as [|? ? ? ? H1 H2]; subst. congruence.
    + split; [discriminate|]. intros H. inversion H as [|? ? ? ? H1 H2]; subst. congruence.
Qed.

(* -------------------- references -------------------- *)

Lemma ref_fires n w1 g w2 rest : 0 <= n -> gap w1 -> g <> [] -> forallb is_digit g = true -> gap w2 ->
  m_reference (decZ n ++ w1 ++ g ++ w2 ++ bs "R" ++ rest) = Some (decZ n, rest).
Proof.
  intros Hn Hw1 Hg1 Hg2 Hw2. unfold m_reference. rewrite decZ_nonneg by exact Hn.
  assert (HD : forall w r, gap w -> match w ++ r with [] => True | b :: _ => is_digit b = false end).
  { intros w r [H1 H2]. destruct w as [|c w]; [contradiction|]. cbn [app forallb] in *. apply andb_prop in H2.
    destruct H2 as [H2 _]. destruct c; try reflexivity; discriminate. }
  rewrite digits1_app; [|apply dec_nonnil|apply dec_digits|apply HD, Hw1]. cbn [obind].
  rewrite ws1_gap; [|exact Hw1|]. 2:{ destruct g as [|c g]; [contradiction|]. cbn [app starts_with forallb] in *.
    apply andb_prop in Hg2. apply digit_not_ws, Hg2. }
  cbn [obind]. rewrite digits1_app; [|exact Hg1|exact Hg2|apply HD, Hw2]. cbn [obind].
  rewrite ws1_gap by (exact Hw2 || reflexivity). cbn [obind]. rewrite lit_app. reflexivity.
Qed.

(** A reference is recognised wherever one starts. *)
Lemma ref_here_fires s : ref_here s -> exists n r, m_reference s = Some (n, r).
Proof.
  intros (n & w1 & g & w2 & r & -> & Hn1 & Hn2 & Hw1 & Hg1 & Hg2 & Hw2). exists n, r. unfold m_reference.
  assert (HD : forall w r, gap w -> match w ++ r with [] => True | b :: _ => is_digit b = false end).
  { intros w r0 [H1 H2]. destruct w as [|c w]; [contradiction|]. cbn [app forallb] in *. apply andb_prop in H2.
    destruct H2 as [H2 _]. destruct c; try reflexivity; discriminate. }
  rewrite digits1_app; [|exact Hn1|exact Hn2|apply HD, Hw1]. cbn [obind].
  rewrite ws1_gap; [|exact Hw1|]. 2:{ destruct g as [|c g]; [contradiction|]. cbn [app starts_with forallb] in *.
    apply andb_prop in Hg2. apply digit_not_ws, Hg2. }
  cbn [obind]. rewrite digits1_app; [|exact Hg1|exact Hg2|apply HD, Hw2]. cbn [obind].
  rewrite ws1_gap by (exact Hw2 || reflexivity). cbn [obind]. rewrite lit_app. reflexivity.
Qed.
Lemma no_refs_in (s : bytes) n : forallb (fun j => match m_reference (skipn j s) with None => true | _ => false end) (seq 0 n) = true ->
  forall j, (j < n)%nat -> ~ ref_here (skipn j s).
Proof.
  intros H j Hj R. apply ref_here_fires in R. destruct R as (x & r & R). rewrite forallb_forall in H.
  specialize (H j). rewrite R in H. assert (false = true); [|discriminate]. apply H. apply in_seq. lia.
Qed.

Lemma find_all_skip m a s : find_all m (a ++ s) (length a) = find_all m s 0.
Proof. induction a as [|c a IH]; [reflexivity|]. cbn [app length find_all]. exact IH. Qed.
Lemma find_all_here m a s x : a <> [] -> m (a ++ s) = Some (x, s) -> find_all m (a ++ s) 0 = a :: find_all m s 0.
Proof.
  intros Ha Hm. destruct a as [|c a]; [contradiction|]. cbn [app find_all]. cbn [app] in Hm. rewrite Hm.
  replace (length (c :: a ++ s) - length s)%nat with (length (c :: a)) by (cbn [length]; rewrite app_length; lia).
  f_equal.
  - apply (firstn_app_all (c :: a) s).
  - replace (length (c :: a) - 1)%nat with (length a) by (cbn [length]; lia). apply find_all_skip.
Qed.
Lemma find_all_before m a s : (forall j, (j < length a)%nat -> m (skipn j (a ++ s)) = None) ->
  find_all m (a ++ s) 0 = find_all m s 0.
Proof.
  induction a as [|c a IH]; intros H; [reflexivity|]. cbn [app find_all].
  pose proof (H 0%nat ltac:(cbn [length]; lia)) as H0. cbn [skipn app] in H0. rewrite H0.
  apply IH. intros j Hj. apply (H (S j)). cbn [length]. lia.
Qed.
Lemma no_ref_head c s : is_digit c = false -> m_reference (c :: s) = None.
Proof. intros H. unfold m_reference, digits1. cbn [take_while]. rewrite H. reflexivity. Qed.
Lemma no_ref_class a s : forallb (fun c => negb (is_digit c)) a = true ->
  forall j, (j < length a)%nat -> m_reference (skipn j (a ++ s)) = None.
Proof.
  intros H j Hj. rewrite skipn_app_l by lia. destruct (skipn j a) as [|c x] eqn:E.
  - apply (f_equal (@length byte)) in E. rewrite skipn_length in E. cbn [length] in E. lia.
  - cbn [app]. apply no_ref_head. rewrite forallb_forall in H.
    assert (Hi : In c a) by (rewrite <- (firstn_skipn j a), E; apply in_or_app; right; left; reflexivity).
    specialize (H _ Hi). destruct (is_digit c); [discriminate|reflexivity].
Qed.
Lemma space_no_digit s : forallb space_byte s = true -> forallb (fun c => negb (is_digit c)) s = true.
Proof. apply forallb_imp. intros b. destruct b; cbn; intros H; try reflexivity; discriminate. Qed.

(** The reference texts of a list, in order. *)
Inductive ref_texts : list Z -> list bytes -> Prop :=
| rt_nil : ref_texts [] []
| rt_cons n l w1 g w2 rs : 0 <= n < 2 ^ 63 -> gap w1 -> g <> [] -> forallb is_digit g = true -> gap w2 ->
    ref_texts l rs -> ref_texts (n :: l) ((decZ n ++ w1 ++ g ++ w2 ++ bs "R") :: rs).

Lemma decZ_nonnil z : decZ z <> [].
Proof. apply (word_decZ z). Qed.

Lemma find_all_refs l s : ref_list l s -> ref_texts l (find_all m_reference s 0).
Proof.
  induction 1 as [s Hs|n l pre w1 g w2 rest Hpre Hn Hw1 Hg Hg2 Hw2 Hl IH].
  - replace (find_all m_reference s 0) with (@nil bytes); [constructor|].
    rewrite <- (app_nil_r s). rewrite find_all_before; [reflexivity|]. apply no_ref_class, space_no_digit, Hs.
  - rewrite find_all_before by (apply no_ref_class, space_no_digit, Hpre).
    replace (decZ n ++ w1 ++ g ++ w2 ++ bs "R" ++ rest) with ((decZ n ++ w1 ++ g ++ w2 ++ bs "R") ++ rest)
      by (rewrite <- !app_assoc; reflexivity).
    rewrite (find_all_here _ _ _ (decZ n)).
    + constructor; assumption.
    + pose proof (decZ_nonnil n). destruct (decZ n); [contradiction|discriminate].
    + rewrite <- !app_assoc. apply ref_fires; auto; lia.
Qed.

Lemma rtrim_last f l c : f c = false -> rtrim f (l ++ [c]) = l ++ [c].
Proof.
  intros H. unfold rtrim. rewrite rev_app_distr. cbn [rev app drop_while]. rewrite H. cbn [rev].
  rewrite rev_involutive. reflexivity.
Qed.
Lemma trim_array s : trim is_space ("["%byte :: s ++ ["]"%byte]) = "["%byte :: s ++ ["]"%byte].
Proof.
  unfold trim. cbn [drop_while]. change (is_space "[") with false. cbn iota.
  apply (rtrim_last is_space ("["%byte :: s)). reflexivity.
Qed.
Lemma trim_suffix_app p s : trim_suffix p (s ++ p) = s.
Proof.
  unfold trim_suffix, suffixb. rewrite app_length.
  destruct (Nat.leb_spec (length p) (length s + length p)); [|lia].
  replace (length s + length p - length p)%nat with (length s) by lia.
  rewrite skipn_app_all, bytes_eqb_refl. cbn [andb]. apply firstn_app_all.
Qed.
Lemma parse_ref_array l v : ref_array l v -> ref_texts l (parseObjectRefArray v).
Proof.
  intros (s & -> & H). unfold parseObjectRefArray. rewrite trim_array.
  unfold trim_prefix. cbn [prefixb bs]. change (prefixb (bs "[") ("["%byte :: s ++ ["]"%byte])) with true. cbn iota.
  change (length (bs "[")) with 1%nat. cbn [skipn].
  change ["]"%byte] with (bs "]"). rewrite trim_suffix_app. apply find_all_refs, H.
Qed.

Lemma fields_first w r n : 0 <= n -> gap w -> fields is_space (decZ n ++ w ++ r) = decZ n :: fields is_space (w ++ r).
Proof.
  intros Hn [Hw1 Hw2]. unfold fields.
  assert (H : forall d cur, forallb is_digit d = true -> fields_aux is_space (d ++ w ++ r) cur = fields_aux is_space (w ++ r) (rev d ++ cur)).
  { induction d as [|c d IH]; intros cur Hd; [reflexivity|]. cbn [forallb] in Hd. apply andb_prop in Hd. destruct Hd as [Hc Hd].
    cbn [app fields_aux]. rewrite digit_not_space by exact Hc. rewrite IH by exact Hd. cbn [rev]. rewrite <- app_assoc. reflexivity. }
  rewrite H by (rewrite decZ_nonneg by exact Hn; apply dec_digits). rewrite app_nil_r.
  destruct w as [|c w]; [contradiction|]. cbn [forallb] in Hw2. apply andb_prop in Hw2. destruct Hw2 as [Hc _].
  cbn [app fields_aux]. assert (is_space c = true) as -> by (unfold is_space; rewrite <- space_is_ws, Hc; reflexivity).
  assert (rev (decZ n) <> []). { intros E. apply (decZ_nonnil n). rewrite <- (rev_involutive (decZ n)), E. reflexivity. }
  destruct (rev (decZ n)) eqn:E; [contradiction|]. rewrite <- E, rev_involutive. reflexivity.
Qed.
Lemma parse_ref n w r : 0 <= n < 2 ^ 63 -> gap w -> parseObjectRef (decZ n ++ w ++ r) = Ok n.
Proof.
  intros Hn Hw. unfold parseObjectRef. rewrite fields_first by (lia || exact Hw). rewrite atoi_decZ by exact Hn. reflexivity.
Qed.
Lemma parse_num n : 0 <= n < 2 ^ 63 -> parseObjectRef (decZ n) = Ok n.
Proof.
  intros Hn. unfold parseObjectRef, fields.
  assert (H : forall d cur, forallb is_digit d = true -> fields_aux is_space d cur = match rev d ++ cur with [] => [] | x => [rev x] end).
  { induction d as [|c d IH]; intros cur Hd.
    - cbn [fields_aux rev app]. destruct cur; reflexivity.
    - cbn [forallb] in Hd. apply andb_prop in Hd. destruct Hd as [Hc Hd]. cbn [fields_aux].
      rewrite digit_not_space by exact Hc. rewrite IH by exact Hd. cbn [rev]. rewrite <- app_assoc. reflexivity. }
  rewrite H by (rewrite decZ_nonneg by lia; apply dec_digits). rewrite app_nil_r.
  assert (rev (decZ n) <> []). { intros E. apply (decZ_nonnil n). rewrite <- (rev_involutive (decZ n)), E. reflexivity. }
  destruct (rev (decZ n)) eqn:E; [contradiction|]. rewrite <- E, rev_involutive. rewrite atoi_decZ by exact Hn. reflexivity.
Qed.
Lemma ref_texts_parse l rs : ref_texts l rs -> map parseObjectRef rs = map Ok l.
Proof.
  induction 1 as [|n l w1 g w2 rs Hn Hw1 Hg Hg2 Hw2 _ IH]; [reflexivity|].
  cbn [map]. rewrite IH, parse_ref by assumption. reflexivity.
Qed.

(* -------------------- the page tree -------------------- *)

Lemma follow_ok go rs l : map parseObjectRef rs = map Ok l ->
  follow_kids go rs = fold_right (fun n acc => match go n with Panic => Panic | Err => acc | Ok x => rmap (app x) acc end) (Ok []) l.
Proof.
  revert l. induction rs as [|r rs IH]; intros [|n l] H; try discriminate; [reflexivity|].
  cbn [map] in H. injection H as H1 H2. cbn [follow_kids fold_right]. rewrite H1, (IH l H2). reflexivity.
Qed.

Section ptree_ind.
  Variable P : ptree -> Prop.
  Hypothesis HL : forall n, P (PPage n).
  Hypothesis HN : forall n kids, Forall P kids -> P (PNode n kids).
  Fixpoint ptree_ind' (t : ptree) : P t :=
    match t with
    | PPage n => HL n
    | PNode n kids => HN n kids ((fix go l : Forall P l := match l with [] => Forall_nil P | k :: l' => Forall_cons k (ptree_ind' k) (go l') end) kids)
    end.
End ptree_ind.

Lemma forms_kids get kids : fold_right (fun k P => forms_tree get k /\ P) True kids <-> Forall (forms_tree get) kids.
Proof.
  induction kids as [|k kids IH]; cbn [fold_right]; [split; constructor|].
  rewrite IH. split; [intros [H1 H2]; constructor; assumption|intros H; inversion H; auto].
Qed.
Lemma page_not_node : bytes_eqb (bs "/Pages") (bs "/Page") = false.
Proof. reflexivity. Qed.

Lemma tree_pages get t : forms_tree get t -> forall stack, (height t <= stack)%nat ->
  extractPageObjectNumbers stack get (pnum t) = Ok (page_list t).
Proof.
  induction t as [n|n kids IH] using ptree_ind'; intros Hf stack Hs.
  - destruct Hf as (x & Hx & Hp). cbn [height] in Hs. destruct stack as [|stack]; [lia|].
    cbn [extractPageObjectNumbers pnum]. rewrite Hx. cbn [rbind].
    rewrite (has_value_extract _ _ _ key_Type Hp), bytes_eqb_refl. reflexivity.
  - cbn [forms_tree] in Hf. destruct Hf as [(x & Hx & Ht & v & Hv & Ha) Hk]. apply forms_kids in Hk.
    cbn [height] in Hs. destruct stack as [|stack]; [lia|].
    cbn [extractPageObjectNumbers pnum]. rewrite Hx. cbn [rbind].
    rewrite (has_value_extract _ _ _ key_Type Ht), page_not_node.
    rewrite (has_value_extract _ _ _ key_Kids Hv).
    assert (Hne : exists c v', v = c :: v') by (destruct Ha as (s & -> & _); eauto).
    destruct Hne as (c & v' & ->). pose proof (ref_texts_parse _ _ (parse_ref_array _ _ Ha)) as Hr.
    rewrite (follow_ok _ _ _ Hr). cbn [page_list].
    clear - IH Hk Hs. revert Hs. induction kids as [|k kids IHk]; intros Hs; [reflexivity|].
    cbn [map fold_right flat_map] in *. inversion IH as [|? ? I1 I2]; subst. inversion Hk as [|? ? K1 K2]; subst.
    rewrite (I1 K1 stack) by lia. rewrite IHk; [reflexivity|exact I2|exact K2|lia].
Qed.

Lemma root_of_tree s t : has_page_tree s t -> pages_root s = Ok (pnum t).
Proof.
  intros (root & x & Hr & Hn & (g & Eg) & Hx & Hv & _). unfold pages_root.
  assert (E : sRoot s <> []). { rewrite Eg. pose proof (decZ_nonnil root). destruct (decZ root); [contradiction|discriminate]. }
  destruct (sRoot s) as [|c r] eqn:Es; [contradiction|]. rewrite Eg.
  rewrite parse_ref by (exact Hr || apply space_gap). cbn [rbind]. rewrite Hx. cbn [rbind].
  rewrite (has_value_extract _ _ _ key_Pages Hv).
  pose proof (decZ_nonnil (pnum t)). pose proof (parse_num (pnum t) Hn) as P.
  destruct (decZ (pnum t)); [contradiction|]. exact P.
Qed.
Lemma source_pages s t stack : has_page_tree s t -> (height t <= stack)%nat ->
  getAllPageObjectNumbers stack s = Ok (page_list t).
Proof.
  intros Ht Hs. unfold getAllPageObjectNumbers. rewrite (root_of_tree s t Ht). cbn [rbind].
  destruct Ht as (? & ? & _ & _ & _ & _ & _ & Hf). apply tree_pages; assumption.
Qed.

(** A node that lists itself: no stack is deep enough. *)
Lemma cyclic_pages get n : (exists x l, get n = Ok x /\ node_text x (n :: l)) ->
  forall stack, extractPageObjectNumbers stack get n = Panic.
Proof.
  intros (x & l & Hx & Ht & v & Hv & Ha). induction stack as [|stack IH]; [reflexivity|].
  cbn [extractPageObjectNumbers]. rewrite Hx. cbn [rbind].
  rewrite (has_value_extract _ _ _ key_Type Ht), page_not_node.
  rewrite (has_value_extract _ _ _ key_Kids Hv).
  assert (Hne : exists c v', v = c :: v') by (destruct Ha as (s & -> & _); eauto).
  destruct Hne as (c & v' & ->). pose proof (ref_texts_parse _ _ (parse_ref_array _ _ Ha)) as Hr.
  rewrite (follow_ok _ _ _ Hr). cbn [fold_right]. rewrite IH. reflexivity.
Qed.
