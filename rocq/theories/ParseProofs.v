(** Proofs about revisions, the /Prev chain, merging and byte-perfect documents. *)
From Verif Require Import WriterModel WriterSpec WriterProofs ParseModel ParseSpec.
Local Open Scope Z_scope.

(* ------------------------------------------------------------------ *)
(** Revisions *)

Lemma occ_filter p s i k :
  p <> [] ->
  (forall t, prefixb p t = true -> forall j, (0 < j < length p)%nat -> prefixb p (skipn j t) = false) ->
  (forall j, (j < k)%nat -> prefixb p (skipn j s) = false) ->
  occ p s i k = map (Nat.add i) (filter (fun j => prefixb p (skipn j s)) (seq 0 (length s))).
Proof.
  intros Hp Hno. revert i k. induction s as [|b s IH]; intros i k Hk; [destruct k; reflexivity|].
  cbn [length seq occ]. rewrite <- seq_shift.
  assert (forall l, map (Nat.add i) (filter (fun j => prefixb p (skipn j (b :: s))) (map S l)) =
                    map (Nat.add (S i)) (filter (fun j => prefixb p (skipn j s)) l)) as Hsh.
  { induction l as [|x l IHl]; [reflexivity|]. cbn [map filter skipn].
    destruct (prefixb p (skipn x s)); cbn [map]; [rewrite IHl; f_equal; lia|exact IHl]. }
  cbn [filter skipn]. destruct k as [|k].
  - destruct (prefixb p (b :: s)) eqn:E.
    + cbn [map]. rewrite Nat.add_0_r, Hsh. f_equal. apply IH.
      intros j Hj. apply (Hno _ E (S j)). lia.
    + rewrite Hsh. apply IH. intros; lia.
  - pose proof (Hk 0%nat ltac:(lia)) as H0. cbn [skipn] in H0. rewrite H0, Hsh. apply IH.
    intros j Hj. apply (Hk (S j)). lia.
Qed.

Lemma eof_no_overlap t : prefixb (bs "%%EOF") t = true ->
  forall j, (0 < j < 5)%nat -> prefixb (bs "%%EOF") (skipn j t) = false.
Proof.
  rewrite prefixb_spec. intros [r ->] j Hj.
  destruct j as [|[|[|[|[|j]]]]]; try lia; reflexivity.
Qed.

Lemma eof_positions f : FindAllEOFMarkers f = positions_of (bs "%%EOF") f.
Proof.
  unfold FindAllEOFMarkers, positions_of. rewrite occ_filter.
  - apply map_id.
  - discriminate.
  - exact eof_no_overlap.
  - intros; lia.
Qed.

Lemma positions_of_in p f i : p <> [] -> In i (positions_of p f) <-> prefixb p (skipn i f) = true.
Proof.
  intros Hp. unfold positions_of. rewrite filter_In, in_seq. split; [tauto|].
  intros H. split; [|exact H]. split; [lia|]. destruct (Nat.lt_ge_cases i (length f)) as [Hl|Hl]; [lia|].
  rewrite skipn_all2 in H by lia. destruct p; [congruence|discriminate].
Qed.

Lemma skip_eol_spec f e : (e <= length f)%nat ->
  exists eol rest, skipn e f = eol ++ rest /\ skip_eol f e = (e + length eol)%nat /\
    forallb is_eol eol = true /\ starts_with_eol rest = false.
Proof.
  intros He. exists (take_while is_eol (skipn e f)), (drop_while is_eol (skipn e f)).
  split; [symmetry; apply take_drop_while|]. split; [reflexivity|]. split; [apply take_while_all|].
  pose proof (drop_while_head is_eol (skipn e f)) as H. unfold starts_with_eol.
  destruct (drop_while is_eol (skipn e f)); [reflexivity|exact H].
Qed.

Lemma extract_revision f k :
  match nth_error (positions_of (bs "%%EOF") f) k with
  | Some i => exists r, ExtractRevision f (Z.of_nat k + 1) = Ok r /\ ends_after_marker f i r
  | None => ExtractRevision f (Z.of_nat k + 1) = Err
  end.
Proof.
  unfold ExtractRevision, GetRevisionBoundaries. cbv zeta. rewrite eof_positions, map_length.
  destruct (nth_error (positions_of (bs "%%EOF") f) k) as [i|] eqn:E.
  - assert (k < length (positions_of (bs "%%EOF") f))%nat as Hk by (apply nth_error_Some; congruence).
    match goal with |- context [if ?c then _ else _] => replace c with false by lia end.
    replace (Z.to_nat (Z.of_nat k + 1 - 1)) with k by lia.
    rewrite nth_error_map, E. cbn [option_map].
    apply nth_error_In in E. rewrite positions_of_in in E by discriminate.
    apply prefixb_spec in E. destruct E as [t Ht].
    assert (i + 5 <= length f)%nat as Hl.
    { pose proof (f_equal (@length byte) Ht) as H. rewrite skipn_length, app_length in H.
      change (length (bs "%%EOF")) with 5%nat in H. lia. }
    rewrite Nat.min_l by exact Hl.
    destruct (skip_eol_spec f (i + 5) Hl) as (eol & rest & H1 & H2 & H3 & H4).
    assert (skipn (i + 5) f = t) as Hs.
    { rewrite Nat.add_comm, <- skipn_skipn, Ht. reflexivity. }
    assert (f = firstn i f ++ bs "%%EOF" ++ eol ++ rest) as Hf.
    { rewrite <- (firstn_skipn i f) at 1. rewrite Ht, <- Hs, H1. reflexivity. }
    eexists. split; [reflexivity|]. exists eol, rest. split; [exact Hf|].
    split; [|split; [exact H3|exact H4]].
    rewrite H2. 
    assert (length (firstn i f) = i) as Hi by (apply firstn_length_le; lia).
    rewrite Hf at 1. rewrite app_assoc, app_assoc, <- (app_assoc (firstn i f)).
    rewrite firstn_app. rewrite firstn_all2.
    2:{ rewrite !app_length, Hi. change (length (bs "%%EOF")) with 5%nat. lia. }
    replace (_ - _)%nat with 0%nat; [cbn [firstn]; rewrite app_nil_r; reflexivity|].
    rewrite !app_length, Hi. change (length (bs "%%EOF")) with 5%nat. lia.
  - apply nth_error_None in E. 
    match goal with |- context [if ?c then _ else _] => replace c with true by lia end. reflexivity.
Qed.

Lemma extract_low f k : k < 1 -> ExtractRevision f k = Err.
Proof. intros H. unfold ExtractRevision. cbv zeta. replace (k <? 1) with true by lia. reflexivity. Qed.

Lemma seq_sorted_lt a n : StronglySorted lt (seq a n).
Proof.
  revert a. induction n as [|n IH]; intros a; cbn [seq]; constructor; [apply IH|].
  apply Forall_forall. intros x Hx. apply in_seq in Hx. lia.
Qed.

Lemma filter_sorted {A} (R : A -> A -> Prop) (g : A -> bool) l : StronglySorted R l -> StronglySorted R (filter g l).
Proof.
  induction l as [|a l IH]; intros H; [constructor|]. inversion H as [|x y Hs Hf]; subst. cbn [filter].
  destruct (g a); [|apply IH; exact Hs]. constructor; [apply IH; exact Hs|].
  rewrite Forall_forall in *. intros z Hz. apply filter_In in Hz. apply Hf. tauto.
Qed.

Lemma sorted_nth {A} (R : A -> A -> Prop) l i j a b :
  StronglySorted R l -> (i < j)%nat -> nth_error l i = Some a -> nth_error l j = Some b -> R a b.
Proof.
  revert i j. induction l as [|x l IH]; intros i j Hs Hij Hi Hj; [destruct i; discriminate|].
  inversion Hs as [|y z Hs' Hf]; subst. destruct j as [|j]; [lia|]. destruct i as [|i]; cbn in Hi, Hj.
  - injection Hi as ->. rewrite Forall_forall in Hf. apply Hf. eapply nth_error_In; exact Hj.
  - apply (IH i j); [exact Hs'|lia|exact Hi|exact Hj].
Qed.

Lemma positions_sorted p f : StronglySorted lt (positions_of p f).
Proof. apply filter_sorted, seq_sorted_lt. Qed.

Lemma ends_after_length f i r : ends_after_marker f i r -> (i + 5 <= length r <= length f)%nat.
Proof.
  intros (eol & rest & Hf & Hr & _). pose proof (f_equal (@length byte) Hf) as H.
  rewrite Hr. rewrite !app_length in *. change (length (bs "%%EOF")) with 5%nat in *.
  rewrite firstn_length in *. lia.
Qed.

Lemma revisions_increase f k k' r r' : k < k' ->
  ExtractRevision f k = Ok r -> ExtractRevision f k' = Ok r' -> (length r < length r')%nat.
Proof.
  intros Hk H H'.
  destruct (Z.lt_ge_cases k 1) as [Hl|Hl]; [rewrite extract_low in H by exact Hl; discriminate|].
  pose proof (extract_revision f (Z.to_nat (k - 1))) as E.
  pose proof (extract_revision f (Z.to_nat (k' - 1))) as E'.
  replace (Z.of_nat (Z.to_nat (k - 1)) + 1) with k in E by lia.
  replace (Z.of_nat (Z.to_nat (k' - 1)) + 1) with k' in E' by lia.
  destruct (nth_error _ (Z.to_nat (k - 1))) as [i|] eqn:Ei; [|congruence].
  destruct (nth_error _ (Z.to_nat (k' - 1))) as [i'|] eqn:Ei'; [|congruence].
  destruct E as (r0 & E & M). destruct E' as (r0' & E' & M').
  rewrite H in E; injection E as <-. rewrite H' in E'; injection E' as <-.
  assert (i < i')%nat as Hii by (eapply sorted_nth; [apply positions_sorted| |exact Ei|exact Ei']; lia).
  pose proof (ends_after_length _ _ _ M') as L'.
  (* the line ends after marker i contain no '%', so they stop before marker i' *)
  destruct M as (eol & rest & Hf & Hr & He & Hs).
  apply nth_error_In in Ei'. rewrite positions_of_in in Ei' by discriminate.
  assert (length r <= i')%nat; [|lia].
  assert (length (firstn i f) = i) as Hi.
  { apply firstn_length_le. apply nth_error_In in Ei. unfold positions_of in Ei.
    apply filter_In in Ei. rewrite in_seq in Ei. lia. }
  rewrite Hr, !app_length, Hi. change (length (bs "%%EOF")) with 5%nat.
  destruct (Nat.le_gt_cases (i + (5 + length eol)) i') as [Hle|Hgt]; [exact Hle|exfalso].
  assert (i + 5 <= i')%nat as H5.
  { destruct (Nat.le_gt_cases (i + 5) i') as [|H5]; [assumption|exfalso].
    apply nth_error_In in Ei. rewrite positions_of_in in Ei by discriminate.
    pose proof (eof_no_overlap _ Ei (i' - i) ltac:(lia)) as Hn. rewrite skipn_skipn in Hn.
    replace (i' - i + i)%nat with i' in Hn by lia. congruence. }
  rewrite Hf, app_assoc, skipn_app, skipn_all2 in Ei'.
  2:{ rewrite app_length, Hi. change (length (bs "%%EOF")) with 5%nat. lia. }
  rewrite app_length, Hi in Ei'. change (length (bs "%%EOF")) with 5%nat in Ei'. cbn [app] in Ei'.
  rewrite skipn_app in Ei'.
  destruct (skipn (i' - (i + 5)) eol) as [|c u] eqn:Eu.
  - pose proof (f_equal (@length byte) Eu) as Hlen. rewrite skipn_length in Hlen. cbn [length] in Hlen. lia.
  - assert (In c eol) as Hc by (rewrite <- (firstn_skipn (i' - (i + 5)) eol), Eu; apply in_or_app; right; left; reflexivity).
    rewrite forallb_forall in He. specialize (He c Hc).
    cbn [app prefixb bs list_byte_of_string] in Ei'. apply andb_true_iff in Ei'. destruct Ei' as [Ei' _].
    apply beqb_eq in Ei'. subst c. discriminate.
Qed.

Lemma count_revisions f : CountRevisions f = length (positions_of (bs "%%EOF") f).
Proof. unfold CountRevisions. rewrite eof_positions. reflexivity. Qed.

(* ------------------------------------------------------------------ *)
(** The /Prev chain *)

Lemma existsb_eqb_in x l : existsb (Z.eqb x) l = true <-> In x l.
Proof.
  rewrite existsb_exists. split; [intros [y [H1 H2]]; apply Z.eqb_eq in H2; congruence|].
  intros H. exists x. split; [exact H|apply Z.eqb_refl].
Qed.

Lemma range_nodup_length (l : list Z) n : NoDup l -> (forall x, In x l -> 0 < x < n) -> (length l <= Z.to_nat (n - 1))%nat.
Proof.
  intros Hnd Hb. 
  assert (incl l (range1 n)) as Hi by (intros x Hx; apply range1_in; specialize (Hb x Hx); lia).
  apply NoDup_incl_length in Hi; [|exact Hnd]. unfold range1 in Hi. rewrite map_length, seq_length in Hi. exact Hi.
Qed.

Lemma prev_chain_spec f : forall fuel visited cur,
  NoDup visited ->
  (0 < cur < flen f) ->
  (forall x, In x visited -> 0 < x < flen f) ->
  (length f <= fuel + length visited)%nat ->
  exists l, prev_chain fuel f visited cur = Some l /\ prev_path f cur l /\
    (forall y, In y l -> 0 < y < flen f) /\
    (In cur visited -> l = []) /\
    (~ In cur visited -> NoDup (rev (cur :: removelast l) ++ visited)).
Proof.
  induction fuel as [|k IH]; intros visited cur Hnd Hc Hv Hf; cbn [prev_chain].
  - destruct (existsb (Z.eqb cur) visited) eqn:E.
    + replace (0 <? cur) with true by lia. cbn [andb negb]. exists []. apply existsb_eqb_in in E.
      cbn [prev_path In]. intuition.
    + exfalso. assert (~ In cur visited) as Hni by (rewrite <- existsb_eqb_in; congruence).
      pose proof (range_nodup_length (cur :: visited) (flen f)) as H.
      specialize (H ltac:(constructor; assumption)). cbn [length In] in H.
      specialize (H ltac:(intros x [<-|Hx]; [exact Hc|apply Hv; exact Hx])). unfold flen in *. lia.
  - destruct (existsb (Z.eqb cur) visited) eqn:E.
    + replace (0 <? cur) with true by lia. cbn [andb negb]. exists []. apply existsb_eqb_in in E.
      cbn [prev_path In]. intuition.
    + assert (~ In cur visited) as Hni by (rewrite <- existsb_eqb_in; congruence).
      replace (0 <? cur) with true by lia. cbn [andb negb].
      assert (exists l, Some ([] : list Z) = Some l /\ prev_path f cur l /\
        (forall y, In y l -> 0 < y < flen f) /\ (In cur visited -> l = []) /\
        (~ In cur visited -> NoDup (rev (cur :: removelast l) ++ visited))) as Hnil.
      { exists []. cbn. intuition. constructor; assumption. }
      destruct (findPrevOffset f cur) as [prev| |] eqn:Ep; [|exact Hnil|exact Hnil].
      destruct ((0 <? prev) && (prev <? flen f)) eqn:Eb; [|exact Hnil].
      destruct (IH (cur :: visited) prev) as (l & H1 & H2 & H3 & H4 & H5).
      * constructor; assumption.
      * lia.
      * intros x [<-|Hx]; [lia|apply Hv; exact Hx].
      * cbn [length]. lia.
      * exists (prev :: l). rewrite H1. split; [reflexivity|]. split; [split; assumption|].
        split; [intros y [<-|Hy]; [lia|apply H3; exact Hy]|].
        split; [intros Hin; contradiction|]. intros _.
        destruct (in_dec Z.eq_dec prev (cur :: visited)) as [Hin|Hin].
        -- rewrite (H4 Hin). cbn. constructor; assumption.
        -- specialize (H5 Hin).
           assert (removelast (prev :: l) = match l with [] => [] | _ => prev :: removelast l end) as -> by (destruct l; reflexivity).
           destruct l as [|y l].
           ++ cbn. constructor; assumption.
           ++ cbn [rev] in *. rewrite <- !app_assoc in *. cbn [app] in *. exact H5.
Qed.

Lemma prev_path_nil f cur : prev_path f cur [].
Proof. exact I. Qed.

Lemma prev_chain_terminates f x :
  exists l, prev_chain (S (S (length f))) f [] x = Some l /\ prev_path f x l /\
    (forall y, In y l -> 0 < y < flen f) /\ NoDup (x :: removelast l).
Proof.
  assert (NoDup (x :: removelast ([] : list Z))) as Hone by (constructor; [intros []|constructor]).
  destruct (Z.leb_spec x 0) as [Hx|Hx].
  { exists []. unfold prev_chain. replace (0 <? x) with false by lia. cbn [andb].
    split; [reflexivity|]. split; [exact I|]. split; [intros y []|exact Hone]. }
  destruct (Z.leb_spec (flen f) x) as [Hb|Hb].
  { exists []. cbn [prev_chain existsb]. replace (0 <? x) with true by lia. cbn [andb negb].
    unfold findPrevOffset. replace (flen f <=? x) with true by lia.
    split; [reflexivity|]. split; [exact I|]. split; [intros y []|exact Hone]. }
  destruct (prev_chain_spec f (S (S (length f))) [] x) as (l & H1 & H2 & H3 & _ & H5).
  - constructor.
  - lia.
  - intros y [].
  - cbn [length]. lia.
  - exists l. split; [exact H1|]. split; [exact H2|]. split; [exact H3|].
    specialize (H5 ltac:(intros [])). rewrite app_nil_r in H5.
    apply NoDup_rev in H5. rewrite rev_involutive in H5. exact H5.
Qed.

(* ------------------------------------------------------------------ *)
(** Merging *)

Lemma mget_app {A} n (a b : zmap A) : mget n (a ++ b) = match mget n a with Some v => Some v | None => mget n b end.
Proof.
  induction a as [|[k v] a IH]; [reflexivity|]. cbn [app mget]. destruct (n =? k); [reflexivity|exact IH].
Qed.

Lemma newest_app {A} n (a b : list (zmap A)) :
  newest_binding n (a ++ b) = match newest_binding n a with Some v => Some v | None => newest_binding n b end.
Proof.
  induction a as [|m a IH]; [reflexivity|]. cbn [app newest_binding]. destruct (mget n m); [reflexivity|exact IH].
Qed.

Lemma merge_newest {A} n (ms : list (zmap A)) : mget n (merge ms) = newest_binding n (rev ms).
Proof.
  unfold merge.
  assert (forall (ms : list (zmap A)) (acc : zmap A), mget n (fold_left (fun acc m => m ++ acc) ms acc) =
     match newest_binding n (rev ms) with Some v => Some v | None => mget n acc end) as H.
  { clear ms. induction ms as [|m ms IH]; intros acc; [reflexivity|]. cbn [fold_left rev].
    rewrite IH, newest_app, mget_app. cbn [newest_binding].
    destruct (newest_binding n (rev ms)); [reflexivity|]. destruct (mget n m); reflexivity. }
  rewrite H. destruct (newest_binding n (rev ms)); reflexivity.
Qed.

Lemma mget_map {A B} (g : A -> B) n (m : zmap A) :
  mget n (map (fun p => (fst p, g (snd p))) m) = option_map g (mget n m).
Proof.
  induction m as [|[k v] m IH]; [reflexivity|]. cbn [map mget fst snd]. destruct (n =? k); [reflexivity|exact IH].
Qed.

Lemma standard_lookup inflate dec f objs streams secs p :
  parseIncremental inflate f = Ok (objs, streams, secs) ->
  parseStandard inflate dec f = Ok p ->
  forall n, mget n (pXref p) =
    match newest_binding n (rev (map xsStreams secs)) with
    | Some si => Some (InStream (fst si) (snd si))
    | None => option_map AtOffset (newest_binding n (rev (map xsObjects secs)))
    end.
Proof.
  intros Hi Hp n. unfold parseStandard in Hp. rewrite Hi in Hp. injection Hp as <-. cbn [pXref].
  unfold parseIncremental in Hi. destruct (findLastStartXRef f) as [x| |]; try discriminate.
  cbn [rbind] in Hi. destruct (parseXRefChain inflate f x) as [s| |]; try discriminate. cbn [rbind] in Hi.
  injection Hi as <- <- <-.
  rewrite mget_app, (mget_map (fun si => InStream (fst si) (snd si))), (mget_map AtOffset), !merge_newest.
  destruct (newest_binding n (rev (map xsStreams s))); reflexivity.
Qed.

(* ------------------------------------------------------------------ *)
(** Byte-perfect documents *)

Lemma newest_rev_objs n rs : newest n rs = newest_binding n (map rvObjects rs).
Proof. induction rs as [|r rs IH]; [reflexivity|]. cbn. rewrite IH. reflexivity. Qed.

Lemma doc_get_all d n : DGetObject d n = mget n (DAllObjects d).
Proof.
  unfold DGetObject, DAllObjects. rewrite merge_newest, newest_rev_objs, map_rev. reflexivity.
Qed.

Lemma doc_count d : DObjectCount d = length (mkeys (DAllObjects d)).
Proof.
  unfold DObjectCount. apply Permutation_length, NoDup_Permutation; [apply NoDup_nodup|apply mkeys_nodup|].
  intros n. rewrite nodup_In, mkeys_in, <- doc_get_all, in_flat_map. unfold DGetObject.
  assert (forall rs, (exists v, newest n rs = Some v) <-> exists r, In r rs /\ In n (mkeys (rvObjects r))) as H.
  { induction rs as [|r rs IH]; cbn [newest In].
    - split; [intros [v H]; discriminate|intros [r [[] _]]].
    - destruct (mget n (rvObjects r)) eqn:E.
      + split; [intros _; exists r; split; [left; reflexivity|apply mkeys_in; eauto]|eauto].
      + rewrite IH. split; [intros [r' [H1 H2]]; eauto|]. intros [r' [[->|H1] H2]]; [|eauto].
        apply mkeys_in in H2. destruct H2 as [v H2]. congruence. }
  rewrite H. split; intros [r [H1 H2]]; exists r; split; try assumption.
  - apply -> in_rev. exact H1.
  - apply in_rev. exact H1.
Qed.

Definition raw_ok (f : bytes) (n : Z) (o : rawobj) : Prop :=
  roNumber o = n /\ 0 <= roOffset o /\ roOffset o < roEnd o <= flen f /\
  roBytes o = sub (Z.to_nat (roOffset o)) (Z.to_nat (roEnd o)) f /\
  suffixb (bs "endobj") (roBytes o) = true.

Lemma firstn_ends p s i : index p s = Some i -> firstn (i + length p) s = firstn i s ++ p.
Proof.
  intros H. pose proof (index_split _ _ _ H) as Hs. pose proof (index_bound _ _ _ H) as Hb.
  rewrite Hs at 1. rewrite app_assoc, firstn_app, firstn_all2; [|rewrite app_length, firstn_length; lia].
  rewrite app_length, firstn_length. replace (_ - _)%nat with 0%nat by lia. cbn [firstn]. apply app_nil_r.
Qed.

Lemma suffixb_app a p : suffixb p (a ++ p) = true.
Proof.
  unfold suffixb. rewrite app_length. replace (length p <=? length a + length p)%nat with true by (symmetry; apply Nat.leb_le; lia).
  replace (length a + length p - length p)%nat with (length a) by lia. rewrite skipn_app_exact, bytes_eqb_refl. reflexivity.
Qed.

Lemma ParseRawObject_ok f n g off o : ParseRawObject f n g off = Ok o ->
  raw_ok f n o /\ roOffset o = off /\ roGeneration o = g.
Proof.
  unfold ParseRawObject. destruct ((off <? 0) || (flen f <=? off)) eqn:Eo; [discriminate|].
  destruct (negb _ && negb _); [discriminate|].
  destruct (index (bs "endobj") (from off f)) as [e|] eqn:Ee; [|discriminate].
  assert (forall b d s, raw_ok f n (mkRaw n g off (off + Z.of_nat e + 6) (firstn (e + 6) (from off f)) b d s)) as Hok.
  { intros b d s. unfold raw_ok. cbn [roNumber roOffset roEnd roBytes].
    pose proof (index_bound _ _ _ Ee) as Hb. change (length (bs "endobj")) with 6%nat in Hb.
    unfold from in Hb. rewrite skipn_length in Hb. unfold flen in *.
    split; [reflexivity|]. split; [lia|]. split; [lia|]. split.
    - unfold sub, from. f_equal. lia.
    - change 6%nat with (length (bs "endobj")). rewrite (firstn_ends _ _ _ Ee). apply suffixb_app. }
  destruct (index (bs "stream") _) as [st|].
  - destruct (index (bs "<<") _) as [ds|]; cbn [rbind]; intros H; injection H as <-;
      cbn [roOffset roGeneration]; auto.
  - intros H; injection H as <-; cbn [roOffset roGeneration]; auto.
Qed.

Lemma revision_objects_ok f pe eof rows n o :
  mget n (revision_objects f pe eof rows) = Some o -> raw_ok f n o.
Proof.
  unfold revision_objects.
  assert (forall rows m, (forall o, mget n m = Some o -> raw_ok f n o) ->
    forall o, mget n (fold_left (fun m r =>
      if rInUse r && (match rInStream r with None => true | Some _ => false end)
         && (pe <=? rOff r) && (rOff r <? Z.of_nat eof)
      then match ParseRawObject f (rNum r) (rGen r) (rOff r) with
           | Ok o => mset (rNum r) o m
           | _ => m
           end
      else m) rows m) = Some o -> raw_ok f n o) as H.
  { clear. induction rows as [|r rows IH]; intros m Hm o; cbn [fold_left]; [apply Hm|].
    apply IH. intros o' Ho'. 
    destruct (rInUse r && _ && _ && _); [|apply Hm; exact Ho'].
    destruct (ParseRawObject f (rNum r) (rGen r) (rOff r)) as [o1| |] eqn:E; try (apply Hm; exact Ho').
    rewrite mget_mset in Ho'. destruct (Z.eqb_spec n (rNum r)) as [->|]; [|apply Hm; exact Ho'].
    injection Ho' as ->. apply (ParseRawObject_ok _ _ _ _ _ E). }
  apply H. discriminate.
Qed.

Lemma parse_revisions_ok inflate f : forall eofs i acc rs,
  (forall r n o, In r acc -> mget n (rvObjects r) = Some o -> raw_ok f n o) ->
  parse_revisions inflate f i eofs acc = Ok rs ->
  forall r n o, In r rs -> mget n (rvObjects r) = Some o -> raw_ok f n o.
Proof.
  induction eofs as [|e eofs IH]; intros i acc rs Hacc; cbn [parse_revisions].
  - intros H; injection H as <-. intros r n o Hr. apply Hacc. apply in_rev. exact Hr.
  - destruct (parseRevision inflate f i e _) as [r0| |] eqn:E; [|apply IH; exact Hacc|discriminate].
    apply IH. intros r n o [<-|Hr]; [|apply Hacc; exact Hr].
    unfold parseRevision in E. destruct (startxref_before f e); [|discriminate].
    destruct (ParseXRefDataRaw inflate f _) as [t| |]; try discriminate. cbn [rbind] in E.
    destruct (fst t && _); [discriminate|]. injection E as <-. cbn [rvObjects]. apply revision_objects_ok.
Qed.

Lemma doc_bytes inflate f d : ParsePDFDocument inflate f = Ok d -> DBytes d = f.
Proof.
  unfold ParsePDFDocument. destruct (_ || _); [discriminate|]. destruct (FindAllEOFMarkers f) as [|e es]; [discriminate|].
  destruct (parse_revisions inflate f 1 (e :: es) []) as [rs| |]; try discriminate. cbn [rbind].
  destruct rs; [discriminate|]. intros H; injection H as <-. reflexivity.
Qed.

Lemma newest_in n rs o : newest n rs = Some o -> exists r, In r rs /\ mget n (rvObjects r) = Some o.
Proof.
  induction rs as [|r rs IH]; cbn [newest]; [discriminate|].
  destruct (mget n (rvObjects r)) eqn:E; [intros H; injection H as <-; exists r; split; [left; reflexivity|exact E]|].
  intros H. destruct (IH H) as [r' [H1 H2]]. exists r'. split; [right; exact H1|exact H2].
Qed.

Lemma doc_raw inflate f d n o :
  ParsePDFDocument inflate f = Ok d -> DGetObject d n = Some o -> raw_ok f n o.
Proof.
  unfold ParsePDFDocument. destruct (_ || _); [discriminate|]. destruct (FindAllEOFMarkers f) as [|e es]; [discriminate|].
  destruct (parse_revisions inflate f 1 (e :: es) []) as [rs| |] eqn:E; try discriminate. cbn [rbind].
  destruct rs as [|r rs]; [discriminate|]. intros H; injection H as <-. unfold DGetObject. cbn [dRevisions].
  intros H. apply newest_in in H. destruct H as [r0 [H1 H2]].
  eapply parse_revisions_ok; [|exact E| |exact H2].
  - intros ? ? ? [].
  - apply in_rev. exact H1.
Qed.

Lemma doc_in_revision d n :
  DGetObject d n = newest_binding n (rev (map rvObjects (dRevisions d))) .
Proof. unfold DGetObject. rewrite newest_rev_objs, map_rev. reflexivity. Qed.

Lemma parse_sections_spec inflate f : forall xs secs, parse_sections inflate f xs = Ok secs ->
  secs = flat_map (fun x => match parsexrefSection inflate f x with Ok s => [s] | _ => [] end) xs.
Proof.
  induction xs as [|x xs IH]; intros secs; cbn [parse_sections flat_map].
  - intros H; injection H as <-. reflexivity.
  - destruct (parsexrefSection inflate f x) as [s| |] eqn:E; [|apply IH|discriminate].
    destruct (parse_sections inflate f xs) as [l| |]; try discriminate. cbn [rmap]. intros H; injection H as <-.
    cbn [app]. f_equal. apply IH. reflexivity.
Qed.

Lemma flat_map_rev1 {A B} (g : A -> list B) l :
  (forall x, length (g x) <= 1)%nat -> flat_map g (rev l) = rev (flat_map g l).
Proof.
  intros H. induction l as [|x l IH]; [reflexivity|]. cbn [rev flat_map].
  rewrite flat_map_app, IH, rev_app_distr. cbn [flat_map]. rewrite app_nil_r. f_equal.
  specialize (H x). destruct (g x) as [|y [|z r]]; cbn in H |- *; try reflexivity; lia.
Qed.

Lemma incremental_sections inflate f objs streams secs :
  parseIncremental inflate f = Ok (objs, streams, secs) ->
  exists x l, findLastStartXRef f = Ok x /\ prev_path f x l /\ NoDup (x :: removelast l) /\
    rev secs = sections_at inflate f (x :: l).
Proof.
  unfold parseIncremental. destruct (findLastStartXRef f) as [x| |] eqn:Ex; try discriminate. cbn [rbind].
  destruct (parseXRefChain inflate f x) as [s| |] eqn:Ec; try discriminate. cbn [rbind].
  intros H; injection H as <- <- <-. unfold parseXRefChain in Ec.
  destruct (prev_chain_terminates f x) as (l & H1 & H2 & H3 & H4). rewrite H1 in Ec.
  exists x, l. split; [reflexivity|]. split; [exact H2|]. split; [exact H4|].
  destruct (parse_sections inflate f (rev (x :: l))) as [s'| |] eqn:Es; try discriminate.
  assert (s' = s) as -> by (destruct s'; congruence).
  apply parse_sections_spec in Es. rewrite flat_map_rev1 in Es.
  - rewrite Es, rev_involutive. reflexivity.
  - intros y. destruct (parsexrefSection inflate f y); cbn; lia.
Qed.

Lemma open_lookup inflate crypt f p objs streams secs :
  Open inflate crypt f = Ok p -> parseIncremental inflate f = Ok (objs, streams, secs) ->
  exists x l, findLastStartXRef f = Ok x /\ prev_path f x l /\ NoDup (x :: removelast l) /\
    forall n, mget n (pXref p) =
      match newest_binding n (map xsStreams (sections_at inflate f (x :: l))) with
      | Some si => Some (InStream (fst si) (snd si))
      | None => option_map AtOffset (newest_binding n (map xsObjects (sections_at inflate f (x :: l))))
      end.
Proof.
  unfold Open. destruct (flen f <? 8); [discriminate|].
  destruct (if mentions_encrypt f then crypt f else Ok None) as [dec| |]; try discriminate. cbn [rbind].
  intros Hp Hi. destruct (incremental_sections _ _ _ _ _ Hi) as (x & l & H1 & H2 & H3 & H4).
  exists x, l. split; [exact H1|]. split; [exact H2|]. split; [exact H3|]. intros n.
  rewrite (standard_lookup _ _ _ _ _ _ _ Hi Hp), <- !map_rev, H4. reflexivity.
Qed.

Lemma open_newest_direct inflate crypt f p objs streams secs :
  Open inflate crypt f = Ok p -> parseIncremental inflate f = Ok (objs, streams, secs) ->
  exists x l, findLastStartXRef f = Ok x /\ prev_path f x l /\
    forall n,
      (forall s, In s (sections_at inflate f (x :: l)) -> mget n (xsStreams s) = None) ->
      mget n (pXref p) = option_map AtOffset (newest_binding n (map xsObjects (sections_at inflate f (x :: l)))).
Proof.
  intros H Hi. destruct (open_lookup _ _ _ _ _ _ _ H Hi) as (x & l & H1 & H2 & _ & H4).
  exists x, l. split; [exact H1|]. split; [exact H2|]. intros n Hs. rewrite H4.
  assert (newest_binding n (map xsStreams (sections_at inflate f (x :: l))) = None) as ->; [|reflexivity].
  revert Hs. generalize (sections_at inflate f (x :: l)). induction l0 as [|s ss IH]; intros Hs; [reflexivity|].
  cbn [map newest_binding]. rewrite Hs by (left; reflexivity). apply IH. intros s' Hs'. apply Hs. right. exact Hs'.
Qed.

Lemma open_newest_compressed inflate crypt f p objs streams secs :
  Open inflate crypt f = Ok p -> parseIncremental inflate f = Ok (objs, streams, secs) ->
  exists x l, findLastStartXRef f = Ok x /\ prev_path f x l /\
    forall n si,
      newest_binding n (map xsStreams (sections_at inflate f (x :: l))) = Some si ->
      mget n (pXref p) = Some (InStream (fst si) (snd si)).
Proof.
  intros H Hi. destruct (open_lookup _ _ _ _ _ _ _ H Hi) as (x & l & H1 & H2 & _ & H4).
  exists x, l. split; [exact H1|]. split; [exact H2|]. intros n si Hs. rewrite H4, Hs. reflexivity.
Qed.
