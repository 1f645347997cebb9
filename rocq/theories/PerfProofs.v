(** Proofs for C119. *)
From Verif Require Import Util WriterModel WriterSpec ParseModel ParseSpec ParseProofs Scan WriterProofs XrefProofs ReadProofs ReaderProofs ManipProofs PieceSpec PieceProofs PerfModel PerfSpec.
Local Open Scope Z_scope.

Lemma perfect_open inflate crypt f p : OpenPerfect inflate crypt f = Ok p ->
  qRaw p = f /\ ParsePDFDocument inflate f = Ok (qDoc p) /\ qXref p = merge (map revision_offsets (dRevisions (qDoc p))) /\
  (mentions_encrypt f = false -> qDec p = None).
Proof.
  unfold OpenPerfect. destruct (flen f <? 8); [discriminate|].
  intros H. assert (exists dec, (mentions_encrypt f = false -> dec = None) /\ parseBytePerfect inflate dec f = Ok p) as (dec & Hd & H').
  { destruct (mentions_encrypt f); cbn [rbind] in H; [destruct (crypt f) as [dec| |]; try discriminate; exists dec; split; [discriminate|exact H]|].
    exists None. split; [reflexivity|exact H]. }
  unfold parseBytePerfect in H'. destruct (ParsePDFDocument inflate f) as [d| |]; try discriminate. cbn [rbind] in H'. injection H' as <-.
  repeat split; auto.
Qed.
Lemma newest_offsets n rs : newest_binding n (map revision_offsets rs) = option_map roOffset (newest n rs).
Proof.
  induction rs as [|r rs IH]; [reflexivity|]. cbn [map newest_binding newest]. unfold revision_offsets at 1. rewrite ParseProofs.mget_map.
  destruct (mget n (rvObjects r)); [reflexivity|exact IH].
Qed.
Lemma xref_offsets inflate crypt f p n : OpenPerfect inflate crypt f = Ok p -> mget n (qXref p) = option_map roOffset (DGetObject (qDoc p) n).
Proof.
  intros H. destruct (perfect_open _ _ _ _ H) as (_ & _ & -> & _). rewrite merge_newest, <- map_rev. apply newest_offsets.
Qed.
Lemma newest_last n rs o : newest n (rev rs) = Some o <->
  exists older r newer, rs = older ++ r :: newer /\ mget n (rvObjects r) = Some o /\ forall r', In r' newer -> mget n (rvObjects r') = None.
Proof.
  induction rs as [|r rs IH] using rev_ind.
  - split; [discriminate|]. intros (a & r & b & H & _). destruct a; discriminate.
  - rewrite rev_unit. cbn [newest]. split.
    + destruct (mget n (rvObjects r)) as [o'|] eqn:E.
      * intros H. injection H as <-. exists rs, r, []. repeat split; auto. intros ? [].
      * intros H. apply IH in H as (a & r0 & b & -> & H1 & H2). exists a, r0, (b ++ [r]). split; [rewrite <- app_assoc; reflexivity|]. split; [exact H1|].
        intros r' [I|[<-|[]]]%in_app_or; [exact (H2 _ I)|exact E].
    + intros (a & r0 & b & H & H1 & H2). destruct b as [|r1 b] using rev_ind.
      * apply app_inj_tail in H as [_ <-]. rewrite H1. reflexivity.
      * change (a ++ r0 :: b ++ [r1]) with (a ++ (r0 :: b) ++ [r1]) in H. rewrite app_assoc in H. apply app_inj_tail in H as [-> <-].
        rewrite (H2 r) by (apply in_or_app; right; left; reflexivity). apply IH. exists a, r0, b. repeat split; auto.
        intros r' I. apply H2. apply in_or_app. left. exact I.
Qed.
Lemma listed_iff inflate crypt f p n : OpenPerfect inflate crypt f = Ok p ->
  (QHasObject p n = true <-> exists o, QGetRawObject p n = Ok o) /\
  (QHasObject p n = true <-> in_some_revision (qDoc p) n) /\
  (forall o, QGetRawObject p n = Ok o <-> in_last_revision (qDoc p) n o).
Proof.
  intros H. unfold QHasObject, QGetRawObject, mem. rewrite (xref_offsets _ _ _ _ n H).
  assert (L : forall o, DGetObject (qDoc p) n = Some o <-> in_last_revision (qDoc p) n o) by (intros o; apply newest_last).
  split; [|split].
  - destruct (DGetObject (qDoc p) n) as [o|]; cbn [option_map]; split; [intros _; exists o; reflexivity|reflexivity|discriminate|intros [? [=]]].
  - destruct (DGetObject (qDoc p) n) as [o|] eqn:E; cbn [option_map]; (split; [|intros (r & o' & I & G)]); [|reflexivity|discriminate|].
    + intros _. destruct (proj1 (L o) eq_refl) as (a & r & b & Er & G & _). exists r, o. split; [rewrite Er; apply in_or_app; right; left; reflexivity|exact G].
    + exfalso. apply in_rev in I. unfold DGetObject in E. revert I E. generalize (rev (dRevisions (qDoc p))). intros l I E.
      induction l as [|r0 l IH]; [destruct I|]. cbn [newest] in E. destruct (mget n (rvObjects r0)) eqn:E0; [discriminate|].
      destruct I as [->|I]; [congruence|exact (IH I E)].
  - intros o. rewrite <- L. destruct (DGetObject (qDoc p) n) as [o'|]; split; intros [=]; subst; reflexivity.
Qed.
Lemma objects_listed inflate crypt f p order : is_order order -> OpenPerfect inflate crypt f = Ok p ->
  NoDup (QObjects order p) /\ (forall n, In n (QObjects order p) <-> QHasObject p n = true) /\ length (QObjects order p) = QObjectCount p.
Proof.
  intros Ho _. unfold QObjects, QHasObject, QObjectCount, mem. pose proof (Ho (mkeys (qXref p))) as P.
  split; [exact (Permutation_NoDup (Permutation_sym P) (mkeys_nodup _))|]. split; [|apply Permutation_length; exact P].
  intros n. split; intros H.
  - apply (Permutation_in _ P) in H. apply mkeys_in in H as [v ->]. reflexivity.
  - apply (Permutation_in _ (Permutation_sym P)). apply mkeys_in. destruct (mget n (qXref p)); [eauto|discriminate].
Qed.
Lemma perfect_bytes inflate crypt f p : OpenPerfect inflate crypt f = Ok p -> QBytes p = f /\ QRaw p = f.
Proof. intros H. destruct (perfect_open _ _ _ _ H) as (H1 & H2 & _). split; [exact (doc_bytes _ _ _ H2)|exact H1]. Qed.

(* ---------------- the two ways to read an object ---------------- *)
Lemma header_bytes n g (x : bytes) : decZ n ++ bs " " ++ decZ g ++ bs " obj" ++ x = (decZ n ++ bs " " ++ decZ g ++ bs " obj") ++ x.
Proof. rewrite <- !app_assoc. reflexivity. Qed.
Lemma header_length n g : length (decZ n ++ bs " " ++ decZ g ++ bs " obj") = (length (decZ n) + length (decZ g) + 5)%nat.
Proof. rewrite !app_length. change (length (bs " obj")) with 4%nat. change (length (bs " ")) with 1%nat. lia. Qed.
Lemma white_blank b : is_white b = false -> is_blank b = false.
Proof. unfold is_white. intros H. apply orb_false_iff in H as [H _]. exact H. Qed.
Lemma blanks_white ws : forallb is_blank ws = true -> forallb is_white ws = true.
Proof. induction ws as [|b ws IH]; [reflexivity|]. cbn [forallb]. intros H. apply andb_true_iff in H as [H1 H2]. rewrite (IH H2). unfold is_white. rewrite H1. reflexivity. Qed.
Lemma index_prefix p s rest i : index p s = Some i -> index p (s ++ rest) = Some i.
Proof.
  intros H. apply index_some in H as (H1 & H2 & H3). apply index_some.
  assert (Hp : (i + length p <= length s)%nat).
  { apply prefixb_spec in H1 as [u H1]. apply (f_equal (@length _)) in H1. rewrite skipn_length, app_length in H1. lia. }
  split; [|split; [rewrite app_length; lia|]].
  - rewrite skipn_app_l by lia. apply prefixb_spec in H1 as [u ->]. apply prefixb_spec. exists (u ++ rest). rewrite app_assoc. reflexivity.
  - intros j Hj. destruct (prefixb p (skipn j (s ++ rest))) eqn:E; [|reflexivity]. rewrite <- (H3 j Hj). symmetry.
    rewrite skipn_app_l in E by lia. apply prefixb_spec in E as [u E]. apply prefixb_spec. exists (skipn (length p) (skipn j s)).
    assert (L : (length p <= length (skipn j s))%nat) by (rewrite skipn_length; lia).
    transitivity (firstn (length p) (skipn j s) ++ skipn (length p) (skipn j s)); [symmetry; apply firstn_skipn|]. f_equal.
    apply (f_equal (firstn (length p))) in E. rewrite (firstn_app (length p) (skipn j s)), (firstn_len_app p u) in E by reflexivity.
    replace (length p - length (skipn j s))%nat with 0%nat in E by lia. cbn [firstn] in E. rewrite app_nil_r in E. exact E.
Qed.
Lemma read_simple n g ws t t1 rest : 0 <= n -> 0 <= g -> blanks ws -> starts_here t -> cut_after_stream t t1 ->
  index (bs "endobj") (object_bytes n g ws t) = Some (length ((decZ n ++ bs " " ++ decZ g ++ bs " obj") ++ ws ++ t)) ->
  read_object None n g (object_bytes n g ws t ++ rest) = Ok (given_text n g t1).
Proof.
  intros Hn Hg Hw Ht Hs Hi. unfold read_object, blanks, starts_here in *.
  rewrite (index_prefix _ _ _ _ Hi).
  set (hd := decZ n ++ bs " " ++ decZ g ++ bs " obj") in *.
  assert (E : object_bytes n g ws t = (hd ++ ws ++ t) ++ bs "endobj") by (unfold object_bytes, hd; rewrite <- !app_assoc; reflexivity).
  rewrite E, <- app_assoc. rewrite firstn_len_app by reflexivity. cbv zeta.
  assert (Ei : index (bs "obj") (hd ++ ws ++ t) = Some (length hd - 3)%nat).
  { unfold hd at 1. rewrite <- !app_assoc. rewrite index_obj_gen by assumption. f_equal. unfold hd. rewrite header_length. lia. }
  rewrite Ei.
  assert (Hl : (5 <= length hd)%nat) by (unfold hd; rewrite header_length; lia).
  replace (length hd - 3 + 3)%nat with (length hd) by lia.
  assert (Hsub : forall a b, hd ++ ws ++ t = a ++ b -> sub (length a) (length (hd ++ ws ++ t)) ((hd ++ ws ++ t) ++ bs "endobj" ++ rest) = b).
  { intros a b ->. unfold sub. rewrite <- app_assoc, skipn_app_exact. apply firstn_len_app. rewrite app_length. lia. }
  rewrite (Hsub hd (ws ++ t)) by reflexivity.
  assert (Ew : take_while is_blank (ws ++ t) = ws).
  { apply take_while_app; [exact Hw|]. destruct t as [|b t]; [destruct Ht|]. apply white_blank. exact Ht. }
  rewrite Ew. replace (length hd + length ws)%nat with (length (hd ++ ws)) by (rewrite app_length; lia).
  rewrite (Hsub (hd ++ ws) t) by (rewrite <- app_assoc; reflexivity).
  destruct Hs as [(Hs & ->)|(a & b & -> & Ha & ->)].
  - unfold contains in Hs. destruct (index (bs "stream") t); [discriminate|]. unfold obj_result, given_text. do 4 f_equal.
  - destruct (index (bs "stream") (a ++ bs "endstream" ++ b)) as [st|] eqn:Es.
    + rewrite Ha. cbn [rbind]. replace (a ++ bs "endstream" ++ b) with ((a ++ bs "endstream") ++ b) by (rewrite <- app_assoc; reflexivity).
      rewrite firstn_len_app by (rewrite app_length; change (length (bs "endstream")) with 9%nat; lia).
      unfold obj_result, given_text. do 4 f_equal.
    + exfalso. apply (proj1 (index_none _ _)) with (i := (length a + 3)%nat) in Es; [|rewrite !app_length; change (length (bs "endstream")) with 9%nat; lia].
      rewrite skipn_app, skipn_all2 in Es by lia. replace (length a + 3 - length a)%nat with 3%nat in Es by lia. cbn in Es. discriminate.
Qed.
Lemma rtrim_end t : trimmed_end t (rtrim is_white t).
Proof.
  unfold trimmed_end, rtrim. split.
  - exists (rev (take_while is_white (rev t))). split.
    + rewrite <- rev_app_distr, take_drop_while, rev_involutive. reflexivity.
    + rewrite forallb_forall. intros b Hb. apply in_rev in Hb. exact (proj1 (forallb_forall _ _) (take_while_all is_white (rev t)) b Hb).
  - assert (G : forall s, drop_while is_white s = [] \/ exists c b, drop_while is_white s = c :: b /\ is_white c = false).
    { induction s as [|c s IH]; [left; reflexivity|]. cbn [drop_while]. destruct (is_white c) eqn:Ec; [exact IH|]. right. exists c, s. split; [reflexivity|exact Ec]. }
    destruct (G (rev t)) as [->|(c & b & -> & Hc)]; [left; reflexivity|]. right. exists (rev b), c. split; [reflexivity|exact Hc].
Qed.
Lemma content_simple n g ws t o : 0 <= n -> 0 <= g -> blanks ws -> starts_here t -> roBytes o = object_bytes n g ws t ->
  RContent o = rtrim is_white t.
Proof.
  intros Hn Hg Hw Ht Hb. unfold RContent, blanks, starts_here in *. rewrite Hb. cbv zeta.
  set (hd := decZ n ++ bs " " ++ decZ g ++ bs " obj") in *.
  assert (E : object_bytes n g ws t = (hd ++ ws ++ t) ++ bs "endobj") by (unfold object_bytes, hd; rewrite <- !app_assoc; reflexivity).
  assert (E' : object_bytes n g ws t = (hd ++ ws ++ t ++ bs "endob") ++ bs "j") by (rewrite E, <- !app_assoc; reflexivity).
  assert (F : firstn (length (object_bytes n g ws t) - 1) (object_bytes n g ws t) = hd ++ ws ++ t ++ bs "endob").
  { rewrite E'. apply firstn_len_app. rewrite (app_length _ (bs "j")). change (length (bs "j")) with 1%nat. lia. }
  rewrite F. assert (Ei : index (bs "obj") (hd ++ ws ++ t ++ bs "endob") = Some (length hd - 3)%nat).
  { unfold hd at 1. rewrite <- !app_assoc. rewrite index_obj_gen by assumption. f_equal. unfold hd. rewrite header_length. lia. }
  rewrite Ei.
  assert (Hl : (5 <= length hd)%nat) by (unfold hd; rewrite header_length; lia).
  replace (length hd - 3 + 3)%nat with (length hd) by lia.
  assert (El : last_index (bs "endobj") (object_bytes n g ws t) = Some (length (hd ++ ws ++ t))).
  { rewrite E. pose proof (last_index_at (bs "endobj") (hd ++ ws ++ t) []) as L. rewrite app_nil_r in L. apply L.
    change (length (bs "endobj")) with 6%nat. intros j H1 H2. do 7 (destruct j as [|j]; [try lia; reflexivity|]). lia. }
  rewrite El, E.
  replace (skipn (length hd) ((hd ++ ws ++ t) ++ bs "endobj")) with (ws ++ t ++ bs "endobj")
    by (rewrite <- !app_assoc; symmetry; apply skipn_app_exact).
  assert (Ew : take_while is_white (ws ++ t ++ bs "endobj") = ws).
  { apply take_while_app; [apply blanks_white; exact Hw|]. destruct t as [|b t]; [destruct Ht|]. exact Ht. }
  rewrite Ew. f_equal. unfold sub. replace (length hd + length ws)%nat with (length (hd ++ ws)) by (rewrite app_length; lia).
  replace ((hd ++ ws ++ t) ++ bs "endobj") with ((hd ++ ws) ++ t ++ bs "endobj") by (rewrite <- !app_assoc; reflexivity).
  rewrite skipn_app_exact. apply firstn_len_app. rewrite !app_length. lia.
Qed.
Lemma both_readings inflate crypt f p n g ws t t1 o : OpenPerfect inflate crypt f = Ok p -> mentions_encrypt f = false -> QGetRawObject p n = Ok o ->
  0 <= n < 2 ^ 63 -> 0 <= g < 2 ^ 63 -> roBytes o = object_bytes n g ws t -> blanks ws -> starts_here t -> cut_after_stream t t1 ->
  QGetObject p n = Ok (given_text n g t1) /\ trimmed_end t (RContent o).
Proof.
  intros H He Hr Hn Hg Hb Hw Ht Hs. split; [|rewrite (content_simple n g ws t o) by (try assumption; lia); apply rtrim_end].
  destruct (perfect_open _ _ _ _ H) as (H1 & H2 & _ & H4). unfold QGetObject. rewrite (xref_offsets _ _ _ _ n H), (H4 He), H1.
  unfold QGetRawObject in Hr. destruct (DGetObject (qDoc p) n) as [o'|] eqn:Ed; [|discriminate]. injection Hr as ->. cbn [option_map].
  assert (exists r, In r (dRevisions (qDoc p)) /\ revision_object r o) as (r & Ir & Ro).
  { apply newest_last in Ed as (a & r & b & Er & G & _). exists r. split; [rewrite Er; apply in_or_app; right; left; reflexivity|exists n; exact G]. }
  destruct (revision_objects_ok _ _ _ _ _ H2 Ir Ro) as ((O1 & _) & _ & (u & Hu & Hi)).
  destruct (doc_raw _ _ _ _ _ H2 Ed) as (_ & _ & (O2 & O3) & O4 & _).
  assert (Ef : exists rest, from (roOffset o) f = object_bytes n g ws t ++ rest).
  { exists (skipn (length (object_bytes n g ws t)) (from (roOffset o) f)). rewrite <- Hb, O4 at 1. unfold sub at 1, from.
    rewrite <- (firstn_skipn (Z.to_nat (roEnd o) - Z.to_nat (roOffset o)) (skipn (Z.to_nat (roOffset o)) f)) at 1. f_equal.
    rewrite <- Hb, O4. unfold sub. f_equal. rewrite firstn_length, skipn_length. unfold flen in O3. lia. }
  destruct Ef as [rest Ef]. unfold GetDirectObject. unfold flen in *.
  replace (roOffset o <? 0) with false by lia. replace (Z.of_nat (length f) <=? roOffset o) with false by lia. cbn [orb].
  rewrite Ef. assert (exists r', take 50 (object_bytes n g ws t ++ rest) = decZ n ++ bs " " ++ decZ g ++ bs " obj" ++ r') as [r' ->].
  { unfold object_bytes. rewrite <- !app_assoc. pose proof (decZ_length63 n Hn). pose proof (decZ_length63 g Hg).
    rewrite take_app_l by lia. rewrite take_app_l by (change (length (bs " ")) with 1%nat; lia).
    rewrite take_app_l by (change (length (bs " ")) with 1%nat; lia).
    rewrite take_app_l by (change (length (bs " ")) with 1%nat; change (length (bs " obj")) with 4%nat; lia). eauto. }
  rewrite m_objnum_gen by lia. rewrite atoi_clip_decZ by exact Hg. apply read_simple; try assumption; try lia.
  rewrite <- Hb, Hi. f_equal. rewrite Hu in Hb. unfold object_bytes in Hb.
  assert (u = (decZ n ++ bs " " ++ decZ g ++ bs " obj") ++ ws ++ t) as ->; [|reflexivity].
  apply (app_inv_tail (bs "endobj")). rewrite Hb, <- !app_assoc. reflexivity.
Qed.

(* ---------------- revisions ---------------- *)
Lemma parse_revisions_length inflate f : forall eofs i acc rs, parse_revisions inflate f i eofs acc = Ok rs ->
  (length rs <= length acc + length eofs)%nat.
Proof.
  induction eofs as [|e es IH]; intros i acc rs; cbn [parse_revisions].
  - intros H. injection H as <-. rewrite rev_length. cbn [length]. lia.
  - destruct (parseRevision inflate f i e _) as [r| |]; [|intros H; apply IH in H; cbn [length] in *; lia|discriminate].
    intros H. apply IH in H. cbn [length] in *. lia.
Qed.
Lemma revision_counts inflate crypt f p : OpenPerfect inflate crypt f = Ok p ->
  (1 <= QRevisionCount p <= length (FindAllEOFMarkers f))%nat.
Proof.
  intros H. destruct (perfect_open _ _ _ _ H) as (_ & H2 & _). unfold QRevisionCount. revert H2. unfold ParsePDFDocument.
  destruct (_ || _); [discriminate|]. destruct (FindAllEOFMarkers f) as [|e es]; [discriminate|].
  destruct (parse_revisions inflate f 1 (e :: es) []) as [rs| |] eqn:E; try discriminate. cbn [rbind]. apply parse_revisions_length in E. cbn [length] in *.
  destruct rs as [|r rs]; [discriminate|]. intros H2. injection H2 as <-. cbn [dRevisions length] in *. lia.
Qed.

Lemma read_place inflate crypt f p n : OpenPerfect inflate crypt f = Ok p ->
  (forall o, QGetRawObject p n = Ok o -> QGetObject p n = GetDirectObject (qDec p) f n (roOffset o)) /\
  (QHasObject p n = false -> QGetObject p n = Err /\ QGetRawObject p n = Err) /\
  (if mentions_encrypt f then crypt f = Ok (qDec p) else qDec p = None).
Proof.
  intros H. destruct (perfect_open _ _ _ _ H) as (H1 & _ & _ & H4). unfold QGetObject, QGetRawObject, QHasObject, mem. rewrite (xref_offsets _ _ _ _ n H), H1.
  split; [|split].
  - intros o. destruct (DGetObject (qDoc p) n) as [o'|]; intros [=]. subst. reflexivity.
  - destruct (DGetObject (qDoc p) n); [discriminate|]. split; reflexivity.
  - destruct (mentions_encrypt f) eqn:E; [|exact (H4 eq_refl)]. revert H. unfold OpenPerfect. rewrite E. destruct (flen f <? 8); [discriminate|].
    destruct (crypt f) as [dec| |]; try discriminate. cbn [rbind]. unfold parseBytePerfect. destruct (ParsePDFDocument inflate f); try discriminate.
    cbn [rbind]. intros H. injection H as <-. reflexivity.
Qed.
