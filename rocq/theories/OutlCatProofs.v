From Verif Require Import Base Util Scan WriterModel WriterSpec WriterProofs PageProofs OutlCatSpec.
Local Open Scope Z_scope.

Lemma at_prefix p (s : bytes) i : prefixb p (skipn i s) = true -> (i <= length s)%nat -> exists b, s = firstn i s ++ p ++ b.
Proof. intros H _. apply prefixb_spec in H as (t & E). exists t. rewrite <- E. symmetry. apply firstn_skipn. Qed.
Lemma prefix_of_split p (s a b : bytes) : s = a ++ p ++ b -> prefixb p (skipn (length a) s) = true /\ (length a <= length s)%nat.
Proof. intros ->. rewrite skipn_app, skipn_all, Nat.sub_diag. cbn [app skipn]. split; [apply prefixb_app|rewrite app_length; lia]. Qed.
Lemma holds_contains p c : holds p c <-> contains p c = true.
Proof.
  split.
  - intros (a & b & E). destruct (contains p c) eqn:C; [reflexivity|]. destruct (prefix_of_split _ _ _ _ E) as (H & L). rewrite (proj1 (contains_false p c) C _ L) in H. discriminate.
  - intros C. unfold contains in C. destruct (index p c) as [i|] eqn:E; [|discriminate]. apply index_some in E as (H & L & _).
    destruct (at_prefix _ _ _ H L) as (b & Q). exists (firstn i c), b. exact Q.
Qed.
Lemma first_index a p c : first_after a p c -> index p c = Some (length a).
Proof.
  intros ((b & E) & F). apply index_some. destruct (prefix_of_split _ _ _ _ E) as (H & L). repeat split; [exact H|exact L|].
  intros j Hj. destruct (prefixb p (skipn j c)) eqn:Q; [|reflexivity]. destruct (at_prefix p c j Q ltac:(lia)) as (b' & E'). specialize (F _ _ E'). rewrite firstn_length in F. lia.
Qed.
Lemma last_index_after a p c : last_after a p c -> last_index p c = Some (length a).
Proof.
  intros ((b & E) & F). apply last_index_some. destruct (prefix_of_split _ _ _ _ E) as (H & L). repeat split; [exact H|exact L|].
  intros j Hj Hl. destruct (prefixb p (skipn j c)) eqn:Q; [|reflexivity]. destruct (at_prefix p c j Q Hl) as (b' & E'). specialize (F _ _ E'). rewrite firstn_length in F. lia.
Qed.
Lemma take_word f (w t : bytes) : forallb f w = true -> (match t with [] => True | b :: _ => f b = false end) -> take_while f (w ++ t) = w.
Proof.
  induction w as [|b w IH]; intros H Ht; cbn [app].
  - destruct t as [|b t]; [reflexivity|]. cbn [take_while]. rewrite Ht. reflexivity.
  - cbn [forallb] in H. apply andb_true_iff in H as (H1 & H2). cbn [take_while]. rewrite H1, IH by assumption. reflexivity.
Qed.
Lemma pages_word c a v t : first_after a (bs "/Pages ") c -> c = a ++ bs "/Pages " ++ v ++ t -> Forall word_byte v -> (match t with [] => True | b :: _ => ~ word_byte b end) ->
  extractDictValueFromString c (bs "/Pages") = v.
Proof.
  intros Hf Hc Hv Ht. unfold extractDictValueFromString. change (bs "/Pages" ++ bs " ") with (bs "/Pages "). rewrite (first_index _ _ _ Hf).
  change (length (bs "/Pages")) with 6%nat.
  assert (skipn (length a + 6 + 1) c = v ++ t) as ->.
  { rewrite Hc. replace (length a + 6 + 1)%nat with (7 + length a)%nat by lia. rewrite <- skipn_skipn. rewrite skipn_app, skipn_all, Nat.sub_diag. reflexivity. }
  apply take_word.
  - apply forallb_forall. intros b I. rewrite Forall_forall in Hv. destruct (Hv b I) as (H1 & H2 & H3). apply beqb_neq in H1, H2, H3. rewrite H1, H2. change "010"%byte with x0a. rewrite H3. reflexivity.
  - destruct t as [|b t]; [exact I|]. unfold word_byte in Ht. destruct (beqb b " ") eqn:E1; [reflexivity|]. destruct (beqb b ">") eqn:E2; [reflexivity|]. destruct (beqb b "010") eqn:E3; [reflexivity|].
    exfalso. apply Ht. apply beqb_neq in E1, E2, E3. repeat split; assumption.
Qed.
Lemma no_pages_word c : ~ holds (bs "/Pages ") c -> extractDictValueFromString c (bs "/Pages") = [].
Proof.
  intros H. unfold extractDictValueFromString. change (bs "/Pages" ++ bs " ") with (bs "/Pages "). destruct (index (bs "/Pages ") c) as [i|] eqn:E; [|reflexivity].
  exfalso. apply H. apply holds_contains. unfold contains. rewrite E. reflexivity.
Qed.
Lemma three_entries (x y z : bytes) : format_pairs [(bs "/Type", x); (bs "/Pages", y); (bs "/Outlines", z)] =
  bs "<</Outlines " ++ z ++ bs " /Pages " ++ y ++ bs " /Type " ++ x ++ bs " >>".
Proof.
  unfold format_pairs. change (sortK [(bs "/Type", x); (bs "/Pages", y); (bs "/Outlines", z)]) with [(bs "/Outlines", z); (bs "/Pages", y); (bs "/Type", x)].
  cbn [flat_map fst snd]. change (slash_key (bs "/Outlines")) with (bs "/Outlines"). change (slash_key (bs "/Pages")) with (bs "/Pages"). change (slash_key (bs "/Type")) with (bs "/Type").
  rewrite <- !app_assoc. reflexivity.
Qed.
Lemma suffix_space v : Forall word_byte v -> suffixb (bs " R") v = false.
Proof.
  intros H. destruct (suffixb (bs " R") v) eqn:E; [|reflexivity]. unfold suffixb in E. apply andb_true_iff in E as (_ & E). apply bytes_eqb_eq in E.
  assert (I : In " "%byte v). { rewrite <- (firstn_skipn (length v - length (bs " R")) v), <- E. apply in_or_app. right. left. reflexivity. }
  rewrite Forall_forall in H. destruct (H _ I) as (Q & _). congruence.
Qed.
Theorem catalog_rebuilt w root out c : text_catalog w root out c -> holds (bs "/Type") c -> holds (bs "/Pages") c ->
  stored_text (updateCatalogWithOutlines w) root
    (bs "<</Outlines " ++ ref out ++ bs " /Pages " ++ formatValue (VStr (extractDictValueFromString c (bs "/Pages"))) ++ bs " /Type /Catalog >>") /\
  forall n, n <> root -> mget n (objects (updateCatalogWithOutlines w)) = mget n (objects w).
Proof.
  intros (Hr & H0 & Ho & Hm) Ht Hp. apply holds_contains in Ht, Hp. unfold updateCatalogWithOutlines. rewrite Ho, Hr. apply Z.eqb_neq in H0. rewrite H0, Hm. cbn [oDict oContent oStream]. rewrite Ht, Hp. cbn [andb]. split.
  - eexists. cbn [objects set_dicts set_objects]. rewrite mget_mset, Z.eqb_refl. split; [reflexivity|]. cbn [oStream oContent].
    change (kset (bs "/Outlines") (VStr (ref out)) [(bs "/Type", VStr (bs "/Catalog")); (bs "/Pages", VStr (extractDictValueFromString c (bs "/Pages")))])
      with [(bs "/Type", VStr (bs "/Catalog")); (bs "/Pages", VStr (extractDictValueFromString c (bs "/Pages"))); (bs "/Outlines", VStr (ref out))].
    unfold formatDictionary. cbn [map fst snd]. rewrite three_entries, fmt_ref. reflexivity.
  - intros n Hn. cbn [objects set_dicts set_objects]. rewrite mget_mset. apply Z.eqb_neq in Hn. destruct (n =? root) eqn:E; [congruence|]. try (rewrite Z.eqb_sym, Hn); reflexivity.
Qed.
Theorem pages_broken w root out c a v t : text_catalog w root out c -> holds (bs "/Type") c ->
  first_after a (bs "/Pages ") c -> c = a ++ bs "/Pages " ++ v ++ t -> Forall word_byte v -> (match t with [] => True | b :: _ => ~ word_byte b end) -> prefixb (bs "/") v = false ->
  stored_text (updateCatalogWithOutlines w) root (bs "<</Outlines " ++ ref out ++ bs " /Pages (" ++ v ++ bs ") /Type /Catalog >>").
Proof.
  intros Ht Hy Hf Hc Hv Hs Hn. destruct (catalog_rebuilt w root out c Ht Hy) as (S & _).
  - exists a, (bs " " ++ v ++ t). rewrite Hc. reflexivity.
  - rewrite (pages_word c a v t Hf Hc Hv Hs) in S. unfold formatValue in S. rewrite Hn, (suffix_space v Hv) in S. cbn [orb] in S. rewrite <- !app_assoc in S. exact S.
Qed.
Theorem pages_dropped w root out c : text_catalog w root out c -> holds (bs "/Type") c -> holds (bs "/Pages") c -> ~ holds (bs "/Pages ") c ->
  stored_text (updateCatalogWithOutlines w) root (bs "<</Outlines " ++ ref out ++ bs " /Pages () /Type /Catalog >>").
Proof. intros Ht Hy Hp Hn. destruct (catalog_rebuilt w root out c Ht Hy Hp) as (S & _). rewrite (no_pages_word c Hn) in S. exact S. Qed.
Theorem catalog_extended w root out c a b : text_catalog w root out c -> ~ (holds (bs "/Type") c /\ holds (bs "/Pages") c) -> ~ holds (bs "/Outlines") c ->
  last_after a (bs ">>") c -> a <> [] -> c = a ++ bs ">>" ++ b ->
  stored_text (updateCatalogWithOutlines w) root (a ++ bs "/Outlines " ++ ref out ++ bs " >>" ++ b) /\
  forall n, n <> root -> mget n (objects (updateCatalogWithOutlines w)) = mget n (objects w).
Proof.
  intros (Hr & H0 & Ho & Hm) Htp Hno Hl Ha Hc. rewrite 2 holds_contains in Htp. rewrite holds_contains in Hno. unfold updateCatalogWithOutlines. rewrite Ho, Hr. apply Z.eqb_neq in H0. rewrite H0, Hm. cbn [oDict oContent oStream].
  assert (contains (bs "/Type") c && contains (bs "/Pages") c = false) as -> by (apply not_true_is_false; intros Q; apply Htp, andb_true_iff, Q).
  assert (contains (bs "/Outlines") c = false) as -> by (apply not_true_is_false; exact Hno).
  rewrite (last_index_after _ _ _ Hl). destruct (length a) as [|k] eqn:E; [destruct a; [congruence|discriminate]|]. rewrite <- E. split.
  - eexists. cbn [objects set_objects]. rewrite mget_mset, Z.eqb_refl. split; [reflexivity|]. cbn [oStream oContent].
    rewrite Hc, firstn_app, firstn_all, Nat.sub_diag, skipn_app, skipn_all, Nat.sub_diag. cbn [firstn skipn app]. rewrite app_nil_r. reflexivity.
  - intros n Hn. cbn [objects set_objects]. rewrite mget_mset. apply Z.eqb_neq in Hn. destruct (n =? root) eqn:E'; [congruence|]. try (rewrite Z.eqb_sym, Hn); reflexivity.
Qed.
Theorem dictionary_kept w root out o a d : rootRef w = Some root -> root <> 0 -> outlinesRef w = Some out -> mget root (objects w) = Some o -> oDict o = Some a -> mget a (dicts w) = Some d ->
  exists d', mget a (dicts (updateCatalogWithOutlines w)) = Some d' /\ kget (bs "/Outlines") d' = Some (VStr (ref out)) /\
    (forall k, k <> bs "/Outlines" -> kget k d' = kget k d) /\
    (oStream o = None -> stored_text (updateCatalogWithOutlines w) root (formatDictionary d')) /\
    forall n, n <> root -> mget n (objects (updateCatalogWithOutlines w)) = mget n (objects w).
Proof.
  intros Hr H0 Ho Hm Hd Hg. unfold updateCatalogWithOutlines. rewrite Ho, Hr. apply Z.eqb_neq in H0. rewrite H0, Hm, Hd, Hg.
  exists (kset (bs "/Outlines") (VStr (ref out)) d). cbn [dicts objects set_dicts set_objects]. rewrite !mget_mset, !Z.eqb_refl. split; [reflexivity|]. rewrite kget_kset. split; [reflexivity|]. split; [|split].
  - intros k Hk. rewrite kget_kset. destruct (bytes_eqb k (bs "/Outlines")) eqn:E; [apply bytes_eqb_eq in E; congruence|]. reflexivity.
  - intros Hs. eexists. cbn [objects set_dicts set_objects]. rewrite mget_mset, Z.eqb_refl. split; [reflexivity|]. cbn [oStream oContent]. rewrite Hs. reflexivity.
  - intros n Hn. rewrite mget_mset. apply Z.eqb_neq in Hn. destruct (n =? root) eqn:E'; [congruence|]. try (rewrite Z.eqb_sym, Hn); reflexivity.
Qed.
