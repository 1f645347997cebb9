(** Proofs about the pieces of a byte-perfect document. *)
From Verif Require Import WriterModel ParseModel ParseSpec WriterSpec Util Scan WriterProofs XrefProofs ParseProofs ReadProofs PieceModel PieceSpec.
Local Open Scope Z_scope.

(** What ParseRawObject returns is a part of the file that ends in the first "endobj". *)
Lemma raw_inv f n g off o : ParseRawObject f n g off = Ok o ->
  0 <= off < flen f /\ roNumber o = n /\ roGeneration o = g /\ roOffset o = off /\ roEnd o = off + flen (roBytes o) /\
  exists e, index (bs "endobj") (from off f) = Some e /\ roBytes o = firstn (e + 6) (from off f).
Proof.
  unfold ParseRawObject. destruct ((off <? 0) || (flen f <=? off)) eqn:B; [discriminate|].
  apply orb_false_iff in B. destruct B as [B1 B2].
  destruct (negb (prefixb _ (from off f)) && _); [discriminate|].
  destruct (index (bs "endobj") (from off f)) as [e|] eqn:E; [|discriminate].
  assert (L : flen (firstn (e + 6) (from off f)) = Z.of_nat e + 6).
  { pose proof (index_split _ _ _ E) as S. apply index_some in E. destruct E as (_ & L & _).
    apply (f_equal (@length byte)) in S. rewrite !app_length, firstn_length_le in S by exact L. change (length (bs "endobj")) with 6%nat in S.
    unfold flen. rewrite firstn_length_le by lia. lia. }
  assert (R : 0 <= off < flen f) by lia.
  destruct (index (bs "stream") (firstn (e + 6) (from off f))) as [st|].
  - destruct (index (bs "<<") (firstn (e + 6) (from off f))); cbn [rbind]; intros [= <-]; cbn [roNumber roGeneration roOffset roEnd roBytes];
    (repeat split; try lia; exists e; split; reflexivity).
  - intros [= <-]. cbn [roNumber roGeneration roOffset roEnd roBytes]. repeat split; try lia. exists e. split; reflexivity.
Qed.

Lemma raw_part f n g off o : ParseRawObject f n g off = Ok o ->
  part f (roOffset o) (roEnd o) (roBytes o) /\ exists t, roBytes o = t ++ bs "endobj" /\ index (bs "endobj") (roBytes o) = Some (length t).
Proof.
  intro H. apply raw_inv in H. destruct H as (R & _ & _ & EO & EE & e & I & EB).
  pose proof (index_split _ _ _ I) as S. pose proof I as I'. apply index_some in I'. destruct I' as (_ & L & NF).
  assert (FE : firstn (e + 6) (from off f) = firstn e (from off f) ++ bs "endobj").
  { rewrite S at 1. rewrite app_assoc, firstn_app. rewrite app_length, firstn_length_le by exact L.
    change (length (bs "endobj")) with 6%nat. rewrite Nat.sub_diag, firstn_O, app_nil_r. apply firstn_all2.
    rewrite app_length, firstn_length_le by exact L. change (length (bs "endobj")) with 6%nat. lia. }
  split.
  - rewrite EE, EO, EB. exists (firstn (Z.to_nat off) f), (skipn (e + 6) (from off f)). split; [|split].
    + rewrite firstn_skipn. unfold from. now rewrite firstn_skipn.
    + rewrite firstn_length_le; unfold flen in R; lia.
    + reflexivity.
  - exists (firstn e (from off f)). split; [now rewrite EB|]. rewrite EB, FE, firstn_length_le by exact L.
    apply index_some. rewrite app_length, firstn_length_le by exact L. split; [|split].
    + rewrite <- (firstn_length_le _ L) at 1. rewrite skipn_app_exact. reflexivity.
    + lia.
    + intros j Hj. specialize (NF j Hj). rewrite S in NF. rewrite <- FE.
      destruct (prefixb (bs "endobj") (skipn j (firstn (e + 6) (from off f)))) eqn:P; [|reflexivity]. exfalso.
      assert (X : prefixb (bs "endobj") (skipn j (from off f)) = true).
      { rewrite <- (firstn_skipn (e + 6) (from off f)). rewrite skipn_app. apply prefixb_spec in P. destruct P as [r ->]. rewrite <- app_assoc. apply prefixb_app. }
      rewrite S in X at 1. congruence.
Qed.

(** The objects of a revision come from its rows. *)
Lemma revision_objects_in f prevEnd eof rows n o : mget n (revision_objects f prevEnd eof rows) = Some o ->
  exists r, In r rows /\ rNum r = n /\ prevEnd <= rOff r < Z.of_nat eof /\ ParseRawObject f (rNum r) (rGen r) (rOff r) = Ok o.
Proof.
  unfold revision_objects.
  assert (G : forall l m0, (forall r, In r l -> In r rows) ->
    (forall k x, mget k m0 = Some x -> exists r, In r rows /\ rNum r = k /\ prevEnd <= rOff r < Z.of_nat eof /\ ParseRawObject f (rNum r) (rGen r) (rOff r) = Ok x) ->
    forall k x, mget k (fold_left (fun m r =>
    if rInUse r && (match rInStream r with None => true | Some _ => false end)
       && (prevEnd <=? rOff r) && (rOff r <? Z.of_nat eof)
    then match ParseRawObject f (rNum r) (rGen r) (rOff r) with
         | Ok o => mset (rNum r) o m
         | _ => m
         end
    else m) l m0) = Some x -> exists r, In r rows /\ rNum r = k /\ prevEnd <= rOff r < Z.of_nat eof /\ ParseRawObject f (rNum r) (rGen r) (rOff r) = Ok x).
  { induction l as [|r l IH]; intros m0 Hl Hm k x; cbn [fold_left]; [apply Hm|]. apply IH; [intros; apply Hl; now right|].
    intros k1 x1. destruct (rInUse r && _ && _ && _) eqn:B; [|apply Hm].
    destruct (ParseRawObject f (rNum r) (rGen r) (rOff r)) as [o1| |] eqn:P; [|apply Hm|apply Hm].
    rewrite mget_mset. destruct (k1 =? rNum r) eqn:E; [|apply Hm]. intros [= <-]. apply Z.eqb_eq in E.
    rewrite !andb_true_iff in B. exists r. repeat split; try lia; [apply Hl; now left|exact P]. }
  apply G; [auto|]. intros k x H. discriminate H.
Qed.

Definition good_rev (f : bytes) (r : revision) : Prop :=
  prefixb (bs "%%EOF") (skipn (rvEOF r) f) = true /\ rvEnd r = skip_eol f (rvEOF r + 5) /\ 0 <= rvStartXRef r < flen f /\
  (forall o, revision_object r o -> 0 <= roOffset o < Z.of_nat (rvEOF r) /\ part f (roOffset o) (roEnd o) (roBytes o) /\
     exists t, roBytes o = t ++ bs "endobj" /\ index (bs "endobj") (roBytes o) = Some (length t)).
Lemma revision_good inflate f num eof prevEnd r : prefixb (bs "%%EOF") (skipn eof f) = true -> parseRevision inflate f num eof prevEnd = Ok r ->
  good_rev f r /\ forall o, revision_object r o -> prevEnd <= roOffset o.
Proof.
  intros HE. unfold parseRevision. destruct (startxref_before f eof) as [d|]; [|discriminate].
  destruct (ParseXRefDataRaw inflate f (atoi_clip d)) as [t| |] eqn:X; cbn [rbind]; try discriminate.
  destruct (fst t && _); [discriminate|]. intros [= <-].
  assert (R : 0 <= atoi_clip d < flen f).
  { unfold ParseXRefDataRaw in X. destruct ((atoi_clip d <? 0) || (flen f <=? atoi_clip d)) eqn:B; [discriminate|]. apply orb_false_iff in B. lia. }
  assert (O : forall o, (exists n, mget n (revision_objects f prevEnd eof (snd t)) = Some o) -> 0 <= roOffset o < Z.of_nat eof /\ prevEnd <= roOffset o /\
     part f (roOffset o) (roEnd o) (roBytes o) /\ exists t, roBytes o = t ++ bs "endobj" /\ index (bs "endobj") (roBytes o) = Some (length t)).
  { intros o (n & H). apply revision_objects_in in H. destruct H as (row & _ & _ & Hp & P). pose proof (raw_inv _ _ _ _ _ P) as (R1 & _ & _ & E & _).
    rewrite E at 1 2 3. split; [lia|]. split; [lia|]. exact (raw_part _ _ _ _ _ P). }
  split.
  - repeat split; cbn [rvEOF rvEnd rvStartXRef]; try exact HE; try lia; apply O in H; tauto.
  - intros o H. apply O in H. tauto.
Qed.
(** All revisions of a document, and two that follow each other. *)
Lemma revisions_good inflate f : forall eofs i acc rs, parse_revisions inflate f i eofs acc = Ok rs ->
  (forall e, In e eofs -> prefixb (bs "%%EOF") (skipn e f) = true) ->
  (1 <= i)%nat -> (acc <> [] -> (1 < i)%nat) -> (forall r, In r acc -> good_rev f r) ->
  (forall b r' r a, acc = b ++ r' :: r :: a -> forall o, revision_object r' o -> Z.of_nat (rvEnd r) <= roOffset o) ->
  (forall r, In r rs -> good_rev f r) /\
  (forall a r r' b, rs = a ++ r :: r' :: b -> forall o, revision_object r' o -> Z.of_nat (rvEnd r) <= roOffset o).
Proof.
  induction eofs as [|e es IH]; intros i acc rs; cbn [parse_revisions].
  - intros [= <-] _ _ _ HG HC. split; [intros r H; apply HG, in_rev, H|].
    intros a r r' b E. apply (f_equal (@rev revision)) in E. rewrite rev_involutive, rev_app_distr in E. cbn [rev] in E. rewrite <- !app_assoc in E. cbn [app] in E.
    eapply HC. exact E.
  - set (prevEnd := match acc with r :: _ => _ | [] => _ end).
    destruct (parseRevision inflate f i e prevEnd) as [r| |] eqn:P; [| |discriminate].
    + intros H HE I1 HI HG HC. destruct (revision_good inflate f i e prevEnd r) as [G1 G2]; [apply HE; now left|exact P|].
      eapply IH; [exact H|intros; apply HE; now right|lia|intros _; lia|intros r0 [<-|H0]; [exact G1|now apply HG]|].
      intros [|r1 b] r' r0 a E.
      * injection E as <- E. intros o Ho. apply G2 in Ho. unfold prevEnd in Ho. rewrite E in Ho. rewrite E in HI. specialize (HI ltac:(discriminate)).
           apply Nat.ltb_lt in HI. now rewrite HI in Ho.
      * injection E as <- E. eapply HC. exact E.
    + intros H HE I1 HI HG HC. eapply IH; [exact H|intros; apply HE; now right|lia|intros X; specialize (HI X); lia|exact HG|exact HC].
Qed.

Lemma document_good inflate f d : ParsePDFDocument inflate f = Ok d ->
  dRaw d = f /\ (forall r, In r (dRevisions d) -> good_rev f r) /\
  (forall a r r' b, dRevisions d = a ++ r :: r' :: b -> forall o, revision_object r' o -> Z.of_nat (rvEnd r) <= roOffset o).
Proof.
  unfold ParsePDFDocument. destruct (_ || _); [discriminate|]. destruct (FindAllEOFMarkers f) as [|e es] eqn:E; [discriminate|].
  destruct (parse_revisions inflate f 1 (e :: es) []) as [rs| |] eqn:P; cbn [rbind]; try discriminate.
  destruct (revisions_good _ _ _ _ _ _ P) as [G1 G2]; try lia.
  - intros x Hx. rewrite <- E, eof_positions in Hx. now apply positions_of_in in Hx.
  - intros H. now destruct H.
  - intros r [].
  - intros b r' r a H. destruct b; discriminate.
  - destruct rs as [|r rs]; [discriminate|]. intros [= <-]. split; [reflexivity|]. split; assumption.
Qed.

Lemma end_bounds f r : good_rev f r -> (rvEOF r + 5 <= rvEnd r <= length f)%nat.
Proof.
  intros (M & -> & _). apply prefixb_spec in M. destruct M as [t M]. apply (f_equal (@length byte)) in M.
  rewrite skipn_length, app_length in M. change (length (bs "%%EOF")) with 5%nat in M.
  assert (rvEOF r + 5 <= length f)%nat as B by lia.
  destruct (skip_eol_spec f (rvEOF r + 5) B) as (eol & rest & S & -> & _). apply (f_equal (@length byte)) in S.
  rewrite skipn_length, app_length in S. lia.
Qed.
Lemma revision_marker f r : good_rev f r -> ends_after_marker f (rvEOF r) (firstn (rvEnd r) f).
Proof.
  intros G. pose proof (end_bounds f r G) as B. destruct G as (M & E & _). 
  assert (rvEOF r + 5 <= length f)%nat as B' by lia.
  destruct (skip_eol_spec f (rvEOF r + 5) B') as (eol & rest & S & S2 & S3 & S4). apply prefixb_spec in M. destruct M as [t M].
  assert (skipn (rvEOF r + 5) f = t) as Hs. { rewrite Nat.add_comm, <- skipn_skipn, M. reflexivity. }
  assert (F : f = firstn (rvEOF r) f ++ bs "%%EOF" ++ eol ++ rest).
  { rewrite <- (firstn_skipn (rvEOF r) f) at 1. rewrite M, <- Hs, S. reflexivity. }
  exists eol, rest. split; [exact F|]. split; [|split; [exact S3|exact S4]].
  rewrite E, S2. rewrite F at 1.
  replace (firstn (rvEOF r) f ++ bs "%%EOF" ++ eol ++ rest) with ((firstn (rvEOF r) f ++ bs "%%EOF" ++ eol) ++ rest) by (now rewrite <- !app_assoc).
  rewrite firstn_app. 
  assert (L : length (firstn (rvEOF r) f ++ bs "%%EOF" ++ eol) = (rvEOF r + 5 + length eol)%nat).
  { rewrite !app_length, firstn_length_le by lia. change (length (bs "%%EOF")) with 5%nat. lia. }
  rewrite L, Nat.sub_diag, firstn_O, app_nil_r. apply firstn_all2. lia.
Qed.

(** The start of a revision *)
Definition min_step (m : zmap rawobj) (s n : Z) : Z :=
  match mget n m with Some o => if roOffset o <? s then roOffset o else s | None => s end.
Lemma min_fold m : forall l s0, let s := fold_left (min_step m) l s0 in
  s <= s0 /\ (forall n o, In n l -> mget n m = Some o -> s <= roOffset o) /\ (s = s0 \/ exists n o, mget n m = Some o /\ roOffset o = s).
Proof.
  induction l as [|n l IH]; intros s0; cbn [fold_left].
  - repeat split; [lia|intros n o []|now left].
  - destruct (IH (min_step m s0 n)) as (H1 & H2 & H3). set (s := fold_left _ l _) in *. cbv zeta.
    assert (A : min_step m s0 n <= s0 /\ (forall o, mget n m = Some o -> min_step m s0 n <= roOffset o) /\
       (min_step m s0 n = s0 \/ exists o, mget n m = Some o /\ roOffset o = min_step m s0 n)).
    { unfold min_step. destruct (mget n m) as [o|]; [|repeat split; [lia|discriminate|now left]].
      destruct (roOffset o <? s0) eqn:B; (split; [lia|]; split; [intros o' [= <-]; lia|]); [right; now exists o|now left]. }
    destruct A as (A1 & A2 & A3). split; [lia|]. split.
    + intros k o [<-|Hk] Ho; [apply A2 in Ho; lia|now apply (H2 k)].
    + destruct H3 as [->|H3]; [|now right]. destruct A3 as [->|(o & Ho & E)]; [now left|]. right. now exists n, o.
Qed.
Lemma start_exists order r : is_order order -> revision_start r (fold_left (min_step (rvObjects r)) (order (mkeys (rvObjects r))) (rvStartXRef r)).
Proof.
  intro HO. destruct (min_fold (rvObjects r) (order (mkeys (rvObjects r))) (rvStartXRef r)) as (H1 & H2 & H3).
  split; [exact H1|]. split.
  - intros o (n & Hn). apply (H2 n); [|exact Hn]. apply (Permutation_in n (Permutation_sym (HO _))). apply mkeys_in. now exists o.
  - destruct H3 as [H3|(n & o & Ho & E)]; [now left|]. right. exists o. split; [now exists n|exact E].
Qed.
Lemma start_unique r s s' : revision_start r s -> revision_start r s' -> s = s'.
Proof.
  intros (A1 & A2 & A3) (B1 & B2 & B3).
  assert (s <= s') by (destruct B3 as [->|(o & Ho & <-)]; [exact A1|now apply A2]).
  assert (s' <= s) by (destruct A3 as [->|(o & Ho & <-)]; [exact B1|now apply B2]). lia.
Qed.
Lemma sub_part f i j : (i <= j <= length f)%nat -> part f (Z.of_nat i) (Z.of_nat j) (sub i j f).
Proof.
  intros H. exists (firstn i f), (skipn j f). unfold sub.
  assert (L : length (firstn (j - i) (skipn i f)) = (j - i)%nat) by (apply firstn_length_le; rewrite skipn_length; lia).
  split; [|split].
  - replace (skipn j f) with (skipn (j - i) (skipn i f)) by (rewrite skipn_skipn; f_equal; lia). rewrite firstn_skipn. now rewrite firstn_skipn.
  - rewrite firstn_length_le; lia.
  - rewrite L. lia.
Qed.
Lemma revision_bytes_cases order f r : is_order order -> good_rev f r -> f <> [] -> exists s, revision_start r s /\ 0 <= s < flen f /\
  RevisionBytes order f r = if Z.of_nat (rvEnd r) <? s then Panic else Ok (Some (sub (Z.to_nat s) (rvEnd r) f)).
Proof.
  intros HO G NF. pose proof (end_bounds f r G) as B. pose proof (start_exists order r HO) as S.
  set (s := fold_left (min_step (rvObjects r)) (order (mkeys (rvObjects r))) (rvStartXRef r)) in S.
  destruct G as (M & E & X & O). exists s. split; [exact S|].
  assert (R : 0 <= s < flen f).
  { destruct S as (S1 & S2 & S3). split; [|lia]. destruct S3 as [->|(o & Ho & <-)]; [lia|]. apply O in Ho. lia. }
  split; [exact R|]. unfold RevisionBytes. destruct f as [|b0 f']; [congruence|]. set (f := b0 :: f') in *.
  fold (min_step (rvObjects r)). fold s. cbv zeta.
  replace (rvEnd r =? 0)%nat with false by (symmetry; apply Nat.eqb_neq; lia).
  replace (flen f <=? s) with false by (symmetry; apply Z.leb_gt; lia).
  replace (length f <? rvEnd r)%nat with false by (symmetry; apply Nat.ltb_ge; lia). cbn [orb].
  replace (s <? 0) with false by (symmetry; apply Z.ltb_ge; lia). reflexivity.
Qed.

(** The first object of a written document stands after the header. *)
Lemma first_written objs h pos nums body ps h' : write_objs None objs [] h pos nums = (body, ps, h') ->
  (forall n, In n nums -> mget n objs <> None) -> body = [] \/ exists n, mget n ps = Some pos.
Proof.
  destruct nums as [|n nums]; cbn [write_objs].
  - intros [= <- _ _] _. now left.
  - intros H Hk. destruct (mget n objs) as [o|] eqn:Eo; [|exfalso; apply (Hk n); [now left|exact Eo]].
    unfold mem in H. cbn [mget] in H. destruct (obj_body None h n o) as [bd h1]. cbv zeta in H.
    destruct (write_objs None objs [] h1 _ nums) as [[rest ps1] h2]. injection H as _ <- _. right. exists n. cbn [mget fst snd]. now rewrite Z.eqb_refl.
Qed.
Lemma write_structure_first deflate order w out :
  is_order order -> useXRefStream w = false -> useObjectStream w = false ->
  fst (Write deflate order None w) = out ->
  exists body ps,
    let w1 := updateCatalogWithOutlines w in
    let hb := pdf_header (pdfVersion w) ++ body in
    out = hb ++ xref_table (nextObjNum w) ps ++ trailer_text w1 (nextObjNum w)
             ++ startxref_text (flen hb) /\
    (forall n, mem n ps = mem n (objects w)) /\
    (forall n p, mget n ps = Some p -> exists t pre post,
        stored_text w1 n t /\ p = flen (pdf_header (pdfVersion w) ++ pre) /\
        body = pre ++ obj_text n t ++ post) /\
    (forall P : bytes -> Prop, P [] -> (forall a b, P a -> P b -> P (a ++ b)) ->
        (forall n t, stored_text w1 n t -> P (obj_text n t)) -> P body) /\
    (body = [] \/ exists n, mget n ps = Some (flen (pdf_header (pdfVersion w)))).
Proof.
  intros Hord Hx Hs Hout. unfold Write in Hout.
  destruct (update_catalog_fields w) as (Ux & Us & Un & Uv & _).
  pose proof (mkeys_update_catalog w) as Hmem. set (w1 := updateCatalogWithOutlines w) in *.
  rewrite createObjectStreams_off in Hout by (rewrite Us; exact Hs). cbv zeta in Hout.
  rewrite Uv in Hout. remember (pdf_header (pdfVersion w)) as hd eqn:Ehd.
  destruct (write_objs None (objects w1) [] (dicts w1) (Z.of_nat (length hd))
              (sortZ (order (mkeys (objects w1))))) as [[body ps] h] eqn:Ew.
  rewrite Ux, Hx, Un in Hout. cbn [fst] in Hout.
  destruct (write_objs_spec _ _ _ _ _ _ _ _ Ew) as [P1 P2].
  { apply sortZ_nodup. apply (Permutation_NoDup (Permutation_sym (Hord _))). apply mkeys_nodup. }
  { lia. }
  { intros n Hn. rewrite sortZ_in in Hn. apply (Permutation_in n (Hord _)) in Hn.
    apply mkeys_in in Hn. destruct Hn as [v Hv]. congruence. }
  assert (forall n, In n (sortZ (order (mkeys (objects w1)))) <-> mget n (objects w1) <> None) as Hin.
  { intros n. rewrite sortZ_in. split; intros H.
    - apply (Permutation_in n (Hord _)) in H. apply mkeys_in in H. destruct H as [v Hv]. congruence.
    - apply (Permutation_in n (Permutation_sym (Hord _))). apply mkeys_in.
      destruct (mget n (objects w1)) as [v|]; [eauto|congruence]. }
  exists body, ps. cbv zeta. split; [|split; [|split; [|split]]].
  - rewrite <- Hout. rewrite <- !app_assoc. reflexivity.
  - intros n. specialize (Hmem n). specialize (Hin n). unfold mem.
    destruct (in_dec Z.eq_dec n (sortZ (order (mkeys (objects w1))))) as [Hi|Hi].
    + destruct (P2 n Hi) as (o & hn & pre & post & _ & -> & _). apply Hin, Hmem in Hi.
      destruct (mget n (objects w)); [reflexivity|congruence].
    + rewrite (P1 n Hi). destruct (mget n (objects w)) as [v|]; [|reflexivity].
      exfalso. apply Hi, Hin, Hmem. congruence.
  - intros n p Hp. destruct (in_dec Z.eq_dec n (sortZ (order (mkeys (objects w1))))) as [Hi|Hi].
    2:{ rewrite (P1 n Hi) in Hp. discriminate. }
    destruct (P2 n Hi) as (o & hn & pre & post & Eo & E & Eb & Eh). rewrite E in Hp. injection Hp as <-.
    exists (body_of None hn n o), pre, post. rewrite (Eh eq_refl). split; [apply body_stored; exact Eo|].
    split; [unfold flen; rewrite app_length, Nat2Z.inj_add; reflexivity|]. rewrite (Eh eq_refl) in Eb. exact Eb.
  - intros P H0 Happ Ht. eapply write_objs_all; [exact Ew|exact H0|exact Happ|].
    intros n o _ Ho. apply Ht, body_stored, Ho.
  - eapply first_written; [exact Ew|]. intros n Hn. now apply Hin.
Qed.
Lemma written_pieces deflate order inflate w out order' :
  is_order order -> useXRefStream w = false -> useObjectStream w = false -> encryptRef w = None ->
  1 <= nextObjNum w -> plain_version (pdfVersion w) = true ->
  (forall n, mem n (objects w) = true -> 1 <= n < nextObjNum w) ->
  (forall n t, stored_text (updateCatalogWithOutlines w) n t -> plain t) ->
  fst (Write deflate order None w) = out -> Z.of_nat (length out) < 10 ^ 10 -> is_order order' ->
  exists d r h t, ParsePDFDocument inflate out = Ok d /\ dRevisions d = [r] /\
    ParsePDFHeader out = Ok h /\ RevisionBytes order' out r = Ok (Some t) /\
    hRaw h = pdf_header (pdfVersion w) /\ hRaw h ++ t = out /\
    exists hb ps, out = hb ++ xref_table (nextObjNum w) ps ++ trailer_text (updateCatalogWithOutlines w) (nextObjNum w) ++ startxref_text (flen hb) /\
      rvStartXRef r = flen hb.
Proof.
  intros Hord Hx Hs He Hn Hv Hrange Rt Hout Hlen Hord'.
  destruct (write_structure_first deflate order w out Hord Hx Hs Hout) as (body & ps & Eo & Hmem & Hps & Hall & Hfirst).
  cbv zeta in *. set (w1 := updateCatalogWithOutlines w) in *.
  assert (encryptRef w1 = None) as He1 by (unfold w1; destruct (update_catalog_fields w) as (_&_&_&_&_&_&->&_); exact He).
  set (hb := pdf_header (pdfVersion w) ++ body) in *.
  assert (flen hb < 10 ^ 10) as HX.
  { unfold flen. rewrite Eo in Hlen. rewrite app_length in Hlen. lia. }
  assert (small_table ps) as Hsm by (eapply small_positions; [exact Hps|apply Z.le_refl|exact HX]).
  assert (0 <= flen hb < 2 ^ 63) as HX63.
  { pose proof (flen_pos_header (pdfVersion w) body). fold hb in H. change (10 ^ 10) with 10000000000 in HX. change (2 ^ 63) with 9223372036854775808. lia. }
  assert (nextObjNum w < 2 ^ 63) as Hn63.
  { pose proof (table_length (nextObjNum w) ps Hn Hsm) as Hl. rewrite Eo, !app_length in Hlen.
    change (10 ^ 10) with 10000000000 in Hlen. change (2 ^ 63) with 9223372036854775808. lia. }
  set (A := hb ++ xref_table (nextObjNum w) ps ++ trailer_text w1 (nextObjNum w)).
  assert (out = A ++ startxref_text (flen hb)) as EA by (rewrite Eo; unfold A; rewrite <- !app_assoc; reflexivity).
  assert (forall q, keyword q = true -> existsb (beqb x0a) q = false ->
            (exists c p, q = c :: p /\ is_digit c = false /\ c <> "."%byte) ->
            nostartb q (bs "%PDF-") = true -> nostartb q [x25; xe2; xe3; xcf; xd3; x0a] = true ->
            (forall t, plain t -> contains q t = false) -> nostart q A) as HA.
  { intros q K N V B C T. apply no_nl_in in N. unfold A, hb. apply nostart_app; [|apply nostart_app].
    - apply nostart_app; [apply header_nostart; try assumption; apply contains_version; assumption|].
      apply Hall; [apply nostart_nil|intros; apply nostart_app; assumption|].
      intros m u Hu. apply obj_nostart; [exact K|exact N|]. apply T, (Rt m u Hu).
    - apply table_nostart; exact K.
    - apply trailer_nostart; [exact K|exact He1]. }
  assert (nostart (bs "startxref") A) as HsA.
  { apply HA; try reflexivity.
    - do 2 eexists. split; [reflexivity|]. split; [reflexivity|discriminate].
    - intros t (_ & R & _). exact R. }
  assert (nostart (bs "%%EOF") A) as HeA.
  { apply HA; try reflexivity.
    - do 2 eexists. split; [reflexivity|]. split; [reflexivity|discriminate].
    - intros t (_ & _ & R). exact R. }
  destruct (last_eof A (flen hb)) as (l & Hl & Hl0). rewrite (Hl0 HeA) in Hl. cbn [app] in Hl.
  set (eof := (length A + length (sx_line (flen hb)))%nat) in *.
  assert (header_len out = length (pdf_header (pdfVersion w))) as Hh.
  { rewrite Eo. unfold hb. rewrite <- app_assoc. apply header_len_written; [exact Hv|].
    assert (body = [] \/ exists b r, body = b :: r /\ is_eol b = false) as Hb.
    { apply Hall; [left; reflexivity| |].
      - intros a b [->|(x & r & -> & Hx')] Hb; [exact Hb|]. right. exists x, (r ++ b). split; [reflexivity|exact Hx'].
      - intros n t _. right. unfold obj_text. apply head_decZ. }
    destruct Hb as [->|(b & r & -> & Hb)]; [reflexivity|exact Hb]. }
  set (rows := mkRow 0 65535 0 false None :: map (row_of ps) (range1 (nextObjNum w))).
  assert (ParseXRefDataRaw inflate out (flen hb) = Ok (true, rows)) as Hraw.
  { unfold ParseXRefDataRaw. replace (flen hb <? 0) with false by lia.
    assert (flen out <=? flen hb = false) as ->.
    { unfold flen. rewrite Eo. apply lt_app. unfold xref_table. discriminate. }
    cbn [orb]. unfold from, flen. rewrite Eo, Nat2Z.id, skipn_app_exact.
    assert (prefixb (bs "xref") (xref_table (nextObjNum w) ps ++ trailer_text w1 (nextObjNum w) ++ startxref_text (flen hb)) = true) as ->.
    { unfold xref_table. rewrite <- !app_assoc. apply prefixb_app. }
    destruct (trailer_text_split w1 (nextObjNum w)) as [tt Ett]. rewrite Ett, <- !app_assoc.
    rewrite index_at by apply keyword_trailer_table. rewrite firstn_len_app by reflexivity.
    rewrite raw_rows_table by (try exact Hsm; lia). reflexivity. }
  set (objs := revision_objects out (Z.of_nat (header_len out)) eof rows).
  assert (parseRevision inflate out 1 eof (Z.of_nat (header_len out)) = Ok (mkRev 1 objs (flen hb) eof (skip_eol out (eof + 5)))) as Hrev.
  { unfold parseRevision. rewrite EA at 1. rewrite startxref_before_end by assumption. rewrite atoi_clip_decZ by exact HX63.
    rewrite Hraw. cbn [rbind fst snd].
    assert (contains (bs "trailer") (from (flen hb) out) = true) as ->; [|reflexivity].
    unfold from, flen. rewrite Eo, Nat2Z.id, skipn_app_exact. destruct (trailer_text_split w1 (nextObjNum w)) as [tt Ett].
    rewrite Ett, <- !app_assoc. apply contains_app_mid. }
  set (r := mkRev 1 objs (flen hb) eof (skip_eol out (eof + 5))) in *.
  assert (forall n, mget n objs = match (if in_dec Z.eq_dec n (range1 (nextObjNum w)) then mget n ps else None) with
            | Some p => match ParseRawObject out n 0 p with Ok o => Some o | _ => None end
            | None => None end) as Hobjs.
  { intros n. unfold objs, revision_objects, rows. cbn [fold_left rInUse andb].
    rewrite rows_get; [reflexivity|apply range1_nodup|].
    intros i p _ Hp. rewrite Hh. destruct (Hps i p Hp) as (t & pre & post & _ & -> & Eb).
    unfold eof, A, hb, flen. rewrite Eb, !app_length. unfold obj_text. rewrite !app_length.
    change (length nl) with 1%nat. lia. }
  assert (PD : ParsePDFDocument inflate out = Ok (mkDoc out [r])).
  { unfold ParsePDFDocument. rewrite EA at 3. rewrite Hl.
    assert (flen out <? 8 = false) as ->.
    { rewrite Eo. unfold hb, flen. rewrite !app_length. pose proof (header_11 (pdfVersion w)). lia. }
    assert (prefixb (bs "%PDF-") out = true) as ->.
    { rewrite Eo. unfold hb, pdf_header. rewrite <- !app_assoc. apply prefixb_app. }
    cbn [negb orb]. cbn [parse_revisions]. rewrite Hrev. reflexivity. }
  assert (SE : skip_eol out (eof + 5) = length out).
  { rewrite EA, startxref_text_split. unfold eof, skip_eol.
    replace (A ++ sx_line (flen hb) ++ bs "%%EOF" ++ nl) with ((A ++ sx_line (flen hb) ++ bs "%%EOF") ++ nl) by (rewrite <- !app_assoc; reflexivity).
    replace (length A + length (sx_line (flen hb)) + 5)%nat with (length (A ++ sx_line (flen hb) ++ bs "%%EOF")) by (rewrite !app_length; change (length (bs "%%EOF")) with 5%nat; lia).
    generalize (A ++ sx_line (flen hb) ++ bs "%%EOF"). intro X. rewrite skipn_app_exact, app_length. reflexivity. }
  assert (PH : exists h, ParsePDFHeader out = Ok h /\ hRaw h = firstn (header_len out) out).
  { unfold ParsePDFHeader.
    assert (flen out <? 8 = false) as ->.
    { rewrite Eo. unfold hb, flen. rewrite !app_length. pose proof (header_11 (pdfVersion w)). lia. }
    assert (prefixb (bs "%PDF-") out = true) as ->.
    { rewrite Eo. unfold hb, pdf_header. rewrite <- !app_assoc. apply prefixb_app. }
    cbn [negb orb]. eexists. split; reflexivity. }
  destruct PH as (h & PH & HR).
  destruct (document_good _ _ _ PD) as (_ & DG & _). specialize (DG r (or_introl eq_refl)).
  assert (NF : out <> []) by (intro X; rewrite X in PD; discriminate PD).
  destruct (revision_bytes_cases order' out r Hord' DG NF) as (s & S & RS & RB).
  assert (ES : s = flen (pdf_header (pdfVersion w))).
  { apply (start_unique r); [exact S|]. split; [|split].
    - cbn [r rvStartXRef]. unfold hb, flen. rewrite app_length. lia.
    - intros o (n & Ho). cbn [r rvObjects] in Ho. unfold objs in Ho. apply revision_objects_in in Ho. destruct Ho as (row & _ & _ & Hp & P).
      apply raw_inv in P. destruct P as (_ & _ & _ & -> & _). rewrite Hh in Hp. unfold flen. lia.
    - destruct Hfirst as [Eb|(n & Hf)]; [left; cbn [r rvStartXRef]; unfold hb; rewrite Eb, app_nil_r; reflexivity|].
      right. assert (Mn : mem n (objects w) = true) by (rewrite <- Hmem; unfold mem; now rewrite Hf).
      specialize (Hrange n Mn). pose proof (Hobjs n) as On. rewrite Hf in On.
      destruct (in_dec Z.eq_dec n (range1 (nextObjNum w))) as [Hi|Hi]; [|exfalso; apply Hi, range1_in; exact Hrange].
      destruct (Hps n _ Hf) as (t & pre & post & Ht & Ep & Eb).
      destruct (raw_object_clean out (pdf_header (pdfVersion w) ++ pre) n t
        (post ++ xref_table (nextObjNum w) ps ++ trailer_text w1 (nextObjNum w) ++ startxref_text (flen hb))) as (o & P & H1 & H2 & H3 & H4).
      + lia.
      + apply (Rt n t Ht).
      + rewrite Eo. unfold hb. rewrite Eb, <- !app_assoc. reflexivity.
      + rewrite <- Ep in P, H2. rewrite P in On. exists o. split; [exists n; exact On|exact H2]. }
  exists (mkDoc out [r]), r, h. eexists. split; [exact PD|]. split; [reflexivity|]. split; [exact PH|].
  cbn [r rvEnd] in RB. fold r in RB. rewrite SE, ES in RB.
  replace (Z.of_nat (length out) <? flen (pdf_header (pdfVersion w))) with false in RB.
  2:{ symmetry. apply Z.ltb_ge. unfold flen. rewrite Eo. unfold hb. rewrite !app_length. lia. }
  split; [exact RB|].
  assert (FH : firstn (header_len out) out = pdf_header (pdfVersion w)).
  { rewrite Hh, Eo. unfold hb. rewrite <- app_assoc. apply firstn_len_app; reflexivity. }
  split; [now rewrite HR|]. split; [|exists hb, ps; split; [exact Eo|reflexivity]]. rewrite HR, FH. unfold flen. rewrite Nat2Z.id. unfold sub.
  rewrite firstn_all2 by (rewrite skipn_length; lia). rewrite <- FH at 1. rewrite Hh. apply firstn_skipn.
Qed.

Lemma revision_bytes_ok inflate f d r order : is_order order -> ParsePDFDocument inflate f = Ok d -> In r (dRevisions d) ->
  rvStartXRef r <= Z.of_nat (rvEnd r) \/ (exists o, revision_object r o) ->
  exists s t, revision_start r s /\ RevisionBytes order (dRaw d) r = Ok (Some t) /\ part f s (Z.of_nat (rvEnd r)) t /\
    ends_after_marker f (rvEOF r) (firstn (rvEnd r) f).
Proof.
  intros HO HP Hr Hx. destruct (document_good _ _ _ HP) as (-> & G & _). specialize (G r Hr).
  assert (NF : f <> []) by (intro X; rewrite X in HP; discriminate HP).
  destruct (revision_bytes_cases order f r HO G NF) as (s & S & R & E).
  assert (B := end_bounds f r G).
  assert (L : s <= Z.of_nat (rvEnd r)).
  { pose proof S as (S1 & S2 & _). destruct Hx as [Hx|(o & Ho)]; [lia|]. specialize (S2 o Ho). destruct G as (_ & _ & _ & G). apply G in Ho. lia. }
  replace (Z.of_nat (rvEnd r) <? s) with false in E by (symmetry; apply Z.ltb_ge; lia).
  exists s. eexists. split; [exact S|]. split; [exact E|]. split; [|now apply revision_marker].
  rewrite <- (Z2Nat.id s) at 1 by lia. apply sub_part. unfold flen in R. lia.
Qed.
Lemma revision_bytes_panic inflate f d r order : is_order order -> ParsePDFDocument inflate f = Ok d -> In r (dRevisions d) ->
  RevisionBytes order (dRaw d) r = Panic <-> Z.of_nat (rvEnd r) < rvStartXRef r /\ forall o, ~ revision_object r o.
Proof.
  intros HO HP Hr. destruct (document_good _ _ _ HP) as (-> & G & _). specialize (G r Hr).
  assert (NF : f <> []) by (intro X; rewrite X in HP; discriminate HP).
  destruct (revision_bytes_cases order f r HO G NF) as (s & S & R & E). rewrite E.
  assert (B := end_bounds f r G). destruct S as (S1 & S2 & S3). destruct G as (_ & _ & _ & G).
  destruct (Z.of_nat (rvEnd r) <? s) eqn:L; (split; [|]).
  - intros _. apply Z.ltb_lt in L. split; [lia|]. intros o Ho. specialize (S2 o Ho). apply G in Ho. lia.
  - reflexivity.
  - discriminate.
  - intros (H1 & H2). apply Z.ltb_ge in L. destruct S3 as [->|(o & Ho & _)]; [lia|]. exfalso. now apply (H2 o).
Qed.
Lemma revisions_follow inflate f d a r r' b s : ParsePDFDocument inflate f = Ok d -> dRevisions d = a ++ r :: r' :: b ->
  (forall o, revision_object r' o -> Z.of_nat (rvEnd r) <= roOffset o) /\
  (Z.of_nat (rvEnd r) <= rvStartXRef r' -> revision_start r' s -> Z.of_nat (rvEnd r) <= s).
Proof.
  intros HP HR. destruct (document_good _ _ _ HP) as (_ & _ & C). specialize (C a r r' b HR). split; [exact C|].
  intros Hx (_ & _ & [->|(o & Ho & <-)]); [exact Hx|now apply C].
Qed.
Lemma revision_objects_ok inflate f d r o : ParsePDFDocument inflate f = Ok d -> In r (dRevisions d) -> revision_object r o ->
  0 <= roOffset o < Z.of_nat (rvEOF r) /\ part f (roOffset o) (roEnd o) (roBytes o) /\
  exists t, roBytes o = t ++ bs "endobj" /\ index (bs "endobj") (roBytes o) = Some (length t).
Proof. intros HP Hr. destruct (document_good _ _ _ HP) as (_ & G & _). apply (G r Hr). Qed.

(* ---------------------------------------------------------------- *)
(** Cross-reference section and trailer *)
Ltac bits := repeat (first [ apply nostart_nil | apply nostart_hexX; reflexivity | apply nostart_decZ_any; [reflexivity|discriminate]
                           | apply nostartb_ok; vm_compute; reflexivity | apply nostart_app ]).
Definition opt_line (k : bytes) (r : option Z) : bytes := match r with Some r => k ++ bs " " ++ ref r ++ nl | None => [] end.
Definition id_line (id : bytes) : bytes := match id with [] => [] | id => bs "/ID [<" ++ hexX id ++ bs "><" ++ hexX id ++ bs ">]" ++ nl end.
Definition size_part (next : Z) : bytes := bs "trailer" ++ nl ++ bs "<<" ++ nl ++ bs "/Size" ++ bs " " ++ decZ next ++ nl.
Lemma trailer_parts w next : trailer_text w next = size_part next ++ opt_line (bs "/Root") (rootRef w) ++ opt_line (bs "/Info") (infoRef w) ++
  opt_line (bs "/Encrypt") (encryptRef w) ++ id_line (fileID w) ++ bs ">>" ++ nl.
Proof. unfold trailer_text, size_part, opt_line, id_line. destruct (rootRef w), (infoRef w), (encryptRef w), (fileID w); repeat rewrite <- app_assoc; reflexivity. Qed.
Lemma opt_none k r s : match find (m_ref k) (opt_line k r ++ s) with Some (i, x) => Some x | None => None end =
  match r with Some n => if 0 <=? n then Some (ref n) else match find (m_ref k) (opt_line k r ++ s) with Some (i, x) => Some x | None => None end | None => match find (m_ref k) s with Some (i, x) => Some x | None => None end end.
Proof.
  destruct r as [n|]; [|reflexivity]. destruct (0 <=? n) eqn:E; [|reflexivity]. apply Z.leb_le in E. unfold opt_line. rewrite <- !app_assoc.
  rewrite (find_at0 _ _ (ref n)); [reflexivity|]. now apply m_ref_here.
Qed.
Lemma value_skip k a s : nostart k a -> value_of (find (m_ref k) (a ++ s)) = value_of (find (m_ref k) s).
Proof. intro N. rewrite find_nofire by (exact (nostart_nofire _ _ _ (m_ref_lit k) N)). destruct (find (m_ref k) s) as [[i x]|]; reflexivity. Qed.
Lemma value_opt k r s : no_negative r -> contains k s = false -> def [] (value_of (find (m_ref k) (opt_line k r ++ s))) = ref_or_nothing r.
Proof.
  intros Hn Hc. destruct r as [n|]; cbn [opt_line ref_or_nothing].
  - rewrite <- !app_assoc. rewrite (find_at0 _ _ (ref n)); [reflexivity|]. now apply m_ref_here.
  - cbn [app]. rewrite (find_nolit _ k); [reflexivity|apply m_ref_lit|exact Hc].
Qed.
Lemma opt_ns q k r : q <> [] -> is_hexU (hd x00 q) = false -> hd x00 q <> "-"%byte -> nostartb q (k ++ bs " ") = true -> nostartb q (bs " 0 R" ++ nl) = true -> nostart q (opt_line k r).
Proof.
  intros N H1 H2 H3 H4. destruct q as [|c q]; [congruence|]. cbn [hd] in H1, H2. destruct r as [n|]; [|apply nostart_nil]. unfold opt_line, ref.
  replace (k ++ bs " " ++ (decZ n ++ bs " 0 R") ++ nl) with ((k ++ bs " ") ++ decZ n ++ (bs " 0 R" ++ nl)) by (rewrite <- !app_assoc; reflexivity).
  assert (D : is_digit c = false) by (unfold is_hexU in H1; apply orb_false_iff in H1; tauto).
  apply nostart_app; [now apply nostartb_ok|]. apply nostart_app; [now apply nostart_decZ_any|now apply nostartb_ok].
Qed.
Lemma id_ns q : q <> [] -> is_hexU (hd x00 q) = false -> nostartb q (bs "/ID [<") = true -> nostartb q (bs "><") = true -> nostartb q (bs ">]" ++ nl) = true ->
  forall id, nostart q (id_line id).
Proof.
  intros N H1 H2 H3 H4 id. destruct q as [|c q]; [congruence|]. cbn [hd] in H1. unfold id_line. destruct id as [|b id]; [apply nostart_nil|].
  repeat (apply nostart_app; [first [now apply nostart_hexX|now apply nostartb_ok]|]). now apply nostartb_ok.
Qed.
Lemma ns_contains q s : q <> [] -> nostart q s -> contains q s = false.
Proof. exact (fun H N => nostart_contains _ _ H N). Qed.
Ltac tparts := repeat (first [ apply opt_ns; [discriminate|reflexivity|discriminate|reflexivity|reflexivity]
                             | apply id_ns; [discriminate|reflexivity|reflexivity|reflexivity|reflexivity]
                             | apply nostart_app | progress unfold size_part | apply nostart_decZ_any; [reflexivity|discriminate] | apply nostartb_ok; reflexivity ]).
Lemma trailer_read w next off : 0 <= next < 2 ^ 63 -> no_negative (rootRef w) -> no_negative (infoRef w) -> no_negative (encryptRef w) ->
  trailer_values off (trailer_text w next) (trailer_text w next) =
  mkTD off (trailer_text w next) next (ref_or_nothing (rootRef w)) (ref_or_nothing (encryptRef w)) (ref_or_nothing (infoRef w)) 0.
Proof.
  intros Hn HR HI HE. unfold trailer_values. rewrite (trailer_parts w next) at 2 3 4 5 6. f_equal.
  - assert (find (m_key (bs "/Size")) (size_part next ++ opt_line (bs "/Root") (rootRef w) ++ opt_line (bs "/Info") (infoRef w) ++
      opt_line (bs "/Encrypt") (encryptRef w) ++ id_line (fileID w) ++ bs ">>" ++ nl) = Some (length (bs "trailer" ++ nl ++ bs "<<" ++ nl), decZ next)) as ->.
    + unfold size_part. match goal with |- find _ ?s = _ => assert (exists r, s = (bs "trailer" ++ nl ++ bs "<<" ++ nl) ++ bs "/Size" ++ bs " " ++ decZ next ++ nl ++ r) as [r ->] end.
      { eexists. repeat rewrite <- app_assoc. reflexivity. }
      apply find_at; [apply (nostart_nofire _ _ _ (m_key_lit _)); apply nostartb_ok; reflexivity|].
      apply m_key_here; [apply decZ_nonnil; lia|apply decZ_digits; lia|reflexivity].
    + cbn [value_of]. now apply atoi_clip_decZ.
  - rewrite value_skip by tparts. apply value_opt; [exact HR|]. apply ns_contains; [discriminate|]. tparts.
  - rewrite value_skip by tparts. rewrite value_skip by tparts. rewrite value_skip by tparts. apply value_opt; [exact HE|]. apply ns_contains; [discriminate|]. tparts.
  - rewrite value_skip by tparts. rewrite value_skip by tparts. apply value_opt; [exact HI|]. apply ns_contains; [discriminate|]. tparts.
  - rewrite (find_nolit _ (bs "/Prev")); [reflexivity|apply m_key_lit|]. apply ns_contains; [discriminate|]. tparts.
Qed.

Lemma split_prefix p s i : index p s = Some i -> s = firstn i s ++ skipn i s /\ prefixb p (skipn i s) = true.
Proof. intro H. apply index_some in H. split; [now rewrite firstn_skipn|tauto]. Qed.
Lemma sections_tile f x t : 0 <= x < flen f -> prefixb (bs "xref") (from x f) = true -> index (bs "trailer") (from x f) = Some t ->
  exists a td rest, XRefRaw f x = Ok a /\ ParseTrailerDataRaw f x = Ok td /\ from x f = a ++ tdRaw td ++ rest /\ tdOffset td = x + flen a /\
    prefixb (bs "trailer") (tdRaw td) = true /\ (rest = [] \/ prefixb (bs "startxref") rest = true).
Proof.
  intros Hx HP HT. unfold XRefRaw, ParseTrailerDataRaw.
  replace ((x <? 0) || (flen f <=? x)) with false by (symmetry; apply orb_false_iff; lia).
  replace ((x <? 0) || (flen f <? x)) with false by (symmetry; apply orb_false_iff; lia).
  cbv zeta. rewrite HP, HT. cbn [negb]. destruct (split_prefix _ _ _ HT) as [S P].
  pose proof HT as HT'. apply index_some in HT'. destruct HT' as (_ & L & _).
  set (sec := from x f) in *. set (rest := skipn t sec) in *.
  apply prefixb_spec in P. destruct P as [z Z].
  destruct (index (bs "startxref") rest) as [k|] eqn:K.
  - do 3 eexists. split; [reflexivity|]. split; [reflexivity|]. cbn [tdRaw tdOffset trailer_values].
    destruct (split_prefix _ _ _ K) as [S2 P2]. split; [rewrite S at 1; rewrite S2 at 1; reflexivity|].
    split; [unfold flen; rewrite firstn_length_le by exact L; reflexivity|]. split; [|right; exact P2].
    rewrite Z in K. assert (N : nostart (bs "startxref") (bs "trailer")) by (apply nostartb_ok; reflexivity).
    assert (7 <= k)%nat.
    { apply index_some in K. destruct K as (K & _ & _). destruct (Nat.le_gt_cases 7 k) as [G|G]; [exact G|exfalso].
      rewrite (N z k) in K; [discriminate|]. exact G. }
    rewrite Z. change (bs "trailer") with (firstn 7 (bs "trailer")) at 2. replace k with (length (bs "trailer") + (k - 7))%nat by (change (length (bs "trailer")) with 7%nat; lia).
    change (firstn 7 (bs "trailer")) with (bs "trailer"). rewrite firstn_app_2. apply prefixb_app.
  - do 3 eexists. split; [reflexivity|]. split; [reflexivity|]. cbn [tdRaw tdOffset trailer_values].
    split; [rewrite app_nil_r; exact S|]. split; [unfold flen; rewrite firstn_length_le by exact L; reflexivity|]. split; [|now left].
    rewrite Z. apply prefixb_app.
Qed.

Lemma sections_written w hb ps out : let next := nextObjNum w in let w1 := updateCatalogWithOutlines w in
  out = hb ++ xref_table next ps ++ trailer_text w1 next ++ startxref_text (flen hb) ->
  0 <= next < 2 ^ 63 -> encryptRef w = None -> no_negative (rootRef w) -> no_negative (infoRef w) ->
  XRefRaw out (flen hb) = Ok (xref_table next ps) /\
  ParseTrailerDataRaw out (flen hb) = Ok (mkTD (flen hb + flen (xref_table next ps)) (trailer_text w1 next) next
    (ref_or_nothing (rootRef w)) [] (ref_or_nothing (infoRef w)) 0).
Proof.
  intros next w1 Eo Hn He HR HI.
  destruct (update_catalog_fields w) as (_ & _ & _ & _ & Ur & Ui & Ue & _). fold w1 in Ur, Ui, Ue.
  assert (F : from (flen hb) out = xref_table next ps ++ trailer_text w1 next ++ startxref_text (flen hb)).
  { unfold from, flen. rewrite Nat2Z.id, Eo. apply skipn_app_exact. }
  assert (LT : flen hb < flen out).
  { rewrite Eo. unfold flen. rewrite !app_length. unfold xref_table. rewrite app_length. change (length (bs "xref")) with 4%nat. lia. }
  assert (PX : prefixb (bs "xref") (from (flen hb) out) = true).
  { rewrite F. unfold xref_table. rewrite <- !app_assoc. apply prefixb_app. }
  assert (IT : index (bs "trailer") (from (flen hb) out) = Some (length (xref_table next ps))).
  { rewrite F. destruct (trailer_text_split w1 next) as [tt ->]. rewrite <- !app_assoc. apply index_at. apply keyword_trailer_table. }
  assert (P0 : 0 <= flen hb) by (unfold flen; lia).
  unfold XRefRaw, ParseTrailerDataRaw.
  replace ((flen hb <? 0) || (flen out <=? flen hb)) with false by (symmetry; apply orb_false_iff; lia).
  replace ((flen hb <? 0) || (flen out <? flen hb)) with false by (symmetry; apply orb_false_iff; lia).
  cbv zeta. rewrite PX, IT. cbn [negb]. rewrite F. rewrite firstn_len_app by reflexivity. split; [reflexivity|].
  rewrite skipn_app_exact.
  assert (IS : index (bs "startxref") (trailer_text w1 next ++ startxref_text (flen hb)) = Some (length (trailer_text w1 next))).
  { unfold startxref_text. apply index_at. apply trailer_nostart; [reflexivity|congruence]. }
  rewrite IS, firstn_len_app by reflexivity. rewrite trailer_read; [|exact Hn|now rewrite Ur|now rewrite Ui|rewrite Ue, He; exact I].
  rewrite Ur, Ui, Ue, He. reflexivity.
Qed.

(** The header *)
Lemma header_values a b s : 0 <= a < 2 ^ 63 -> 0 <= b < 2 ^ 63 -> let v := decZ a ++ bs "." ++ decZ b in (length v <= 15)%nat ->
  match s with [] => True | c :: _ => is_eol c = false end ->
  ParsePDFHeader (pdf_header v ++ s) = Ok (mkHeader v a b (pdf_header v)).
Proof.
  intros Ha Hb v Hl Hs. assert (PV : plain_version v = true).
  { unfold plain_version. apply andb_true_iff. split; [|now apply Nat.leb_le]. unfold v. rewrite !forallb_app. 
    assert (D : forall z, 0 <= z -> forallb (fun b0 => is_digit b0 || beqb b0 ".") (decZ z) = true).
    { intros z Hz. apply forallb_forall. intros x Hx. pose proof (decZ_digits z Hz) as Q. rewrite forallb_forall in Q. now rewrite (Q x Hx). }
    rewrite !D by lia. reflexivity. }
  unfold ParsePDFHeader.
  assert (flen (pdf_header v ++ s) <? 8 = false) as ->.
  { unfold flen. rewrite app_length. pose proof (header_11 v). apply Z.ltb_ge. lia. }
  assert (prefixb (bs "%PDF-") (pdf_header v ++ s) = true) as -> by (unfold pdf_header; rewrite <- !app_assoc; apply prefixb_app).
  cbn [negb orb].
  assert (TV : take_while (fun b => negb (is_eol b)) (sub 5 20 (pdf_header v ++ s)) = v).
  { unfold plain_version in PV. apply andb_true_iff in PV. destruct PV as [Hv1 _].
    assert (forallb (fun b => negb (is_eol b)) v = true) as Hve.
    { rewrite forallb_forall in *. intros c Hc. specialize (Hv1 c Hc). apply orb_true_iff in Hv1.
      destruct Hv1 as [H|H]; [|apply beqb_eq in H; subst c; reflexivity].
      unfold is_eol. pose proof (digit_not_blank c H) as Hd. rewrite !orb_false_iff in Hd. destruct Hd as (((-> & ->) & _) & _). reflexivity. }
    unfold pdf_header, sub. rewrite <- !app_assoc.
    match goal with |- context [skipn 5 (bs "%PDF-" ++ ?x)] => change (skipn 5 (bs "%PDF-" ++ x)) with x end.
    change (20 - 5)%nat with 15%nat. rewrite firstn_app, (firstn_all2 v) by exact Hl.
    destruct (15 - length v)%nat as [|k]; [rewrite firstn_O|]; apply take_while_app; cbn; auto. }
  rewrite TV.
  assert (SP : split_on "." v = [decZ a; decZ b]).
  { unfold v. assert (Q : forall l r, ~ In "."%byte l -> split_on "." (l ++ "."%byte :: r) = l :: split_on "." r).
    { induction l as [|c l IH]; intros r H; [reflexivity|]. cbn [app split_on].
      destruct (beqb c ".") eqn:B; [apply beqb_eq in B; subst c; exfalso; apply H; now left|].
      rewrite IH by (intro; apply H; now right). reflexivity. }
    assert (ND : forall z, 0 <= z -> ~ In "."%byte (decZ z)).
    { intros z Hz Hi. pose proof (decZ_digits z Hz) as D. rewrite forallb_forall in D. specialize (D _ Hi). discriminate D. }
    change (bs "." ++ decZ b) with ("."%byte :: decZ b). rewrite Q by (apply ND; lia). now rewrite split_on_none by (apply ND; lia). }
  rewrite SP. cbn [atoi_ignore]. unfold atoi_ignore. rewrite !atoi_decZ by assumption.
  rewrite header_len_written by assumption. now rewrite firstn_len_app by reflexivity.
Qed.
Lemma written_tiles deflate order inflate w out order' :
  is_order order -> useXRefStream w = false -> useObjectStream w = false -> encryptRef w = None ->
  1 <= nextObjNum w -> plain_version (pdfVersion w) = true ->
  (forall n, mem n (objects w) = true -> 1 <= n < nextObjNum w) ->
  (forall n t, stored_text (updateCatalogWithOutlines w) n t -> plain t) ->
  fst (Write deflate order None w) = out -> Z.of_nat (length out) < 10 ^ 10 -> is_order order' ->
  exists d r h t, ParsePDFDocument inflate out = Ok d /\ dRevisions d = [r] /\
    ParsePDFHeader out = Ok h /\ RevisionBytes order' out r = Ok (Some t) /\
    hRaw h = pdf_header (pdfVersion w) /\ hRaw h ++ t = out.
Proof.
  intros H1 H2 H3 H4 H5 H6 H7 H8 H9 H10 H11.
  destruct (written_pieces deflate order inflate w out order' H1 H2 H3 H4 H5 H6 H7 H8 H9 H10 H11) as (d & r & h & t & P1 & P2 & P3 & P4 & P5 & P6 & _).
  exists d, r, h, t. auto 10.
Qed.
Lemma written_trailer deflate order inflate w out :
  is_order order -> useXRefStream w = false -> useObjectStream w = false -> encryptRef w = None ->
  1 <= nextObjNum w < 2 ^ 63 -> plain_version (pdfVersion w) = true ->
  (forall n, mem n (objects w) = true -> 1 <= n < nextObjNum w) ->
  (forall n t, stored_text (updateCatalogWithOutlines w) n t -> plain t) ->
  fst (Write deflate order None w) = out -> Z.of_nat (length out) < 10 ^ 10 ->
  no_negative (rootRef w) -> no_negative (infoRef w) ->
  exists d r x td, ParsePDFDocument inflate out = Ok d /\ dRevisions d = [r] /\
    XRefRaw out (rvStartXRef r) = Ok x /\ ParseTrailerDataRaw out (rvStartXRef r) = Ok td /\
    tdOffset td = rvStartXRef r + flen x /\ tdSize td = nextObjNum w /\ tdRoot td = ref_or_nothing (rootRef w) /\
    tdInfo td = ref_or_nothing (infoRef w) /\ tdEncrypt td = [] /\ tdPrev td = 0.
Proof.
  intros H1 H2 H3 H4 H5 H6 H7 H8 H9 H10 HR HI.
  assert (H51 : 1 <= nextObjNum w) by lia.
  destruct (written_pieces deflate order inflate w out (fun l => l) H1 H2 H3 H4 H51 H6 H7 H8 H9 H10 (fun l => Permutation_refl l)) as (d & r & h & t & P1 & P2 & _ & _ & _ & _ & hb & ps & Eo & Ex).
  destruct (sections_written w hb ps out Eo) as [S1 S2]; auto; [lia|].
  exists d, r. do 2 eexists. split; [exact P1|]. split; [exact P2|]. rewrite Ex. split; [exact S1|]. split; [exact S2|]. cbn. auto 10.
Qed.
Lemma trailer_outside f x : x < 0 \/ flen f < x -> ParseTrailerDataRaw f x = Panic.
Proof. intro H. unfold ParseTrailerDataRaw. replace ((x <? 0) || (flen f <? x)) with true; [reflexivity|]. symmetry. apply orb_true_iff. lia. Qed.
