(** Proofs for reading back a document built from XFA streams: the streams and
    the whole document. *)
From Verif Require Import Util Scan XfaModel XfaSpec WriterProofs ParseProofs ReadProofs XrefProofs PageSpec PageProofs2 PageProofs3 FormsProofs3 MarksProofs4 XfaProofs XfaProofs2.
From Verif Require ManipProofs ManipProofs2 XPagesProofs2.
Local Open Scope Z_scope.

Lemma stream_extracted deflate zl fl s n : 0 <= n -> good_stream deflate zl fl s -> flen (object_text n (stream_text deflate s)) < 2 ^ 62 ->
  extractStreamDataFromObject zl fl (object_text n (stream_text deflate s)) = Ok (xdData s).
Proof.
  intros Hn (_ & (Q1 & Q2 & Q3 & Q4 & Q5) & Hz & Hz1 & Hf1) HL.
  set (b := in_file deflate s) in *.
  set (P := (decZ n ++ bs " 0 obj" ++ nl) ++ stream_head (squeezed s) (flen b) ++ nl).
  assert (Eo : object_text n (stream_text deflate s) = P ++ bs "stream" ++ nl ++ b ++ (nl ++ bs "endstream" ++ nl ++ bs "endobj")).
  { unfold object_text. rewrite stream_text_shape. fold b. unfold P. rewrite <- !app_assoc. reflexivity. }
  rewrite Eo in HL |- *.
  assert (NP : nostart (bs "stream") P).
  { unfold P. apply nostart_app; [apply nostart_app; [apply nostart_decZ; [exact Hn|reflexivity]|apply nostartb_ok; reflexivity]|].
    apply nostart_app; [apply head_nostart; try reflexivity; unfold flen; lia|apply nostartb_ok; reflexivity]. }
  unfold extractStreamDataFromObject. rewrite index_at by exact NP. rewrite skipn_app_exact.
  assert (I2 : index (bs "endstream") (bs "stream" ++ nl ++ b ++ nl ++ bs "endstream" ++ nl ++ bs "endobj") = Some (length (bs "stream" ++ nl ++ b ++ nl))).
  { replace (bs "stream" ++ nl ++ b ++ nl ++ bs "endstream" ++ nl ++ bs "endobj") with ((bs "stream" ++ nl ++ b ++ nl) ++ bs "endstream" ++ nl ++ bs "endobj") by (rewrite <- !app_assoc; reflexivity).
    apply index_at. replace (bs "stream" ++ nl ++ b ++ nl) with ((bs "stream" ++ nl) ++ b ++ nl) by (rewrite <- !app_assoc; reflexivity).
    apply nostart_app; [apply nostartb_ok; reflexivity|]. apply nostart_sep; [exact Q5|apply no_nl_in; reflexivity|discriminate]. }
  rewrite I2. rewrite ManipProofs.firstn_app_all.
  assert (Sk : skip_one_eol (P ++ bs "stream" ++ nl ++ b ++ nl ++ bs "endstream" ++ nl ++ bs "endobj") (length P + 6) = (length P + 7)%nat).
  { assert (N6 : nth_error (P ++ bs "stream" ++ nl ++ b ++ nl ++ bs "endstream" ++ nl ++ bs "endobj") (length P + 6) = Some x0a).
    { rewrite nth_error_app2 by lia. replace (length P + 6 - length P)%nat with 6%nat by lia. reflexivity. }
    unfold skip_one_eol. rewrite N6. change (beqb x0a x0d) with false. cbv iota zeta. rewrite N6. change (beqb x0a x0a) with true. cbv iota. lia. }
  rewrite Sk.
  assert (S2 : skipn (length P + 7) (P ++ bs "stream" ++ nl ++ b ++ nl ++ bs "endstream" ++ nl ++ bs "endobj") = b ++ nl ++ bs "endstream" ++ nl ++ bs "endobj").
  { assert (Sk2 : forall a b (l : bytes), skipn (a + b) l = skipn b (skipn a l)) by (intros; rewrite skipn_skipn; f_equal; lia).
    rewrite Sk2, skipn_app_exact. reflexivity. }
  assert (F1 : find (m_key (bs "/Length")) P = Some (length ((decZ n ++ bs " 0 obj" ++ nl) ++ (if squeezed s then bs "<</Filter /FlateDecode " else bs "<<")), decZ (flen b))).
  { assert (EP : P = ((decZ n ++ bs " 0 obj" ++ nl) ++ (if squeezed s then bs "<</Filter /FlateDecode " else bs "<<")) ++ bs "/Length" ++ bs " " ++ decZ (flen b) ++ bs " /Type /EmbeddedFile >>" ++ nl).
    { unfold P, stream_head. destruct (squeezed s); rewrite <- !app_assoc; reflexivity. }
    rewrite EP. apply find_at.
    - eapply nostart_nofire; [apply m_key_lit|].
      apply nostart_app; [apply nostart_app; [apply nostart_decZ; [exact Hn|reflexivity]|apply nostartb_ok; reflexivity]|].
      destruct (squeezed s); apply nostartb_ok; reflexivity.
    - apply m_key_here; [apply decZ_nonnil; unfold flen; lia|apply decZ_digits; unfold flen; lia|reflexivity]. }
  rewrite F1. cbn [value_of option_map snd].
  assert (Hb : flen b < 2 ^ 62).
  { unfold flen in HL |- *. rewrite !app_length in HL. lia. }
  assert (LP : Z.of_nat (length P) + 7 + flen b <= flen (P ++ bs "stream" ++ nl ++ b ++ nl ++ bs "endstream" ++ nl ++ bs "endobj")).
  { unfold flen. rewrite !app_length. change (length (bs "stream")) with 6%nat. change (length nl) with 1%nat. lia. }
  rewrite atoi_clip_decZ by (change (2 ^ 62) with 4611686018427387904 in *; change (2 ^ 63) with 9223372036854775808; unfold flen in *; lia).
  replace (Z.of_N int64_max <? Z.of_nat (length P + 7) + flen b) with false
    by (change (Z.of_N int64_max) with 9223372036854775807; change (2 ^ 62) with 4611686018427387904 in *; lia).
  replace (Z.of_nat (length P + 7) + flen b <=? flen (P ++ bs "stream" ++ nl ++ b ++ nl ++ bs "endstream" ++ nl ++ bs "endobj")) with true by lia.
  rewrite S2. unfold flen. rewrite Nat2Z.id, ManipProofs.firstn_app_all. cbn [rbind].
  assert (C : contains (bs "/FlateDecode") P = squeezed s).
  { unfold P. rewrite contains_nostart.
    2:{ apply nostart_app; [apply nostart_decZ; [exact Hn|reflexivity]|apply nostartb_ok; reflexivity]. }
    unfold stream_head. destruct (squeezed s).
    - rewrite <- !app_assoc. change (bs "<</Filter /FlateDecode") with (bs "<</Filter " ++ bs "/FlateDecode"). rewrite <- app_assoc. apply contains_app_mid.
    - apply ReadProofs.nostart_contains; [discriminate|]. apply nostart_app; [|apply nostartb_ok; reflexivity].
      apply nostart_app; [apply nostartb_ok; reflexivity|]. apply nostart_app; [apply nostart_decZ; [unfold flen; lia|reflexivity]|apply nostartb_ok; reflexivity]. }
  rewrite C. unfold b, in_file, squeezed in *. destruct (xdData s) as [|c d]; [reflexivity|].
  destruct (xdCompress s); [|reflexivity]. unfold inflated. rewrite Hz by (try reflexivity; discriminate). reflexivity.
Qed.

Lemma known_in n : In n stream_names -> known_stream n = true.
Proof. intros H. unfold known_stream. apply existsb_exists. exists n. split; [exact H|apply bytes_eqb_refl]. Qed.

Lemma loaded deflate zl fl get sf l : Forall (good_stream deflate zl fl) l -> NoDup (map xdName l) -> forall k acc, 0 <= k -> k + Z.of_nat (length l) <= 499 ->
  (forall s n, In (s, n) (numbered_from k l) -> get n = Ok (object_text n (stream_text deflate s)) /\ flen (object_text n (stream_text deflate s)) < 2 ^ 62) ->
  exists xs, load_streams zl fl get sf (map (fun p => (xdName (fst p), decZ (snd p))) (numbered_from k l)) acc = Ok xs /\
    (forall s n, In (s, n) (numbered_from k l) -> kget (xdName s) xs = Some (mkSI (xdData s) n false)) /\
    (forall name, ~ In name (map xdName l) -> kget name xs = kget name acc).
Proof.
  induction l as [|s l IH]; intros Hg Hd k acc Hk HK Hget.
  - exists acc. cbn [numbered_from map load_streams]. split; [reflexivity|]. split; [intros ? ? []|reflexivity].
  - inversion Hg as [|x y G1 G2]; subst. cbn [map] in Hd. inversion Hd as [|x y D1 D2]; subst.
    cbn [numbered_from map fst snd load_streams]. cbn [length] in HK.
    rewrite atoi_decZ by lia. destruct (Hget s k (or_introl eq_refl)) as [E1 E2]. rewrite E1. cbn [rbind].
    rewrite stream_extracted by assumption.
    assert (DD : DecompressStream zl fl (xdData s) = (xdData s, false)).
    { destruct G1 as (_ & _ & _ & Z1 & Z2). unfold DecompressStream, inflated. rewrite Z1, Z2. reflexivity. }
    rewrite DD. rewrite known_in by apply G1.
    destruct (IH G2 D2 (k + 1) (kset (xdName s) (mkSI (xdData s) k false) acc)) as (xs & X1 & X2 & X3); [lia|lia| |].
    { intros s' n' H. apply Hget. right. exact H. }
    exists xs. split; [exact X1|]. split.
    + intros s' n' [Q|Q]; [injection Q as <- <-|apply X2, Q]. rewrite X3 by exact D1. rewrite kget_kset, bytes_eqb_refl. reflexivity.
    + intros name Hname. cbn [map In] in Hname. rewrite X3 by tauto. rewrite kget_kset.
      destruct (bytes_eqb name (xdName s)) eqn:Q; [|reflexivity]. apply bytes_eqb_eq in Q. subst name. tauto.
Qed.

Lemma entries_good l k : 0 <= k -> Forall (fun s => In (xdName s) stream_names) l ->
  good_entries (map (fun p => (xdName (fst p), snd p)) (numbered_from k l)).
Proof.
  revert k. induction l as [|s l IH]; intros k Hk H; [constructor|]. inversion H; subst. cbn [numbered_from map]. constructor.
  - cbn [fst snd]. split; [assumption|exact Hk].
  - apply IH; [lia|assumption].
Qed.
Lemma decZ_short n : 0 <= n < 1000 -> (length (decZ n) <= 3)%nat.
Proof.
  intros H. assert (G : forall m, (m < 1000)%nat -> (length (decZ (Z.of_nat m)) <= 3)%nat).
  { intros m Hm. assert (F : forallb (fun m => (length (decZ (Z.of_nat m)) <=? 3)%nat) (seq 0 1000) = true) by (vm_compute; reflexivity).
    rewrite forallb_forall in F. specialize (F m). rewrite Nat.leb_le in F. apply F. apply in_seq. lia. }
  specialize (G (Z.to_nat n)). rewrite Z2Nat.id in G by lia. apply G. lia.
Qed.
Lemma entry_short (name : bytes) n : (length name <= 13)%nat -> (length (decZ n) <= 3)%nat -> (length (xfa_entry (name, n)) <= 22)%nat.
Proof.
  intros H1 H2. unfold xfa_entry. cbn [fst snd]. rewrite !app_length.
  change (length (bs "(")) with 1%nat. change (length (bs ")")) with 1%nat. change (length (bs " 0 R")) with 4%nat. unfold bytes in *. lia.
Qed.
Lemma entries_short es : Forall (fun e => In (fst e) stream_names /\ 0 <= snd e < 1000) es -> (length (flat_map xfa_entry es) <= 22 * length es)%nat.
Proof.
  induction 1 as [|[name n] es [H1 H2] _ IH]; [apply Nat.le_refl|]. cbn [flat_map length fst snd] in *. rewrite app_length.
  assert (length name <= 13)%nat by (apply (name_cases (fun name => length name <= 13)%nat name H1); apply Nat.leb_le; reflexivity).
  pose proof (entry_short name n H (decZ_short n H2)). rewrite Nat.mul_succ_r. lia.
Qed.
Lemma numbered_length k l : length (numbered_from k l) = length l.
Proof. revert k. induction l as [|s l IH]; intros k; [reflexivity|]. cbn [numbered_from length]. rewrite IH. reflexivity. Qed.
Lemma numbered_range k l : forall s n, In (s, n) (numbered_from k l) -> k <= n < k + Z.of_nat (length l) /\ In s l.
Proof.
  revert k. induction l as [|x l IH]; intros k s n; [intros []|]. cbn [numbered_from length]. intros [Q|Q]; [injection Q as <- <-; split; [lia|left; reflexivity]|].
  apply IH in Q. destruct Q. split; [lia|right; assumption].
Qed.

Theorem build_extract deflate order inflate zl fl ff sf l out :
  is_order order -> l <> [] -> NoDup (map xdName l) -> Forall (good_stream deflate zl fl) l ->
  fst (Write deflate order None (BuildFromXFA deflate l)) = out -> Z.of_nat (length out) < 10 ^ 10 ->
  exists xs, ExtractAllXFAStreams zl fl (GetObject inflate None out) ff sf out = Ok xs /\
    (forall s n, In (s, n) (numbered_from 1 l) -> kget (xdName s) xs = Some (mkSI (xdData s) n false)) /\
    (forall name, ~ In name (map xdName l) -> kget name xs = None).
Proof.
  intros Hord Hne Hd Hg Hout HL.
  assert (Hnames : Forall (fun s => In (xdName s) stream_names) l) by (eapply Forall_impl; [|exact Hg]; intros s Hs; apply Hs).
  assert (Hlen : (length l <= 9)%nat).
  { rewrite <- (map_length xdName). change 9%nat with (length stream_names). apply NoDup_incl_length; [exact Hd|].
    intros n Hn. apply in_map_iff in Hn. destruct Hn as (s & <- & Hs). rewrite Forall_forall in Hnames. apply Hnames, Hs. }
  remember (BuildFromXFA deflate l) as w eqn:Ew. symmetry in Ew.
  destruct (built deflate l w Ew) as (B1 & B2 & B3 & B4 & B5 & B6 & B7 & B8 & B9 & B10 & B11).
  set (k := Z.of_nat (length l)) in *.
  assert (GE : good_entries (form_entries l)) by (apply entries_good; [lia|exact Hnames]).
  assert (AR : all_readable w).
  { unfold all_readable. rewrite B4, B5. split; [reflexivity|]. split; [reflexivity|]. intros n t Ht.
    destruct (B11 n t Ht) as [(s & Hs & ->)|[[_ ->]|[_ ->]]].
    - apply stream_readable. apply numbered_range in Hs. destruct Hs as [_ Hs]. rewrite Forall_forall in Hg. apply (Hg s Hs).
    - apply form_readable. exact GE.
    - apply catalog_readable. lia. }
  assert (Get : forall n t, 1 <= n < k + 3 -> stored_text w n t -> GetObject inflate None out n = Ok (object_text n t)).
  { intros n t Hn Ht. eapply read_back_get; try eassumption; try lia. rewrite B5. exact Ht. }
  assert (Small : forall n t, stored_text w n t -> 1 <= n -> flen (object_text n t) < 2 ^ 62).
  { intros n t Ht Hn1. destruct (write_structure deflate order w out Hord B1 B2 Hout) as (body & ps & Eo & Hm & Hps & _). cbv zeta in *.
    assert (M : mem n (objects w) = true) by (destruct Ht as (o & Ho & _); unfold mem; rewrite Ho; reflexivity).
    rewrite <- Hm in M. unfold mem in M. destruct (mget n ps) as [p|] eqn:Ep; [|discriminate M].
    destruct (Hps n p Ep) as (t' & pre & post & S & _ & Eb). rewrite B5 in S. assert (t' = t) by (eapply stored_unique; eassumption). subst t'.
    assert (flen (object_text n t) <= flen out).
    { rewrite Eo, Eb. unfold flen, object_text, obj_text. rewrite !app_length. change (length (bs "endobj")) with 6%nat. lia. }
    unfold flen in *. change (10 ^ 10) with 10000000000 in HL. change (2 ^ 62) with 4611686018427387904. lia. }
  (* the reference in the catalog *)
  assert (FA : value_of (find m_acroform out) = Some (decZ (k + 1))).
  { destruct (written_before (bs "/AcroForm") deflate order w out (k + 2)) as (pre & t & rest & E1 & E2 & E3); try assumption; try reflexivity.
    - apply no_nl_in; reflexivity.
    - rewrite B4. reflexivity.
    - intros m t Hm Ht. rewrite B5 in Ht. destruct (B11 m t Ht) as [(s & Hs & ->)|[[_ ->]|[Q _]]]; [| |lia].
      + apply numbered_range in Hs. destruct Hs as [_ Hs]. rewrite Forall_forall in Hg. destruct (Hg s Hs) as (_ & Q & _).
        apply stream_lacks; try reflexivity; [discriminate|apply no_nl_in; reflexivity|apply Q].
      + apply form_lacks; [exact GE|..]; reflexivity.
    - destruct B10 as (o & Ho & _). unfold mem. rewrite Ho. reflexivity.
    - rewrite B5 in E2. assert (t = xfa_catalog (k + 1)) by (eapply stored_unique; eassumption). subst t.
      assert (EE : out = (pre ++ decZ (k + 2) ++ bs " 0 obj" ++ nl ++ bs "<</Type/Catalog") ++ bs "/AcroForm" ++ bs " " ++ decZ (k + 1) ++ bs " 0 R" ++ (bs ">>" ++ nl ++ bs "endobj" ++ nl ++ rest)).
      { rewrite E1. unfold obj_text, xfa_catalog. rewrite <- !app_assoc. reflexivity. }
      rewrite EE. erewrite find_at; [reflexivity| |].
      + apply (nostart_nofire m_acroform (bs "/AcroForm")).
        * intros u Hu. unfold m_acroform. rewrite (proj2 (lit_none _ _) Hu). reflexivity.
        * apply nostart_app; [exact E3|]. apply nostart_app; [apply nostart_decZ; [lia|reflexivity]|apply nostartb_ok; reflexivity].
      + unfold m_acroform. rewrite lit_app. cbn [obind]. change (bs " " ++ ?x) with (" "%byte :: x).
        rewrite ws1_space by (apply digits_head; [apply decZ_nonnil; lia|apply decZ_digits; lia|auto using digit_not_ws]). cbn [obind].
        rewrite digits1_app by (try apply decZ_nonnil; try apply decZ_digits; try lia; reflexivity). cbn [obind]. reflexivity. }
  assert (LE : (length (flat_map xfa_entry (form_entries l)) < array_limit)%nat).
  { assert (length (flat_map xfa_entry (form_entries l)) <= 22 * length (form_entries l))%nat.
    { apply entries_short. apply Forall_forall. intros [name n] Hi. unfold form_entries in Hi. apply in_map_iff in Hi. destruct Hi as ([s m] & Q & Hi).
      injection Q as <- <-. apply numbered_range in Hi. cbn [fst snd] in *. destruct Hi as [Hi1 Hi2]. rewrite Forall_forall in Hnames. split; [apply Hnames, Hi2|lia]. }
    unfold form_entries in *. rewrite map_length, numbered_length in H. unfold array_limit. change (N.to_nat 10000) with (Z.to_nat 10000).
    apply Nat2Z.inj_lt. rewrite Z2Nat.id by lia. lia. }
  assert (XA : xfa_array (GetObject inflate None out) ff out = Ok (flat_map xfa_entry (form_entries l) ++ bs "]")).
  { unfold xfa_array. rewrite FA. rewrite atoi_decZ by lia. replace (0 <? k + 1) with true by lia.
    rewrite (Get (k + 1) _ ltac:(lia) B9). cbn [rbind]. apply form_array; [lia|exact GE|exact LE]. }
  unfold ExtractAllXFAStreams. rewrite XA. cbn [rbind]. rewrite entries_read by exact GE.
  destruct (loaded deflate zl fl (GetObject inflate None out) sf l Hg Hd 1 []) as (xs & X1 & X2 & X3); [lia|lia| |].
  { intros s n Hi. pose proof (B8 s n Hi) as S. pose proof (numbered_range _ _ _ _ Hi) as [R _]. split; [apply Get; [lia|exact S]|apply Small; [exact S|lia]]. }
  exists xs. split; [|split; assumption].
  unfold form_entries. rewrite map_map. cbn [fst snd].
  destruct (map (fun x => (xdName (fst x), decZ (snd x))) (numbered_from 1 l)) as [|e es] eqn:Em.
  - destruct l; [congruence|discriminate Em].
  - exact X1.
Qed.

(** ** The streams of a document, built again *)
Lemma kept_in names xs n d : In (n, d) (kept_streams names xs) <-> In n names /\ d <> [] /\ exists i, kget n xs = Some i /\ siData i = d.
Proof.
  unfold kept_streams. rewrite in_flat_map. split.
  - intros (m & Hm & H). destruct (kget m xs) as [i|] eqn:E; [|destruct H]. destruct (siData i) as [|c z] eqn:D; [destruct H|].
    destruct H as [H|[]]. injection H as <- <-. split; [exact Hm|]. split; [discriminate|]. exists i. split; [exact E|exact D].
  - intros (Hn & Hd & i & E & D). exists n. split; [exact Hn|]. rewrite E, D. destruct d; [congruence|]. left. reflexivity.
Qed.
Lemma kept_nodup names xs : NoDup names -> NoDup (map fst (kept_streams names xs)).
Proof.
  induction 1 as [|n names Hn Hd IH]; [constructor|]. unfold kept_streams. cbn [flat_map]. fold (kept_streams names xs).
  destruct (kget n xs) as [i|]; [|exact IH]. destruct (siData i) as [|c z]; [exact IH|]. cbn [app map fst]. constructor; [|exact IH].
  intros Q. apply in_map_iff in Q. destruct Q as ([m d] & <- & Q). apply kept_in in Q. apply Hn, Q.
Qed.
Theorem streams_extract deflate order inflate zl fl ff sf (xs : xstreams) out :
  is_order order -> (exists n i, In n packet_names /\ kget n xs = Some i /\ siData i <> []) ->
  (forall n i, In n packet_names -> kget n xs = Some i -> siData i <> [] -> good_stream deflate zl fl (mkXD n (siData i) true)) ->
  fst (Write deflate order None (BuildPDFFromXFAStreams deflate xs)) = out -> Z.of_nat (length out) < 10 ^ 10 ->
  exists ys, ExtractAllXFAStreams zl fl (GetObject inflate None out) ff sf out = Ok ys /\
    (forall n i, In n packet_names -> kget n xs = Some i -> siData i <> [] -> exists k, kget n ys = Some (mkSI (siData i) k false)) /\
    (forall n, (~ In n packet_names \/ forall i, kget n xs = Some i -> siData i = []) -> kget n ys = None).
Proof.
  intros Hord (n0 & i0 & N1 & N2 & N3) Hg Hout HL. unfold BuildPDFFromXFAStreams in Hout.
  set (l := map (fun p => mkXD (fst p) (snd p) true) (kept_streams built_names xs)) in *.
  assert (Nm : map xdName l = map fst (kept_streams built_names xs)) by (unfold l; rewrite map_map; reflexivity).
  assert (Ne : l <> []).
  { unfold l. intros Q. apply map_eq_nil in Q. assert (In (n0, siData i0) (kept_streams built_names xs)) by (apply kept_in; eauto). rewrite Q in H. destruct H. }
  assert (Nd : NoDup (map xdName l)).
  { rewrite Nm. apply kept_nodup. unfold built_names. repeat (constructor; [intros Q; cbn [In] in Q; repeat (destruct Q as [Q|Q]; [discriminate Q|]); exact Q|]). constructor. }
  assert (G : Forall (good_stream deflate zl fl) l).
  { apply Forall_forall. intros s Hs. unfold l in Hs. apply in_map_iff in Hs. destruct Hs as ([n d] & <- & Hs). cbn [fst snd].
    apply kept_in in Hs. destruct Hs as (H1 & H2 & i & H3 & <-). apply Hg; assumption. }
  destruct (build_extract deflate order inflate zl fl ff sf l out Hord Ne Nd G Hout HL) as (ys & Y1 & Y2 & Y3).
  exists ys. split; [exact Y1|]. split.
  - intros n i H1 H2 H3.
    assert (Hi : In (mkXD n (siData i) true) l).
    { unfold l. apply in_map_iff. exists (n, siData i). split; [reflexivity|]. apply kept_in. eauto. }
    assert (Q : forall s m, In s m -> forall k, exists j, In (s, j) (numbered_from k m)).
    { clear. intros s m. induction m as [|x m IH]; intros H k; [destruct H|]. cbn [numbered_from]. destruct H as [->|H]; [exists k; left; reflexivity|].
      destruct (IH H (k + 1)) as [j Hj]. exists j. right. exact Hj. }
    destruct (Q _ _ Hi 1) as [j Hj]. exists j. exact (Y2 _ _ Hj).
  - intros n Hn. apply Y3. rewrite Nm. intros Q. apply in_map_iff in Q. destruct Q as ([m d] & <- & Q). apply kept_in in Q. cbn [fst] in *.
    destruct Q as (Q1 & Q2 & i & Q3 & Q4). destruct Hn as [Hn|Hn]; [contradiction|]. specialize (Hn i Q3). rewrite Hn in Q4. auto.
Qed.
