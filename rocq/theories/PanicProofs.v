(** When the parser indexes out of range. *)
From Verif Require Import ParseModel ParseSpec ParseProofs Scan.
Local Open Scope Z_scope.

Ltac brk :=
  repeat (match goal with
          | |- context [match ?x with _ => _ end] => destruct x eqn:?
          | H : context [match ?x with _ => _ end] |- _ => destruct x eqn:?
          end; try discriminate; try congruence).

(** The two places in the cross-reference stream reader. *)
Lemma xref_stream_panic inflate f x :
  read_xref_stream inflate f x = Panic <->
  (found (find m_any0obj (take 500 (from x f))) = false /\ flen f < x + 500) \/
  (exists d, index (bs "<<") (from x f) = Some d /\ (length (take 500 (from x f)) < d)%nat /\
     (found (find m_any0obj (take 500 (from x f))) = true \/
      found (find m_any0obj (sub (if 100 <? x then Z.to_nat (x - 100) else 0) (Z.to_nat (x + 500)) f)) = true)).
Proof.
  unfold read_xref_stream. cbv zeta.
  destruct (found (find m_any0obj (take 500 (from x f)))) eqn:E1.
  - cbn [rbind negb]. split.
    + intro H. right. destruct (index (bs "<<") (from x f)) as [d|] eqn:E2; [|discriminate].
      destruct (length (take 500 (from x f)) <? d)%nat eqn:E3.
      * exists d. apply Nat.ltb_lt in E3. auto.
      * exfalso. brk.
    + intros [[H _]|[d [H [L _]]]]; [discriminate|]. rewrite H. apply Nat.ltb_lt in L. rewrite L. reflexivity.
  - destruct (flen f <? x + 500) eqn:E4; cbn [rbind].
    + apply Z.ltb_lt in E4. split; auto.
    + apply Z.ltb_ge in E4.
      destruct (found (find m_any0obj (sub _ _ f))) eqn:E5; cbn [negb].
      * split.
        -- intro H. right. destruct (index (bs "<<") (from x f)) as [d|] eqn:E2; [|discriminate].
           destruct (length (take 500 (from x f)) <? d)%nat eqn:E3.
           ++ exists d. apply Nat.ltb_lt in E3. auto.
           ++ exfalso. brk.
        -- intros [[_ H]|[d [H [L _]]]]; [lia|]. rewrite H. apply Nat.ltb_lt in L. rewrite L. reflexivity.
      * split; [discriminate|]. intros [[_ H]|[d [H [L [K|K]]]]]; [lia|discriminate|discriminate].
Qed.

Lemma full_panic inflate f x : ParseXRefStreamFull inflate f x = Panic <-> read_xref_stream inflate f x = Panic.
Proof. unfold ParseXRefStreamFull. destruct (read_xref_stream inflate f x); cbn; [|split; discriminate|tauto].
  destruct (_ =? 0); split; discriminate. Qed.
Lemma enc_panic inflate f x : ParseXRefStreamWithEncryption inflate f x = Panic <-> read_xref_stream inflate f x = Panic.
Proof. unfold ParseXRefStreamWithEncryption. destruct (read_xref_stream inflate f x); cbn; [|split; discriminate|tauto].
  destruct (_ =? 0); [split; discriminate|]. destruct (fold_left _ _ _); split; discriminate. Qed.
Lemma section_panic inflate f x : parsexrefSection inflate f x = Panic -> x < flen f /\ read_xref_stream inflate f x = Panic.
Proof.
  unfold parsexrefSection. destruct (flen f <=? x) eqn:E; [discriminate|]. apply Z.leb_gt in E.
  destruct (prefixb _ _); [discriminate|]. destruct (_ || _); [|discriminate].
  unfold parseXRefStreamSection. intro H. split; [lia|]. apply full_panic.
  destruct (ParseXRefStreamFull inflate f x); cbn in H; [discriminate H|discriminate H|reflexivity].
Qed.
Lemma sections_panic inflate f xs : parse_sections inflate f xs = Panic ->
  exists x, In x xs /\ x < flen f /\ read_xref_stream inflate f x = Panic.
Proof.
  induction xs as [|x xs IH]; cbn [parse_sections]; [discriminate|].
  destruct (parsexrefSection inflate f x) eqn:E.
  - destruct (parse_sections inflate f xs) eqn:E2; cbn; try discriminate.
    intros _. destruct (IH eq_refl) as [y [I H]]. exists y. cbn; auto.
  - intro H. destruct (IH H) as [y [I K]]. exists y. cbn; auto.
  - intros _. exists x. apply section_panic in E. cbn; auto.
Qed.
Lemma startxref_panic f : findLastStartXRef f <> Panic.
Proof. unfold findLastStartXRef. destruct (rev _); [discriminate|]. destruct (startxref_before _ _); [|discriminate].
  destruct (atoi _); discriminate. Qed.

(** Opening a file panics only in the cross-reference stream reader. *)
Lemma open_panic inflate crypt f : Open inflate crypt f = Panic ->
  crypt f = Panic \/ exists x, x < flen f /\ read_xref_stream inflate f x = Panic.
Proof.
  unfold Open. destruct (flen f <? 8); [discriminate|].
  destruct (mentions_encrypt f) eqn:M; [destruct (crypt f) as [dec| |] eqn:C|]; cbn [rbind]; try discriminate; try tauto;
  [|set (dec := @None decryptor); clearbody dec]; intro H; right; revert H; unfold parseStandard;
  (destruct (parseIncremental inflate f) as [[[objs streams] secs]| |] eqn:P; [discriminate| |]).
  all: try (intros _; unfold parseIncremental in P; destruct (findLastStartXRef f) eqn:L; cbn in P;
    [|discriminate|destruct (startxref_panic _ L)];
    unfold parseXRefChain in P; destruct (prev_chain _ f [] _) as [l|]; [|discriminate P];
    destruct (parse_sections inflate f (rev (_ :: l))) as [[|]| |] eqn:S; try discriminate P;
    apply sections_panic in S; destruct S as [y [_ K]]; exists y; exact K).
  all: destruct (ParsePDFTrailer f) as [t| |] eqn:T; try discriminate;
    [|exfalso; revert T; unfold ParsePDFTrailer; brk; discriminate].
  all: destruct (ParseCrossReferenceTable inflate f (tStartXRef t)) eqn:C'; try discriminate; intros _;
    unfold ParseCrossReferenceTable in C'; destruct ((_ <=? 0) || (_ <=? _)) eqn:B; try discriminate C';
    apply orb_false_iff in B; destruct B as [_ B]; apply Z.leb_gt in B;
    destruct (_ || _); [|unfold ParseTraditionalXRefTable in C'; brk];
    exists (tStartXRef t); split; [lia|]; apply enc_panic; exact C'.
Qed.

(** Reading one object in place: only objects that contain "stream", no
    "endstream", and end less than three bytes before the end of the file. *)
Lemma contains_sub p a b s : contains p (firstn b s) = false -> contains p (sub a b s) = false.
Proof.
  intro H. unfold sub. rewrite <- skipn_firstn_comm. apply contains_false. intros j Hj.
  rewrite skipn_skipn. destruct (le_lt_dec (j + a) (length (firstn b s))).
  - apply (proj1 (contains_false _ _) H). lia.
  - rewrite skipn_all2 by lia. specialize (proj1 (contains_false _ _) H (length (firstn b s)) (le_n _)).
    rewrite skipn_all. auto.
Qed.

Lemma read_object_panic n g data : read_object None n g data = Panic ->
  exists e, index (bs "endobj") data = Some e /\ (length data < e + 9)%nat /\
    contains (bs "stream") (firstn e data) = true.
Proof.
  unfold read_object. destruct (index (bs "endobj") data) as [e|] eqn:E; [|discriminate]. intro H.
  exists e. split; [reflexivity|]. cbv zeta in H.
  remember (match index (bs "obj") (firstn e data) with Some _ => _ | None => _ end) as cs eqn:Ecs. clear Ecs.
  destruct (index (bs "stream") (sub cs e data)) as [st|] eqn:S; [|discriminate].
  destruct (index (bs "endstream") (sub cs e data)) as [k|] eqn:K; [discriminate|].
  destruct (length data <? e + 9)%nat eqn:L; [|discriminate]. apply Nat.ltb_lt in L. split; [exact L|].
  destruct (contains (bs "stream") (firstn e data)) eqn:C; [reflexivity|].
  apply (contains_sub _ cs) in C. unfold contains in C. rewrite S in C. discriminate.
Qed.

Lemma direct_no_panic f n off :
  (forall i, prefixb (bs "endobj") (skipn i f) = true -> (i + 9 <= length f)%nat) ->
  GetDirectObject None f n off <> Panic.
Proof.
  intros H P.
  assert (K : forall g k, read_object None n g (skipn k f) <> Panic).
  { intros g k R. apply read_object_panic in R. destruct R as [e [I [L _]]].
    apply index_some in I. destruct I as [I _]. rewrite skipn_skipn in I. apply H in I.
    rewrite skipn_length in L. lia. }
  revert P. unfold GetDirectObject, from. destruct (_ || _); [discriminate|]. cbv zeta.
  destruct (m_objnum n (take 50 _)); [apply K|]. destruct (find (m_objnum n) _) as [[i ?]|]; [|apply K].
  destruct (m_objnum n (take 50 _)); apply K.
Qed.

(** An entry of an object stream. *)
Lemma in_stream_panic n idx first data :
  object_in_stream n idx first data = Panic ->
  flen data < first \/ idx < 0 \/
  exists t, In t (pairs_of (fields is_space (firstn (Z.to_nat first) data))) /\ fst t = n /\
    (first + snd t < 0 \/
     match nth_error (pairs_of (fields is_space (firstn (Z.to_nat first) data))) (S (Z.to_nat idx)) with
     | Some nx => snd nx < snd t
     | None => False
     end).
Proof.
  unfold object_in_stream. destruct (flen data <? first) eqn:E1; [apply Z.ltb_lt in E1; auto|].
  cbv zeta. remember (pairs_of _) as es. destruct (Z.of_nat (length es) <=? idx) eqn:E2; [discriminate|].
  destruct (idx <? 0) eqn:E3; [apply Z.ltb_lt in E3; auto|].
  apply Z.leb_gt in E2. apply Z.ltb_ge in E3.
  destruct (nth_error es (Z.to_nat idx)) as [e|] eqn:N; [|apply nth_error_None in N; lia].
  intro H. right; right.
  assert (T : exists t, In t es /\ fst t = n /\ (if fst e =? n then Some e else List.find (fun e0 => fst e0 =? n) es) = Some t).
  { destruct (fst e =? n) eqn:F.
    - exists e. apply Z.eqb_eq in F. apply nth_error_In in N. auto.
    - destruct (List.find _ es) as [t|] eqn:F2; [|discriminate H]. exists t. apply List.find_some in F2.
      destruct F2 as [I F2]. apply Z.eqb_eq in F2. auto. }
  destruct T as [t [I [F T]]]. rewrite T in H. exists t. split; [exact I|]. split; [exact F|].
  destruct ((flen data <=? first + snd t) || _) eqn:B; [discriminate|].
  apply orb_false_iff in B. destruct B as [B1 B2]. apply Z.leb_gt in B1. apply Z.ltb_ge in B2.
  destruct ((first + snd t <? 0) || _) eqn:C; [|discriminate]. apply orb_true_iff in C.
  destruct C as [C|C]; apply Z.ltb_lt in C; [auto|]. right.
  destruct (nth_error es (S (Z.to_nat idx))); lia.
Qed.

Lemma raw_no_panic f n g off : ParseRawObject f n g off <> Panic.
Proof. unfold ParseRawObject. brk; discriminate. Qed.
Lemma trailer_no_panic f : ParsePDFTrailer f <> Panic.
Proof. unfold ParsePDFTrailer. brk; discriminate. Qed.
Lemma extract_no_panic f k : ExtractRevision f k <> Panic.
Proof.
  unfold ExtractRevision. cbv zeta. destruct (_ || _) eqn:B; [discriminate|].
  apply orb_false_iff in B. destruct B as [B1 B2]. apply Z.ltb_ge in B1. apply Z.ltb_ge in B2.
  destruct (nth_error _ _) eqn:N; [discriminate|]. apply nth_error_None in N. lia.
Qed.

(** Files whose cross-reference sections are all classic tables. *)
Lemma document_panic inflate f : ParsePDFDocument inflate f = Panic ->
  exists x, 0 <= x < flen f /\ prefixb (bs "xref") (from x f) = false /\ read_xref_stream inflate f x = Panic.
Proof.
  unfold ParsePDFDocument. destruct (_ || _); [discriminate|].
  destruct (FindAllEOFMarkers f) as [|e es] eqn:E; [discriminate|]. clear E.
  assert (G : forall es i acc, parse_revisions inflate f i es acc = Panic ->
    exists x, 0 <= x < flen f /\ prefixb (bs "xref") (from x f) = false /\ read_xref_stream inflate f x = Panic).
  { clear e es. induction es as [|e es IH]; intros i acc; cbn [parse_revisions]; [discriminate|].
    destruct (parseRevision inflate f i e _) as [r| |] eqn:R; [apply IH|apply IH|]. intros _.
    unfold parseRevision in R. destruct (startxref_before f e) as [d|]; [|discriminate].
    remember (atoi_clip d) as x. destruct (ParseXRefDataRaw inflate f x) as [t| |] eqn:P; cbn [rbind] in R.
    - destruct (_ && _); discriminate.
    - discriminate.
    - exists x. unfold ParseXRefDataRaw in P. destruct ((x <? 0) || _) eqn:B; [discriminate|].
      apply orb_false_iff in B. destruct B as [B1 B2]. apply Z.ltb_ge in B1. apply Z.leb_gt in B2.
      split; [lia|]. destruct (prefixb (bs "xref") (from x f)) eqn:X; [discriminate|]. split; [reflexivity|].
      destruct (value_of (find m_anyobj _)) as [[a b]|]; [|discriminate].
      destruct (ParseRawObject f _ _ x) eqn:Q; cbn [rbind] in P; [|discriminate|destruct (raw_no_panic _ _ _ _ Q)].
      apply full_panic. destruct (ParseXRefStreamFull inflate f x); [discriminate|discriminate|reflexivity]. }
  intro H. apply (G (e :: es) 1%nat []). destruct (parse_revisions inflate f 1 (e :: es) []) as [[|]| |]; [discriminate H|discriminate H|discriminate H|reflexivity].
Qed.
