(** Proofs for byte-perfect documents: stream data and the bounds of revisions. *)
From Verif Require Import Scan WriterModel WriterProofs ParseModel ParseSpec ParseProofs XrefProofs ReadProofs ReaderSpec ReaderProofs ReaderProofs2.
Local Open Scope Z_scope.

Lemma scan_lim_cons2 lim k a b s : dict_scan_lim (S lim) (S k) (a :: b :: s) =
  if beqb a "<" && beqb b "<" then (2 + dict_scan_lim (pred lim) (S (S k)) s)%nat
  else if beqb a ">" && beqb b ">" then (2 + dict_scan_lim (pred lim) k s)%nat
  else (1 + dict_scan_lim lim (S k) (b :: s))%nat.
Proof. reflexivity. Qed.
Lemma scan_lim_step lim k c s : c <> "<"%byte -> c <> ">"%byte ->
  dict_scan_lim (S lim) (S k) (c :: s) = S (dict_scan_lim lim (S k) s).
Proof.
  intros H1 H2. destruct s as [|b s].
  - destruct lim; reflexivity.
  - rewrite scan_lim_cons2, !(beqb_false c) by assumption. reflexivity.
Qed.
Lemma scan_lim_bytes k h : (forall b, In b h -> b <> "<"%byte /\ b <> ">"%byte) -> forall lim s,
  dict_scan_lim (length h + lim) (S k) (h ++ s) = (length h + dict_scan_lim lim (S k) s)%nat.
Proof.
  induction h as [|b h IH]; intros H lim s; [reflexivity|]. cbn [app length Nat.add].
  rewrite scan_lim_step by (apply H; left; reflexivity). rewrite IH by (intros; apply H; right; assumption). reflexivity.
Qed.
Lemma scan_lim_balanced d : balanced d -> forall lim k s,
  dict_scan_lim (length d + lim) (S k) (d ++ s) = (length d + dict_scan_lim lim (S k) s)%nat.
Proof.
  induction 1 as [|c d H1 H2 Hd IH|d e Hd IHd He IHe|h c e Hh Hc He IH]; intros lim k s.
  - reflexivity.
  - cbn [app length Nat.add]. rewrite scan_lim_step by assumption. rewrite IH. reflexivity.
  - assert (length (bs "<<" ++ d ++ bs ">>" ++ e) = 2 + (length d + (2 + length e)))%nat as El by (rewrite !app_length; reflexivity).
    rewrite El. replace (2 + (length d + (2 + length e)) + lim)%nat with (S (S (length d + S (S (length e + lim))))) by lia.
    rewrite <- !app_assoc. change (bs "<<" ++ d ++ bs ">>" ++ e ++ s) with ("<"%byte :: "<"%byte :: d ++ bs ">>" ++ e ++ s).
    rewrite scan_lim_cons2. change (beqb "<" "<" && beqb "<" "<") with true. cbv iota. cbn [pred].
    rewrite IHd. change (bs ">>" ++ e ++ s) with (">"%byte :: ">"%byte :: e ++ s). rewrite scan_lim_cons2.
    change (beqb ">" "<" && beqb ">" "<") with false. change (beqb ">" ">" && beqb ">" ">") with true. cbv iota. cbn [pred].
    rewrite IHe. lia.
  - assert (length (bs "<" ++ h ++ bs ">" ++ c :: e) = 1 + (length h + (1 + length (c :: e))))%nat as El by (rewrite !app_length; reflexivity).
    rewrite El. replace (1 + (length h + (1 + length (c :: e))) + lim)%nat with (S (length h + S (length (c :: e) + lim))) by lia.
    rewrite <- !app_assoc.
    assert (dict_scan_lim (S (length (c :: e) + lim)) (S k) (bs ">" ++ (c :: e) ++ s) =
      (1 + dict_scan_lim (length (c :: e) + lim) (S k) ((c :: e) ++ s))%nat) as E1.
    { change (bs ">" ++ (c :: e) ++ s) with (">"%byte :: c :: (e ++ s)). rewrite scan_lim_cons2.
      rewrite (beqb_false c ">"%byte) by exact Hc. rewrite andb_false_r. reflexivity. }
    assert (dict_scan_lim (S (length h + S (length (c :: e) + lim))) (S k) (bs "<" ++ h ++ bs ">" ++ (c :: e) ++ s) =
      (1 + dict_scan_lim (length h + S (length (c :: e) + lim)) (S k) (h ++ bs ">" ++ (c :: e) ++ s))%nat) as E2.
    { destruct h as [|b h].
      - reflexivity.
      - change (bs "<" ++ (b :: h) ++ bs ">" ++ (c :: e) ++ s) with ("<"%byte :: b :: (h ++ bs ">" ++ (c :: e) ++ s)). rewrite scan_lim_cons2.
        rewrite (beqb_false b "<"%byte) by (apply Hh; left; reflexivity). rewrite andb_false_r. reflexivity. }
    rewrite E2, scan_lim_bytes by exact Hh. rewrite E1, IH. lia.
Qed.

Lemma trim_data data e : data_end e -> (e = [x0a] -> forall d, data <> d ++ [x0d]) -> trim_one_eol (data ++ e) = data.
Proof.
  intros [->|[->| ->]] H; unfold trim_one_eol; rewrite rev_app_distr; cbn [rev app].
  - change (beqb x0a x0a) with true. cbv iota. specialize (H eq_refl).
    destruct (rev data) as [|c r] eqn:E.
    + apply (f_equal (@rev byte)) in E. rewrite rev_involutive in E. rewrite E. reflexivity.
    + apply (f_equal (@rev byte)) in E. rewrite rev_involutive in E. cbn [rev] in E.
      rewrite beqb_false; [symmetry; exact E|]. intros ->. apply (H (rev r)). exact E.
  - change (beqb x0a x0a) with true. change (beqb x0d x0d) with true. cbv iota. apply rev_involutive.
  - change (beqb x0d x0a) with false. change (beqb x0d x0d) with true. cbv iota. apply rev_involutive.
Qed.

Lemma nostart_sep2 p t c rest : contains p t = false -> ~ In c p -> p <> [] -> nostart p rest -> nostart p (t ++ c :: rest).
Proof.
  intros H1 H2 H3 H4. change (c :: rest) with ([c] ++ rest). rewrite app_assoc. apply nostart_app; [apply nostart_sep; assumption|exact H4].
Qed.
Lemma data_end_sep p data e : data_end e -> contains p data = false -> p <> [] -> ~ In x0a p -> ~ In x0d p -> nostart p (data ++ e).
Proof.
  intros He Hc Hp H1 H2. assert (nostart p []) as Hn by (intros c j Hj; cbn [length] in Hj; lia).
  destruct He as [->|[->| ->]]; apply nostart_sep2; auto.
  change [x0a] with ([] ++ [x0a]). apply nostart_sep; auto. apply contains_false. intros j Hj. cbn [length] in Hj.
  assert (j = 0%nat) as -> by lia. destruct p; [congruence|reflexivity].
Qed.

Lemma raw_stream_data f pre n g d e1 data e2 post :
  f = pre ++ raw_stream n g d e1 data e2 ++ post -> 0 <= n -> 0 <= g -> balanced d -> stream_eol e1 -> data_end e2 ->
  contains (bs "stream") d = false -> contains (bs "endobj") d = false ->
  contains (bs "endobj") data = false -> contains (bs "endstream") data = false ->
  (e2 = [x0a] -> forall x, data <> x ++ [x0d]) ->
  exists o, ParseRawObject f n g (flen pre) = Ok o /\ roBytes o = raw_stream n g d e1 data e2 /\ roIsStream o = true /\
    roDict o = Some (bs "<<" ++ d ++ bs ">>") /\ roStream o = Some data.
Proof.
  intros -> Hn Hg Hd He1 He2 C1 C2 C3 C4 Hcr. unfold ParseRawObject, flen, from. rewrite Nat2Z.id, skipn_app_exact.
  rewrite lt_app; [|unfold raw_stream; pose proof (XrefProofs.decZ_nonnil n Hn); destruct (decZ n); [congruence|discriminate]].
  replace (Z.of_nat (length pre) <? 0) with false by lia. cbn [orb].
  assert (prefixb (decZ n ++ bs " " ++ decZ g ++ bs " obj") (raw_stream n g d e1 data e2 ++ post) = true) as ->.
  { apply prefixb_spec. eexists. unfold raw_stream. rewrite <- !app_assoc. reflexivity. }
  cbn [negb andb].
  set (H := decZ n ++ bs " " ++ decZ g ++ bs " obj" ++ nl).
  assert (forall c q, is_digit c = false -> nostartb (c :: q) (bs " ") = true -> nostartb (c :: q) (bs " obj" ++ nl) = true -> nostart (c :: q) H) as HH.
  { intros c q X1 X2 X3. unfold H. apply nostart_app; [apply nostart_decZ; assumption|]. apply nostart_app; [apply nostartb_ok; exact X2|].
    apply nostart_app; [apply nostart_decZ; assumption|apply nostartb_ok; exact X3]. }
  set (R := H ++ (bs "<<" ++ (d ++ bs ">>" ++ nl)) ++ bs "stream" ++ e1 ++ (data ++ e2) ++ bs "endstream" ++ nl).
  assert (raw_stream n g d e1 data e2 = R ++ bs "endobj") as ER.
  { unfold raw_stream, R, H. rewrite <- !app_assoc. reflexivity. }
  rewrite ER, <- app_assoc.
  assert (nostart (bs "endobj") R) as Hns.
  { unfold R. apply nostart_app; [apply HH; reflexivity|]. apply nostart_app.
    - apply nostart_app; [apply nostartb_ok; reflexivity|]. apply nostart_sep2; [exact C2|intros X; repeat (destruct X as [X|X]; [discriminate|]); exact X|discriminate|apply nostartb_ok; reflexivity].
    - apply nostart_app; [apply nostartb_ok; reflexivity|]. apply nostart_app; [destruct He1 as [->| ->]; apply nostartb_ok; reflexivity|].
      apply nostart_app; [|apply nostartb_ok; reflexivity]. apply data_end_sep; [exact He2|exact C3|discriminate| |];
        intros X; repeat (destruct X as [X|X]; [discriminate|]); exact X. }
  rewrite index_at by exact Hns.
  assert (firstn (length R + 6) (R ++ bs "endobj" ++ post) = R ++ bs "endobj") as ->.
  { rewrite app_assoc. apply firstn_len_app. rewrite app_length. reflexivity. }
  set (tl := (data ++ e2) ++ bs "endstream" ++ nl ++ bs "endobj").
  assert (R ++ bs "endobj" = (H ++ bs "<<" ++ d ++ bs ">>" ++ nl) ++ bs "stream" ++ e1 ++ tl) as EA.
  { unfold R, tl. rewrite <- !app_assoc. reflexivity. }
  cbv zeta.
  assert (nostart (bs "stream") (H ++ bs "<<" ++ d ++ bs ">>" ++ nl)) as Hst.
  { apply nostart_app; [apply HH; reflexivity|]. apply nostart_app; [apply nostartb_ok; reflexivity|].
    apply nostart_sep2; [exact C1|intros X; repeat (destruct X as [X|X]; [discriminate|]); exact X|discriminate|apply nostartb_ok; reflexivity]. }
  match goal with |- context [index (bs "stream") ?x] => assert (index (bs "stream") x = Some (length (H ++ bs "<<" ++ d ++ bs ">>" ++ nl))) as -> by (rewrite EA; apply index_at; exact Hst) end.
  assert (R ++ bs "endobj" = H ++ bs "<<" ++ (d ++ bs ">>" ++ nl ++ bs "stream" ++ e1 ++ tl)) as EB.
  { rewrite EA, <- !app_assoc. reflexivity. }
  match goal with |- context [index (bs "<<") ?x] => assert (index (bs "<<") x = Some (length H)) as -> by (rewrite EB; apply index_at; apply HH; reflexivity) end.
  cbn [rbind]. eexists. split; [reflexivity|]. cbn [roBytes roIsStream roDict roStream].
  split; [reflexivity|]. split; [reflexivity|].
  assert (length (H ++ bs "<<" ++ d ++ bs ">>" ++ nl) = (length H + 2 + length d + 3))%nat as EL.
  { rewrite !app_length. change (length (bs "<<")) with 2%nat. change (length (bs ">>")) with 2%nat. change (length nl) with 1%nat. lia. }
  split.
  - rewrite EL. assert (skipn (length H + 2) (R ++ bs "endobj") = d ++ bs ">>" ++ nl ++ bs "stream" ++ e1 ++ tl) as ES.
    { rewrite EB, app_assoc. apply skipn_len_app. rewrite app_length. reflexivity. }
    rewrite ES. replace (length H + 2 + length d + 3 - (length H + 2))%nat with (length d + 3)%nat by lia.
    rewrite scan_lim_balanced by exact Hd.
    assert (dict_scan_lim 3 1 (bs ">>" ++ nl ++ bs "stream" ++ e1 ++ tl) = 2%nat) as -> by reflexivity.
    f_equal. unfold sub. replace (length H + 2 + (length d + 2) - length H)%nat with (length (bs "<<" ++ d ++ bs ">>")).
    2:{ rewrite !app_length. change (length (bs "<<")) with 2%nat. change (length (bs ">>")) with 2%nat. lia. }
    rewrite EB, skipn_len_app by reflexivity.
    replace (bs "<<" ++ d ++ bs ">>" ++ nl ++ bs "stream" ++ e1 ++ tl) with ((bs "<<" ++ d ++ bs ">>") ++ nl ++ bs "stream" ++ e1 ++ tl) by (rewrite <- !app_assoc; reflexivity).
    apply firstn_len_app. reflexivity.
  - set (A := (H ++ bs "<<" ++ d ++ bs ">>" ++ nl) ++ bs "stream").
    assert (R ++ bs "endobj" = A ++ e1 ++ tl) as EC by (rewrite EA; unfold A; rewrite <- !app_assoc; reflexivity).
    assert (length (H ++ bs "<<" ++ d ++ bs ">>" ++ nl) + 6 = length A)%nat as -> by (unfold A; rewrite (app_length _ (bs "stream")); reflexivity).
    rewrite EC, skip_one_eol_any by exact He1.
    assert (skipn (length A + length e1) (A ++ e1 ++ tl) = tl) as ->.
    { rewrite app_assoc. apply skipn_len_app. apply app_length. }
    unfold tl. rewrite index_at.
    + rewrite firstn_len_app by reflexivity. f_equal. apply trim_data; assumption.
    + apply data_end_sep; [exact He2|exact C4|discriminate| |]; intros X; repeat (destruct X as [X|X]; [discriminate|]); exact X.
Qed.

(** Bounds of the revisions *)
Lemma revision_objects_off f pe eof rows n o :
  mget n (revision_objects f pe eof rows) = Some o -> pe <= roOffset o < Z.of_nat eof.
Proof.
  unfold revision_objects.
  assert (forall rows m, (forall o, mget n m = Some o -> pe <= roOffset o < Z.of_nat eof) ->
    forall o, mget n (fold_left (fun m r =>
      if rInUse r && (match rInStream r with None => true | Some _ => false end)
         && (pe <=? rOff r) && (rOff r <? Z.of_nat eof)
      then match ParseRawObject f (rNum r) (rGen r) (rOff r) with
           | Ok o => mset (rNum r) o m
           | _ => m
           end
      else m) rows m) = Some o -> pe <= roOffset o < Z.of_nat eof) as H.
  { clear. induction rows as [|r rows IH]; intros m Hm o; cbn [fold_left]; [apply Hm|].
    apply IH. intros o' Ho'.
    destruct (rInUse r && _ && (pe <=? rOff r) && (rOff r <? Z.of_nat eof)) eqn:Ec; [|apply Hm; exact Ho'].
    destruct (ParseRawObject f (rNum r) (rGen r) (rOff r)) as [o1| |] eqn:E; try (apply Hm; exact Ho').
    rewrite mget_mset in Ho'. destruct (Z.eqb_spec n (rNum r)) as [->|]; [|apply Hm; exact Ho'].
    injection Ho' as ->. destruct (ParseRawObject_ok _ _ _ _ _ E) as [_ [-> _]].
    rewrite !andb_true_iff in Ec. destruct Ec as [[_ E1] E2]. lia. }
  apply H. discriminate.
Qed.

Lemma marker_end f i : In i (positions_of (bs "%%EOF") f) -> ends_after_marker f i (firstn (skip_eol f (i + 5)) f).
Proof.
  intros Hi. destruct (In_nth_error _ _ Hi) as [k Hk]. pose proof (extract_revision f k) as He. rewrite Hk in He.
  destruct He as (r & Hr & He). unfold ExtractRevision, GetRevisionBoundaries in Hr. cbv zeta in Hr.
  rewrite eof_positions, map_length in Hr.
  assert (k < length (positions_of (bs "%%EOF") f))%nat as Hl by (apply nth_error_Some; congruence).
  revert Hr. match goal with |- context [if ?c then _ else _] => replace c with false by lia end.
  replace (Z.to_nat (Z.of_nat k + 1 - 1)) with k by lia. rewrite nth_error_map, Hk. cbn [option_map].
  apply positions_of_in in Hi; [|discriminate]. apply prefixb_spec in Hi. destruct Hi as [t Ht].
  pose proof (f_equal (@length byte) Ht) as H. rewrite skipn_length, app_length in H. change (length (bs "%%EOF")) with 5%nat in H.
  rewrite Nat.min_l by lia. intros Hr; injection Hr as <-. exact He.
Qed.

Definition rev_bounds (f : bytes) (pe : Z) (r : revision) : Prop :=
  In (rvEOF r) (positions_of (bs "%%EOF") f) /\ rvEnd r = skip_eol f (rvEOF r + 5) /\
  forall n o, mget n (rvObjects r) = Some o -> pe <= roOffset o < Z.of_nat (rvEOF r).
(** newest first *)
Fixpoint bounds_chain (f : bytes) (rs : list revision) : Prop :=
  match rs with
  | [] => True
  | r :: older => rev_bounds f (match older with r' :: _ => Z.of_nat (rvEnd r') | [] => Z.of_nat (header_len f) end) r /\
      (forall r', In r' older -> (rvEOF r' < rvEOF r)%nat) /\ bounds_chain f older
  end.

Lemma parse_revisions_bounds inflate f : forall eofs i acc rs, (1 <= i)%nat -> (acc <> [] -> (1 < i)%nat) ->
  StronglySorted lt eofs -> (forall e, In e eofs -> In e (positions_of (bs "%%EOF") f)) ->
  (forall r e, In r acc -> In e eofs -> (rvEOF r < e)%nat) ->
  bounds_chain f acc -> parse_revisions inflate f i eofs acc = Ok rs -> bounds_chain f (rev rs).
Proof.
  induction eofs as [|e eofs IH]; intros i acc rs Hi1 Hi Hs Hin Hlt Hacc; cbn [parse_revisions].
  - intros H; injection H as <-. rewrite rev_involutive. exact Hacc.
  - inversion Hs as [|x y Hs' Hf]; subst.
    destruct (parseRevision inflate f i e _) as [r0| |] eqn:E; [| |discriminate].
    + apply IH; [lia|lia|exact Hs'|intros; apply Hin; right; assumption| |].
      * intros r e' [<-|Hr] He'; [|apply Hlt; [exact Hr|right; exact He']].
        unfold parseRevision in E. destruct (startxref_before f e); [|discriminate].
        destruct (ParseXRefDataRaw inflate f _) as [t| |]; try discriminate. cbn [rbind] in E.
        destruct (fst t && _); [discriminate|]. injection E as <-. cbn [rvEOF]. rewrite Forall_forall in Hf. apply Hf. exact He'.
      * cbn [bounds_chain]. unfold parseRevision in E. destruct (startxref_before f e); [|discriminate].
        destruct (ParseXRefDataRaw inflate f _) as [t| |]; try discriminate. cbn [rbind] in E.
        destruct (fst t && _); [discriminate|]. injection E as <-. split; [|split; [|exact Hacc]].
        -- split; [apply Hin; left; reflexivity|]. split; [reflexivity|]. cbn [rvObjects rvEOF]. intros n o Ho.
           apply revision_objects_off in Ho. destruct acc as [|a acc]; [exact Ho|].
           assert ((1 <? i)%nat = true) as Hi' by (apply Nat.ltb_lt; apply Hi; discriminate). rewrite Hi' in Ho. exact Ho.
        -- intros r' Hr'. cbn [rvEOF]. apply Hlt; [exact Hr'|left; reflexivity].
    + apply IH; [lia|lia|exact Hs'|intros; apply Hin; right; assumption| |exact Hacc].
      intros r e' Hr He'. apply Hlt; [exact Hr|right; exact He'].
Qed.

Lemma bounds_chain_nth f : forall rs k r, bounds_chain f rs -> nth_error rs k = Some r ->
  rev_bounds f (match nth_error rs (S k) with Some r' => Z.of_nat (rvEnd r') | None => Z.of_nat (header_len f) end) r /\
  (forall r', nth_error rs (S k) = Some r' -> (rvEOF r' < rvEOF r)%nat).
Proof.
  induction rs as [|a rs IH]; intros k r Hb Hk; [destruct k; discriminate|].
  destruct Hb as (H1 & H2 & H3). destruct k as [|k].
  - injection Hk as <-. split; [destruct rs; exact H1|]. intros r' Hr'. apply H2. apply (nth_error_In rs 0%nat). exact Hr'.
  - apply (IH k r H3 Hk).
Qed.

Lemma nth_error_rev {A} (l : list A) k : (k < length l)%nat -> nth_error (rev l) k = nth_error l (length l - 1 - k).
Proof.
  revert k. induction l as [|a l IH]; intros k Hk; cbn [length] in Hk; [lia|]. cbn [rev].
  destruct (Nat.lt_ge_cases k (length l)) as [H|H].
  - rewrite nth_error_app1 by (rewrite rev_length; exact H). rewrite IH by exact H. cbn [length].
    replace (S (length l) - 1 - k)%nat with (S (length l - 1 - k)) by lia. reflexivity.
  - rewrite nth_error_app2 by (rewrite rev_length; exact H). rewrite rev_length. replace k with (length l) by lia.
    cbn [length]. replace (S (length l) - 1 - length l)%nat with 0%nat by lia. rewrite Nat.sub_diag. reflexivity.
Qed.

Lemma document_bounds inflate f d : ParsePDFDocument inflate f = Ok d ->
  forall k r, nth_error (dRevisions d) k = Some r ->
  prefixb (bs "%%EOF") (skipn (rvEOF r) f) = true /\ ends_after_marker f (rvEOF r) (firstn (rvEnd r) f) /\
  forall n o, DGetObjectInRevision d n (Z.of_nat k + 1) = Some o -> roOffset o < Z.of_nat (rvEOF r) /\
    match k with
    | O => Z.of_nat (header_len f) <= roOffset o
    | S j => forall r', nth_error (dRevisions d) j = Some r' -> (rvEOF r' < rvEOF r)%nat /\ Z.of_nat (rvEnd r') <= roOffset o
    end.
Proof.
  unfold ParsePDFDocument. destruct (_ || _); [discriminate|]. destruct (FindAllEOFMarkers f) as [|e es] eqn:Ee; [discriminate|].
  destruct (parse_revisions inflate f 1 (e :: es) []) as [rs| |] eqn:E; try discriminate. cbn [rbind].
  rewrite eof_positions in Ee.
  assert (bounds_chain f (rev rs)) as Hb.
  { eapply parse_revisions_bounds; [| | | | | |exact E].
    - lia.
    - congruence.
    - rewrite <- Ee. apply positions_sorted.
    - rewrite Ee. tauto.
    - intros r x [].
    - exact I. }
  destruct rs as [|r0 rs]; [discriminate|]. intros H; injection H as <-. cbn [dRevisions]. intros k r Hk.
  assert (k < length (r0 :: rs))%nat as Hl by (apply nth_error_Some; congruence).
  set (l := r0 :: rs) in *.
  assert (nth_error (rev l) (length l - 1 - k) = Some r) as Hr.
  { rewrite nth_error_rev by lia. replace (length l - 1 - (length l - 1 - k))%nat with k by lia. exact Hk. }
  destruct (bounds_chain_nth f _ _ _ Hb Hr) as [(B1 & B2 & B3) B4].
  split; [apply positions_of_in; [discriminate|exact B1]|]. split; [rewrite B2; apply marker_end; exact B1|].
  intros n o. unfold DGetObjectInRevision. cbn [dRevisions].
  replace ((Z.of_nat k + 1 <? 1) || (Z.of_nat (length l) <? Z.of_nat k + 1)) with false by lia.
  replace (Z.to_nat (Z.of_nat k + 1 - 1)) with k by lia. rewrite Hk. intros Ho. specialize (B3 n o Ho). split; [lia|].
  destruct k as [|j].
  - assert (nth_error (rev l) (S (length l - 1 - 0)) = None) as Hn by (apply nth_error_None; rewrite rev_length; lia).
    rewrite Hn in B3. lia.
  - intros r' Hr'.
    assert (nth_error (rev l) (S (length l - 1 - S j)) = Some r') as Hn.
    { rewrite nth_error_rev by lia. replace (length l - 1 - S (length l - 1 - S j))%nat with j by lia. exact Hr'. }
    rewrite Hn in B3. split; [apply B4; exact Hn|lia].
Qed.

Lemma header_lines f v e rest : f = bs "%PDF-" ++ v ++ e ++ rest -> (length v <= 15)%nat ->
  (forall b, In b v -> is_eol b = false) -> e <> [] -> (forall b, In b e -> is_eol b = true) ->
  match rest with [] => True | c :: _ => is_eol c = false end ->
  (length (bs "%PDF-" ++ v ++ e) <= header_len f)%nat /\
  (match rest with [] => True | c :: _ => c <> "%"%byte end -> header_len f = length (bs "%PDF-" ++ v ++ e)) /\
  (forall c e2 rest2, rest = bs "%" ++ c ++ e2 ++ rest2 -> (forall b, In b c -> is_eol b = false) -> e2 <> [] ->
     (forall b, In b e2 -> is_eol b = true) -> match rest2 with [] => True | c :: _ => is_eol c = false end ->
     header_len f = length (bs "%PDF-" ++ v ++ e ++ bs "%" ++ c ++ e2)).
Proof.
  intros -> Hv Hve He Hee Hr.
  assert (forall p (a : bytes) r, (forall b, In b a -> p b = true) -> match r with [] => True | c :: _ => p c = false end -> take_while p (a ++ r) = a) as TW.
  { intros p a r Ha Hrr. induction a as [|b a IH]; cbn [app].
    - destruct r; [reflexivity|]. cbn [take_while]. rewrite Hrr. reflexivity.
    - cbn [take_while]. rewrite (Ha b (or_introl eq_refl)). f_equal. apply IH. intros; apply Ha; right; assumption. }
  set (f := bs "%PDF-" ++ v ++ e ++ rest).
  assert (exists e1, sub 5 20 f = v ++ e1 /\ match e1 with [] => True | c :: _ => is_eol c = true end) as (e1 & E1 & He1).
  { exists (firstn (15 - length v) (e ++ rest)). split.
    - unfold sub, f. change (skipn 5 (bs "%PDF-" ++ v ++ e ++ rest)) with (v ++ e ++ rest). rewrite firstn_app. f_equal.
      apply firstn_all2. lia.
    - destruct e as [|c e]; [congruence|]. destruct (15 - length v)%nat; [exact I|]. cbn [app firstn]. apply Hee. left; reflexivity. }
  unfold header_len. rewrite E1.
  rewrite (TW _ v e1); [|intros b Hb; rewrite Hve by exact Hb; reflexivity|destruct e1; [exact I|rewrite He1; reflexivity]].
  assert (skip_eol f (5 + length v) = length (bs "%PDF-" ++ v ++ e)) as ->.
  { unfold skip_eol. replace (skipn (5 + length v) f) with (e ++ rest).
    - rewrite TW by assumption. rewrite !app_length. change (length (bs "%PDF-")) with 5%nat. lia.
    - symmetry. unfold f. rewrite app_assoc. apply skipn_len_app. rewrite app_length. reflexivity. }
  set (h := length (bs "%PDF-" ++ v ++ e)).
  assert (skipn h f = rest) as Hs.
  { unfold f. replace (bs "%PDF-" ++ v ++ e ++ rest) with ((bs "%PDF-" ++ v ++ e) ++ rest) by (rewrite <- !app_assoc; reflexivity). apply skipn_len_app. reflexivity. }
  assert (nth_error f h = hd_error rest) as Hn.
  { rewrite <- (firstn_skipn h f), Hs. rewrite nth_error_app2 by (rewrite firstn_length; lia).
    replace (h - length (firstn h f))%nat with 0%nat; [destruct rest; reflexivity|].
    rewrite firstn_length. unfold f, h. rewrite !app_length. lia. }
  cbv zeta. rewrite Hn, Hs. split; [|split].
  - destruct rest as [|c rest]; [cbn [hd_error]; lia|]. cbn [hd_error]. destruct (beqb c "%"); [|lia]. unfold skip_eol. lia.
  - intros Hc. destruct rest as [|c rest]; [reflexivity|]. cbn [hd_error]. rewrite beqb_false by exact Hc. reflexivity.
  - intros c e2 rest2 -> Hc He2 Hee2 Hr2. change (hd_error (bs "%" ++ c ++ e2 ++ rest2)) with (Some "%"%byte).
    cbv iota beta. rewrite beqb_refl.
    assert (take_while (fun b => negb (is_eol b)) (bs "%" ++ c ++ e2 ++ rest2) = bs "%" ++ c) as ->.
    { rewrite app_assoc. apply TW.
      - intros b Hb. apply in_app_or in Hb. destruct Hb as [[<-|[]]|Hb]; [reflexivity|rewrite Hc by exact Hb; reflexivity].
      - destruct e2 as [|x e2]; [congruence|]. cbn [app]. rewrite Hee2 by (left; reflexivity). reflexivity. }
    unfold skip_eol. replace (skipn (h + length (bs "%" ++ c)) f) with (e2 ++ rest2).
    + rewrite TW by assumption. unfold h, bytes in *. rewrite !app_length. lia.
    + symmetry. rewrite Nat.add_comm, <- skipn_skipn, Hs.
      replace (bs "%" ++ c ++ e2 ++ rest2) with ((bs "%" ++ c) ++ e2 ++ rest2) by (rewrite <- !app_assoc; reflexivity).
      apply skipn_len_app. reflexivity.
Qed.

Lemma open_chain_text inflate crypt f a x c : f = (a ++ nl) ++ startxref_text x -> 0 <= x < 2 ^ 63 ->
  contains (bs "startxref") (skipn (length a - 100) a) = false -> table_chain f x c -> contains (bs "/Encrypt") f = false ->
  exists p, Open inflate crypt f = Ok p /\
    (forall n, chain_says c n = None -> PGetObject inflate p n = Err /\ PHasObject p n = false) /\
    (forall n g t pre post, chain_says c n = Some (flen pre) -> f = pre ++ gen_object n g t ++ post ->
       0 <= n < 2 ^ 63 -> 0 <= g < 2 ^ 63 -> readable t ->
       PGetObject inflate p n = Ok (gen_object n g t) /\ PHasObject p n = true) /\
    (forall subs d older, c = (x, subs, d) :: older ->
       (forall n g, 0 <= n -> 0 <= g -> states (bs "/Root") (reference n g) d -> pRoot p = reference n g) /\
       (forall k, 0 <= k < 2 ^ 63 -> states (bs "/Size") (decZ k) d -> pSize p = k)).
Proof.
  intros Ef Hx Ha Hc He. apply open_chain_objects; [|exact Hc| |exact He].
  - rewrite Ef. apply last_startxref_window; assumption.
  - rewrite Ef, startxref_text_split. unfold flen, sx_line. rewrite !app_length.
    change (length (bs "startxref")) with 9%nat. lia.
Qed.
Lemma plain_balanced d : forallb (fun b => negb (beqb b "<") && negb (beqb b ">")) d = true -> balanced d.
Proof.
  induction d as [|c d IH]; intros H; [constructor|]. cbn [forallb] in H. apply andb_true_iff in H. destruct H as [H1 H2].
  apply andb_true_iff in H1. destruct H1 as [Ha Hb]. constructor; [| |apply IH; exact H2]; intros ->; discriminate.
Qed.
