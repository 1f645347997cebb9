(** Proofs about filling forms whose fields are in object streams. *)
From Verif Require Import Util Scan WriterModel ParseModel ManipModel TextModel FormsModel FormsSpec WriterSpec ParseSpec ParseProofs WriterProofs XrefProofs FormsProofs FormsProofs4 ReadProofs FillSpec.
Local Open Scope Z_scope.

Lemma skip_eol2_nl a c t : beqb c x0a = false -> skip_eol2 (a ++ nl ++ c :: t) (length a) = S (length a).
Proof.
  intros Hc. unfold skip_eol2.
  assert (nth_error (a ++ nl ++ c :: t) (length a) = Some x0a) as H.
  { rewrite nth_error_app2 by apply Nat.le_refl. rewrite Nat.sub_diag. reflexivity. }
  rewrite H. change (beqb x0a x0d || beqb x0a x0a) with true. cbv iota.
  assert (nth_error (a ++ nl ++ c :: t) (S (length a)) = Some c) as H2.
  { rewrite nth_error_app2 by lia. replace (S (length a) - length a)%nat with 1%nat by lia. reflexivity. }
  rewrite H2, Hc. reflexivity.
Qed.

Section Stream.
Variables (sn count first : Z) (raw : bytes).
Let hd := decZ sn ++ bs " 0 obj" ++ nl.
Let dict := bs "<</Type /ObjStm /N " ++ decZ count ++ bs " /First " ++ decZ first ++ bs " /Length " ++ decZ (flen raw).
Hypothesis (Hs : 0 <= sn) (Hc : 0 <= count < 2 ^ 63) (Hfi : 0 <= first < 2 ^ 63) (Hr : flen raw < 2 ^ 63).

Lemma split_object post : objstm_object sn count first raw ++ post =
  hd ++ dict ++ bs ">>" ++ nl ++ bs "stream" ++ nl ++ raw ++ nl ++ bs "endstream" ++ nl ++ bs "endobj" ++ nl ++ post.
Proof. unfold objstm_object, hd, dict. repeat rewrite <- app_assoc. reflexivity. Qed.

Lemma dict_nostart c q : is_digit c = false ->
  nostartb (c :: q) (bs "<</Type /ObjStm /N ") = true -> nostartb (c :: q) (bs " /First ") = true ->
  nostartb (c :: q) (bs " /Length ") = true -> nostart (c :: q) dict.
Proof.
  intros Hcd H1 H2 H3. unfold dict. assert (0 <= flen raw) by (unfold flen; lia).
  repeat apply nostart_app; try (apply nostartb_ok; assumption); apply nostart_decZ; try exact Hcd; lia.
Qed.
Lemma hd_nostart c q : is_digit c = false -> nostartb (c :: q) (bs " 0 obj" ++ nl) = true -> nostart (c :: q) hd.
Proof. intros H1 H2. unfold hd. apply nostart_app; [apply nostart_decZ; assumption|apply nostartb_ok; exact H2]. Qed.

Lemma dict_values :
  dict_int (bs "/N") (dict ++ bs ">>") = Some count /\
  dict_int (bs "/First") (dict ++ bs ">>") = Some first /\
  dict_int (bs "/Length") (dict ++ bs ">>") = Some (flen raw).
Proof.
  assert (0 <= flen raw) as Hr0 by (unfold flen; lia).
  unfold dict_int, search, dict.
  repeat split.
  - change (bs "<</Type /ObjStm /N ") with (bs "<</Type /ObjStm " ++ bs "/N" ++ bs " ").
    repeat rewrite <- app_assoc. erewrite find_at; [cbn [option_map snd obind]; apply atoi_decZ; lia| |].
    + apply (nostart_nofire _ (bs "/N")); [apply m_key_lit|]. apply nostartb_ok; reflexivity.
    + apply m_key_here; [apply decZ_nonnil; lia|apply decZ_digits; lia|reflexivity].
  - change (bs " /First ") with (bs " " ++ bs "/First" ++ bs " ").
    replace ((bs "<</Type /ObjStm /N " ++ decZ count ++ (bs " " ++ bs "/First" ++ bs " ") ++ decZ first ++ bs " /Length " ++ decZ (flen raw)) ++ bs ">>")
      with ((bs "<</Type /ObjStm /N " ++ decZ count ++ bs " ") ++ bs "/First" ++ bs " " ++ decZ first ++ bs " /Length " ++ decZ (flen raw) ++ bs ">>")
      by (repeat rewrite <- app_assoc; reflexivity).
    erewrite find_at; [cbn [option_map snd obind]; apply atoi_decZ; lia| |].
    + apply (nostart_nofire _ (bs "/First")); [apply m_key_lit|].
      repeat apply nostart_app; try (apply nostartb_ok; reflexivity); apply nostart_decZ; try reflexivity; lia.
    + apply m_key_here; [apply decZ_nonnil; lia|apply decZ_digits; lia|reflexivity].
  - change (bs " /Length ") with (bs " " ++ bs "/Length" ++ bs " ").
    replace ((bs "<</Type /ObjStm /N " ++ decZ count ++ bs " /First " ++ decZ first ++ (bs " " ++ bs "/Length" ++ bs " ") ++ decZ (flen raw)) ++ bs ">>")
      with ((bs "<</Type /ObjStm /N " ++ decZ count ++ bs " /First " ++ decZ first ++ bs " ") ++ bs "/Length" ++ bs " " ++ decZ (flen raw) ++ bs ">>")
      by (repeat rewrite <- app_assoc; reflexivity).
    erewrite find_at; [cbn [option_map snd obind]; apply atoi_decZ; lia| |].
    + apply (nostart_nofire _ (bs "/Length")); [apply m_key_lit|].
      repeat apply nostart_app; try (apply nostartb_ok; reflexivity); apply nostart_decZ; try reflexivity; lia.
    + apply m_key_here; [apply decZ_nonnil; lia|apply decZ_digits; lia|reflexivity].
Qed.

Lemma parsed_stream inflate c raw' data t : raw = c :: raw' -> beqb c x0a = false ->
  inflate raw = Some data -> t ++ nl = objstm_object sn count first raw ->
  parseObjectStream inflate None t = Ok (mkObjStm (Some count) (Some first) data).
Proof.
  intros Eraw Hc0 Hi Et.
  assert (t = hd ++ dict ++ bs ">>" ++ nl ++ bs "stream" ++ nl ++ raw ++ nl ++ bs "endstream" ++ nl ++ bs "endobj") as ->.
  { apply (app_inv_tail nl). rewrite Et, <- (app_nil_r (objstm_object _ _ _ _)), split_object. repeat rewrite <- app_assoc. reflexivity. }
  set (tl := nl ++ bs "endstream" ++ nl ++ bs "endobj").
  unfold parseObjectStream.
  assert (index (bs "<<") (hd ++ dict ++ bs ">>" ++ nl ++ bs "stream" ++ nl ++ raw ++ tl) = Some (length hd)) as ->.
  { assert (exists D, dict = bs "<<" ++ D) as [D ->] by (unfold dict; eexists; reflexivity).
    rewrite <- app_assoc. apply index_at. apply hd_nostart; reflexivity. }
  rewrite skipn_app_exact.
  assert (index (bs ">>") (dict ++ bs ">>" ++ nl ++ bs "stream" ++ nl ++ raw ++ tl) = Some (length dict)) as ->.
  { apply index_at. apply dict_nostart; reflexivity. }
  assert (sub (length hd) (length hd + length dict + 2) (hd ++ dict ++ bs ">>" ++ nl ++ bs "stream" ++ nl ++ raw ++ tl) = dict ++ bs ">>") as ->.
  { unfold sub. rewrite skipn_app_exact. rewrite app_assoc.
    replace (length hd + length dict + 2 - length hd)%nat with (length (dict ++ bs ">>"))
      by (rewrite app_length; change (length (bs ">>")) with 2%nat; lia).
    apply firstn_len_app. reflexivity. }
  set (a := hd ++ dict ++ bs ">>" ++ nl ++ bs "stream").
  assert (length a = (length hd + length dict + 9)%nat) as La.
  { unfold a. rewrite !app_length. change (length (bs ">>")) with 2%nat. change (length nl) with 1%nat.
    change (length (bs "stream")) with 6%nat. lia. }
  assert (skipn (length hd + length dict + 2) (hd ++ dict ++ bs ">>" ++ nl ++ bs "stream" ++ nl ++ raw ++ tl) =
          nl ++ bs "stream" ++ nl ++ raw ++ tl) as ->.
  { replace (hd ++ dict ++ bs ">>" ++ nl ++ bs "stream" ++ nl ++ raw ++ tl)
      with ((hd ++ dict ++ bs ">>") ++ nl ++ bs "stream" ++ nl ++ raw ++ tl) by (repeat rewrite <- app_assoc; reflexivity).
    apply skipn_len_app. rewrite !app_length. change (length (bs ">>")) with 2%nat. lia. }
  assert (index (bs "stream") (nl ++ bs "stream" ++ nl ++ raw ++ tl) = Some 1%nat) as ->.
  { apply (index_at (bs "stream") nl). apply nostartb_ok. reflexivity. }
  replace (length hd + length dict + 2 + 1 + 6)%nat with (length a) by lia.
  replace (hd ++ dict ++ bs ">>" ++ nl ++ bs "stream" ++ nl ++ raw ++ tl) with (a ++ nl ++ raw ++ tl)
    by (unfold a; repeat rewrite <- app_assoc; reflexivity).
  assert (skip_eol2 (a ++ nl ++ raw ++ tl) (length a) = S (length a)) as ->.
  { rewrite Eraw. cbn [app]. exact (skip_eol2_nl a c (raw' ++ tl) Hc0). }
  destruct dict_values as (D1 & D2 & D3). rewrite D1, D2, D3. cbv iota beta zeta.
  replace (flen (a ++ nl ++ raw ++ tl) <? Z.of_nat (S (length a)) + flen raw) with false.
  2:{ symmetry. apply Z.ltb_ge. unfold flen. rewrite !app_length. change (length nl) with 1%nat. lia. }
  assert (sub (S (length a)) (S (length a) + Z.to_nat (flen raw)) (a ++ nl ++ raw ++ tl) = raw) as ->.
  { unfold sub. replace (S (length a) + Z.to_nat (flen raw) - S (length a))%nat with (length raw) by (unfold flen; lia).
    replace (a ++ nl ++ raw ++ tl) with ((a ++ nl) ++ raw ++ tl) by (repeat rewrite <- app_assoc; reflexivity).
    rewrite skipn_len_app by (rewrite app_length; change (length nl) with 1%nat; lia).
    apply firstn_len_app. reflexivity. }
  cbn [rbind]. rewrite Hi. reflexivity.
Qed.
End Stream.

Lemma raw_nostart raw : contains (bs "endstream") raw = false -> nostart (bs "endstream") (raw ++ nl).
Proof. intros H. apply nostart_sep; [exact H|cbn; intuition discriminate|discriminate]. Qed.

Lemma rebuild_stream inflate deflate f pre post sn objs raw t ups c raw' :
  f = pre ++ objstm_object sn (Z.of_nat (length objs)) (conforming_first objs) raw ++ post ->
  (forall j, (j < length pre)%nat -> m_num0obj sn (skipn j f) = None) ->
  GetObject inflate None f sn = Ok t -> t ++ nl = objstm_object sn (Z.of_nat (length objs)) (conforming_first objs) raw ->
  raw = c :: raw' -> beqb c x0a = false -> contains (bs "endstream") raw = false ->
  inflate raw = Some (conforming_objstm objs) ->
  0 <= sn -> flen raw < 2 ^ 63 -> Forall (fun o => tidy (snd o)) objs -> NoDup (map fst objs) ->
  (forall o, In o objs -> 0 <= fst o < 2 ^ 63) -> flen (conforming_objstm objs) < 2 ^ 63 ->
  RebuildObjectStream inflate deflate None f sn ups =
  Ok (pre ++ rebuilt_object sn (Z.of_nat (length objs)) (flen (objstm_index 0 (updated ups objs)))
               (deflate (objstm_body (updated ups objs))) ++ bs "
endobj
" ++ post).
Proof.
  intros Hf Hno Hg Et Eraw Hc0 Hne Hi Hs Hr Ht Hnd Hn Hl.
  assert (Z.of_nat (length objs) < 2 ^ 63) as Hcount.
  { enough (length objs <= length (conforming_objstm objs))%nat by (unfold flen in Hl; lia).
    clear. unfold conforming_objstm. rewrite app_length. enough (length objs <= length (objstm_body objs))%nat by lia.
    unfold objstm_body. induction objs as [|[n d] objs IH]; [cbn; lia|]. cbn [flat_map snd length]. rewrite !app_length.
    cbn [length]. lia. }
  assert (0 <= conforming_first objs < 2 ^ 63) as Hfi.
  { unfold conforming_first. unfold conforming_objstm, flen in *. rewrite app_length in Hl. lia. }
  unfold RebuildObjectStream. rewrite Hg. cbn [rbind].
  assert (find (m_num0obj sn) f = Some (length pre, tt)) as ->.
  { rewrite Hf in *. rewrite Util.find_app by exact Hno. unfold objstm_object. repeat rewrite <- app_assoc.
    rewrite (find_at0 _ _ tt); [f_equal; f_equal; lia|].
    unfold m_num0obj. rewrite lit_app. reflexivity. }
  rewrite (parsed_stream sn (Z.of_nat (length objs)) (conforming_first objs) raw Hs ltac:(lia) Hfi Hr inflate c raw' _ t Eraw Hc0 Hi Et).
  cbn [rbind]. rewrite rebuild_content by assumption. cbn [rbind fst snd osN def].
  rewrite Hf, skipn_app_exact.
  rewrite split_object.
  set (hd := decZ sn ++ bs " 0 obj" ++ nl).
  set (dict := bs "<</Type /ObjStm /N " ++ _).
  set (tl := nl ++ bs "endobj" ++ nl ++ post).
  set (a := hd ++ dict ++ bs ">>" ++ nl).
  replace (hd ++ dict ++ bs ">>" ++ nl ++ bs "stream" ++ nl ++ raw ++ nl ++ bs "endstream" ++ tl)
    with (a ++ bs "stream" ++ nl ++ raw ++ nl ++ bs "endstream" ++ tl) by (unfold a; repeat rewrite <- app_assoc; reflexivity).
  rewrite index_at.
  2:{ unfold a. apply nostart_app; [|apply nostart_app; [|apply nostartb_ok; reflexivity]].
      - apply (hd_nostart sn Hs "s"%byte (bs "tream")); reflexivity.
      - apply (dict_nostart (Z.of_nat (length objs)) (conforming_first objs) raw ltac:(lia) Hfi "s"%byte (bs "tream")); reflexivity. }
  replace (skipn (length pre + length a) (pre ++ a ++ bs "stream" ++ nl ++ raw ++ nl ++ bs "endstream" ++ tl))
    with ((bs "stream" ++ nl ++ raw ++ nl) ++ bs "endstream" ++ tl).
  2:{ symmetry. rewrite (app_assoc pre a). rewrite skipn_len_app by (rewrite app_length; reflexivity).
      repeat rewrite <- app_assoc. reflexivity. }
  rewrite index_at.
  2:{ replace (bs "stream" ++ nl ++ raw ++ nl) with ((bs "stream" ++ nl) ++ raw ++ nl) by (repeat rewrite <- app_assoc; reflexivity).
      apply nostart_app; [apply nostartb_ok; reflexivity|apply raw_nostart; exact Hne]. }
  f_equal. rewrite firstn_len_app by reflexivity. f_equal.
  assert (skipn (length pre + length a + length (bs "stream" ++ nl ++ raw ++ nl) + 9)
            (pre ++ a ++ bs "stream" ++ nl ++ raw ++ nl ++ bs "endstream" ++ tl) = tl) as ->.
  { replace (pre ++ a ++ bs "stream" ++ nl ++ raw ++ nl ++ bs "endstream" ++ tl)
      with ((pre ++ a ++ (bs "stream" ++ nl ++ raw ++ nl) ++ bs "endstream") ++ tl) by (repeat rewrite <- app_assoc; reflexivity).
    apply skipn_len_app. rewrite (app_length pre), (app_length a), (app_length (_ ++ _)).
    change (length (bs "endstream")) with 9%nat. lia. }
  unfold rebuilt_object, formatStreamDict, tl. repeat rewrite <- app_assoc. reflexivity.
Qed.

(* ---------------- the end of the file ---------------- *)
Lemma end_found body x : 0 <= x < 2 ^ 63 -> contains (bs "startxref") body = false ->
  findStartXRef (body ++ nl ++ file_end x) = Some x.
Proof.
  intros Hx Hb. unfold findStartXRef, search.
  assert (length (decZ x) <= 19)%nat as Hd by (apply decZ_length63; exact Hx).
  set (k := (length (body ++ nl ++ file_end x) - 1024)%nat).
  assert (skipn k (body ++ nl ++ file_end x) = skipn k (body ++ nl) ++ file_end x) as ->.
  { rewrite (app_assoc body). rewrite skipn_app. f_equal.
    replace (k - length (body ++ nl))%nat with 0%nat; [reflexivity|].
    unfold k, file_end. rewrite !app_length.
    change (length (bs "startxref
")) with 10%nat. change (length (bs "
%%EOF
")) with 7%nat. change (length nl) with 1%nat. lia. }
  assert (nostart (bs "startxref") (skipn k (body ++ nl))) as Hn.
  { apply nostart_skipn. apply nostart_sep; [exact Hb|cbn; intuition discriminate|discriminate]. }
  rewrite (find_at _ _ _ (decZ x)).
  - cbn [option_map snd obind]. apply atoi_decZ. lia.
  - apply (nostart_nofire _ (bs "startxref")); [apply m_startxref_lit|exact Hn].
  - assert (file_end x = sx_line x ++ bs "%%EOF
") as -> by (unfold file_end, sx_line; repeat rewrite <- app_assoc; reflexivity).
    apply m_startxref_here. lia.
Qed.

(* ---------------- collecting the updates ---------------- *)
Lemma keys_one (s : Z) (l : list Z) : l <> [] -> (forall k, In k l -> k = s) -> nodup Z.eq_dec l = [s].
Proof.
  induction l as [|a l IH]; intros Hn Hk; [congruence|]. cbn [nodup].
  pose proof (Hk a (or_introl eq_refl)) as Ea. subst a.
  destruct (in_dec Z.eq_dec s l) as [H|H].
  - apply IH; [destruct l; [destruct H|discriminate]|]. intros k Hi. apply Hk. right. exact Hi.
  - destruct l as [|b l]; [reflexivity|]. exfalso. apply H. left. apply Hk. right. left. reflexivity.
Qed.
Section Collect.
Variables (inflate : bytes -> option bytes) (p : pdf) (dec : option decryptor) (f : bytes) (form : list field).
Variables (x : Z) (m : zmap Z) (comp : zmap (Z * Z)) (s : Z).
Hypothesis (Hx : findStartXRef f = Some x) (Hc : ParseXRefStreamFull inflate f x = Ok (m, comp)) (Hs : 0 < s).

Lemma one_update (b : bytes) (ups : zmap (zmap bytes)) e u : sets inflate p form comp s e u ->
  fill_entry inflate p dec f form (b, ups) e = Ok (b, add_update s (fst u) (snd u) ups).
Proof.
  intros (a & kids & parent & t & i & Hf & Hn & Hg & Hh & Hu & Hi).
  unfold fill_entry. rewrite Hf. cbn [fst snd f_attrs]. rewrite Hn, Hg.
  unfold in_stream. rewrite Hh. cbn [negb]. rewrite Hu.
  unfold findStreamForObject. rewrite Hx, Hc, Hi. apply Z.ltb_lt in Hs. rewrite Hs. reflexivity.
Qed.

Lemma collected data us : Forall2 (sets inflate p form comp s) data us -> forall (b : bytes) (ups : zmap (zmap bytes)), us <> [] ->
  (forall k, In k (map fst ups) -> k = s) ->
  exists ups', fill_entries inflate p dec f form (b, ups) data = Ok (b, ups') /\
    mget s ups' = Some (rev us ++ def [] (mget s ups)) /\ mkeys ups' = (s :: nil).
Proof.
  induction 1 as [|e u data us He Hr IH]; intros b ups Hne Hk; [congruence|].
  cbn [fill_entries]. rewrite (one_update b ups e u He). cbn [rbind]. unfold add_update, mset.
  set (ups1 := ((s, (fst u, snd u) :: def [] (mget s ups)) :: ups) : zmap (zmap bytes)).
  assert (mget s ups1 = Some (u :: def [] (mget s ups))) as Hg.
  { unfold ups1. cbn [mget]. rewrite Z.eqb_refl. destruct u; reflexivity. }
  assert (forall k, In k (map fst ups1) -> k = s) as Hk1 by (intros k [<-|H]; [reflexivity|exact (Hk k H)]).
  destruct us as [|u2 us].
  - inversion Hr; subst data. cbn [fill_entries]. exists ups1. split; [reflexivity|]. split; [exact Hg|].
    unfold mkeys. apply keys_one; [discriminate|exact Hk1].
  - destruct (IH b ups1 ltac:(discriminate) Hk1) as (ups' & E & G & K). exists ups'. split; [exact E|]. split; [|exact K].
    rewrite G, Hg. cbn [def]. change (rev (u :: u2 :: us)) with (rev (u2 :: us) ++ [u]). rewrite <- app_assoc. reflexivity.
Qed.
End Collect.

(* ---------------- FillFormFields ---------------- *)
Lemma fill_stream_fields stack inflate deflate crypt crypt0 order f p form pre post sn objs raw t c raw' body x m comp data us :
  Open inflate crypt f = Ok p -> pDec p = None -> ParseAcroForm stack inflate crypt0 None f = Ok form ->
  f = body ++ nl ++ file_end x -> contains (bs "startxref") body = false -> 0 <= x < 2 ^ 63 ->
  ParseXRefStreamFull inflate f x = Ok (m, comp) ->
  Forall2 (sets inflate p (fmFields form) comp sn) data us -> us <> [] -> is_order order ->
  f = pre ++ objstm_object sn (Z.of_nat (length objs)) (conforming_first objs) raw ++ post ->
  (forall j, (j < length pre)%nat -> m_num0obj sn (skipn j f) = None) ->
  GetObject inflate None f sn = Ok t -> t ++ nl = objstm_object sn (Z.of_nat (length objs)) (conforming_first objs) raw ->
  raw = c :: raw' -> beqb c x0a = false -> contains (bs "endstream") raw = false ->
  inflate raw = Some (conforming_objstm objs) ->
  0 < sn -> flen raw < 2 ^ 63 -> Forall (fun o => tidy (snd o)) objs -> NoDup (map fst objs) ->
  (forall o, In o objs -> 0 <= fst o < 2 ^ 63) -> flen (conforming_objstm objs) < 2 ^ 63 ->
  FillFormFields stack inflate deflate crypt crypt0 order f data =
  Ok (pre ++ rebuilt_object sn (Z.of_nat (length objs)) (flen (objstm_index 0 (updated (rev us) objs)))
               (deflate (objstm_body (updated (rev us) objs))) ++ bs "
endobj
" ++ post).
Proof.
  intros Ho Hd Ha Ef Hb Hx Hxs Hsets Hne Hord Hf Hno Hg Et Eraw Hc0 Hne2 Hi Hs Hr Ht Hnd Hn Hl.
  unfold FillFormFields. rewrite Ho. cbn [rbind]. rewrite Hd, Ha. cbn [rbind].
  assert (findStartXRef f = Some x) as Hfx by (rewrite Ef; apply end_found; assumption).
  destruct (collected inflate p None f (fmFields form) x m comp sn Hfx Hxs Hs data us Hsets f [] Hne) as (ups & E & G & K).
  { intros k []. }
  match goal with |- context [fill_entries ?i ?p ?d ?f ?fs ?st ?da] =>
    replace (fill_entries i p d f fs st da) with (Ok (f, ups)) by (symmetry; exact E) end.
  cbn [rbind fst snd]. rewrite K.
  assert (order [sn] = [sn]) as -> by (apply Permutation_length_1_inv; apply Permutation_sym; apply Hord).
  cbn [rebuild_all]. rewrite G. cbn [def mget]. rewrite app_nil_r.
  rewrite (rebuild_stream inflate deflate f pre post sn objs raw t (rev us) c raw') by (assumption || lia).
  cbn [or_nil rbind].
  match goal with |- match ?b with _ => _ end = _ => destruct b eqn:E0; [exfalso|reflexivity] end.
  apply (f_equal (@length byte)) in E0. unfold rebuilt_object in E0. rewrite !app_length in E0.
  change (length (bs "
endobj
")) with 8%nat in E0. cbn [length] in E0. lia.
Qed.

(** Names the form does not have change nothing. *)
Lemma unknown_ignored inflate p dec f form data : forall st,
  fill_entries inflate p dec f form st data = fill_entries inflate p dec f form st (filter (known form) data).
Proof.
  induction data as [|e data IH]; intros st; [reflexivity|]. cbn [filter]. unfold known at 1.
  destruct (FindFieldByName form (fst e)) as [[fd par]|] eqn:E.
  - cbn [fill_entries]. destruct (fill_entry inflate p dec f form st e); cbn [rbind]; [apply IH|reflexivity..].
  - cbn [fill_entries]. unfold fill_entry. rewrite E. cbn [rbind]. apply IH.
Qed.
Lemma fill_unknown stack inflate deflate crypt crypt0 order f p form data :
  Open inflate crypt f = Ok p -> ParseAcroForm stack inflate crypt0 (pDec p) f = Ok form ->
  FillFormFields stack inflate deflate crypt crypt0 order f data =
  FillFormFields stack inflate deflate crypt crypt0 order f (filter (known (fmFields form)) data).
Proof.
  intros Ho Ha. unfold FillFormFields. rewrite Ho. cbn [rbind]. rewrite Ha. cbn [rbind].
  rewrite (unknown_ignored inflate p (pDec p) f (fmFields form) data). reflexivity.
Qed.
(** An empty document is never returned. *)
Lemma fill_nonempty stack inflate deflate crypt crypt0 order f data :
  FillFormFields stack inflate deflate crypt crypt0 order f data <> Ok [].
Proof.
  unfold FillFormFields. destruct (Open inflate crypt f); cbn [rbind]; try discriminate.
  destruct (ParseAcroForm _ _ _ _ _); cbn [rbind]; try discriminate.
  destruct (fill_entries _ _ _ _ _ _ _); cbn [rbind]; try discriminate.
  destruct (rebuild_all _ _ _ _ _ _) as [[|b l]| |]; cbn [rbind]; discriminate.
Qed.

(* ---------------- a field that is an object of its own ---------------- *)
Lemma header_seen n rest : 0 <= n < 2 ^ 63 -> in_stream n (decZ n ++ bs " 0 obj" ++ rest) = false.
Proof.
  intros Hn. unfold in_stream. apply negb_false_iff.
  assert (length (decZ n) <= 19)%nat as Hd by (apply decZ_length63; exact Hn).
  rewrite (app_assoc (decZ n)). rewrite firstn_app.
  rewrite firstn_all2 by (rewrite app_length; change (length (bs " 0 obj")) with 6%nat; lia).
  set (h := decZ n ++ bs " 0 obj"). unfold contains. rewrite index_here. reflexivity.
Qed.

Lemma fill_direct_field stack inflate deflate crypt crypt0 order f p form name v a kids parent rest pre body post old x y :
  Open inflate crypt f = Ok p -> ParseAcroForm stack inflate crypt0 (pDec p) f = Ok form -> is_order order ->
  FindFieldByName (fmFields form) name = Some (Field a kids, parent) ->
  PGetObject inflate p (aNum a) = Ok (decZ (aNum a) ++ bs " 0 obj" ++ rest) ->
  GetObject inflate (pDec p) f (aNum a) = Ok (x ++ bs "/V (" ++ old ++ bs ")" ++ y) ->
  0 <= aNum a < 2 ^ 63 -> 0 <= aGen a ->
  f = pre ++ (decZ (aNum a) ++ bs " " ++ decZ (aGen a) ++ bs " obj") ++ body ++ bs "endobj" ++ post ->
  (forall i, (i < length pre)%nat -> m_objhead (aNum a) (aGen a) (skipn i f) = None) ->
  contains (bs "endobj") body = false -> contains (bs "/V") x = false -> contains (bs "/V") y = false ->
  forallb (fun c => negb (beqb c ")")) old = true ->
  forallb (fun c => negb (beqb c "$")) (escapeFieldValue (formatFieldValue v (aFT a))) = true ->
  FillFormFields stack inflate deflate crypt crypt0 order f [(name, v)] =
  Ok (pre ++ (decZ (aNum a) ++ bs " " ++ decZ (aGen a) ++ bs " obj") ++ nl ++
      (x ++ bs "/V (" ++ escapeFieldValue (formatFieldValue v (aFT a)) ++ bs ")" ++ y) ++ bs "
endobj
" ++ post).
Proof.
  intros Ho Ha Hord Hf Hg1 Hg2 Hn Hgen Ef Hno Hb Hx Hy Hold Hv.
  unfold FillFormFields. rewrite Ho. cbn [rbind]. rewrite Ha. cbn [rbind fill_entries].
  unfold fill_entry. cbn [fst snd]. rewrite Hf. cbn [f_attrs]. rewrite Hg1, header_seen by exact Hn.
  rewrite (fill_field inflate (pDec p) f a _ pre body post old x y v Hg2) by (assumption || reflexivity || lia).
  cbn [or_nil rmap rbind fst snd].
  change (mkeys ([] : zmap (zmap bytes))) with ([] : list Z).
  assert (order [] = []) as -> by (apply Permutation_nil; apply Permutation_sym; apply Hord).
  cbn [rebuild_all rbind].
  match goal with |- match ?b with _ => _ end = _ => destruct b eqn:E0; [exfalso|reflexivity] end.
  apply (f_equal (@length byte)) in E0. rewrite !app_length in E0.
  change (length (bs "
endobj
")) with 8%nat in E0. cbn [length] in E0. lia.
Qed.

(** An object in a stream that holds no dictionary is skipped without an error. *)
Lemma fill_skipped inflate p dec f form st e a kids parent t :
  FindFieldByName form (fst e) = Some (Field a kids, parent) ->
  PGetObject inflate p (aNum a) = Ok t -> contains (decZ (aNum a) ++ bs " 0 obj") (firstn 50 t) = false ->
  contains (bs "/V") t = false -> contains (bs ">>") t = false ->
  fill_entry inflate p dec f form st e = Ok st.
Proof.
  intros Hf Hg Hh Hv Hd. unfold fill_entry. rewrite Hf. cbn [f_attrs]. rewrite Hg.
  unfold in_stream. rewrite Hh. cbn [negb]. unfold updateFieldContent.
  replace (find m_v t) with (@None (nat * bytes)).
  2:{ symmetry. apply (find_nolit m_v (bs "/V")); [|exact Hv]. intros s H. unfold m_v. rewrite (proj2 (lit_none _ _) H). reflexivity. }
  cbn [found]. replace (last_index (bs ">>") t) with (@None nat); [reflexivity|].
  destruct (last_index (bs ">>") t) as [i|] eqn:E; [exfalso|reflexivity].
  apply last_index_some in E. destruct E as (E1 & E2 & _).
  rewrite contains_false in Hd. specialize (Hd i). rewrite Hd in E1; [discriminate|lia].
Qed.
