(** Proofs about the readers the XFA code falls back on. *)
From Verif Require Import Util Scan WriterModel WriterProofs ParseModel ParseSpec ReadProofs XrefProofs XfaModel XfaSpec XfaProofs XfaProofs2 FallModel FallSpec.
From Verif Require Import ApprProofs.
From Verif Require XfaProofs3.
Local Open Scope Z_scope.

Lemma index_as_find p s : index p s = option_map fst (find (fun t => if prefixb p t then Some tt else None) s).
Proof.
  induction s as [|x s IH].
  - cbn [find index]. destruct (prefixb p []); reflexivity.
  - cbn [index find]. rewrite IH. destruct (prefixb p (x :: s)); [reflexivity|].
    destruct (find (fun t => if prefixb p t then Some tt else None) s) as [[i u]|]; reflexivity.
Qed.
Lemma index_first c p a b : ~ In c p -> contains (c :: p) a = false -> index (c :: p) (a ++ (c :: p) ++ b) = Some (length a).
Proof.
  intros Hc Ha. rewrite index_as_find.
  rewrite (find_first (fun t => if prefixb (c :: p) t then Some tt else None) c p a b tt); [reflexivity| |exact Hc|exact Ha|].
  - intros s ->. reflexivity.
  - rewrite prefixb_app. reflexivity.
Qed.

Lemma header_no_nl n : 0 <= n -> ~ In x0a (decZ n ++ bs " 0 obj") /\ ~ In x0d (decZ n ++ bs " 0 obj").
Proof.
  intros Hn. pose proof (decZ_digits n Hn) as D. rewrite forallb_forall in D.
  split; intros H; apply in_app_or in H; destruct H as [H|H];
    try (specialize (D _ H); discriminate D); repeat (destruct H as [H|H]; [discriminate H|]); exact H.
Qed.
(** The header's first place *)
Lemma header_at f n pre t post : 0 <= n -> placed f n pre t post -> index (object_header n) f = Some (length pre).
Proof.
  intros Hn (-> & Hl & Hc & _). unfold object_header. rewrite (app_assoc (decZ n)).
  destruct Hl as [->|(u & c & -> & Hcr)]; [cbn [app length]; apply index_here|].
  apply index_at. destruct (header_no_nl n Hn) as [N1 N2].
  assert (Cu : contains (decZ n ++ bs " 0 obj") u = false).
  { rewrite contains_false in *. intros j Hj. specialize (Hc j). rewrite app_length in Hc. cbn [length] in Hc. specialize (Hc ltac:(lia)).
    rewrite skipn_app_l in Hc by exact Hj. destruct (prefixb (decZ n ++ bs " 0 obj") (skipn j u)) eqn:E; [|reflexivity].
    apply prefixb_spec in E. destruct E as [v E]. rewrite E, <- app_assoc, prefixb_app in Hc. discriminate. }
  apply nostart_sep; [exact Cu|destruct Hcr as [->| ->]; assumption|]. destruct (decZ n); discriminate.
Qed.
Lemma line_start_at pre r : begins_line pre -> line_start (pre ++ r) (length pre) = length pre.
Proof.
  intros H. unfold line_start. rewrite firstn_app, firstn_all, Nat.sub_diag. cbn [firstn]. rewrite app_nil_r.
  destruct H as [->|(u & c & -> & Hc)]; [reflexivity|]. rewrite rev_app_distr. cbn [rev app take_while].
  replace (line_end c) with true by (destruct Hc as [->| ->]; reflexivity). cbn [negb length]. lia.
Qed.
Lemma prefixb_firstn p k (l : bytes) : prefixb p (firstn k l) = true -> prefixb p l = true.
Proof. intros H. apply prefixb_spec in H. destruct H as [u H]. apply prefixb_spec. exists (u ++ skipn k l). rewrite app_assoc, <- H, firstn_skipn. reflexivity. Qed.
Lemma prefixb_firstn2 p k (l : bytes) : prefixb p l = true -> (length p <= k)%nat -> prefixb p (firstn k l) = true.
Proof.
  intros H Hk. apply prefixb_spec in H. destruct H as [u ->]. rewrite firstn_app, firstn_all2 by lia. apply prefixb_app.
Qed.
Lemma bounds f n pre t post : 0 <= n < 2 ^ 63 -> placed f n pre t post ->
  findObjectBoundaries f (Z.of_nat (length pre)) n = Ok (length pre, (length pre + length (whole n t))%nat).
Proof.
  intros Hn Hp. pose proof (header_at f n pre t post (proj1 Hn) Hp) as Hi. destruct Hp as (Ef & Hl & Hc & He).
  assert (Ends : ends_at f (length pre) = Ok (length pre, (length pre + length (whole n t))%nat)).
  { unfold ends_at. replace (length f <? length pre)%nat with false by (symmetry; apply Nat.ltb_ge; rewrite Ef, app_length; lia).
    rewrite Ef. rewrite skipn_app_exact.
    replace (decZ n ++ bs " 0 obj" ++ t ++ bs "endobj" ++ post) with ((decZ n ++ bs " 0 obj" ++ t) ++ ("e"%byte :: bs "ndobj") ++ post)
      by (rewrite <- !app_assoc; reflexivity).
    match goal with |- context [index (bs "endobj") ?x] => change (index (bs "endobj") x) with (index ("e"%byte :: bs "ndobj") x) end.
    rewrite index_first.
    - f_equal. f_equal. unfold whole. rewrite !app_length. change (length (bs "endobj")) with 6%nat. lia.
    - intros E. repeat (destruct E as [E|E]; [discriminate|]). exact E.
    - change ("e"%byte :: bs "ndobj") with (bs "endobj").
      rewrite contains_nostart by (apply (nostart_decZ "e" (bs "ndobj")); [lia|reflexivity]).
      rewrite contains_nostart by (apply nostartb_ok; reflexivity). exact He. }
  assert (Ls : line_start f (length pre) = length pre) by (rewrite Ef; apply line_start_at, Hl).
  pose proof (proj1 (index_some _ _ _) Hi) as (P1 & P2 & P3).
  assert (Lh : (length (object_header n) <= 100)%nat).
  { unfold object_header. rewrite app_length. pose proof (decZ_length63 n Hn). change (length (bs " 0 obj")) with 6%nat. lia. }
  assert (Hlt : (length pre + length (object_header n) <= length f)%nat).
  { rewrite Ef. unfold object_header. rewrite !app_length. lia. }
  assert (H0 : (0 < length (object_header n))%nat) by (unfold object_header; rewrite app_length; change (length (bs " 0 obj")) with 6%nat; lia).
  unfold findObjectBoundaries.
  replace (0 <=? Z.of_nat (length pre)) with true by (symmetry; apply Z.leb_le; lia).
  replace (Z.of_nat (length pre) <? flen f) with true by (symmetry; apply Z.ltb_lt; unfold flen; lia). cbn [andb].
  unfold window. set (a := Z.max 0 (Z.of_nat (length pre) - 2000)). set (b := Z.min (flen f) (Z.of_nat (length pre) + 2000)).
  assert (Ha : 0 <= a <= Z.of_nat (length pre)) by (unfold a; lia).
  assert (Hb : Z.of_nat (length pre) + Z.of_nat (length (object_header n)) <= b) by (unfold b, flen; lia).
  replace (a <=? b) with true by (symmetry; apply Z.leb_le; lia). cbn [rbind fst snd].
  assert (Ia : index (object_header n) (firstn (Z.to_nat (b - a)) (skipn (Z.to_nat a) f)) = Some (length pre - Z.to_nat a)%nat).
  { apply index_some. rewrite skipn_firstn_comm. rewrite skipn_skipn. replace (length pre - Z.to_nat a + Z.to_nat a)%nat with (length pre) by lia.
    split; [apply prefixb_firstn2; [exact P1|lia]|]. split; [rewrite firstn_length, skipn_length; unfold b, flen in *; lia|].
    intros j Hj. rewrite skipn_firstn_comm, skipn_skipn.
    match goal with |- ?x = false => destruct x eqn:E; [|reflexivity] end. apply prefixb_firstn in E.
    rewrite P3 in E by lia. discriminate. }
  rewrite Ia. cbn [option_map]. replace (Z.to_nat a + (length pre - Z.to_nat a))%nat with (length pre) by lia. rewrite Ls. exact Ends.
Qed.
Lemma found_at inflate f n pre t post : 0 <= n -> placed f n pre t post -> FindObjectByNumber inflate f n = Ok (Z.of_nat (length pre)).
Proof. intros Hn H. unfold FindObjectByNumber. pose proof (header_at f n pre t post Hn H) as E. unfold object_header in E. rewrite E. reflexivity. Qed.
Lemma cut_whole f n pre t post : placed f n pre t post -> sub (length pre) (length pre + length (whole n t)) f = whole n t.
Proof.
  intros (-> & _). unfold sub. rewrite skipn_app_exact. replace (length pre + length (whole n t) - length pre)%nat with (length (whole n t)) by lia.
  replace (decZ n ++ bs " 0 obj" ++ t ++ bs "endobj" ++ post) with (whole n t ++ post) by (unfold whole; rewrite <- !app_assoc; reflexivity).
  rewrite firstn_app, firstn_all, Nat.sub_diag. cbn [firstn]. apply app_nil_r.
Qed.
Lemma form_found inflate f spare n t : 0 <= n < 2 ^ 63 -> stands f n t ->
  findAndDecryptAcroForm inflate None (f ++ spare) (length f) n = (Ok (whole n t), f ++ spare).
Proof.
  intros Hn (pre & post & Hp). unfold findAndDecryptAcroForm. rewrite firstn_app, firstn_all, Nat.sub_diag. cbn [firstn]. rewrite app_nil_r.
  rewrite (found_at inflate f n pre t post (proj1 Hn) Hp). cbn [rbind]. rewrite (bounds f n pre t post Hn Hp). cbn [rmap].
  rewrite (cut_whole f n pre t post Hp). reflexivity.
Qed.
Lemma plain_untouched inflate mem len n : snd (findAndDecryptAcroForm inflate None mem len n) = mem.
Proof.
  unfold findAndDecryptAcroForm. destruct (rbind _ _) as [[idx [s t]]| |]; reflexivity.
Qed.

Lemma obj_at n r : 0 <= n -> index (bs "obj") (decZ n ++ bs " 0 obj" ++ r) = Some (length (decZ n) + 3)%nat.
Proof.
  intros Hn. replace (decZ n ++ bs " 0 obj" ++ r) with ((decZ n ++ bs " 0 ") ++ bs "obj" ++ r) by (rewrite <- !app_assoc; reflexivity).
  rewrite index_at; [rewrite app_length; reflexivity|].
  apply nostart_app; [apply (nostart_decZ "o" (bs "bj")); [exact Hn|reflexivity]|apply nostartb_ok; reflexivity].
Qed.
Lemma gen_zero n r : 0 <= n -> extractGenerationNumber (decZ n ++ bs " 0 obj" ++ r) n = 0.
Proof.
  intros Hn. unfold extractGenerationNumber, header_numbers.
  rewrite (find_unfold (m_objnum n)). unfold m_objnum at 1. rewrite lit_here. cbn [obind].
  change (ws1 (bs " 0 obj" ++ r)) with (Some (bs "0 obj" ++ r)). cbn [obind].
  change (digits1 (bs "0 obj" ++ r)) with (Some (bs "0", bs " obj" ++ r)). cbn [obind].
  change (ws1 (bs " obj" ++ r)) with (Some (bs "obj" ++ r)). cbn [obind]. rewrite lit_here. cbn [obind]. reflexivity.
Qed.
Lemma blanks_at (a w d : bytes) : forallb is_blank w = true -> match d with [] => True | b :: _ => is_blank b = false end ->
  blanks_from (a ++ w ++ d) (length a) = (length a + length w)%nat.
Proof.
  intros Hw Hd. unfold blanks_from. rewrite skipn_app_exact. f_equal. f_equal. apply take_while_app; assumption.
Qed.
Lemma slice_mid (a b c : bytes) : slice (a ++ b ++ c) (length a) (length a + length b) = Ok b.
Proof.
  unfold slice. replace (length a <=? length a + length b)%nat with true by (symmetry; apply Nat.leb_le; lia).
  replace (length a + length b <=? length (a ++ b ++ c))%nat with true by (symmetry; apply Nat.leb_le; rewrite !app_length; lia).
  cbn [andb]. rewrite skipn_app_exact. replace (length a + length b - length a)%nat with (length b) by lia.
  rewrite firstn_app, firstn_all, Nat.sub_diag. cbn [firstn]. rewrite app_nil_r. reflexivity.
Qed.
Lemma append_in (a old r xs : bytes) : length xs = length old ->
  go_append (a ++ old ++ r, Shared (length a)) xs = (a ++ xs ++ r, Shared (length a + length xs)).
Proof.
  intros H. unfold go_append. replace (length a + length xs <=? length (a ++ old ++ r))%nat with true
    by (symmetry; apply Nat.leb_le; rewrite !app_length; lia).
  f_equal. unfold write_at. rewrite firstn_app, firstn_all, Nat.sub_diag. cbn [firstn]. rewrite app_nil_r.
  rewrite app_assoc with (l := a) (m := old). replace (length a + length xs)%nat with (length (a ++ old)) by (rewrite app_length; lia).
  rewrite skipn_app_exact. reflexivity.
Qed.
Lemma caller_changed inflate e f spare n pre w d post x :
  0 <= n < 2 ^ 63 -> placed f n pre (w ++ d) post -> forallb is_blank w = true ->
  match d with [] => False | b :: _ => is_blank b = false end ->
  contains (bs "stream") (whole n (w ++ d)) = false ->
  cpV e <> 4 -> cpV e <> 5 -> cpDecrypt e d n 0 = Ok x -> length x = length d ->
  findAndDecryptAcroForm inflate (Some e) (f ++ spare) (length f) n =
    (Ok (whole n (w ++ x)), pre ++ whole n (w ++ x) ++ post ++ spare).
Proof.
  intros Hn Hp Hw Hd Hs V4 V5 Hx Hlen. unfold findAndDecryptAcroForm. rewrite firstn_app, firstn_all, Nat.sub_diag. cbn [firstn]. rewrite app_nil_r.
  rewrite (found_at inflate f n pre (w ++ d) post (proj1 Hn) Hp). cbn [rbind]. rewrite (bounds f n pre (w ++ d) post Hn Hp). cbn [rmap].
  rewrite (cut_whole f n pre (w ++ d) post Hp). destruct Hp as (Ef & Hl & Hc & He).
  assert (Em : f ++ spare = pre ++ whole n (w ++ d) ++ post ++ spare) by (rewrite Ef; unfold whole; rewrite <- !app_assoc; reflexivity).
  rewrite Em, skipn_app_exact. rewrite firstn_app, firstn_all, Nat.sub_diag. cbn [firstn]. rewrite app_nil_r.
  set (rest := post ++ spare). unfold decrypt_form.
  set (h := decZ n ++ bs " 0 obj").
  assert (Ew : forall y, whole n (w ++ y) = h ++ w ++ y ++ bs "endobj") by (intros y; unfold whole, h; rewrite <- !app_assoc; reflexivity).
  assert (Io : index (bs "obj") (whole n (w ++ d)) = Some (length (decZ n) + 3)%nat) by (unfold whole; apply obj_at; lia).
  rewrite Io. cbv beta iota zeta.
  assert (Lh : (length (decZ n) + 3 + 3)%nat = length h) by (unfold h; rewrite app_length; change (length (bs " 0 obj")) with 6%nat; lia).
  rewrite Lh.
  assert (Bl : blanks_from (whole n (w ++ d)) (length h) = (length h + length w)%nat).
  { rewrite Ew. apply blanks_at; [exact Hw|]. destruct d as [|b d']; [destruct Hd|exact Hd]. }
  rewrite Bl.
  assert (Is : index (bs "stream") (whole n (w ++ d)) = None).
  { unfold contains in Hs. destruct (index (bs "stream") (whole n (w ++ d))); [discriminate|reflexivity]. }
  rewrite Is.
  assert (Ie : index (bs "endobj") (whole n (w ++ d)) = Some (length h + length w + length d)%nat).
  { unfold whole. replace (decZ n ++ bs " 0 obj" ++ (w ++ d) ++ bs "endobj") with ((h ++ w ++ d) ++ ("e"%byte :: bs "ndobj") ++ [])
      by (unfold h; rewrite <- !app_assoc; reflexivity).
    change (bs "endobj") with ("e"%byte :: bs "ndobj"). rewrite index_first; [f_equal; rewrite !app_length; lia| |].
    - intros E. repeat (destruct E as [E|E]; [discriminate|]). exact E.
    - change ("e"%byte :: bs "ndobj") with (bs "endobj"). unfold h. rewrite <- app_assoc.
      rewrite contains_nostart by (apply (nostart_decZ "e" (bs "ndobj")); [lia|reflexivity]).
      rewrite contains_nostart by (apply nostartb_ok; reflexivity). exact He. }
  rewrite Ie.
  assert (Sl : slice (whole n (w ++ d)) (length h + length w) (length h + length w + length d) = Ok d).
  { rewrite Ew. rewrite app_assoc. rewrite <- app_length. apply slice_mid. }
  rewrite Sl. cbv beta iota.
  assert (G : extractGenerationNumber (whole n (w ++ d)) n = 0) by (unfold whole; apply gen_zero; lia).
  rewrite G. unfold decryptInChunks.
  destruct d as [|b0 d0]; [destruct Hd|].
  replace (cpV e =? 4) with false by (symmetry; apply Z.eqb_neq; exact V4). replace (cpV e =? 5) with false by (symmetry; apply Z.eqb_neq; exact V5).
  cbn [orb]. rewrite Hx. set (d := b0 :: d0) in *. clearbody d.
  assert (A1 : go_append (whole n (w ++ d) ++ rest, Shared (length h + length w)) x =
               ((h ++ w) ++ x ++ bs "endobj" ++ rest, Shared (length (h ++ w) + length x))).
  { rewrite <- app_length. rewrite Ew. replace ((h ++ w ++ d ++ bs "endobj") ++ rest) with ((h ++ w) ++ d ++ bs "endobj" ++ rest) by (rewrite <- !app_assoc; reflexivity).
    apply append_in. exact Hlen. }
  match goal with |- context [go_append ?s x] => change (go_append s x) with (go_append (whole n (w ++ d) ++ rest, Shared (length h + length w)) x) end.
  assert (A2 : go_append ((h ++ w) ++ x ++ bs "endobj" ++ rest, Shared (length (h ++ w) + length x)) (bs "endobj") =
               (((h ++ w) ++ x) ++ bs "endobj" ++ rest, Shared (length ((h ++ w) ++ x) + 6))).
  { rewrite app_assoc. rewrite <- app_length. exact (append_in ((h ++ w) ++ x) (bs "endobj") rest (bs "endobj") eq_refl). }
  match goal with |- context [go_append ?s (bs "endobj")] => assert (A3 : go_append s (bs "endobj") = (((h ++ w) ++ x) ++ bs "endobj" ++ rest, Shared (length ((h ++ w) ++ x) + 6)))
    by (transitivity (go_append ((h ++ w) ++ x ++ bs "endobj" ++ rest, Shared (length (h ++ w) + length x)) (bs "endobj")); [f_equal; exact A1|exact A2]); rewrite A3 end.
  cbn [fst snd]. f_equal.
  - f_equal. rewrite Ew. replace (((h ++ w) ++ x) ++ bs "endobj" ++ rest) with ((((h ++ w) ++ x) ++ bs "endobj") ++ rest) by (rewrite <- !app_assoc; reflexivity).
    unfold contents. cbn [fst snd]. rewrite firstn_app.
    replace (length ((h ++ w) ++ x) + 6)%nat with (length (((h ++ w) ++ x) ++ bs "endobj")) by (rewrite !app_length; reflexivity).
    rewrite firstn_all, Nat.sub_diag. cbn [firstn]. rewrite app_nil_r. rewrite <- !app_assoc. reflexivity.
  - rewrite Ew. rewrite <- !app_assoc. reflexivity.
Qed.

Lemma length_found dict l : 0 <= l -> gives_length dict l -> value_of (find (m_key (bs "/Length")) (dict ++ nl)) = Some (decZ l).
Proof.
  intros Hl (a & g & r & -> & Ha & Hg & Gn & Hr). unfold value_of.
  replace ((a ++ bs "/Length" ++ g ++ decZ l ++ r) ++ nl) with (a ++ ("/"%byte :: bs "Length") ++ g ++ decZ l ++ r ++ nl) by (rewrite <- !app_assoc; reflexivity).
  rewrite (find_first (m_key (bs "/Length")) "/" (bs "Length") a _ (decZ l)); [reflexivity| | |exact Ha|].
  - intros s H. unfold m_key, lit. change (bs "/Length") with ("/"%byte :: bs "Length"). rewrite H. reflexivity.
  - intros E. repeat (destruct E as [E|E]; [discriminate|]). exact E.
  - change ("/"%byte :: bs "Length") with (bs "/Length"). unfold m_key. rewrite lit_here. cbn [obind].
    rewrite ws1_gap; [|exact Hg|exact Gn|apply digits_head; [apply XrefProofs.decZ_nonnil; exact Hl|exact (decZ_digits l Hl)|exact digit_not_ws]]. cbn [obind].
    rewrite digits1_app; [reflexivity|apply XrefProofs.decZ_nonnil; exact Hl|exact (decZ_digits l Hl)|].
    destruct r as [|b r]; [reflexivity|exact Hr].
Qed.
Lemma eol_at (a r : bytes) : skip_one_eol (a ++ x0a :: r) (length a) = S (length a).
Proof.
  assert (E : nth_error (a ++ x0a :: r) (length a) = Some x0a) by (induction a as [|c a IH]; [reflexivity|exact IH]).
  unfold skip_one_eol. rewrite E. change (beqb x0a x0d) with false. cbv iota. rewrite E. reflexivity.
Qed.
Lemma stream_found inflate f n dict d : 0 <= n < 2 ^ 63 -> stands f n (stream_of dict d) -> gives_length dict (flen d) -> plain_dict dict -> d <> [] ->
  flen f < 2 ^ 62 -> stream_reader inflate f n = Ok d.
Proof.
  intros Hn (pre & post & Hp) Hl [Hs Hb] Hd Hf. unfold stream_reader, extractStreamFromPDF.
  rewrite (found_at inflate f n pre _ post (proj1 Hn) Hp). cbn [rbind]. rewrite (bounds f n pre _ post Hn Hp). cbn [rbind fst snd].
  rewrite (cut_whole f n pre _ post Hp).
  assert (Hsize : flen (whole n (stream_of dict d)) <= flen f).
  { destruct Hp as (-> & _). unfold flen, whole. rewrite !app_length. lia. }
  assert (Io : index (bs "obj") (whole n (stream_of dict d)) = Some (length (decZ n) + 3)%nat) by (unfold whole; apply obj_at; lia).
  rewrite Io. set (h := decZ n ++ bs " 0 obj").
  set (tl := nl ++ d ++ nl ++ bs "endstream" ++ nl ++ bs "endobj").
  assert (Ew : whole n (stream_of dict d) = (h ++ nl ++ dict ++ nl) ++ bs "stream" ++ tl).
  { unfold whole, stream_of, h, tl. rewrite <- !app_assoc. reflexivity. }
  assert (Lh : (length (decZ n) + 3 + 3)%nat = length h) by (unfold h; rewrite app_length; change (length (bs " 0 obj")) with 6%nat; lia).
  assert (Is : index (bs "stream") (whole n (stream_of dict d)) = Some (length (h ++ nl ++ dict ++ nl))).
  { rewrite Ew. change (bs "stream") with ("s"%byte :: bs "tream"). apply index_first; [exact s_once|]. change ("s"%byte :: bs "tream") with (bs "stream").
    unfold h. rewrite <- app_assoc. rewrite contains_nostart by (apply (nostart_decZ "s" (bs "tream")); [lia|reflexivity]).
    rewrite contains_nostart by (apply nostartb_ok; reflexivity). rewrite contains_nostart by (apply nostartb_ok; reflexivity).
    rewrite <- (app_nil_r (dict ++ nl)). rewrite contains_nostart; [reflexivity|]. apply (nostart_sep (bs "stream") dict x0a); [exact Hs| |discriminate].
    intros X. repeat (destruct X as [X|X]; [discriminate|]). exact X. }
  rewrite Is, Lh.
  assert (Bl : blanks_from (whole n (stream_of dict d)) (length h) = length (h ++ nl)).
  { rewrite Ew. replace ((h ++ nl ++ dict ++ nl) ++ bs "stream" ++ tl) with (h ++ nl ++ (dict ++ nl ++ bs "stream" ++ tl)) by (rewrite <- !app_assoc; reflexivity).
    rewrite blanks_at; [rewrite app_length; reflexivity|reflexivity|]. destruct dict as [|b dict]; [destruct Hb|exact Hb]. }
  rewrite Bl.
  assert (Sl : slice (whole n (stream_of dict d)) (length (h ++ nl)) (length (h ++ nl ++ dict ++ nl)) = Ok (dict ++ nl)).
  { rewrite Ew. replace (length (h ++ nl ++ dict ++ nl)) with (length (h ++ nl) + length (dict ++ nl))%nat by (rewrite !app_length; lia).
    replace ((h ++ nl ++ dict ++ nl) ++ bs "stream" ++ tl) with ((h ++ nl) ++ (dict ++ nl) ++ (bs "stream" ++ tl)) by (rewrite <- !app_assoc; reflexivity).
    apply slice_mid. }
  rewrite Sl. cbn [rbind]. rewrite (length_found dict (flen d)) by (first [exact Hl | unfold flen; lia]).
  assert (Ld : 0 < flen d <= flen (whole n (stream_of dict d))).
  { unfold flen. split; [destruct d; [congruence|cbn [length]; lia]|]. rewrite Ew. unfold tl. rewrite !app_length. lia. }
  cbn [atoi0]. rewrite atoi_clip_decZ by lia.
  assert (Sk : skip_one_eol (whole n (stream_of dict d)) (length (h ++ nl ++ dict ++ nl) + 6) = length ((h ++ nl ++ dict ++ nl) ++ bs "stream" ++ nl)).
  { rewrite Ew. replace (length (h ++ nl ++ dict ++ nl) + 6)%nat with (length ((h ++ nl ++ dict ++ nl) ++ bs "stream")) by (rewrite app_length; reflexivity).
    unfold tl. rewrite app_assoc. change (nl ++ d ++ nl ++ bs "endstream" ++ nl ++ bs "endobj") with (x0a :: d ++ nl ++ bs "endstream" ++ nl ++ bs "endobj").
    rewrite eol_at. rewrite !app_length. change (length nl) with 1%nat. lia. }
  rewrite Sk. set (a := (h ++ nl ++ dict ++ nl) ++ bs "stream" ++ nl).
  assert (Ea : whole n (stream_of dict d) = a ++ d ++ (nl ++ bs "endstream" ++ nl ++ bs "endobj")).
  { rewrite Ew. unfold a, tl. rewrite <- !app_assoc. reflexivity. }
  assert (La : Z.of_nat (length a) + flen d <= flen (whole n (stream_of dict d))) by (rewrite Ea; unfold flen; rewrite !app_length; lia).
  replace (0 <? flen d) with true by (symmetry; apply Z.ltb_lt; lia). cbn [andb].
  replace (Z.of_N int64_max <? Z.of_nat (length a) + flen d) with false
    by (symmetry; apply Z.ltb_ge; change (Z.of_N int64_max) with (2 ^ 63 - 1); lia).
  replace (Z.of_nat (length a) + flen d <=? flen (whole n (stream_of dict d))) with true by (symmetry; apply Z.leb_le; exact La).
  rewrite Ea. unfold sub. rewrite skipn_app_exact. unfold flen. rewrite Nat2Z.id. replace (length a + length d - length a)%nat with (length d) by lia.
  rewrite firstn_app, firstn_all, Nat.sub_diag. cbn [firstn]. rewrite app_nil_r. reflexivity.
Qed.

(** All the streams *)
Lemma loads inflate zl fl get f : flen f < 2 ^ 62 -> forall (es : list (bytes * Z)) (data : bytes * Z -> bytes), NoDup (map fst es) ->
  (forall e, In e es -> In (fst e) stream_names /\ 0 <= snd e < 2 ^ 63 /\ get (snd e) = Err /\ recoverable f (snd e) (data e)) -> forall acc,
  exists xs, load_streams zl fl get (stream_reader inflate f) (map (fun e => (fst e, decZ (snd e))) es) acc = Ok xs /\
    (forall e, In e es -> kget (fst e) xs = Some (mkSI (fst (DecompressStream zl fl (data e))) (snd e) (snd (DecompressStream zl fl (data e))))) /\
    (forall name, ~ In name (map fst es) -> kget name xs = kget name acc).
Proof.
  intros Hf es data. induction es as [|e es IH]; intros Hnd H acc.
  - exists acc. split; [reflexivity|]. split; [intros ? []|reflexivity].
  - cbn [map] in Hnd. inversion Hnd as [|x y D1 D2]; subst. destruct (H e (or_introl eq_refl)) as (H1 & H2 & H3 & dict & R1 & R2 & R3 & R4 & R5 & R6).
    cbn [map load_streams]. rewrite atoi_decZ by exact H2. rewrite H3. rewrite (stream_found inflate f (snd e) dict (data e)) by assumption. cbn [rbind].
    assert (X : extractStreamDataFromObject zl fl (data e) = Ok (data e)).
    { unfold extractStreamDataFromObject, contains in *. destruct (index (bs "stream") (data e)); [discriminate|]. destruct (index (bs "<<") (data e)); [discriminate|reflexivity]. }
    rewrite X. destruct (DecompressStream zl fl (data e)) as [xd c] eqn:ED.
    rewrite XfaProofs3.known_in by exact H1.
    destruct (IH D2 (fun e' He' => H e' (or_intror He')) (kset (fst e) (mkSI xd (snd e) c) acc)) as (xs & X1 & X2 & X3).
    exists xs. split; [exact X1|]. split.
    + intros e' [<-|He']; [|apply X2, He']. rewrite X3 by exact D1. rewrite kget_kset, bytes_eqb_refl, ED. reflexivity.
    + intros name Hname. cbn [map In] in Hname. rewrite X3 by tauto. rewrite kget_kset.
      destruct (bytes_eqb name (fst e)) eqn:Q; [|reflexivity]. apply bytes_eqb_eq in Q. subst name. tauto.
Qed.
Lemma recovered inflate zl fl get f k es (data : bytes * Z -> bytes) :
  flen f < 2 ^ 62 -> form_number f k -> 0 < k < 2 ^ 63 -> get k = Err -> stands f k (nl ++ xfa_form es ++ nl) ->
  es <> [] -> NoDup (map fst es) -> flen (flat_map xfa_entry es) < 10000 ->
  (forall e, In e es -> In (fst e) stream_names /\ 0 <= snd e < 2 ^ 63 /\ get (snd e) = Err /\ recoverable f (snd e) (data e)) ->
  exists xs, ExtractAllXFAStreams zl fl get (form_reader inflate f) (stream_reader inflate f) f = Ok xs /\
    (forall e, In e es -> kget (fst e) xs = Some (mkSI (fst (DecompressStream zl fl (data e))) (snd e) (snd (DecompressStream zl fl (data e))))) /\
    (forall name, ~ In name (map fst es) -> kget name xs = None).
Proof.
  intros Hf (a & b & Ea & Ha) Hk Hgk Hst Hes Hnd Hlim H.
  assert (Fn : value_of (find m_acroform f) = Some (decZ k)).
  { rewrite Ea. unfold value_of. change (bs "/AcroForm " ++ decZ k ++ bs " 0 R" ++ b) with (("/"%byte :: bs "AcroForm") ++ bs " " ++ decZ k ++ bs " 0 R" ++ b).
    rewrite (find_first m_acroform "/" (bs "AcroForm") a _ (decZ k)); [reflexivity| | |exact Ha|].
    - intros s E. unfold m_acroform, lit. change (bs "/AcroForm") with ("/"%byte :: bs "AcroForm"). rewrite E. reflexivity.
    - intros E. repeat (destruct E as [E|E]; [discriminate|]). exact E.
    - change ("/"%byte :: bs "AcroForm") with (bs "/AcroForm"). unfold m_acroform. rewrite lit_here. cbn [obind].
      rewrite ws1_gap; [|reflexivity|discriminate|apply digits_head; [apply XrefProofs.decZ_nonnil; lia|apply decZ_digits; lia|exact digit_not_ws]]. cbn [obind].
      rewrite digits1_app; [|apply XrefProofs.decZ_nonnil; lia|apply decZ_digits; lia|reflexivity]. cbn [obind]. reflexivity. }
  assert (Ge : good_entries es).
  { unfold good_entries. apply Forall_forall. intros e He. destruct (H e He) as (X & Y & _). split; [exact X|lia]. }
  unfold ExtractAllXFAStreams, xfa_array. rewrite Fn, atoi_decZ by lia.
  replace (0 <? k) with true by (symmetry; apply Z.ltb_lt; lia). rewrite Hgk.
  assert (Fr : form_reader inflate f k = Ok (object_text k (xfa_form es))).
  { unfold form_reader. pose proof (form_found inflate f [] k _ ltac:(lia) Hst) as E. rewrite app_nil_r in E. rewrite E. cbn [fst]. f_equal.
    unfold whole, object_text. rewrite <- !app_assoc. reflexivity. }
  rewrite Fr. cbn [rbind]. rewrite form_array; [|lia|exact Ge|unfold array_limit; apply Nat2Z.inj_lt; rewrite N_nat_Z; exact Hlim]. cbn [rbind].
  rewrite entries_read by exact Ge.
  destruct (loads inflate zl fl get f Hf es data Hnd H []) as (xs & X1 & X2 & X3).
  exists xs. destruct es as [|e es]; [congruence|]. split; [exact X1|]. split; [exact X2|]. intros name Hn. rewrite (X3 name Hn). reflexivity.
Qed.
(** What is lost, and what stops the program *)
Lemma brackets_cut zl fl u v : contains (bs "stream") (u ++ bs "<<" ++ v) = false -> contains (bs "<<") u = false -> ~ In "<"%byte u ->
  extractStreamDataFromObject zl fl (u ++ bs "<<" ++ v) = Ok (bs "<<" ++ v).
Proof.
  intros Hs _ Hu. unfold extractStreamDataFromObject, contains in *. destruct (index (bs "stream") (u ++ bs "<<" ++ v)); [discriminate|].
  rewrite index_at; [rewrite skipn_app_exact; reflexivity|]. apply (nostart_class (fun b => negb (beqb b "<"))); [|reflexivity].
  apply forallb_forall. intros b Hb. destruct (beqb b "<") eqn:E; [|reflexivity]. apply beqb_eq in E. congruence.
Qed.
Lemma far_panics f idx n : index (object_header n) f = None -> flen f + 1000 < idx -> findObjectBoundaries f idx n = Panic.
Proof.
  intros Hi Hx. unfold findObjectBoundaries.
  replace (idx <? flen f) with false by (symmetry; apply Z.ltb_ge; unfold flen in *; lia). rewrite andb_false_r. cbn [rbind]. rewrite Hi.
  unfold by_number, window. replace (Z.max 0 (idx - 1000) <=? Z.min (flen f) (idx + 1000)) with false; [reflexivity|].
  symmetry. apply Z.leb_gt. unfold flen in *. lia.
Qed.

(** Headers with a tab or a line end after the number *)
Lemma loosely_found f n pre c t post idx : 0 <= n -> placed_loosely f n pre c t post ->
  idx - 1000 <= Z.of_nat (length pre) -> Z.of_nat (length pre + length (decZ n)) <= idx + 1000 ->
  contains (decZ n) (skipn (Z.to_nat (idx - 1000)) pre) = false ->
  findObjectBoundaries f idx n = Ok (length pre, (length pre + (length (decZ n) + 6 + length t + 6))%nat).
Proof.
  intros Hn (Ef & Hc & Hl & Ho & He) Hw1 Hw2 Hb.
  assert (Hno : forall k w, index (object_header n) (firstn k (skipn w f)) = None).
  { intros k w. assert (contains (object_header n) (firstn k (skipn w f)) = false) as E.
    { apply Scan.contains_firstn. rewrite contains_false in *. intros j Hj. rewrite skipn_skipn. destruct (Nat.le_gt_cases (j + w) (length f)) as [L|L].
      - apply Ho. lia.
      - rewrite skipn_all2 by lia. unfold object_header. destruct (decZ n); reflexivity. }
    unfold contains in E. destruct (index (object_header n) (firstn k (skipn w f))); [discriminate|reflexivity]. }
  assert (Hno0 : index (object_header n) f = None).
  { unfold contains in Ho. unfold object_header. destruct (index (decZ n ++ bs " 0 obj") f); [discriminate|reflexivity]. }
  assert (Ends : ends_at f (length pre) = Ok (length pre, (length pre + (length (decZ n) + 6 + length t + 6))%nat)).
  { unfold ends_at. replace (length f <? length pre)%nat with false by (symmetry; apply Nat.ltb_ge; rewrite Ef, app_length; lia).
    rewrite Ef. rewrite skipn_app_exact.
    replace (decZ n ++ [c] ++ bs "0 obj" ++ t ++ bs "endobj" ++ post) with ((decZ n ++ [c] ++ bs "0 obj" ++ t) ++ ("e"%byte :: bs "ndobj") ++ post)
      by (rewrite <- !app_assoc; reflexivity).
    match goal with |- context [index (bs "endobj") ?x] => change (index (bs "endobj") x) with (index ("e"%byte :: bs "ndobj") x) end.
    rewrite index_first.
    - f_equal. f_equal. rewrite !app_length. change (length (bs "0 obj")) with 5%nat. cbn [length]. lia.
    - intros E. repeat (destruct E as [E|E]; [discriminate|]). exact E.
    - change ("e"%byte :: bs "ndobj") with (bs "endobj").
      rewrite contains_nostart by (apply (nostart_decZ "e" (bs "ndobj")); [lia|reflexivity]).
      rewrite contains_nostart by (apply nostartb_ok; destruct Hc as [->|[->| ->]]; reflexivity).
      rewrite contains_nostart by (apply nostartb_ok; reflexivity). exact He. }
  assert (Ls : line_start f (length pre) = length pre) by (rewrite Ef; apply line_start_at, Hl).
  assert (Hlen : (length pre + length (decZ n) + 12 <= length f)%nat).
  { rewrite Ef, !app_length. change (length (bs "0 obj")) with 5%nat. change (length (bs "endobj")) with 6%nat. cbn [length]. lia. }
  unfold findObjectBoundaries.
  assert (E1 : (if (0 <=? idx) && (idx <? flen f) then
           rbind (window f idx 2000) (fun w => Ok (option_map (fun i => line_start f (fst w + i)) (index (object_header n) (snd w))))
         else Ok None) = Ok None).
  { destruct (0 <=? idx) eqn:A1; [|reflexivity]. destruct (idx <? flen f) eqn:A2; [|reflexivity]. cbn [andb]. unfold window.
    replace (Z.max 0 (idx - 2000) <=? Z.min (flen f) (idx + 2000)) with true by (unfold flen in *; lia). cbn [rbind fst snd]. rewrite Hno. reflexivity. }
  rewrite E1. cbn [rbind]. rewrite Hno0.
  assert (E2 : by_number f idx n = Ok (Some (length pre))).
  { unfold by_number, window. unfold flen in *. set (a := Z.max 0 (idx - 1000)). set (b := Z.min (Z.of_nat (length f)) (idx + 1000)).
    assert (Ea : Z.to_nat a = Z.to_nat (idx - 1000)) by (unfold a; lia).
    replace (a <=? b) with true by (unfold a, b; lia). cbn [rbind].
    assert (Ia : index (decZ n) (firstn (Z.to_nat (b - a)) (skipn (Z.to_nat a) f)) = Some (length pre - Z.to_nat a)%nat).
    { assert (Hns : forall r, index (decZ n) (skipn (Z.to_nat a) pre ++ decZ n ++ r) = Some (length (skipn (Z.to_nat a) pre))).
      { intros r. apply index_at. rewrite Ea. destruct Hl as [->|(u & e & -> & Hcr)]; [rewrite skipn_nil; intros ? ? Hj; cbn in Hj; lia|].
        destruct (Nat.le_gt_cases (Z.to_nat (idx - 1000)) (length u)) as [L|L].
        - rewrite skipn_app_l by exact L. apply nostart_sep.
          + rewrite skipn_app_l in Hb by exact L. rewrite contains_false in *. intros j Hj. specialize (Hb j). rewrite app_length in Hb. specialize (Hb ltac:(lia)).
            rewrite skipn_app_l in Hb by exact Hj. destruct (prefixb (decZ n) (skipn j (skipn (Z.to_nat (idx - 1000)) u))) eqn:E; [|reflexivity].
            apply prefixb_spec in E. destruct E as [v E]. rewrite E, <- app_assoc, prefixb_app in Hb. discriminate.
          + intros I. destruct (header_no_nl n Hn) as [N1 N2]. destruct Hcr as [->| ->]; [apply N1|apply N2]; apply in_or_app; left; exact I.
          + apply XrefProofs.decZ_nonnil. exact Hn.
        - rewrite skipn_all2 by (rewrite app_length; cbn [length]; lia). intros ? ? Hj. cbn in Hj. lia. }
      specialize (Hns ([c] ++ bs "0 obj" ++ t ++ bs "endobj" ++ post)).
      rewrite Ef, skipn_app_l by (rewrite Ea; lia). apply index_some in Hns as (P1 & P2 & P3). rewrite skipn_length in *.
      apply index_some. rewrite skipn_firstn_comm. split; [apply prefixb_firstn2; [exact P1|unfold b; lia]|].
      split; [rewrite firstn_length, app_length, skipn_length; unfold b; lia|].
      intros j Hj. rewrite skipn_firstn_comm. match goal with |- ?x = false => destruct x eqn:E; [|reflexivity] end. apply prefixb_firstn in E.
      rewrite P3 in E by lia. discriminate. }
    rewrite Ia. replace (Z.to_nat a + (length pre - Z.to_nat a))%nat with (length pre) by lia.
    replace (length pre + length (decZ n) + 10 <? length f)%nat with true by (symmetry; apply Nat.ltb_lt; lia).
    assert (Es : skipn (length pre + length (decZ n)) f = c :: bs "0 obj" ++ t ++ bs "endobj" ++ post).
    { rewrite Ef, app_assoc, <- app_length, skipn_app_exact. reflexivity. }
    rewrite Es, prefixb_app. replace (beqb c " " || beqb c x09 || beqb c x0a || beqb c x0d) with true by (destruct Hc as [->|[->| ->]]; reflexivity).
    cbn [andb]. rewrite Ls. reflexivity. }
  rewrite E2. cbn [rbind]. exact Ends.
Qed.

(** A file without a cross-reference table *)
Lemma no_table inflate dec f n : contains (bs "startxref") f = false -> GetObject inflate dec f n = Err.
Proof.
  intros H. unfold GetObject, FindObjectLocation.
  assert (E : find m_startxref f = None); [|rewrite E; reflexivity].
  destruct (find m_startxref f) as [[i d]|] eqn:E; [|reflexivity]. exfalso.
  assert (G : forall s i d, find m_startxref s = Some (i, d) -> index (bs "startxref") s <> None).
  { clear. induction s as [|x s IH]; intros i d E Q.
    - cbn in E. discriminate.
    - cbn [index] in Q. cbn [find] in E. destruct (prefixb (bs "startxref") (x :: s)) eqn:P; [discriminate|].
      unfold m_startxref at 1 in E. unfold lit at 1 in E. rewrite P in E. cbn [obind] in E.
      destruct (find m_startxref s) as [[j e]|] eqn:F; [|discriminate].
      apply (IH j e eq_refl). destruct (index (bs "startxref") s); [discriminate|reflexivity]. }
  unfold contains in H. apply (G f i d E). destruct (index (bs "startxref") f); [discriminate|reflexivity].
Qed.
Lemma recovered_file inflate dec zl fl f k es (data : bytes * Z -> bytes) :
  flen f < 2 ^ 62 -> contains (bs "startxref") f = false -> form_number f k -> 0 < k < 2 ^ 63 -> stands f k (nl ++ xfa_form es ++ nl) ->
  es <> [] -> NoDup (map fst es) -> flen (flat_map xfa_entry es) < 10000 ->
  (forall e, In e es -> In (fst e) stream_names /\ 0 <= snd e < 2 ^ 63 /\ recoverable f (snd e) (data e)) ->
  exists xs, ExtractAllXFAStreams zl fl (GetObject inflate dec f) (form_reader inflate f) (stream_reader inflate f) f = Ok xs /\
    (forall e, In e es -> kget (fst e) xs = Some (mkSI (fst (DecompressStream zl fl (data e))) (snd e) (snd (DecompressStream zl fl (data e))))) /\
    (forall name, ~ In name (map fst es) -> kget name xs = None).
Proof.
  intros Hf Hx Hn Hk Hs He Hd Hl H. apply (recovered inflate zl fl (GetObject inflate dec f) f k es data); try assumption.
  - apply no_table, Hx.
  - intros e E. destruct (H e E) as (A & B & C). split; [exact A|]. split; [exact B|]. split; [apply no_table, Hx|exact C].
Qed.
