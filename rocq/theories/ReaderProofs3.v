(** Proofs for the reader: locations, the last trailer, raw streams, revisions. *)
From Verif Require Import Scan WriterModel WriterProofs ParseModel ParseSpec ParseProofs XrefProofs ReadProofs PanicProofs ReaderSpec ReaderProofs ReaderProofs2.
Local Open Scope Z_scope.

(** Panics of the object stream reader, exactly *)
Lemma in_stream_panic_iff n idx first data :
  let entries := pairs_of (fields is_space (firstn (Z.to_nat first) data)) in
  object_in_stream n idx first data = Panic <->
  flen data < first \/
  (first <= flen data /\ idx < 0) \/
  (first <= flen data /\ 0 <= idx < Z.of_nat (length entries) /\
   exists e t, nth_error entries (Z.to_nat idx) = Some e /\
     (if fst e =? n then Some e else List.find (fun e => fst e =? n) entries) = Some t /\
     let s := first + snd t in
     let stop := match nth_error entries (S (Z.to_nat idx)) with Some nx => first + snd nx | None => flen data end in
     s < flen data /\ stop <= flen data /\ (s < 0 \/ stop < s)).
Proof.
  cbv zeta. unfold object_in_stream. set (entries := pairs_of _).
  destruct (Z.ltb_spec (flen data) first) as [H0|H0]; [split; [left; exact H0|reflexivity]|].
  destruct (Z.leb_spec (Z.of_nat (length entries)) idx) as [H1|H1].
  { split; [discriminate|]. intros [H|[H|(_ & H & _)]]; lia. }
  destruct (Z.ltb_spec idx 0) as [H2|H2].
  { split; [intros _; right; left; split; assumption|reflexivity]. }
  destruct (nth_error entries (Z.to_nat idx)) as [e|] eqn:Ee.
  2:{ apply nth_error_None in Ee. lia. }
  destruct (if fst e =? n then Some e else List.find (fun e => fst e =? n) entries) as [t|] eqn:Et.
  2:{ split; [discriminate|]. intros [H|[H|(_ & _ & e' & t & E1 & E2 & _)]]; try lia. injection E1 as <-. congruence. }
  set (stop := match nth_error entries (S (Z.to_nat idx)) with Some nx => first + snd nx | None => flen data end).
  destruct ((flen data <=? first + snd t) || (flen data <? stop)) eqn:E3.
  { split; [discriminate|]. intros [H|[H|(_ & _ & e' & t' & E1 & E2 & H4)]]; try lia. injection E1 as <-. rewrite Et in E2. injection E2 as <-. 
    fold stop in H4. lia. }
  destruct ((first + snd t <? 0) || (stop <? first + snd t)) eqn:E4.
  - split; [|reflexivity]. intros _. right. right. split; [exact H0|]. split; [lia|]. exists e, t. split; [reflexivity|]. split; [exact Et|]. lia.
  - split; [discriminate|]. intros [H|[H|(_ & _ & e' & t' & E1 & E2 & H4)]]; try lia. injection E1 as <-. rewrite Et in E2. injection E2 as <-. 
    fold stop in H4. lia.
Qed.

(** The fallback search *)
Lemma m_num0obj_header n f i : m_num0obj n (skipn i f) = Some tt <-> header_at f n i.
Proof.
  split.
  - unfold m_num0obj, header_at. intros H.
    destruct (lit (decZ n) (skipn i f)) as [r1|] eqn:E1; [|discriminate]. cbn [obind] in H. apply lit_some in E1.
    destruct (ws1 r1) as [r2|] eqn:E2; [|discriminate]. cbn [obind] in H.
    destruct (lit (bs "0") r2) as [r3|] eqn:E3; [|discriminate]. cbn [obind] in H. apply lit_some in E3.
    destruct (ws1 r3) as [r4|] eqn:E4; [|discriminate]. cbn [obind] in H.
    destruct (lit (bs "obj") r4) as [r5|] eqn:E5; [|discriminate]. apply lit_some in E5.
    assert (forall s r, ws1 s = Some r -> exists w, s = w ++ r /\ w <> [] /\ white w) as Hw.
    { intros s r Hs. unfold ws1 in Hs. destruct s as [|b s]; [discriminate|]. destruct (is_ws b) eqn:Eb; [|discriminate]. injection Hs as <-.
      assert (exists w, s = w ++ drop_while is_ws s /\ white w) as (w & Ew & Hw).
      { clear. induction s as [|c s IH]; [exists []; split; [reflexivity|intros b []]|]. cbn [drop_while]. destruct (is_ws c) eqn:Ec.
        - destruct IH as (w & Ew & Hw). exists (c :: w). split; [cbn [app]; f_equal; exact Ew|]. intros b [<-|Hb]; [exact Ec|apply Hw, Hb].
        - exists []. split; [reflexivity|intros b []]. }
      exists (b :: w). split; [cbn [app]; f_equal; exact Ew|]. split; [discriminate|]. intros c [<-|Hc]; [exact Eb|apply Hw, Hc]. }
    destruct (Hw _ _ E2) as (w1 & F1 & N1 & W1). destruct (Hw _ _ E4) as (w2 & F2 & N2 & W2).
    exists w1, w2, r5. rewrite E1, F1, E3, F2, E5. auto.
  - intros (w1 & w2 & r & E & N1 & W1 & N2 & W2). rewrite E. unfold m_num0obj. rewrite lit_app. cbn [obind].
    rewrite ws1_white by (try assumption; reflexivity). cbn [obind]. rewrite lit_app. cbn [obind].
    rewrite ws1_white by (try assumption; reflexivity). cbn [obind]. rewrite lit_app. reflexivity.
Qed.

Lemma header_digit f n i : 0 <= n -> header_at f n i -> exists b r, skipn i f = b :: r /\ is_digit b = true.
Proof.
  intros Hn (w1 & w2 & r & -> & _). pose proof (XrefProofs.decZ_nonnil n Hn) as H1. pose proof (decZ_digits n Hn) as H2.
  destruct (decZ n) as [|b d]; [congruence|]. cbn [forallb] in H2. apply andb_true_iff in H2. eexists b, _. split; [reflexivity|tauto].
Qed.
Lemma skipn_S_tail {A} i (f : list A) b r : skipn i f = b :: r -> skipn (S i) f = r.
Proof. intros E. replace (S i) with (1 + i)%nat by lia. rewrite <- skipn_skipn, E. reflexivity. Qed.
Lemma skipn_cons_nth {A} i (f : list A) b r : skipn i f = b :: r -> nth_error f i = Some b.
Proof. revert f. induction i as [|i IH]; intros [|a f] E; cbn in *; try discriminate; [congruence|apply IH, E]. Qed.
Lemma nth_skipn_cons {A} i (f : list A) b : nth_error f i = Some b -> skipn i f = b :: skipn (S i) f.
Proof. revert f. induction i as [|i IH]; intros [|a f] E; cbn in *; try discriminate; [congruence|apply IH, E]. Qed.
Lemma digit_blank b : is_digit b = true -> is_blank b = false.
Proof. exact (digit_not_blank b). Qed.

Lemma scan_object_finds n f : 0 <= n -> ~ In x0c f ->
  match scan_object n f with
  | Some off => exists i, off = Z.of_nat i /\ header_at f n i /\ after_white f i /\
      forall j, (j < i)%nat -> header_at f n j -> ~ after_white f j
  | None => forall j, header_at f n j -> ~ after_white f j
  end.
Proof.
  intros Hn Hff. unfold scan_object.
  destruct (m_num0obj n f) as [[]|] eqn:E0.
  { exists 0%nat. change f with (skipn 0 f) in E0. apply m_num0obj_header in E0.
    destruct (header_digit f n 0 Hn E0) as (b & r & Eb & Hb). cbn [skipn] in Eb. rewrite Eb. cbn [take_while]. rewrite digit_blank by exact Hb.
    split; [reflexivity|]. rewrite <- Eb. split; [exact E0|]. split; [exact I|]. intros j Hj. lia. }
  assert (forall j, header_at f n j -> after_white f j -> exists k, j = S k /\ m_boundary n (skipn k f) = Some tt) as Hb.
  { intros [|k] Hh Ha.
    - apply m_num0obj_header in Hh. cbn [skipn] in Hh. congruence.
    - exists k. split; [reflexivity|]. destruct Ha as (b & Eb & Hw). rewrite (nth_skipn_cons _ _ _ Eb). cbn [m_boundary]. rewrite Hw.
      apply m_num0obj_header in Hh. exact Hh. }
  destruct (find (m_boundary n) f) as [[i []]|] eqn:Ef.
  - apply find_some in Ef. destruct Ef as (E1 & E2 & E3).
    destruct (skipn i f) as [|b r] eqn:Es; [discriminate|]. cbn [m_boundary] in E1. destruct (is_ws b) eqn:Ew; [|discriminate].
    exists (S i).
    assert (skipn (S i) f = r) as Er by (apply (skipn_S_tail i f b r Es)).
    assert (header_at f n (S i)) as Hh by (apply m_num0obj_header; rewrite Er; exact E1).
    destruct (header_digit f n (S i) Hn Hh) as (c & u & Ec & Hc). rewrite Er in Ec.
    assert (is_blank b = true) as Hbl.
    { assert (b <> x0c) as Hne.
      { intros ->. apply Hff. rewrite <- (firstn_skipn i f), Es. apply in_or_app. right. left. reflexivity. }
      clear - Ew Hne. destruct b; try discriminate; try reflexivity; congruence. }
    rewrite Ec. cbn [take_while]. rewrite Hbl, (digit_blank c Hc). cbn [length]. split; [lia|]. split; [exact Hh|]. split.
    + exists b. split; [apply (skipn_cons_nth i f b r Es)|exact Ew].
    + intros j Hj Hhj Haj. destruct (Hb j Hhj Haj) as (k & -> & Hk). specialize (E3 k ltac:(lia)). congruence.
  - intros j Hh Ha. destruct (Hb j Hh Ha) as (k & -> & Hk).
    destruct Ha as (b & Hnth & _). assert (k < length f)%nat by (apply nth_error_Some; congruence).
    rewrite (find_none _ _ Ef k) in Hk by lia. discriminate.
Qed.


Lemma recovery inflate f n d x : value_of (find m_startxref f) = Some d -> atoi d = Some x -> 0 < x < flen f ->
  contains (bs "obj") (take 100 (from x f)) = false -> prefixb (bs "xref") (from x f) = false ->
  0 <= n -> ~ In x0c f ->
  match FindObjectLocation inflate f n with
  | Ok (AtOffset off) => exists i, off = Z.of_nat i /\ header_at f n i /\ after_white f i /\
      forall j, (j < i)%nat -> header_at f n j -> ~ after_white f j
  | Err => forall j, header_at f n j -> ~ after_white f j
  | _ => False
  end.
Proof.
  intros H1 H2 H3 H4 H5 Hn Hff. unfold FindObjectLocation. rewrite H1, H2.
  replace ((x <=? 0) || (flen f <=? x)) with false by lia. rewrite H4, H5. cbn [rbind].
  pose proof (scan_object_finds n f Hn Hff) as H. destruct (scan_object n f); exact H.
Qed.

(** An object found through a cross-reference stream *)
Lemma mget_location n (ms : zmap (Z * Z)) (os : zmap Z) : forall l,
  match mget n ms with
  | Some (k, i) => Ok (Some (InStream k i))
  | None => Ok (option_map AtOffset (mget n os))
  end = Ok (Some l) ->
  (exists k i, mget n ms = Some (k, i) /\ l = InStream k i) \/ (mget n ms = None /\ exists o, mget n os = Some o /\ l = AtOffset o).
Proof.
  intros l H. destruct (mget n ms) as [[k i]|]; [left; exists k, i; split; [reflexivity|congruence]|].
  right. split; [reflexivity|]. destruct (mget n os) as [o|]; [|discriminate]. exists o. split; [reflexivity|]. cbn in H. congruence.
Qed.

Lemma location_in_stream inflate f n x ms os a post :
  f = (a ++ nl) ++ sx_line x ++ post -> contains (bs "startxref") a = false -> 0 < x < flen f -> x < 2 ^ 63 ->
  contains (bs "obj") (take 100 (from x f)) = true -> ParseXRefStreamFull inflate f x = Ok (os, ms) ->
  (forall k i, mget n ms = Some (k, i) -> FindObjectLocation inflate f n = Ok (InStream k i)) /\
  (forall o, mget n ms = None -> mget n os = Some o -> FindObjectLocation inflate f n = Ok (AtOffset o)).
Proof.
  intros Hf Ha Hx Hx2 Ho Hp.
  assert (find m_startxref f = Some (length (a ++ nl), decZ x)) as Es.
  { rewrite Hf. apply find_at; [|apply m_startxref_here; lia].
    apply (nostart_nofire _ _ _ m_startxref_lit). apply nostart_sep; [exact Ha|apply no_nl_in; reflexivity|discriminate]. }
  unfold FindObjectLocation. rewrite Es. cbn [value_of option_map snd]. rewrite atoi_decZ by lia.
  replace ((x <=? 0) || (flen f <=? x)) with false by lia. rewrite Ho, Hp. split.
  - intros k i E. rewrite E. reflexivity.
  - intros o E E2. rewrite E, E2. reflexivity.
Qed.

Lemma obj_in_100 sn s : 0 <= sn < 2 ^ 63 -> contains (bs "obj") (take 100 (decZ sn ++ bs " 0 obj" ++ s)) = true.
Proof.
  intros Hn. pose proof (decZ_length63 sn Hn).
  rewrite take_app_l by lia. rewrite take_app_l by (change (length (bs " 0 obj")) with 6%nat; lia).
  unfold contains. rewrite index_obj_header by lia. reflexivity.
Qed.

(** A whole file with a cross-reference stream and object streams: GetObject. *)
Lemma get_compressed inflate f sn size w1 w2 w3 subs extra comp pre post rest a tail :
  f = pre ++ xref_stream_text sn size w1 w2 w3 subs extra comp ++ post ->
  f = (a ++ nl) ++ sx_line (flen pre) ++ tail -> contains (bs "startxref") a = false -> 0 < flen pre < 2 ^ 63 ->
  0 <= sn < 2 ^ 63 -> 0 <= size < 2 ^ 63 ->
  (1 <= w1)%nat -> Z.of_nat w1 < 2 ^ 63 -> Z.of_nat w2 < 2 ^ 63 -> Z.of_nat w3 < 2 ^ 63 ->
  subs <> [] -> (forall s, In s subs -> 0 <= fst s < 2 ^ 63 /\ Z.of_nat (length (snd s)) < 2 ^ 63 /\ Forall (xref_row_ok w2 w3) (snd s)) ->
  (xref_head_length sn size w1 w2 w3 subs <= 500)%nat ->
  contains (bs "stream") extra = false -> contains (bs "/DecodeParms") (take 500 (from (flen pre) f)) = false ->
  match comp with [] => False | b :: _ => is_blank b = false end -> contains (bs "endstream") comp = false ->
  inflate (comp ++ nl) = Some (xref_data w1 w2 w3 subs ++ rest) -> (length rest < w1 + w2 + w3)%nat ->
  (forall n dec k i pre' eol objs raw raw' post' t,
    mget n (rev (stream_members subs)) = Some (k, Z.of_nat i) ->
    f = pre' ++ objstm_with eol k (Z.of_nat (length objs)) (conforming_first objs) raw ++ post' -> stream_eol eol ->
    (forall j, (j < length pre')%nat -> m_num0obj k (skipn j f) = None) ->
    decrypted dec k raw raw' -> inflate raw' = Some (conforming_objstm objs) ->
    nth_error objs i = Some (n, t) -> tidy t -> 0 <= k -> flen raw < 2 ^ 63 ->
    (forall o, In o objs -> 0 <= fst o < 2 ^ 63) -> flen (conforming_objstm objs) < 2 ^ 63 ->
    GetObject inflate dec f n = Ok t) /\
  (forall n g t pre' post', mget n (rev (stream_members subs)) = None -> mget n (rev (stream_offsets subs)) = Some (flen pre') ->
    f = pre' ++ gen_object n g t ++ post' -> 0 <= n < 2 ^ 63 -> 0 <= g < 2 ^ 63 -> readable t ->
    GetObject inflate None f n = Ok (gen_object n g t)).
Proof.
  intros Hf Hf2 Ha Hp Hn Hz H1 Hw1 Hw2 Hw3 Hne Hsubs Hlen Hex Hdp Hb He Hi Hr.
  pose proof (indexed_stream inflate sn size w1 w2 w3 subs extra comp pre post f rest Hf Hn Hz H1 Hw1 Hw2 Hw3 Hne Hsubs Hlen Hex Hdp Hb He Hi Hr) as Hx.
  assert (from (flen pre) f = xref_stream_text sn size w1 w2 w3 subs extra comp ++ post) as Hfrom
    by (unfold from, flen; rewrite Nat2Z.id, Hf, skipn_app_exact; reflexivity).
  assert (contains (bs "obj") (take 100 (from (flen pre) f)) = true) as Ho.
  { rewrite Hfrom. unfold xref_stream_text. rewrite <- !app_assoc. apply obj_in_100. exact Hn. }
  assert (flen pre < flen f) as Hlt.
  { rewrite Hf at 1. unfold flen, xref_stream_text. rewrite !app_length. change (length (bs " 0 obj")) with 6%nat. lia. }
  split.
  - intros n dec k i pre' eol objs raw raw' post' t E Hf' Heol Hno Hdec Hinf Hnth Ht Hk Hraw Hobjs Hall.
    unfold GetObject.
    rewrite (proj1 (location_in_stream inflate f n (flen pre) _ _ a tail Hf2 Ha (conj (proj1 Hp) Hlt) (proj2 Hp) Ho Hx) k (Z.of_nat i) E). cbn [rbind].
    apply (conforming_read_with inflate dec f pre' eol k objs raw raw' post' n t i); assumption.
  - intros n g t pre' post' E1 E2 Hf' Hn' Hg Ht. unfold GetObject.
    rewrite (proj2 (location_in_stream inflate f n (flen pre) _ _ a tail Hf2 Ha (conj (proj1 Hp) Hlt) (proj2 Hp) Ho Hx) _ E1 E2). cbn [rbind].
    apply (get_direct_gen f pre' n g t post'); assumption.
Qed.

(** The last trailer *)
Lemma m_trailer_lit s : prefixb (bs "trailer") s = false -> m_trailer s = None.
Proof. intros H. unfold m_trailer. apply lit_none in H. rewrite H. reflexivity. Qed.
Lemma last_trailer_none s : contains (bs "trailer") s = false -> last_trailer s = None.
Proof.
  induction s as [|b s IH]; intros H; [reflexivity|]. cbn [last_trailer].
  rewrite contains_false in H. rewrite IH.
  - apply m_trailer_lit. apply (H 0%nat). lia.
  - apply contains_false. intros j Hj. apply (H (S j)). cbn [length]. lia.
Qed.
Lemma last_trailer_app a s r : last_trailer s = Some r -> last_trailer (a ++ s) = Some r.
Proof. intros H. induction a as [|b a IH]; [exact H|]. cbn [app last_trailer]. rewrite IH. reflexivity. Qed.
Lemma last_trailer_here w r : white w -> contains (bs "trailer") r = false -> last_trailer (bs "trailer" ++ w ++ bs "<<" ++ r) = Some r.
Proof.
  intros Hw Hr. set (s := bs "railer" ++ w ++ bs "<<" ++ r).
  change (bs "trailer" ++ w ++ bs "<<" ++ r) with ("t"%byte :: s). cbn [last_trailer].
  rewrite last_trailer_none.
  - unfold m_trailer. change ("t"%byte :: s) with (bs "trailer" ++ w ++ bs "<<" ++ r). rewrite lit_app. cbn [obind].
    assert (ws0 (w ++ bs "<<" ++ r) = bs "<<" ++ r) as ->.
    { unfold ws0. clear - Hw. induction w as [|b w IH]; [reflexivity|]. cbn [app drop_while]. rewrite (Hw b (or_introl eq_refl)).
      apply IH. intros c Hc; apply Hw; right; exact Hc. }
    apply lit_app.
  - unfold s. rewrite contains_nostart by (apply nostartb_ok; reflexivity).
    rewrite contains_nostart by (apply (white_nostart "t"%byte (bs "railer")); [exact Hw|reflexivity]).
    rewrite contains_nostart by (apply nostartb_ok; reflexivity). exact Hr.
Qed.

Lemma trailer_end_cons2 lim depth a b s i : trailer_end (S lim) depth (a :: b :: s) i =
  if beqb a "<" && beqb b "<" then trailer_end (pred lim) (S depth) s (i + 2)
  else if beqb a ">" && beqb b ">" then
    match depth with S (S d) => trailer_end (pred lim) (S d) s (i + 2) | _ => Some (i + 2)%nat end
  else trailer_end lim depth (b :: s) (i + 1).
Proof. reflexivity. Qed.
Lemma trailer_end_step lim depth c s i : s <> [] -> c <> "<"%byte -> c <> ">"%byte ->
  trailer_end (S lim) depth (c :: s) i = trailer_end lim depth s (i + 1).
Proof. intros Hs H1 H2. destruct s as [|b s]; [congruence|]. rewrite trailer_end_cons2, !(beqb_false c) by assumption. reflexivity. Qed.
Lemma trailer_end_bytes depth h : (forall b, In b h -> b <> "<"%byte /\ b <> ">"%byte) -> forall lim s i, s <> [] ->
  trailer_end (length h + lim) depth (h ++ s) i = trailer_end lim depth s (i + length h).
Proof.
  induction h as [|b h IH]; intros H lim s i Hs; [rewrite Nat.add_0_r; reflexivity|]. cbn [app length Nat.add].
  rewrite trailer_end_step; [|destruct h; [exact Hs|discriminate]|apply H; left; reflexivity|apply H; left; reflexivity].
  rewrite IH; [f_equal; lia|intros; apply H; right; assumption|exact Hs].
Qed.
Lemma trailer_end_balanced d : balanced d -> forall lim k s i, s <> [] ->
  trailer_end (length d + lim) (S k) (d ++ s) i = trailer_end lim (S k) s (i + length d).
Proof.
  induction 1 as [|c d H1 H2 Hd IH|d e Hd IHd He IHe|h c e Hh Hc He IH]; intros lim k s i Hs.
  - cbn [length app Nat.add]. rewrite Nat.add_0_r. reflexivity.
  - cbn [app length Nat.add]. rewrite trailer_end_step; [|destruct d; [exact Hs|discriminate]|exact H1|exact H2].
    rewrite IH by exact Hs. f_equal. lia.
  - assert (length (bs "<<" ++ d ++ bs ">>" ++ e) = 2 + (length d + (2 + length e)))%nat as El by (rewrite !app_length; reflexivity).
    rewrite El. replace (2 + (length d + (2 + length e)) + lim)%nat with (S (S (length d + S (S (length e + lim))))) by lia.
    rewrite <- !app_assoc. change (bs "<<" ++ d ++ bs ">>" ++ e ++ s) with ("<"%byte :: "<"%byte :: d ++ bs ">>" ++ e ++ s).
    rewrite trailer_end_cons2. change (beqb "<" "<" && beqb "<" "<") with true. cbv iota. cbn [pred].
    rewrite IHd by discriminate. change (bs ">>" ++ e ++ s) with (">"%byte :: ">"%byte :: e ++ s). rewrite trailer_end_cons2.
    change (beqb ">" "<" && beqb ">" "<") with false. change (beqb ">" ">" && beqb ">" ">") with true. cbv iota. cbn [pred].
    rewrite IHe by exact Hs. f_equal. lia.
  - assert (length (bs "<" ++ h ++ bs ">" ++ c :: e) = 1 + (length h + (1 + length (c :: e))))%nat as El by (rewrite !app_length; reflexivity).
    rewrite El. replace (1 + (length h + (1 + length (c :: e))) + lim)%nat with (S (length h + S (length (c :: e) + lim))) by lia.
    rewrite <- !app_assoc.
    assert (forall i, trailer_end (S (length (c :: e) + lim)) (S k) (bs ">" ++ (c :: e) ++ s) i =
      trailer_end (length (c :: e) + lim) (S k) ((c :: e) ++ s) (i + 1)) as E1.
    { intros i0. change (bs ">" ++ (c :: e) ++ s) with (">"%byte :: c :: (e ++ s)). rewrite trailer_end_cons2.
      rewrite (beqb_false c ">"%byte) by exact Hc. rewrite andb_false_r. reflexivity. }
    assert (trailer_end (S (length h + S (length (c :: e) + lim))) (S k) (bs "<" ++ h ++ bs ">" ++ (c :: e) ++ s) i =
      trailer_end (length h + S (length (c :: e) + lim)) (S k) (h ++ bs ">" ++ (c :: e) ++ s) (i + 1)) as E2.
    { destruct h as [|b h].
      - reflexivity.
      - change (bs "<" ++ (b :: h) ++ bs ">" ++ (c :: e) ++ s) with ("<"%byte :: b :: (h ++ bs ">" ++ (c :: e) ++ s)). rewrite trailer_end_cons2.
        rewrite (beqb_false b "<"%byte) by (apply Hh; left; reflexivity). rewrite andb_false_r. reflexivity. }
    rewrite E2, trailer_end_bytes by (try exact Hh; discriminate). rewrite E1, IH by exact Hs. f_equal. lia.
Qed.

Lemma m_ref_full_lit key s : prefixb key s = false -> m_ref_full key s = None.
Proof. intros H. unfold m_ref_full. apply lit_none in H. rewrite H. reflexivity. Qed.
Lemma m_ref_full_here key w n g r : w <> [] -> white w -> 0 <= n -> 0 <= g ->
  m_ref_full key (key ++ w ++ reference n g ++ r) = Some (key ++ w ++ reference n g).
Proof.
  intros Hnn Hw Hn Hg. unfold m_ref_full, reference. rewrite lit_app. cbn [obind]. rewrite <- !app_assoc.
  rewrite ws1_white; [|exact Hnn|exact Hw|apply digits_head; auto using XrefProofs.decZ_nonnil, decZ_digits, digit_not_ws].
  cbn [obind]. rewrite digits1_app by (auto using XrefProofs.decZ_nonnil, decZ_digits; reflexivity). cbn [obind].
  match goal with |- context [ws1 (bs " " ++ ?x)] => change (bs " " ++ x) with (" "%byte :: x) end.
  rewrite ws1_space by (apply digits_head; auto using XrefProofs.decZ_nonnil, decZ_digits, digit_not_ws). cbn [obind].
  rewrite digits1_app by (auto using XrefProofs.decZ_nonnil, decZ_digits; reflexivity). cbn [obind].
  change (bs " R" ++ r) with (" "%byte :: bs "R" ++ r). rewrite ws1_space by reflexivity. cbn [obind]. rewrite lit_app. cbn [obind]. f_equal.
  change (" "%byte :: decZ g ++ " "%byte :: bs "R" ++ r) with (bs " " ++ decZ g ++ bs " R" ++ r).
  rewrite !app_assoc. rewrite (app_length _ r).
  match goal with |- firstn (length ?a + length r - length r) _ = _ => replace (length a + length r - length r)%nat with (length a) by lia end.
  rewrite firstn_len_app by reflexivity. reflexivity.
Qed.

Lemma trailer_entry key w n g a b : slash_key key -> w <> [] -> white w -> 0 <= n -> 0 <= g -> contains key a = false ->
  def [] (value_of (find (m_ref_full key) ((a ++ key ++ w ++ reference n g ++ b) ++ bs ">>"))) = key ++ w ++ reference n g.
Proof.
  intros (q & Eq & Hq) Hn Hw H0 H1 Ha.
  replace ((a ++ key ++ w ++ reference n g ++ b) ++ bs ">>") with (a ++ key ++ w ++ reference n g ++ b ++ bs ">>") by (rewrite <- !app_assoc; reflexivity).
  erewrite find_first; [reflexivity| |].
  - rewrite Eq in *. cbn [app]. apply (slash_nofire _ q); [apply m_ref_full_lit|exact Hq|exact Ha].
  - apply m_ref_full_here; assumption.
Qed.

Lemma parse_trailer f p w d post : f = p ++ bs "trailer" ++ w ++ bs "<<" ++ d ++ bs ">>" ++ post ->
  white w -> balanced d -> (length d + 2 <= 5000)%nat -> contains (bs "trailer") (d ++ bs ">>" ++ post) = false ->
  exists t, ParsePDFTrailer f = Ok t /\
    (forall a v n g b, d = a ++ bs "/Root" ++ v ++ reference n g ++ b -> contains (bs "/Root") a = false ->
       v <> [] -> white v -> 0 <= n -> 0 <= g -> tRoot t = bs "/Root" ++ v ++ reference n g) /\
    (forall a v n g b, d = a ++ bs "/Info" ++ v ++ reference n g ++ b -> contains (bs "/Info") a = false ->
       v <> [] -> white v -> 0 <= n -> 0 <= g -> tInfo t = bs "/Info" ++ v ++ reference n g).
Proof.
  intros -> Hw Hd Hl Hc. unfold ParsePDFTrailer.
  rewrite (last_trailer_app p _ (d ++ bs ">>" ++ post)) by (apply last_trailer_here; assumption).
  replace (N.to_nat 5000) with (length d + S (S (4998 - length d)))%nat by lia.
  rewrite trailer_end_balanced by (try exact Hd; discriminate).
  change (bs ">>" ++ post) with (">"%byte :: ">"%byte :: post) at 1. rewrite trailer_end_cons2.
  change (beqb ">" "<" && beqb ">" "<") with false. change (beqb ">" ">" && beqb ">" ">") with true. cbv iota.
  assert (firstn (0 + length d + 2) (d ++ bs ">>" ++ post) = d ++ bs ">>") as Ef.
  { rewrite app_assoc. apply firstn_len_app. rewrite app_length. change (length (bs ">>")) with 2%nat. lia. }
  eexists. split; [reflexivity|]. cbn [tRoot tInfo]. rewrite Ef. split; intros a v n g b -> Ha Hv Hvw Hn Hg.
  - apply trailer_entry; try assumption. apply slash_root.
  - apply trailer_entry; try assumption. apply slash_info.
Qed.
