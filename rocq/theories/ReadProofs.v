(** Reading back what the writer wrote (C08). *)
From Verif Require Import WriterModel WriterSpec WriterProofs ParseModel ParseSpec ParseProofs Scan XrefProofs.
Local Open Scope Z_scope.

(* ---------------------------------------------------------------- *)
(** Structure of a written file *)

Lemma write_objs_all (P : bytes -> Prop) objs h pos nums body ps h' :
  write_objs None objs [] h pos nums = (body, ps, h') ->
  P [] -> (forall a b, P a -> P b -> P (a ++ b)) ->
  (forall n o, In n nums -> mget n objs = Some o -> P (obj_text n (body_of None h n o))) -> P body.
Proof.
  intros H H0 Happ. revert h pos body ps h' H. induction nums as [|n nums IH]; intros h pos body ps h' H Hall.
  - cbn [write_objs] in H. injection H as <- <- <-. exact H0.
  - cbn [write_objs] in H. destruct (mget n objs) as [o|] eqn:Eo.
    2:{ eapply IH; [exact H|]. intros; apply Hall; [right|]; assumption. }
    unfold mem in H. cbn [mget] in H.
    destruct (obj_body None h n o) as [bd h1] eqn:Eb. cbv zeta in H.
    destruct (write_objs None objs [] h1 (pos + Z.of_nat (length (obj_text n bd))) nums) as [[rest ps'] h2] eqn:Er.
    injection H as <- <- <-.
    assert (h1 = h) as ->.
    { unfold obj_body in Eb. destruct (oStream o); [|destruct (oContent o)]; injection Eb as _ <-; reflexivity. }
    apply Happ.
    + replace bd with (body_of None h n o) by (unfold body_of; rewrite Eb; reflexivity).
      apply Hall; [left; reflexivity|exact Eo].
    + eapply IH; [exact Er|]. intros; apply Hall; [right|]; assumption.
Qed.

Lemma body_stored w n o : mget n (objects w) = Some o -> stored_text w n (body_of None (dicts w) n o).
Proof.
  intros H. exists o. split; [exact H|]. unfold body_of, obj_body.
  destruct (oStream o) as [s|]; [reflexivity|]. destruct (oContent o); reflexivity.
Qed.

Lemma write_structure deflate order w out :
  is_order order -> useXRefStream w = false -> useObjectStream w = false ->
  fst (Write deflate order None w) = out ->
  exists body ps,
    let w1 := updateCatalogWithOutlines w in
    let hb := pdf_header (pdfVersion w) ++ body in
    out = hb ++ xref_table (nextObjNum w) ps ++ trailer_text w1 (nextObjNum w)
             ++ startxref_text (flen hb) /\
    (forall n, mem n ps = mem n (objects w)) /\
    (forall n p, mget n ps = Some p -> exists t pre post,
        stored_text w1 n t /\ p = flen (pdf_header (pdfVersion w) ++ pre) /\
        body = pre ++ obj_text n t ++ post) /\
    (forall P : bytes -> Prop, P [] -> (forall a b, P a -> P b -> P (a ++ b)) ->
        (forall n t, stored_text w1 n t -> P (obj_text n t)) -> P body).
Proof.
  intros Hord Hx Hs Hout. unfold Write in Hout.
  destruct (update_catalog_fields w) as (Ux & Us & Un & Uv & _).
  pose proof (mkeys_update_catalog w) as Hmem. set (w1 := updateCatalogWithOutlines w) in *.
  rewrite createObjectStreams_off in Hout by (rewrite Us; exact Hs). cbv zeta in Hout.
  rewrite Uv in Hout. remember (pdf_header (pdfVersion w)) as hd eqn:Ehd.
  destruct (write_objs None (objects w1) [] (dicts w1) (Z.of_nat (length hd))
              (sortZ (order (mkeys (objects w1))))) as [[body ps] h] eqn:Ew.
  rewrite Ux, Hx, Un in Hout. cbn [fst] in Hout.
  destruct (write_objs_spec _ _ _ _ _ _ _ _ Ew) as [P1 P2].
  { apply sortZ_nodup. apply (Permutation_NoDup (Permutation_sym (Hord _))). apply mkeys_nodup. }
  { lia. }
  { intros n Hn. rewrite sortZ_in in Hn. apply (Permutation_in n (Hord _)) in Hn.
    apply mkeys_in in Hn. destruct Hn as [v Hv]. congruence. }
  assert (forall n, In n (sortZ (order (mkeys (objects w1)))) <-> mget n (objects w1) <> None) as Hin.
  { intros n. rewrite sortZ_in. split; intros H.
    - apply (Permutation_in n (Hord _)) in H. apply mkeys_in in H. destruct H as [v Hv]. congruence.
    - apply (Permutation_in n (Permutation_sym (Hord _))). apply mkeys_in.
      destruct (mget n (objects w1)) as [v|]; [eauto|congruence]. }
  exists body, ps. cbv zeta. split; [|split; [|split]].
  - rewrite <- Hout. rewrite <- !app_assoc. reflexivity.
  - intros n. specialize (Hmem n). specialize (Hin n). unfold mem.
    destruct (in_dec Z.eq_dec n (sortZ (order (mkeys (objects w1))))) as [Hi|Hi].
    + destruct (P2 n Hi) as (o & hn & pre & post & _ & -> & _). apply Hin, Hmem in Hi.
      destruct (mget n (objects w)); [reflexivity|congruence].
    + rewrite (P1 n Hi). destruct (mget n (objects w)) as [v|]; [|reflexivity].
      exfalso. apply Hi, Hin, Hmem. congruence.
  - intros n p Hp. destruct (in_dec Z.eq_dec n (sortZ (order (mkeys (objects w1))))) as [Hi|Hi].
    2:{ rewrite (P1 n Hi) in Hp. discriminate. }
    destruct (P2 n Hi) as (o & hn & pre & post & Eo & E & Eb & Eh). rewrite E in Hp. injection Hp as <-.
    exists (body_of None hn n o), pre, post. rewrite (Eh eq_refl). split; [apply body_stored; exact Eo|].
    split; [unfold flen; rewrite app_length, Nat2Z.inj_add; reflexivity|]. rewrite (Eh eq_refl) in Eb. exact Eb.
  - intros P H0 Happ Ht. eapply write_objs_all; [exact Ew|exact H0|exact Happ|].
    intros n o _ Ho. apply Ht, body_stored, Ho.
Qed.

(* ---------------------------------------------------------------- *)
(** Keywords cannot start in the generated parts *)

Lemma nostart_decZ_any c p z : is_digit c = false -> c <> "-"%byte -> nostart (c :: p) (decZ z).
Proof.
  intros H1 H2. apply (nostart_class (fun b => is_digit b || beqb b "-")).
  - apply forallb_forall. intros b Hb. apply decZ_bytes in Hb. destruct Hb as [->| ->]; [reflexivity|apply orb_true_r].
  - rewrite H1. apply beqb_neq. exact H2.
Qed.

Definition is_hexU (b : byte) : bool := is_digit b || ((65 <=? b2n b) && (b2n b <=? 70))%N.
Lemma hex_upper_class v : (v < 16)%N -> is_hexU (hex_upper v) = true.
Proof.
  intros H. unfold hex_upper, is_hexU, is_digit. destruct (N.ltb_spec v 10); rewrite b2n_n2b_small by lia; lia.
Qed.
Lemma hexX_class b : forallb is_hexU (hexX b) = true.
Proof.
  induction b as [|c b IH]; [reflexivity|]. unfold hexX in *. cbn [flat_map app forallb].
  pose proof (b2n_bound c). rewrite IH, !hex_upper_class by lia. reflexivity.
Qed.
Lemma nostart_hexX c p b : is_hexU c = false -> nostart (c :: p) (hexX b).
Proof. intros H. apply (nostart_class is_hexU); [apply hexX_class|exact H]. Qed.

Lemma nostart_flat_map {A} q (f : A -> bytes) l : (forall x, In x l -> nostart q (f x)) -> nostart q (flat_map f l).
Proof.
  induction l as [|x l IH]; intros H; [apply nostart_nil|]. cbn [flat_map]. apply nostart_app.
  - apply H. left. reflexivity.
  - apply IH. intros y Hy. apply H. right. exact Hy.
Qed.

Lemma nostart_skipn q a k : nostart q a -> nostart q (skipn k a).
Proof.
  intros H b j Hj. rewrite skipn_length in Hj. specialize (H b (j + k)%nat ltac:(lia)).
  rewrite skipn_app_l by (rewrite skipn_length; lia). rewrite skipn_skipn.
  rewrite skipn_app_l in H by lia. exact H.
Qed.

Lemma nostart_contains q a : q <> [] -> nostart q a -> contains q a = false.
Proof.
  intros Hq H. rewrite <- (app_nil_r a), contains_nostart by exact H.
  destruct q; [congruence|reflexivity].
Qed.

(** The constant pieces of the generated text. *)
Definition pieces : list bytes :=
  [bs " 0 obj"; nl; bs "endobj"; bs "xref"; bs "0 "; bs "0000000000 65535 f "; bs " 00000 n ";
   bs "0000000000 00001 f "; bs "trailer"; bs "<<"; bs "/Size "; bs "/Root "; bs "/Info "; bs " 0 R";
   bs "/ID [<"; bs "><"; bs ">]"; bs ">>"].
Definition keyword (q : bytes) : bool :=
  match q with
  | [] => false
  | c :: _ => negb (is_hexU c) && negb (beqb c "-")
  end && forallb (nostartb q) pieces.

Lemma keyword_split q : keyword q = true ->
  exists c p, q = c :: p /\ is_hexU c = false /\ is_digit c = false /\ c <> "-"%byte.
Proof.
  unfold keyword. destruct q as [|c p]; [discriminate|]. intros H. exists c, p.
  apply andb_true_iff in H. destruct H as [H _]. apply andb_true_iff in H. destruct H as [H1 H2].
  rewrite negb_true_iff in H1, H2. repeat split; auto.
  - unfold is_hexU in H1. apply orb_false_iff in H1. tauto.
  - apply beqb_neq. exact H2.
Qed.

Lemma keyword_piece q s : keyword q = true -> In s pieces -> nostart q s.
Proof.
  intros H Hs. unfold keyword in H. apply andb_true_iff in H. destruct H as [_ H].
  rewrite forallb_forall in H. apply nostartb_ok, H, Hs.
Qed.

Ltac ns H :=
  lazymatch goal with
  | |- nostart _ [] => apply nostart_nil
  | |- nostart _ (_ ++ _) => apply nostart_app; ns H
  | |- nostart _ (decZ _) => apply nostart_decZ_any; assumption
  | |- nostart _ (hexX _) => apply nostart_hexX; assumption
  | |- nostart _ (dec_pad _ _) => apply nostart_dec_pad; assumption
  | |- nostart _ (flat_map _ _) => apply nostart_flat_map; intros ? _
  | |- _ => try (apply (keyword_piece _ _ H); unfold pieces; repeat (first [left; reflexivity | right]); fail)
  end.

Lemma table_nostart q next ps : keyword q = true -> nostart q (xref_table next ps).
Proof.
  intros H. destruct (keyword_split q H) as (c & p & -> & H1 & H2 & H3).
  unfold xref_table. ns H. unfold table_entry. destruct (mget x ps); ns H.
Qed.

Lemma trailer_nostart q w next : keyword q = true -> encryptRef w = None -> nostart q (trailer_text w next).
Proof.
  intros H He. destruct (keyword_split q H) as (c & p & -> & H1 & H2 & H3).
  unfold trailer_text. rewrite He. ns H.
  - destruct (rootRef w); unfold ref; ns H.
  - destruct (infoRef w); unfold ref; ns H.
  - destruct (fileID w); ns H.
Qed.

(** The dictionary of the trailer. *)
Lemma trailer_text_split w next : exists t, trailer_text w next = bs "trailer" ++ nl ++ bs "<<" ++ t.
Proof. eexists. unfold trailer_text. reflexivity. Qed.

Lemma obj_nostart q n t : keyword q = true -> ~ In x0a q -> contains q t = false -> nostart q (obj_text n t).
Proof.
  intros H Hq Ht. pose proof H as H'. destruct (keyword_split q H) as (c & p & -> & H1 & H2 & H3). unfold obj_text.
  replace (decZ n ++ bs " 0 obj" ++ nl ++ t ++ nl ++ bs "endobj" ++ nl)
    with (decZ n ++ bs " 0 obj" ++ nl ++ (t ++ nl) ++ bs "endobj" ++ nl) by (rewrite <- !app_assoc; reflexivity).
  apply nostart_app; [ns H|]. apply nostart_app; [ns H|]. apply nostart_app; [ns H|].
  apply nostart_app; [|ns H]. apply nostart_sep; [exact Ht|exact Hq|discriminate].
Qed.

Lemma header_nostart q v : keyword q = true -> ~ In x0a q -> contains q v = false ->
  nostartb q (bs "%PDF-") = true -> nostartb q [x25; xe2; xe3; xcf; xd3; x0a] = true -> nostart q (pdf_header v).
Proof.
  intros H Hq Hv Ha Hb. unfold pdf_header.
  apply nostart_app; [apply nostartb_ok; exact Ha|]. rewrite app_assoc.
  apply nostart_app; [apply nostart_sep; [exact Hv|exact Hq|]|apply nostartb_ok; exact Hb].
  destruct (keyword_split q H) as (c & p & -> & _). discriminate.
Qed.

(* ---------------------------------------------------------------- *)
(** The last startxref *)

Lemma positions_end p a b : p <> [] ->
  (forall j, (0 < j)%nat -> prefixb p (skipn j (p ++ b)) = false) ->
  positions_of p (a ++ p ++ b) = filter (fun i => prefixb p (skipn i (a ++ p ++ b))) (seq 0 (length a)) ++ [length a].
Proof.
  intros Hp Hb. unfold positions_of.
  assert (exists k, length (a ++ p ++ b) = (length a + S k)%nat) as [k Hk].
  { exists (length p + length b - 1)%nat. rewrite !app_length. destruct p; [congruence|]. cbn [length]. lia. }
  rewrite Hk, seq_app, filter_app. f_equal. cbn [seq filter Nat.add].
  rewrite skipn_app_exact, prefixb_app. f_equal.
  assert (forall l, (forall i, In i l -> (length a < i)%nat) ->
    filter (fun i => prefixb p (skipn i (a ++ p ++ b))) l = []) as Hl.
  { induction l as [|i l IH]; intros Hi; [reflexivity|]. cbn [filter].
    rewrite skipn_app_r by (pose proof (Hi i (or_introl eq_refl)); lia).
    rewrite Hb by (pose proof (Hi i (or_introl eq_refl)); lia). apply IH. intros; apply Hi; right; assumption. }
  apply Hl. intros i Hi. apply in_seq in Hi. lia.
Qed.

Lemma eof_tail j : (0 < j)%nat -> prefixb (bs "%%EOF") (skipn j (bs "%%EOF" ++ nl)) = false.
Proof. intros H. do 7 (destruct j as [|j]; [lia || reflexivity|]). reflexivity. Qed.

Lemma sub_app a b e i : e = (length a + length b)%nat -> (i <= length a)%nat -> forall c,
  sub i e (a ++ b ++ c) = skipn i a ++ b.
Proof.
  intros -> Hi c. unfold sub. rewrite skipn_app_l by exact Hi. rewrite app_assoc.
  apply firstn_len_app. rewrite app_length, skipn_length. lia.
Qed.

Definition sx_line (x : Z) : bytes := bs "startxref" ++ nl ++ decZ x ++ nl.

Lemma m_startxref_lit s : prefixb (bs "startxref") s = false -> m_startxref s = None.
Proof. intros H. unfold m_startxref. rewrite (proj2 (lit_none _ _) H). reflexivity. Qed.

Lemma m_startxref_here x r : 0 <= x -> m_startxref (sx_line x ++ r) = Some (decZ x).
Proof.
  intros Hx. unfold m_startxref, sx_line. rewrite <- !app_assoc, lit_app. cbn [obind].
  change (nl ++ decZ x ++ nl ++ r) with (x0a :: decZ x ++ nl ++ r).
  rewrite ws1_nl; [cbn [obind]|apply digits_head; [apply decZ_nonnil|apply decZ_digits|apply digit_not_ws]; exact Hx].
  rewrite digits1_app; [reflexivity|apply decZ_nonnil|apply decZ_digits|reflexivity]; exact Hx.
Qed.

Lemma atoi_decZ x : 0 <= x < 2 ^ 63 -> atoi (decZ x) = Some x.
Proof.
  intros H. rewrite decZ_nonneg by lia. rewrite atoi_dec; [f_equal; lia|].
  unfold int64_max. change (2 ^ 63) with 9223372036854775808 in H. lia.
Qed.

Lemma startxref_text_split x : startxref_text x = sx_line x ++ bs "%%EOF" ++ nl.
Proof. unfold startxref_text, sx_line. rewrite <- !app_assoc. reflexivity. Qed.

Lemma sx_line_length x : 0 <= x < 2 ^ 63 -> (length (sx_line x) <= 30)%nat.
Proof.
  intros H. unfold sx_line. rewrite !app_length. pose proof (decZ_length63 x H).
  change (length (bs "startxref")) with 9%nat. change (length nl) with 1%nat. lia.
Qed.

Lemma startxref_before_end a x : 0 <= x < 2 ^ 63 -> nostart (bs "startxref") a ->
  startxref_before (a ++ startxref_text x) (length a + length (sx_line x)) = Some (decZ x).
Proof.
  intros Hx Ha. unfold startxref_before. rewrite startxref_text_split.
  pose proof (sx_line_length x Hx).
  rewrite (sub_app a (sx_line x)) by (try reflexivity; lia).
  assert (nofire m_startxref (skipn (length a + length (sx_line x) - 100) a)) as Hn.
  { eapply nostart_nofire; [apply m_startxref_lit|]. apply nostart_skipn. exact Ha. }
  rewrite (find_at m_startxref _ (sx_line x) (decZ x) Hn); [reflexivity|].
  rewrite <- (app_nil_r (sx_line x)). apply m_startxref_here. lia.
Qed.

Lemma last_eof a x : exists l, FindAllEOFMarkers (a ++ startxref_text x) = l ++ [(length a + length (sx_line x))%nat] /\
  (nostart (bs "%%EOF") a -> l = []).
Proof.
  rewrite eof_positions, startxref_text_split.
  replace (a ++ sx_line x ++ bs "%%EOF" ++ nl) with ((a ++ sx_line x) ++ bs "%%EOF" ++ nl) by (rewrite <- app_assoc; reflexivity).
  rewrite positions_end by (try discriminate; apply eof_tail). eexists. rewrite app_length. split; [reflexivity|].
  intros Ha.
  assert (nostart (bs "%%EOF") (a ++ sx_line x)) as Hn.
  { apply nostart_app; [exact Ha|]. unfold sx_line. apply nostart_app; [apply nostartb_ok; reflexivity|].
    apply nostart_app; [apply nostartb_ok; reflexivity|]. apply nostart_app; [|apply nostartb_ok; reflexivity].
    apply nostart_decZ_any; [reflexivity|discriminate]. }
  assert (forall l, (forall i, In i l -> (i < length (a ++ sx_line x))%nat) ->
    filter (fun i => prefixb (bs "%%EOF") (skipn i ((a ++ sx_line x) ++ bs "%%EOF" ++ nl))) l = []) as Hl.
  { induction l as [|i l IH]; intros Hi; [reflexivity|]. cbn [filter].
    rewrite Hn by (apply Hi; left; reflexivity). apply IH. intros; apply Hi; right; assumption. }
  rewrite <- app_length. apply Hl. intros i Hi. apply in_seq in Hi. lia.
Qed.

Lemma last_startxref a x : 0 <= x < 2 ^ 63 -> nostart (bs "startxref") a ->
  findLastStartXRef (a ++ startxref_text x) = Ok x.
Proof.
  intros Hx Ha. unfold findLastStartXRef. destruct (last_eof a x) as (l & -> & _).
  rewrite rev_app_distr. cbn [rev app]. rewrite startxref_before_end by assumption.
  rewrite atoi_decZ by exact Hx. reflexivity.
Qed.

(* ---------------------------------------------------------------- *)
(** The lines of a written table *)

Definition entry_line (ps : zmap Z) (i : Z) : bytes :=
  match mget i ps with
  | Some p => dec_pad 10 (Z.to_N p) ++ bs " 00000 n "
  | None => bs "0000000000 00001 f "
  end.
Lemma table_entry_line ps i : table_entry ps i = entry_line ps i ++ nl.
Proof. unfold table_entry, entry_line. destruct (mget i ps); rewrite <- ?app_assoc; reflexivity. Qed.

Lemma entry_line_no_nl ps i : ~ In x0a (entry_line ps i).
Proof.
  unfold entry_line. destruct (mget i ps) as [p|].
  - intros H. apply in_app_or in H. destruct H as [H|H].
    + pose proof (dec_pad_digits 10 (Z.to_N p)) as Hd. rewrite forallb_forall in Hd. specialize (Hd _ H). discriminate.
    + cbn in H. decompose [or] H; try discriminate; contradiction.
  - intros H. cbn in H. decompose [or] H; try discriminate; contradiction.
Qed.

Lemma split_entries ps l s :
  split_on x0a (flat_map (table_entry ps) l ++ s) = map (entry_line ps) l ++ split_on x0a s.
Proof.
  induction l as [|i l IH]; [reflexivity|]. cbn [flat_map map app].
  rewrite table_entry_line, <- !app_assoc. change (nl ++ flat_map (table_entry ps) l ++ s) with (x0a :: flat_map (table_entry ps) l ++ s).
  rewrite split_on_line by apply entry_line_no_nl. rewrite IH. reflexivity.
Qed.

Lemma fields_entry f d :
  d <> [] -> (forall b, In b d -> f b = false) -> f " "%byte = true -> f "0"%byte = false -> f "n"%byte = false ->
  fields f (d ++ bs " 00000 n ") = [d; bs "00000"; bs "n"] /\ fields f (d ++ bs " 00000 n") = [d; bs "00000"; bs "n"].
Proof.
  intros H1 H2 Hs H0 Hn.
  assert (forall b, In b (bs "00000") -> f b = false) as Hz.
  { intros b Hb. cbn in Hb. decompose [or] Hb; subst; try assumption; contradiction. }
  assert (forall b, In b (bs "n") -> f b = false) as Hnn.
  { intros b Hb. cbn in Hb. decompose [or] Hb; subst; try assumption; contradiction. }
  split.
  - change (bs " 00000 n ") with (" "%byte :: bs "00000" ++ " "%byte :: bs "n" ++ " "%byte :: []).
    rewrite !fields_word by (assumption || discriminate). reflexivity.
  - change (bs " 00000 n") with (" "%byte :: bs "00000" ++ " "%byte :: bs "n").
    rewrite !fields_word by (assumption || discriminate). rewrite fields_last by (assumption || discriminate). reflexivity.
Qed.

Lemma digits_no f d : forallb is_digit d = true -> (forall b, is_digit b = true -> f b = false) -> forall b, In b d -> f b = false.
Proof. intros Hd Hf b Hb. apply Hf. rewrite forallb_forall in Hd. apply Hd, Hb. Qed.

Lemma drop_while_stop f s : match s with [] => True | b :: _ => f b = false end -> drop_while f s = s.
Proof. destruct s as [|b s]; [reflexivity|]. cbn [drop_while]. intros ->. reflexivity. Qed.

Lemma trim_entry d : d <> [] -> forallb is_digit d = true -> trim is_ws (d ++ bs " 00000 n ") = d ++ bs " 00000 n".
Proof.
  intros Hn Hd. unfold trim. rewrite drop_while_stop by (apply digits_head; [exact Hn|exact Hd|apply digit_not_ws]).
  change (bs " 00000 n ") with (bs " 00000 " ++ ["n"%byte] ++ [" "%byte]).
  rewrite !app_assoc. rewrite rtrim_tidy by reflexivity. rewrite <- app_assoc. reflexivity.
Qed.

Lemma classify_entry_inc p :
  classify is_ws (trim is_ws (dec_pad 10 p ++ bs " 00000 n ")) = XEntry (dec_pad 10 p) (bs "00000") (bs "n").
Proof.
  unfold classify. rewrite trim_entry by (apply dec_pad_nonnil || apply dec_pad_digits).
  destruct (fields_entry is_ws (dec_pad 10 p)) as [_ ->]; try reflexivity; [apply dec_pad_nonnil|].
  apply digits_no; [apply dec_pad_digits|apply digit_not_ws].
Qed.

Lemma classify_entry_all p :
  classify is_space (dec_pad 10 p ++ bs " 00000 n ") = XEntry (dec_pad 10 p) (bs "00000") (bs "n").
Proof.
  unfold classify.
  destruct (fields_entry is_space (dec_pad 10 p)) as [-> _]; try reflexivity; [apply dec_pad_nonnil|].
  apply digits_no; [apply dec_pad_digits|apply digit_not_space].
Qed.

Lemma classify_sub f n : 0 <= n < 2 ^ 63 -> (forall b, is_digit b = true -> f b = false) -> f " "%byte = true ->
  classify f (bs "0 " ++ decZ n) = XSub 0.
Proof.
  intros Hn Hf Hs. unfold classify. change (bs "0 " ++ decZ n) with (bs "0" ++ " "%byte :: decZ n).
  rewrite fields_word; [|discriminate| |exact Hs].
  - rewrite fields_last; [|apply decZ_nonnil; lia|apply digits_no; [apply decZ_digits; lia|exact Hf]].
    rewrite atoi_decZ by exact Hn. reflexivity.
  - apply digits_no; [reflexivity|exact Hf].
Qed.

Lemma atoi_pad p : 0 <= p < 2 ^ 63 -> atoi (dec_pad 10 (Z.to_N p)) = Some p.
Proof.
  intros H. rewrite atoi_dec_pad; [f_equal; lia|].
  unfold int64_max. change (2 ^ 63) with 9223372036854775808 in H. lia.
Qed.

Lemma mget_app {A} n (a b : zmap A) : mget n (a ++ b) = match mget n a with Some v => Some v | None => mget n b end.
Proof.
  induction a as [|[k v] a IH]; [reflexivity|]. cbn [app mget]. destruct (n =? k); [reflexivity|apply IH].
Qed.

Definition from_to (k : Z) (m : nat) : list Z := map (fun i => k + Z.of_nat i) (seq 0 m).
Lemma from_to_S k m : from_to k (S m) = k :: from_to (k + 1) m.
Proof.
  unfold from_to. cbn [seq map]. f_equal; [lia|]. rewrite <- seq_shift, map_map. apply map_ext. intros; lia.
Qed.
Lemma range1_from_to n : range1 n = from_to 1 (Z.to_nat (n - 1)).
Proof.
  unfold range1, from_to. rewrite <- seq_shift, map_map. apply map_ext. intros; lia.
Qed.

Lemma tl_entry p rest k : 0 <= p < 2 ^ 63 ->
  table_lines ((dec_pad 10 (Z.to_N p) ++ bs " 00000 n ") :: rest) (Some k) = table_lines rest (Some (k + 1)) ++ [(k, p)].
Proof.
  intros Hp. cbn [table_lines]. rewrite classify_entry_inc, (atoi_pad p Hp).
  rewrite trim_entry by (apply dec_pad_nonnil || apply dec_pad_digits).
  pose proof (dec_pad_nonnil 10 (Z.to_N p)) as Hnn. pose proof (dec_pad_digits 10 (Z.to_N p)) as Hdd.
  destruct (dec_pad 10 (Z.to_N p)) as [|c r]; [congruence|]. cbn [app].
  cbn [forallb] in Hdd. apply andb_true_iff in Hdd. destruct Hdd as [Hc _].
  assert (prefixb (bs "trailer") (c :: r ++ bs " 00000 n") = false) as ->; [|reflexivity].
  change (bs "trailer") with ("t"%byte :: bs "railer"). cbn [prefixb].
  destruct (beqb "t" c) eqn:Eb; [|reflexivity]. apply beqb_eq in Eb. subst c. discriminate.
Qed.

Lemma tl_free rest k : table_lines (bs "0000000000 00001 f " :: rest) (Some k) = table_lines rest (Some (k + 1)).
Proof. reflexivity. Qed.

Lemma tla_entry p rest k : 0 <= p < 2 ^ 63 ->
  table_lines_all ((dec_pad 10 (Z.to_N p) ++ bs " 00000 n ") :: rest) (Some k) = table_lines_all rest (Some (k + 1)) ++ [(k, p)].
Proof. intros Hp. cbn [table_lines_all]. rewrite classify_entry_all, (atoi_pad p Hp). reflexivity. Qed.

Lemma tla_free rest k : table_lines_all (bs "0000000000 00001 f " :: rest) (Some k) = table_lines_all rest (Some (k + 1)).
Proof. reflexivity. Qed.

(** Both readers of a table. *)
Lemma lines_entries (tl : list bytes -> option Z -> zmap Z) ps rest :
  (forall i p, mget i ps = Some p -> 0 <= p < 2 ^ 63) ->
  (forall cur, tl rest cur = []) ->
  (forall p rest k, 0 <= p < 2 ^ 63 ->
     tl ((dec_pad 10 (Z.to_N p) ++ bs " 00000 n ") :: rest) (Some k) = tl rest (Some (k + 1)) ++ [(k, p)]) ->
  (forall rest k, tl (bs "0000000000 00001 f " :: rest) (Some k) = tl rest (Some (k + 1))) ->
  forall m k n, mget n (tl (map (entry_line ps) (from_to k m) ++ rest) (Some k)) =
    if (k <=? n) && (n <? k + Z.of_nat m) then mget n ps else None.
Proof.
  intros Hps Hr H1 H2 m. induction m as [|m IH]; intros k n.
  - cbn [from_to seq map app]. rewrite Hr. destruct (Z.leb_spec k n), (Z.ltb_spec n (k + Z.of_nat 0)); cbn [andb mget]; try reflexivity; lia.
  - rewrite from_to_S. cbn [map app].
    specialize (IH (k + 1) n).
    assert (((k <=? n) && (n <? k + Z.of_nat (S m)))%bool =
            ((n =? k) || ((k + 1 <=? n) && (n <? k + 1 + Z.of_nat m)))%bool) as -> by lia.
    unfold entry_line at 1. destruct (mget k ps) as [p|] eqn:E.
    + rewrite H1 by (apply (Hps k p E)). rewrite mget_app, IH. cbn [mget].
      destruct (Z.eqb_spec n k) as [->|Hne]; cbn [orb].
      * replace (k + 1 <=? k) with false by lia. cbn [andb]. rewrite E. reflexivity.
      * destruct ((k + 1 <=? n) && (n <? k + 1 + Z.of_nat m)); [destruct (mget n ps)|]; reflexivity.
    + rewrite H2, IH. destruct (Z.eqb_spec n k) as [->|Hne]; cbn [orb]; [|reflexivity].
      replace (k + 1 <=? k) with false by lia. cbn [andb]. rewrite E. reflexivity.
Qed.

Definition small_table (ps : zmap Z) : Prop := forall i p, mget i ps = Some p -> 0 <= p < 10 ^ 10.

Lemma small_63 ps : small_table ps -> forall i p, mget i ps = Some p -> 0 <= p < 2 ^ 63.
Proof.
  intros H i p E. specialize (H i p E). change (10 ^ 10) with 10000000000 in H.
  change (2 ^ 63) with 9223372036854775808. lia.
Qed.

Lemma table_entry_20 ps i : small_table ps -> length (table_entry ps i) = 20%nat.
Proof.
  intros H. unfold table_entry. destruct (mget i ps) as [p|] eqn:E; [|reflexivity].
  rewrite !app_length, dec_pad_length; [reflexivity| |lia]. specialize (H i p E).
  change (10 ^ 10) with 10000000000 in H. change (10 ^ N.of_nat 10)%N with 10000000000%N. lia.
Qed.

Lemma flat_map_20 {A} (f : A -> bytes) k l : (forall x, length (f x) = k) -> length (flat_map f l) = (k * length l)%nat.
Proof. intros H. induction l as [|x l IH]; [cbn; lia|]. cbn [flat_map length]. rewrite app_length, H, IH. lia. Qed.

Lemma table_length next ps : 1 <= next -> small_table ps ->
  Z.of_nat (length (xref_table next ps)) = 8 + Z.of_nat (length (decZ next)) + 20 * next.
Proof.
  intros Hn H. unfold xref_table. rewrite !app_length.
  rewrite (flat_map_20 _ 20) by (intros; apply table_entry_20; exact H).
  unfold range1. rewrite map_length, seq_length.
  change (length (bs "xref")) with 4%nat. change (length nl) with 1%nat. change (length (bs "0 ")) with 2%nat.
  change (length (bs "0000000000 65535 f ")) with 19%nat. lia.
Qed.

Lemma table_split next ps s : 0 <= next -> split_on x0a (xref_table next ps ++ s) =
  bs "xref" :: (bs "0 " ++ decZ next) :: bs "0000000000 65535 f " :: map (entry_line ps) (range1 next) ++ split_on x0a s.
Proof.
  intros Hn.
  replace (xref_table next ps ++ s) with
    (bs "xref" ++ x0a :: (bs "0 " ++ decZ next) ++ x0a :: bs "0000000000 65535 f " ++ x0a :: flat_map (table_entry ps) (range1 next) ++ s)
    by (unfold xref_table, nl; rewrite <- !app_assoc; reflexivity).
  rewrite split_on_line by (intros H; cbn in H; decompose [or] H; try discriminate; contradiction).
  rewrite split_on_line.
  2:{ intros H. apply in_app_or in H. destruct H as [H|H]; [cbn in H; decompose [or] H; try discriminate; contradiction|].
      pose proof (decZ_digits next Hn) as Hd. rewrite forallb_forall in Hd. specialize (Hd _ H). discriminate. }
  rewrite split_on_line by (intros H; cbn in H; decompose [or] H; try discriminate; contradiction).
  rewrite split_entries. reflexivity.
Qed.

Lemma tl_header next rest cur : 0 <= next < 2 ^ 63 ->
  table_lines ((bs "0 " ++ decZ next) :: bs "0000000000 65535 f " :: rest) cur = table_lines rest (Some 1).
Proof.
  intros Hn. cbn [table_lines].
  assert (trim is_ws (bs "0 " ++ decZ next) = bs "0 " ++ decZ next) as ->.
  { unfold trim. rewrite drop_while_stop by reflexivity.
    assert (exists u b, bs "0 " ++ decZ next = u ++ [b] /\ is_ws b = false) as (u & b & E & Hb).
    { destruct (exists_last (decZ_nonnil next ltac:(lia))) as (u & b & Eu).
      exists (bs "0 " ++ u), b. rewrite Eu, app_assoc. split; [reflexivity|]. apply digit_not_ws.
      pose proof (decZ_digits next ltac:(lia)) as Hd. rewrite forallb_forall in Hd. apply Hd. rewrite Eu. apply in_or_app. right. left. reflexivity. }
    rewrite E. rewrite <- (app_nil_r (u ++ [b])) at 1. apply rtrim_tidy; [exact Hb|reflexivity]. }
  rewrite classify_sub by (try exact Hn; try reflexivity; apply digit_not_ws). reflexivity.
Qed.

Lemma tla_header next rest cur : 0 <= next < 2 ^ 63 ->
  table_lines_all ((bs "0 " ++ decZ next) :: bs "0000000000 65535 f " :: rest) cur = table_lines_all rest (Some 1).
Proof.
  intros Hn. cbn [table_lines_all].
  rewrite classify_sub by (try exact Hn; try reflexivity; apply digit_not_space). reflexivity.
Qed.

(** The window of 10000 bytes holds tables up to 499 entries. *)
Lemma take_table next ps s : 1 <= next <= 499 -> small_table ps ->
  exists k, take 10000 (xref_table next ps ++ bs "trailer" ++ nl ++ s) = xref_table next ps ++ bs "trailer" ++ nl ++ firstn k s.
Proof.
  intros Hn Hp. pose proof (table_length next ps ltac:(lia) Hp) as Hl.
  assert (length (decZ next) <= 3)%nat as Hd by (apply decZ_length; lia).
  rewrite take_app_l by lia. rewrite take_app_l by (change (length (bs "trailer")) with 7%nat; lia).
  rewrite take_app_l by (change (length (bs "trailer")) with 7%nat; change (length nl) with 1%nat; lia).
  eexists. unfold take. reflexivity.
Qed.

Lemma trad_objects f a next ps s n : 1 <= next <= 499 -> small_table ps ->
  f = a ++ xref_table next ps ++ bs "trailer" ++ nl ++ s ->
  mget n (xsObjects (parseTraditionalxrefSection f (flen a))) =
    if (1 <=? n) && (n <? next) then mget n ps else None.
Proof.
  intros Hn Hp ->. unfold parseTraditionalxrefSection. cbn [xsObjects].
  unfold from, flen. rewrite Nat2Z.id, skipn_app_exact.
  destruct (take_table next ps s Hn Hp) as [k ->].
  rewrite table_split by lia. change (bytes_eqb (trim is_ws (bs "xref")) (bs "xref")) with true. cbv iota.
  rewrite tl_header by lia. rewrite range1_from_to.
  rewrite (lines_entries table_lines).
  - replace (1 + Z.of_nat (Z.to_nat (next - 1))) with next by lia. reflexivity.
  - apply small_63. exact Hp.
  - intros cur. change (bs "trailer" ++ nl ++ firstn k s) with (bs "trailer" ++ x0a :: firstn k s).
    rewrite split_on_line by (intros H; cbn in H; decompose [or] H; try discriminate; contradiction). reflexivity.
  - intros; apply tl_entry; assumption.
  - intros; apply tl_free.
Qed.

(* ---------------------------------------------------------------- *)
(** No /Prev *)

Ltac nsd :=
  lazymatch goal with
  | |- nostart _ [] => apply nostart_nil
  | |- nostart _ (_ ++ _) => apply nostart_app; nsd
  | |- nostart _ (decZ _) => apply nostart_decZ_any; [reflexivity|discriminate]
  | |- nostart _ (hexX _) => apply nostart_hexX; reflexivity
  | |- nostart _ (dec_pad _ _) => apply nostart_dec_pad; reflexivity
  | |- nostart _ (flat_map _ _) => apply nostart_flat_map; intros ? _
  | |- _ => try (apply nostartb_ok; reflexivity)
  end.

Lemma keyword_trailer_table next ps : nostart (bs "trailer") (xref_table next ps).
Proof.
  unfold xref_table. nsd. unfold table_entry. destruct (mget x ps); nsd.
Qed.

Lemma startxref_text_nostart q x : keyword q = true -> nostartb q (bs "startxref") = true -> nostartb q (bs "%%EOF") = true ->
  nostart q (startxref_text x).
Proof.
  intros H Ha Hb. destruct (keyword_split q H) as (c & p & -> & H1 & H2 & H3). unfold startxref_text. ns H.
  - apply nostartb_ok. exact Ha.
  - apply nostartb_ok. exact Hb.
Qed.

Lemma nostart_tail_l q a b : nostart q (a ++ b) -> nostart q b.
Proof.
  intros H c j Hj. specialize (H c (length a + j)%nat). rewrite app_length in H. specialize (H ltac:(lia)).
  rewrite <- app_assoc, skipn_app_r in H by lia. replace (length a + j - length a)%nat with j in H by lia. exact H.
Qed.

Lemma lt_app (a b : bytes) : b <> [] -> Z.of_nat (length (a ++ b)) <=? Z.of_nat (length a) = false.
Proof. intros H. rewrite app_length. destruct b; [congruence|]. cbn [length]. lia. Qed.

Lemma no_prev f a next ps w x : f = a ++ xref_table next ps ++ trailer_text w next ++ startxref_text x ->
  encryptRef w = None -> findPrevOffset f (flen a) = Err.
Proof.
  intros -> He. unfold findPrevOffset, from, flen. rewrite Nat2Z.id, skipn_app_exact.
  assert (Z.of_nat (length (a ++ xref_table next ps ++ trailer_text w next ++ startxref_text x)) <=? Z.of_nat (length a) = false) as ->.
  { apply lt_app. unfold xref_table. discriminate. }
  assert (prefixb (bs "xref") (xref_table next ps ++ trailer_text w next ++ startxref_text x) = true) as ->.
  { unfold xref_table. rewrite <- !app_assoc. apply prefixb_app. }
  assert (nostart (bs "/Prev") (trailer_text w next)) as Hn by (apply trailer_nostart; [reflexivity|exact He]).
  assert (nostart (bs "/Prev") (startxref_text x)) as Hn2 by (apply startxref_text_nostart; reflexivity).
  destruct (trailer_text_split w next) as [t Et]. rewrite Et in *.
  unfold trailer_dict. rewrite <- app_assoc.
  rewrite index_at by apply keyword_trailer_table. cbn [obind].
  rewrite skipn_app_r by lia.
  replace (length (xref_table next ps) + 7 - length (xref_table next ps))%nat with 7%nat by lia.
  change (skipn 7 (bs "trailer" ++ (nl ++ bs "<<" ++ t) ++ startxref_text x)) with (nl ++ bs "<<" ++ t ++ startxref_text x).
  rewrite index_at by (apply nostartb_ok; reflexivity). cbn [obind].
  rewrite skipn_app_exact.
  rewrite (find_nolit (m_key (bs "/Prev")) (bs "/Prev")); [reflexivity|apply m_key_lit|].
  apply contains_firstn. apply nostart_contains; [discriminate|].
  rewrite app_assoc. apply nostart_app; [|exact Hn2].
  apply (nostart_tail_l _ (bs "trailer" ++ nl)). rewrite <- app_assoc. exact Hn.
Qed.

(* ---------------------------------------------------------------- *)
(** One object *)

Lemma index_obj_header n s : 0 <= n -> index (bs "obj") (decZ n ++ bs " 0 obj" ++ s) = Some (length (decZ n) + 3)%nat.
Proof.
  intros Hn. change (bs " 0 obj" ++ s) with (bs " 0 " ++ bs "obj" ++ s). rewrite app_assoc.
  rewrite index_at; [rewrite app_length; reflexivity|].
  apply nostart_app; [apply nostart_decZ; [exact Hn|reflexivity]|apply nostartb_ok; reflexivity].
Qed.

Lemma index_end p a c : contains p a = true -> ~ In c p -> forall b, index p (a ++ c :: b) = index p a.
Proof.
  intros Hc Hn b. unfold contains in Hc. destruct (index p a) as [i|] eqn:E; [|discriminate].
  apply index_some in E. destruct E as (E1 & E2 & E3). apply index_some. repeat split.
  - rewrite skipn_app_l by exact E2. rewrite prefixb_sep by exact Hn. exact E1.
  - rewrite app_length. lia.
  - intros j Hj. rewrite skipn_app_l by lia. rewrite prefixb_sep by exact Hn. apply E3. exact Hj.
Qed.

Lemma suffix_last (s : bytes) b : suffixb [b] (s ++ [b]) = true.
Proof.
  unfold suffixb. rewrite app_length. cbn [length]. replace (length s + 1 - 1)%nat with (length s) by lia.
  rewrite skipn_app_exact, bytes_eqb_refl. assert ((1 <=? length s + 1)%nat = true) as -> by (apply Nat.leb_le; lia). reflexivity.
Qed.

Lemma endstream_suffix (t : bytes) : index (bs "endstream") t = Some (length t - 9)%nat -> (9 <= length t)%nat /\ suffixb [x0a] t = false.
Proof.
  intros H. pose proof (index_bound _ _ _ H) as Hb. change (length (bs "endstream")) with 9%nat in Hb.
  pose proof (index_split _ _ _ H) as Hs. change (length (bs "endstream")) with 9%nat in Hs.
  replace (length t - 9 + 9)%nat with (length t) in Hs by lia. rewrite skipn_all, app_nil_r in Hs.
  split; [lia|]. rewrite Hs. unfold suffixb. rewrite app_length. change (length (bs "endstream")) with 9%nat. cbn [length].
  rewrite skipn_app_r by lia.
  replace (length (firstn (length t - 9) t) + 9 - 1 - length (firstn (length t - 9) t))%nat with 8%nat by lia.
  apply andb_false_r.
Qed.

Lemma take_blank_one t s : match t with [] => True | b :: _ => is_blank b = false end -> t <> [] ->
  take_while is_blank (x0a :: t ++ s) = [x0a].
Proof. intros H Hn. destruct t as [|b t]; [congruence|]. cbn [app take_while]. change (is_blank x0a) with true. cbv iota. rewrite H. reflexivity. Qed.

Lemma read_object_clean n g t rest : 0 <= n -> readable t -> decZ g = bs "0" ->
  read_object None n g (obj_text n t ++ rest) = Ok (object_text n t).
Proof.
  intros Hn (R1 & R2 & R3 & R4 & R5) Hg. unfold read_object.
  set (H := decZ n ++ bs " 0 obj" ++ nl).
  assert (obj_text n t ++ rest = (H ++ t ++ nl) ++ bs "endobj" ++ nl ++ rest) as ED.
  { unfold obj_text, H. rewrite <- !app_assoc. reflexivity. }
  rewrite ED.
  assert (nostart (bs "endobj") (H ++ t ++ nl)) as Hns.
  { apply nostart_app; [|apply nostart_sep; [exact R1| |discriminate]].
    - unfold H. apply nostart_app; [apply nostart_decZ; [exact Hn|reflexivity]|apply nostartb_ok; reflexivity].
    - intros Hi; cbn in Hi; decompose [or] Hi; try discriminate; contradiction. }
  rewrite index_at by exact Hns.
  rewrite firstn_len_app by reflexivity.
  assert (index (bs "obj") (H ++ t ++ nl) = Some (length (decZ n) + 3)%nat) as Ei.
  { unfold H. rewrite <- !app_assoc. apply index_obj_header. exact Hn. }
  rewrite Ei.
  set (i := (length (decZ n) + 3)%nat).
  assert (sub (i + 3) (length (H ++ t ++ nl)) ((H ++ t ++ nl) ++ bs "endobj" ++ nl ++ rest) = nl ++ t ++ nl) as Es.
  { unfold sub. rewrite skipn_app_l by (unfold H, i; rewrite !app_length; change (length (bs " 0 obj")) with 6%nat; change (length nl) with 1%nat; lia).
    assert (skipn (i + 3) (H ++ t ++ nl) = nl ++ t ++ nl) as ->.
    { unfold H, i. rewrite <- !app_assoc. rewrite app_assoc. apply skipn_len_app. rewrite app_length. change (length (bs " 0 obj")) with 6%nat. lia. }
    apply firstn_len_app. unfold H, i. rewrite !app_length. change (length (bs " 0 obj")) with 6%nat; change (length nl) with 1%nat; lia. }
  rewrite Es.
  assert (length H = (i + 4)%nat) as HH by (unfold H, i; rewrite !app_length; change (length (bs " 0 obj")) with 6%nat; change (length nl) with 1%nat; lia).
  assert (forall cs, (cs <= length (H ++ t ++ nl))%nat ->
    sub cs (length (H ++ t ++ nl)) ((H ++ t ++ nl) ++ bs "endobj" ++ nl ++ rest) = skipn cs (H ++ t ++ nl)) as Hsub.
  { intros cs Hcs. unfold sub. rewrite skipn_app_l by exact Hcs. apply firstn_len_app. apply skipn_length. }
  destruct t as [|b t'] eqn:Et.
  - (* empty text *)
    change (nl ++ [] ++ nl) with [x0a; x0a]. change (take_while is_blank [x0a; x0a]) with [x0a; x0a]. cbn [length app].
    rewrite Hsub by (rewrite app_length; cbn [app length nl]; lia).
    replace (i + 3 + 2)%nat with (length (H ++ nl)) by (rewrite app_length, HH; cbn [length nl]; lia).
    rewrite app_nil_l. rewrite skipn_all. cbn [index prefixb bs list_byte_of_string].
    unfold obj_result, object_text. cbn [app suffixb length Nat.leb andb]. rewrite Hg. reflexivity.
  - rewrite <- Et in *. assert (t <> []) as Hne by (rewrite Et; discriminate).
    change (nl ++ t ++ nl) with (x0a :: t ++ nl).
    rewrite take_blank_one; [|rewrite Et in *; exact R4|exact Hne]. cbn [length].
    rewrite Hsub by (rewrite !app_length, HH; lia).
    replace (i + 3 + 1)%nat with (length H) by lia. rewrite skipn_app_exact.
    assert (~ In x0a (bs "stream")) as N1 by (intros Hi; cbn in Hi; decompose [or] Hi; try discriminate; contradiction).
    assert (~ In x0a (bs "endstream")) as N2 by (intros Hi; cbn in Hi; decompose [or] Hi; try discriminate; contradiction).
    destruct (contains (bs "stream") t) eqn:Ec.
    + destruct R5 as [R5|R5]; [discriminate|].
      change nl with [x0a]. rewrite index_end by assumption.
      destruct (index (bs "stream") t) as [st|] eqn:Est; [|unfold contains in Ec; rewrite Est in Ec; discriminate].
      rewrite index_end; [|unfold contains; rewrite R5; reflexivity|exact N2]. rewrite R5. cbn [rbind].
      destruct (endstream_suffix t R5) as [Hlen Hsuf].
      replace (length t - 9 + 9)%nat with (length t) by lia.
      rewrite firstn_len_app by reflexivity. unfold obj_result, object_text. rewrite Hsuf, Hg.
      try rewrite <- !app_assoc; reflexivity.
    + assert (index (bs "stream") (t ++ nl) = None) as ->.
      { assert (contains (bs "stream") (t ++ nl) = false) as E.
        { apply nostart_contains; [discriminate|]. apply nostart_sep; [exact Ec|exact N1|discriminate]. }
        unfold contains in E. destruct (index (bs "stream") (t ++ nl)); [discriminate|reflexivity]. }
      unfold obj_result, object_text. change nl with [x0a]. rewrite suffix_last, Hg. try rewrite <- !app_assoc; reflexivity.
Qed.

Lemma m_objnum_here n s : 0 <= n -> m_objnum n (decZ n ++ bs " 0 obj" ++ s) = Some (bs "0").
Proof.
  intros Hn. unfold m_objnum. rewrite lit_app. cbn [obind].
  change (bs " 0 obj" ++ s) with (" "%byte :: bs "0" ++ " "%byte :: bs "obj" ++ s).
  rewrite ws1_space by reflexivity. cbn [obind].
  rewrite digits1_app by (try discriminate; reflexivity). cbn [obind].
  rewrite ws1_space by reflexivity. cbn [obind]. rewrite lit_app. reflexivity.
Qed.

Lemma get_direct_clean f pre n t post : 0 <= n < 2 ^ 63 -> readable t -> f = pre ++ obj_text n t ++ post ->
  GetDirectObject None f n (flen pre) = Ok (object_text n t).
Proof.
  intros Hn Ht ->. unfold GetDirectObject, flen, from. rewrite Nat2Z.id, skipn_app_exact.
  rewrite lt_app; [|unfold obj_text; pose proof (decZ_nonnil n ltac:(lia)); destruct (decZ n); [congruence|discriminate]].
  replace (Z.of_nat (length pre) <? 0) with false by lia. cbn [orb].
  assert (exists r, take 50 (obj_text n t ++ post) = decZ n ++ bs " 0 obj" ++ r) as [r ->].
  { unfold obj_text. rewrite <- !app_assoc. pose proof (decZ_length63 n Hn).
    rewrite take_app_l by lia. rewrite take_app_l by (change (length (bs " 0 obj")) with 6%nat; lia). eauto. }
  rewrite m_objnum_here by lia. apply read_object_clean; [lia|exact Ht|reflexivity].
Qed.

Lemma mget_map {A B} (g : A -> B) n (m : zmap A) : mget n (map (fun p => (fst p, g (snd p))) m) = option_map g (mget n m).
Proof.
  induction m as [|[k v] m IH]; [reflexivity|]. cbn [map mget fst snd]. destruct (n =? k); [reflexivity|exact IH].
Qed.

Lemma flen_pos_header v s : 0 < flen (pdf_header v ++ s).
Proof. change (pdf_header v ++ s) with ("%"%byte :: skipn 1 (pdf_header v) ++ s). unfold flen. cbn [length]. lia. Qed.

Lemma header_11 v : (11 <= length (pdf_header v))%nat.
Proof. unfold pdf_header. rewrite !app_length. change (length (bs "%PDF-")) with 5%nat. cbn [length]. lia. Qed.

Lemma m_ref_lit key s : prefixb key s = false -> m_ref key s = None.
Proof. intros H. unfold m_ref. rewrite (proj2 (lit_none _ _) H). reflexivity. Qed.

(** Conditions on what is stored. *)
Definition all_readable (w : writer) : Prop :=
  contains (bs "startxref") (pdfVersion w) = false /\ contains (bs "/Encrypt") (pdfVersion w) = false /\
  forall n t, stored_text (updateCatalogWithOutlines w) n t -> readable t.

Lemma no_nl_in s : existsb (beqb x0a) s = false -> ~ In x0a s.
Proof.
  intros H Hi. assert (existsb (beqb x0a) s = true); [|congruence].
  apply existsb_exists. exists x0a. split; [exact Hi|reflexivity].
Qed.

Lemma small_positions hd body ps (w1 : writer) L :
  (forall n p, mget n ps = Some p -> exists t pre post,
        stored_text w1 n t /\ p = flen (hd ++ pre) /\ body = pre ++ obj_text n t ++ post) ->
  flen (hd ++ body) <= L -> L < 10 ^ 10 -> small_table ps.
Proof.
  intros Hps Hl H10 n p E. destruct (Hps n p E) as (t & pre & post & _ & -> & ->).
  unfold flen in *. rewrite !app_length in *. split; lia.
Qed.

(* ---------------------------------------------------------------- *)
(** What the trailer says *)
Lemma dict_scan_plain a s : forallb (fun b => negb (beqb b "<") && negb (beqb b ">")) a = true ->
  dict_scan 1 (a ++ s) = (length a + dict_scan 1 s)%nat.
Proof.
  induction a as [|b a IH]; intros H; [reflexivity|]. cbn [forallb] in H. apply andb_true_iff in H. destruct H as [Hb H].
  apply andb_true_iff in Hb. destruct Hb as [H1 H2]. apply negb_true_iff in H1, H2. specialize (IH H). cbn [app length Nat.add].
  rewrite <- IH. cbn [dict_scan]. destruct (a ++ s) as [|c u]; [reflexivity|]. rewrite H1, H2. reflexivity.
Qed.
Lemma m_ref_here key n r : 0 <= n -> m_ref key (key ++ bs " " ++ ref n ++ r) = Some (ref n).
Proof.
  intros Hn. unfold m_ref, ref. rewrite lit_app. cbn [obind]. pose proof (decZ_nonnil n Hn) as N1. pose proof (decZ_digits n Hn) as N2. rewrite <- !app_assoc.
  change (bs " " ++ decZ n ++ bs " 0 R" ++ r) with (" "%byte :: decZ n ++ bs " 0 R" ++ r).
  rewrite ws1_space by (apply digits_head; [exact N1|exact N2|apply digit_not_ws]). cbn [obind].
  rewrite digits1_app by (try assumption; reflexivity). cbn [obind].
  change (bs " 0 R" ++ r) with (" "%byte :: bs "0" ++ " "%byte :: bs "R" ++ r).
  rewrite ws1_space by reflexivity. cbn [obind]. rewrite digits1_app by (try discriminate; reflexivity). cbn [obind].
  rewrite ws1_space by reflexivity. cbn [obind]. rewrite lit_app. cbn [obind]. f_equal.
  change (decZ n ++ " "%byte :: bs "0" ++ " "%byte :: bs "R" ++ r) with (decZ n ++ bs " 0 R" ++ r). rewrite app_assoc, app_length.
  replace (length (decZ n ++ bs " 0 R") + length r - length r)%nat with (length (decZ n ++ bs " 0 R")) by lia.
  rewrite firstn_app, Nat.sub_diag, firstn_all, firstn_O, app_nil_r. reflexivity.
Qed.
Lemma trailer_says f a next ps w x r : f = a ++ xref_table next ps ++ trailer_text w next ++ startxref_text x ->
  rootRef w = Some r -> 0 <= r -> 0 <= next < 2 ^ 63 ->
  xsRoot (parseTraditionalxrefSection f (flen a)) = ref r /\ xsSize (parseTraditionalxrefSection f (flen a)) = next.
Proof.
  intros -> Hr H0 Hn. unfold parseTraditionalxrefSection. cbn [xsRoot xsSize]. unfold from, flen. rewrite Nat2Z.id, skipn_app_exact.
  set (hd := nl ++ bs "/Size " ++ decZ next ++ nl ++ bs "/Root " ++ ref r ++ nl).
  assert (exists t, trailer_text w next ++ startxref_text x = bs "trailer" ++ nl ++ bs "<<" ++ hd ++ t) as [t Et].
  { unfold trailer_text, hd. rewrite Hr. eexists. rewrite <- !app_assoc. reflexivity. }
  assert (exists d, trailer_dict (xref_table next ps ++ trailer_text w next ++ startxref_text x) = Some (bs "<<" ++ hd ++ d)) as [d Ed].
  { unfold trailer_dict. rewrite Et. rewrite index_at by apply keyword_trailer_table. cbn [obind].
    rewrite skipn_app_r by lia. replace (length (xref_table next ps) + 7 - length (xref_table next ps))%nat with 7%nat by lia.
    change (skipn 7 (bs "trailer" ++ nl ++ bs "<<" ++ hd ++ t)) with (nl ++ bs "<<" ++ hd ++ t).
    rewrite index_at by (apply nostartb_ok; reflexivity). cbn [obind]. rewrite skipn_app_exact.
    change (skipn 2 (bs "<<" ++ hd ++ t)) with (hd ++ t). rewrite dict_scan_plain.
    - exists (firstn (dict_scan 1 t) t). f_equal.
      replace (2 + (length hd + dict_scan 1 t))%nat with (length (bs "<<" ++ hd) + dict_scan 1 t)%nat by (rewrite app_length; change (length (bs "<<")) with 2%nat; lia).
      rewrite app_assoc, firstn_app_2, <- app_assoc. reflexivity.
    - unfold hd, ref. rewrite !forallb_app.
      rewrite (proj2 (forallb_forall _ (decZ next))), (proj2 (forallb_forall _ (decZ r))); [reflexivity| |].
      all: intros b Hb; pose proof (decZ_digits r H0) as D1; pose proof (decZ_digits next (proj1 Hn)) as D2; rewrite forallb_forall in D1, D2;
        assert (is_digit b = true) as Hd by (first [apply D1; exact Hb|apply D2; exact Hb]); destruct b; try discriminate; reflexivity. }
  rewrite Ed. unfold hd. rewrite <- !app_assoc.
  assert (nostart (bs "/Root") (bs "<<" ++ nl ++ bs "/Size " ++ decZ next ++ nl)) as N1.
  { repeat (apply nostart_app; [first [apply nostart_decZ; [lia|reflexivity]|apply nostartb_ok; reflexivity]|]). apply nostartb_ok; reflexivity. }
  split.
  - replace (bs "<<" ++ nl ++ bs "/Size " ++ decZ next ++ nl ++ bs "/Root " ++ ref r ++ nl ++ d)
      with ((bs "<<" ++ nl ++ bs "/Size " ++ decZ next ++ nl) ++ bs "/Root" ++ bs " " ++ ref r ++ nl ++ d) by (rewrite <- !app_assoc; reflexivity).
    erewrite find_at; [reflexivity|apply (nostart_nofire _ _ _ (m_ref_lit _)); exact N1|apply m_ref_here, H0].
  - replace (bs "<<" ++ nl ++ bs "/Size " ++ decZ next ++ nl ++ bs "/Root " ++ ref r ++ nl ++ d)
      with ((bs "<<" ++ nl) ++ bs "/Size" ++ bs " " ++ decZ next ++ nl ++ bs "/Root " ++ ref r ++ nl ++ d) by (rewrite <- !app_assoc; reflexivity).
    erewrite find_at; [| |apply m_key_here; [apply decZ_nonnil; lia|apply decZ_digits; lia|reflexivity]].
    + cbn [value_of option_map snd atoi0]. unfold atoi_clip. rewrite decZ_nonneg, num_dec by lia. change (Z.of_N int64_max) with (2 ^ 63 - 1). lia.
    + apply (nostart_nofire _ _ _ (m_key_lit _)). apply nostartb_ok. reflexivity.
Qed.

Lemma read_back deflate order inflate crypt w out :
  is_order order -> useXRefStream w = false -> useObjectStream w = false -> encryptRef w = None ->
  1 <= nextObjNum w <= 499 -> all_readable w ->
  fst (Write deflate order None w) = out -> Z.of_nat (length out) < 10 ^ 10 ->
  exists p, Open inflate crypt out = Ok p /\
    (forall n, PHasObject p n = (1 <=? n) && (n <? nextObjNum w) && mem n (objects w)) /\
    (forall n, PHasObject p n = false -> PGetObject inflate p n = Err) /\
    (forall n t, 1 <= n < nextObjNum w -> stored_text (updateCatalogWithOutlines w) n t ->
       PGetObject inflate p n = Ok (object_text n t)) /\
    (forall r, rootRef w = Some r -> 0 <= r -> pRoot p = ref r /\ pSize p = nextObjNum w).
Proof.
  intros Hord Hx Hs He Hn (Rv1 & Rv2 & Rt) Hout Hlen.
  destruct (write_structure deflate order w out Hord Hx Hs Hout) as (body & ps & Eo & Hmem & Hps & Hall).
  cbv zeta in *. set (w1 := updateCatalogWithOutlines w) in *.
  assert (encryptRef w1 = None) as He1 by (unfold w1; destruct (update_catalog_fields w) as (_&_&_&_&_&_&->&_); exact He).
  set (hb := pdf_header (pdfVersion w) ++ body) in *.
  assert (forall q, keyword q = true -> existsb (beqb x0a) q = false -> contains q (pdfVersion w) = false ->
            nostartb q (bs "%PDF-") = true -> nostartb q [x25; xe2; xe3; xcf; xd3; x0a] = true ->
            (forall t, readable t -> contains q t = false) -> nostart q hb) as Hhb.
  { intros q K N V A B T. apply no_nl_in in N. unfold hb. apply nostart_app; [apply header_nostart; assumption|].
    apply Hall; [apply nostart_nil|intros; apply nostart_app; assumption|].
    intros n t Ht. apply obj_nostart; [exact K|exact N|apply T, (Rt n t Ht)]. }
  assert (nostart (bs "startxref") hb) as Hsx by (apply Hhb; try reflexivity; [exact Rv1|intros t (_&R&_); exact R]).
  assert (nostart (bs "/Encrypt") hb) as Hen by (apply Hhb; try reflexivity; [exact Rv2|intros t (_&_&R&_); exact R]).
  assert (flen hb < 10 ^ 10) as HX.
  { unfold flen. rewrite Eo in Hlen. rewrite app_length in Hlen. lia. }
  assert (small_table ps) as Hsm by (eapply small_positions; [exact Hps|apply Z.le_refl|exact HX]).
  assert (0 < flen hb) as HX0 by (apply flen_pos_header).
  assert (0 <= flen hb < 2 ^ 63) as HX63.
  { change (10 ^ 10) with 10000000000 in HX. change (2 ^ 63) with 9223372036854775808. lia. }
  (* Open *)
  assert (mentions_encrypt out = false) as Hme.
  { unfold mentions_encrypt. rewrite (find_nolit (m_ref (bs "/Encrypt")) (bs "/Encrypt")); [reflexivity|apply m_ref_lit|].
    apply nostart_contains; [discriminate|]. rewrite Eo. apply nostart_app; [exact Hen|].
    apply nostart_app; [apply table_nostart; reflexivity|].
    apply nostart_app; [apply trailer_nostart; [reflexivity|exact He1]|apply startxref_text_nostart; reflexivity]. }
  assert (flen out <? 8 = false) as H8.
  { rewrite Eo. unfold hb, flen. rewrite !app_length. pose proof (header_11 (pdfVersion w)). lia. }
  assert (findLastStartXRef out = Ok (flen hb)) as Hfl.
  { rewrite Eo.
    replace (hb ++ xref_table (nextObjNum w) ps ++ trailer_text w1 (nextObjNum w) ++ startxref_text (flen hb))
      with ((hb ++ xref_table (nextObjNum w) ps ++ trailer_text w1 (nextObjNum w)) ++ startxref_text (flen hb))
      by (rewrite <- !app_assoc; reflexivity).
    apply last_startxref; [exact HX63|].
    apply nostart_app; [exact Hsx|]. apply nostart_app; [apply table_nostart; reflexivity|apply trailer_nostart; [reflexivity|exact He1]]. }
  pose proof (no_prev out hb (nextObjNum w) ps w1 (flen hb) Eo He1) as Hnp.
  remember (parseTraditionalxrefSection out (flen hb)) as sec eqn:Esec.
  assert (parsexrefSection inflate out (flen hb) = Ok sec) as Hsec.
  { unfold parsexrefSection. rewrite <- Esec. unfold from, flen. rewrite Eo, Nat2Z.id, skipn_app_exact.
    rewrite lt_app by (unfold xref_table; discriminate). unfold xref_table. rewrite <- !app_assoc, prefixb_app. reflexivity. }
  assert (forall n, mget n (xsObjects sec) = if (1 <=? n) && (n <? nextObjNum w) then mget n ps else None) as Hobj.
  { intros n. destruct (trailer_text_split w1 (nextObjNum w)) as [t Et]. rewrite Esec.
    eapply trad_objects with (s := bs "<<" ++ t ++ startxref_text (flen hb)); [exact Hn|exact Hsm|].
    rewrite Eo, Et, <- !app_assoc. reflexivity. }
  assert (xsStreams sec = []) as Hst by (rewrite Esec; reflexivity).
  exists (mkPDF out (map (fun p => (fst p, AtOffset (snd p))) (xsObjects sec ++ [])) None (xsRoot sec) (xsSize sec)).
  assert (forall n, mget n (map (fun p => (fst p, AtOffset (snd p))) (xsObjects sec ++ [])) =
            if (1 <=? n) && (n <? nextObjNum w) then option_map AtOffset (mget n ps) else None) as Hget.
  { intros n. rewrite app_nil_r, mget_map, Hobj. destruct ((1 <=? n) && (n <? nextObjNum w)); reflexivity. }
  split; [|split; [|split; [|split]]].
  - unfold Open. rewrite H8, Hme. cbn [rbind]. unfold parseStandard, parseIncremental. rewrite Hfl. cbn [rbind].
    unfold parseXRefChain. cbn [prev_chain existsb negb]. rewrite Hnp.
    replace (0 <? flen hb) with true by lia. cbn [andb rev app parse_sections]. rewrite Hsec. cbn [rmap rbind map merge fold_left rev app].
    rewrite Hst. reflexivity.
  - intros n. unfold PHasObject, mem. cbn [pXref]. rewrite Hget. specialize (Hmem n). unfold mem in Hmem.
    destruct ((1 <=? n) && (n <? nextObjNum w)); [cbn [andb]|reflexivity].
    destruct (mget n ps); exact Hmem.
  - intros n H. unfold PHasObject, mem in H. unfold PGetObject. cbn [pXref] in *.
    destruct (mget n (map _ (xsObjects sec ++ []))); [discriminate|reflexivity].
  - intros n t Hr Ht. unfold PGetObject. cbn [pXref pRaw pDec]. rewrite Hget.
    replace ((1 <=? n) && (n <? nextObjNum w)) with true by lia.
    destruct (mget n ps) as [p|] eqn:Ep.
    + cbn [option_map]. destruct (Hps n p Ep) as (t' & pre & post & Ht' & -> & Eb).
      assert (t' = t) as ->.
      { destruct Ht as (o & Eo1 & E1), Ht' as (o' & Eo2 & E2). rewrite Eo1 in Eo2. injection Eo2 as <-.
        destruct (oStream o); [congruence|]. destruct (oContent o); congruence. }
      eapply get_direct_clean; [|apply (Rt n t Ht)|].
      * change (2 ^ 63) with 9223372036854775808. lia.
      * rewrite Eo. unfold hb. rewrite Eb, <- !app_assoc. reflexivity.
    + exfalso. destruct Ht as (o & Eo1 & _). specialize (Hmem n). unfold mem in Hmem. rewrite Ep in Hmem.
      pose proof (proj1 (mkeys_update_catalog w n)) as Hk. fold w1 in Hk. rewrite Eo1 in Hk. specialize (Hk ltac:(discriminate)).
      destruct (mget n (objects w)); [discriminate|congruence].
  - intros r Hr H0. cbn [pRoot pSize]. rewrite Esec. apply (trailer_says out hb (nextObjNum w) ps w1 (flen hb) r Eo); [|exact H0|].
    + unfold w1. destruct (update_catalog_fields w) as (_&_&_&_&->&_). exact Hr.
    + change (2 ^ 63) with 9223372036854775808. lia.
Qed.

(* ---------------------------------------------------------------- *)
(** The single-section reader (GetObject): it reads lines past the trailer *)

Definition dead (l : bytes) : bool :=
  match l with
  | [] => true
  | c :: _ => (negb (is_space c) && negb (is_digit c) && negb (beqb c "-") && negb (beqb c "+")) || forallb is_digit l
  end.

Lemma dead_firstn k l : dead l = true -> dead (firstn k l) = true.
Proof.
  destruct l as [|c l]; [rewrite firstn_nil; reflexivity|]. destruct k as [|k]; [reflexivity|]. cbn [firstn dead].
  rewrite !orb_true_iff. intros [H|H]; [left; exact H|right].
  rewrite forallb_forall in *. intros x Hx. apply H. cbn [In] in *. destruct Hx as [Hx|Hx]; [left; exact Hx|].
  right. rewrite <- (firstn_skipn k l). apply in_or_app. left. exact Hx.
Qed.

Lemma split_on_firstn c s : forall k, exists ls l r, split_on c s = ls ++ l :: r /\
  exists k', split_on c (firstn k s) = ls ++ [firstn k' l].
Proof.
  induction s as [|b s IH]; intros k.
  - exists [], [], []. rewrite firstn_nil. split; [reflexivity|exists 0%nat; reflexivity].
  - destruct k as [|k].
    + cbn [firstn]. destruct (split_on c (b :: s)) as [|l r] eqn:E; [exfalso; exact (split_on_nonnil _ _ E)|].
      exists [], l, r. split; [reflexivity|exists 0%nat; reflexivity].
    + cbn [firstn split_on]. destruct (IH k) as (ls & l & r & E1 & k' & E2). rewrite E1, E2.
      destruct (beqb b c).
      * exists ([] :: ls), l, r. split; [reflexivity|exists k'; reflexivity].
      * destruct ls as [|l0 ls].
        -- exists [], (b :: l), r. split; [reflexivity|exists (S k'); reflexivity].
        -- exists ((b :: l0) :: ls), l, r. split; [reflexivity|exists k'; reflexivity].
Qed.

Lemma dead_window c s k : Forall (fun l => dead l = true) (split_on c s) -> Forall (fun l => dead l = true) (split_on c (firstn k s)).
Proof.
  intros H. destruct (split_on_firstn c s k) as (ls & l & r & E1 & k' & E2). rewrite E1 in H. rewrite E2.
  apply Forall_app in H. destruct H as [H1 H2]. inversion H2; subst.
  apply Forall_app. split; [exact H1|]. constructor; [apply dead_firstn; assumption|constructor].
Qed.

Lemma fields_aux_head f s : forall cur, cur <> [] -> exists r l, fields_aux f s cur = (rev cur ++ r) :: l.
Proof.
  induction s as [|b s IH]; intros cur Hc; cbn [fields_aux].
  - destruct cur as [|x cur]; [congruence|]. exists [], []. rewrite app_nil_r. reflexivity.
  - destruct (f b).
    + destruct cur as [|x cur]; [congruence|]. exists [], (fields_aux f s []). rewrite app_nil_r. reflexivity.
    + destruct (IH (b :: cur)) as (r & l & ->); [discriminate|]. exists (b :: r), l. cbn [rev]. rewrite <- app_assoc. reflexivity.
Qed.

Lemma dead_line l ls cur : dead l = true -> (forall cur, table_lines_all ls cur = []) -> table_lines_all (l :: ls) cur = [].
Proof.
  intros Hd Hr. cbn [table_lines_all]. destruct l as [|c l]; [cbn [classify fields fields_aux]; apply Hr|].
  cbn [dead] in Hd. apply orb_true_iff in Hd. destruct Hd as [Hd|Hd].
  - rewrite !andb_true_iff, !negb_true_iff in Hd. destruct Hd as (((H1 & H2) & H3) & H4).
    assert (exists a ls', fields is_space (c :: l) = a :: ls' /\ atoi a = None) as (a & ls' & Ef & Ea).
    { unfold fields. cbn [fields_aux]. rewrite H1. destruct (fields_aux_head is_space l [c]) as (r & l' & ->); [discriminate|].
      exists (rev [c] ++ r), l'. split; [reflexivity|]. cbn [rev app]. unfold atoi.
      rewrite H3, H4. cbn [orb]. unfold atou. cbn [forallb]. rewrite H2. reflexivity. }
    unfold classify. rewrite Ef. destruct ls' as [|b [|c' ls']].
    + apply Hr.
    + rewrite Ea. apply Hr.
    + rewrite Ea. destruct cur; apply Hr.
  - unfold classify. rewrite fields_last; [apply Hr|discriminate|]. apply digits_no; [exact Hd|apply digit_not_space].
Qed.

Lemma dead_lines ls : Forall (fun l => dead l = true) ls -> forall cur, table_lines_all ls cur = [].
Proof. induction 1; intros cur; [reflexivity|]. apply dead_line; assumption. Qed.

Lemma split_dead_line l s : existsb (beqb x0a) l = false -> dead l = true ->
  Forall (fun l => dead l = true) (split_on x0a s) -> Forall (fun l => dead l = true) (split_on x0a (l ++ nl ++ s)).
Proof.
  intros H1 H2 H3. change (l ++ nl ++ s) with (l ++ x0a :: s). rewrite split_on_line by (apply no_nl_in; exact H1).
  constructor; assumption.
Qed.

Lemma existsb_app_nl a b : existsb (beqb x0a) (a ++ b) = existsb (beqb x0a) a || existsb (beqb x0a) b.
Proof. apply existsb_app. Qed.
Lemma existsb_decZ z : existsb (beqb x0a) (decZ z) = false.
Proof.
  destruct (existsb (beqb x0a) (decZ z)) eqn:E; [|reflexivity]. apply existsb_exists in E. destruct E as (b & Hb & E).
  apply beqb_eq in E. subst b. apply decZ_bytes in Hb. destruct Hb as [H|H]; discriminate.
Qed.
Lemma existsb_hexX z : existsb (beqb x0a) (hexX z) = false.
Proof.
  destruct (existsb (beqb x0a) (hexX z)) eqn:E; [|reflexivity]. apply existsb_exists in E. destruct E as (b & Hb & E).
  apply beqb_eq in E. subst b. pose proof (hexX_class z) as Hc. rewrite forallb_forall in Hc. specialize (Hc _ Hb). discriminate.
Qed.

Ltac deadl := apply split_dead_line;
  [rewrite ?existsb_app_nl, ?existsb_decZ, ?existsb_hexX; reflexivity
  |first [reflexivity | apply orb_true_iff; right; reflexivity]|].

Lemma tail_dead w next x : encryptRef w = None -> 0 <= x ->
  Forall (fun l => dead l = true) (split_on x0a (trailer_text w next ++ startxref_text x)).
Proof.
  intros He Hx.
  assert (Forall (fun l => dead l = true) (split_on x0a (bs ">>" ++ nl ++ startxref_text x))) as H0.
  { unfold startxref_text. deadl. deadl. apply split_dead_line.
    - apply existsb_decZ.
    - pose proof (decZ_nonnil x Hx). pose proof (decZ_digits x Hx) as Hd. destruct (decZ x) as [|c r]; [congruence|].
      cbn [dead]. rewrite Hd. apply orb_true_r.
    - deadl. constructor; [reflexivity|constructor]. }
  unfold trailer_text. rewrite He. rewrite <- !app_assoc. cbn [app].
  deadl. deadl. rewrite (app_assoc (bs "/Size ")). deadl.
  set (id := match fileID w with [] => [] | _ :: _ => _ end) in *.
  assert (Forall (fun l => dead l = true) (split_on x0a (id ++ bs ">>" ++ nl ++ startxref_text x))) as H1.
  { unfold id. destruct (fileID w) as [|b0 id0]; [exact H0|].
    replace ((bs "/ID [<" ++ hexX (b0 :: id0) ++ bs "><" ++ hexX (b0 :: id0) ++ bs ">]" ++ nl) ++ bs ">>" ++ nl ++ startxref_text x)
      with ((bs "/ID [<" ++ hexX (b0 :: id0) ++ bs "><" ++ hexX (b0 :: id0) ++ bs ">]") ++ nl ++ bs ">>" ++ nl ++ startxref_text x)
      by (rewrite <- !app_assoc; reflexivity).
    deadl. exact H0. }
  assert (forall k r s, existsb (beqb x0a) k = false -> dead (k ++ ref r) = true ->
     Forall (fun l => dead l = true) (split_on x0a s) ->
     Forall (fun l => dead l = true) (split_on x0a ((k ++ ref r ++ nl) ++ s))) as Href.
  { intros k r s Hk Hd Hs. replace ((k ++ ref r ++ nl) ++ s) with ((k ++ ref r) ++ nl ++ s) by (rewrite <- !app_assoc; reflexivity).
    apply split_dead_line; [|exact Hd|exact Hs]. unfold ref. rewrite !existsb_app_nl, Hk, existsb_decZ. reflexivity. }
  destruct (rootRef w) as [r|]; [apply Href; [reflexivity|reflexivity|]|cbn [app]];
  (destruct (infoRef w) as [r'|]; [apply Href; [reflexivity|reflexivity|]|cbn [app]]; exact H1).
Qed.

Lemma trad_table f a next ps w x n : 1 <= next <= 499 -> small_table ps -> encryptRef w = None -> 0 <= x ->
  f = a ++ xref_table next ps ++ trailer_text w next ++ startxref_text x ->
  exists m, ParseTraditionalXRefTable f (flen a) = Ok m /\
    mget n m = if (1 <=? n) && (n <? next) then mget n ps else None.
Proof.
  intros Hn Hp He Hx ->. unfold ParseTraditionalXRefTable, from, flen. rewrite Nat2Z.id, skipn_app_exact.
  pose proof (table_length next ps ltac:(lia) Hp) as Hl.
  assert (length (decZ next) <= 3)%nat as Hd by (apply decZ_length; lia).
  rewrite take_app_l by lia. unfold take at 1 2.
  set (k := N.to_nat (10000 - N.of_nat (length (xref_table next ps)))).
  assert (index (bs "xref") (xref_table next ps ++ firstn k (trailer_text w next ++ startxref_text x)) = Some 0%nat) as ->.
  { unfold xref_table. rewrite <- !app_assoc. apply index_here. }
  cbn [skipn]. rewrite table_split by lia. eexists. split; [reflexivity|].
  rewrite tla_header by lia. rewrite range1_from_to, (lines_entries table_lines_all).
  - replace (1 + Z.of_nat (Z.to_nat (next - 1))) with next by lia. reflexivity.
  - apply small_63. exact Hp.
  - apply dead_lines, dead_window, tail_dead; assumption.
  - intros; apply tla_entry; assumption.
  - intros; apply tla_free.
Qed.

Lemma read_back_get deflate order inflate w out :
  is_order order -> useXRefStream w = false -> useObjectStream w = false -> encryptRef w = None ->
  1 <= nextObjNum w <= 499 -> all_readable w ->
  fst (Write deflate order None w) = out -> Z.of_nat (length out) < 10 ^ 10 ->
  forall n t, 1 <= n < nextObjNum w -> stored_text (updateCatalogWithOutlines w) n t ->
    GetObject inflate None out n = Ok (object_text n t).
Proof.
  intros Hord Hx Hs He Hn (Rv1 & Rv2 & Rt) Hout Hlen n t Hr Ht.
  destruct (write_structure deflate order w out Hord Hx Hs Hout) as (body & ps & Eo & Hmem & Hps & Hall).
  cbv zeta in *. set (w1 := updateCatalogWithOutlines w) in *.
  assert (encryptRef w1 = None) as He1 by (unfold w1; destruct (update_catalog_fields w) as (_&_&_&_&_&_&->&_); exact He).
  set (hb := pdf_header (pdfVersion w) ++ body) in *.
  assert (nostart (bs "startxref") hb) as Hsx.
  { unfold hb. apply nostart_app; [apply header_nostart; try reflexivity; [apply no_nl_in; reflexivity|exact Rv1]|].
    apply Hall; [apply nostart_nil|intros; apply nostart_app; assumption|].
    intros m u Hu. apply obj_nostart; [reflexivity|apply no_nl_in; reflexivity|]. destruct (Rt m u Hu) as (_ & R & _). exact R. }
  assert (flen hb < 10 ^ 10) as HX.
  { unfold flen. rewrite Eo in Hlen. rewrite app_length in Hlen. lia. }
  assert (small_table ps) as Hsm by (eapply small_positions; [exact Hps|apply Z.le_refl|exact HX]).
  assert (0 < flen hb) as HX0 by (apply flen_pos_header).
  assert (0 <= flen hb < 2 ^ 63) as HX63.
  { change (10 ^ 10) with 10000000000 in HX. change (2 ^ 63) with 9223372036854775808. lia. }
  assert (find m_startxref out = Some (length (hb ++ xref_table (nextObjNum w) ps ++ trailer_text w1 (nextObjNum w)), decZ (flen hb))) as Hf.
  { rewrite Eo.
    replace (hb ++ xref_table (nextObjNum w) ps ++ trailer_text w1 (nextObjNum w) ++ startxref_text (flen hb))
      with ((hb ++ xref_table (nextObjNum w) ps ++ trailer_text w1 (nextObjNum w)) ++ startxref_text (flen hb))
      by (rewrite <- !app_assoc; reflexivity).
    apply find_at.
    - eapply nostart_nofire; [apply m_startxref_lit|].
      apply nostart_app; [exact Hsx|]. apply nostart_app; [apply table_nostart; reflexivity|apply trailer_nostart; [reflexivity|exact He1]].
    - rewrite startxref_text_split. apply m_startxref_here. lia. }
  unfold GetObject, FindObjectLocation. rewrite Hf. cbn [value_of option_map snd]. rewrite atoi_decZ by exact HX63.
  replace (flen hb <=? 0) with false by lia.
  assert (flen out <=? flen hb = false) as ->.
  { unfold flen. rewrite Eo. apply lt_app. unfold xref_table. discriminate. }
  cbn [orb].
  assert (from (flen hb) out = xref_table (nextObjNum w) ps ++ trailer_text w1 (nextObjNum w) ++ startxref_text (flen hb)) as Hfr.
  { unfold from, flen. rewrite Eo, Nat2Z.id, skipn_app_exact. reflexivity. }
  assert (contains (bs "obj") (take 100 (from (flen hb) out)) = false) as ->.
  { apply contains_firstn. apply nostart_contains; [discriminate|]. rewrite Hfr.
    apply nostart_app; [|apply nostart_app].
    - unfold xref_table. nsd. unfold table_entry. destruct (mget x ps); nsd.
    - unfold trailer_text. rewrite He1. nsd.
      + destruct (rootRef w1); unfold ref; nsd.
      + destruct (infoRef w1); unfold ref; nsd.
      + destruct (fileID w1); nsd.
    - unfold startxref_text. nsd. }
  assert (prefixb (bs "xref") (from (flen hb) out) = true) as ->.
  { rewrite Hfr. unfold xref_table. rewrite <- !app_assoc. apply prefixb_app. }
  destruct (trad_table out hb (nextObjNum w) ps w1 (flen hb) n Hn Hsm He1 ltac:(lia) Eo) as (m & -> & Hm).
  cbn [rbind]. rewrite Hm. replace ((1 <=? n) && (n <? nextObjNum w)) with true by lia.
  destruct (mget n ps) as [p|] eqn:Ep.
  - cbn [option_map]. destruct (Hps n p Ep) as (t' & pre & post & Ht' & -> & Eb).
    assert (t' = t) as ->.
    { destruct Ht as (o & Eo1 & E1), Ht' as (o' & Eo2 & E2). rewrite Eo1 in Eo2. injection Eo2 as <-.
      destruct (oStream o); [congruence|]. destruct (oContent o); congruence. }
    cbn [rbind]. eapply get_direct_clean; [|apply (Rt n t Ht)|].
    + change (2 ^ 63) with 9223372036854775808. lia.
    + rewrite Eo. unfold hb. rewrite Eb, <- !app_assoc. reflexivity.
  - exfalso. destruct Ht as (o & Eo1 & _). specialize (Hmem n). unfold mem in Hmem. rewrite Ep in Hmem.
    pose proof (proj1 (mkeys_update_catalog w n)) as Hk. fold w1 in Hk. rewrite Eo1 in Hk. specialize (Hk ltac:(discriminate)).
    destruct (mget n (objects w)); [discriminate|congruence].
Qed.

(* ---------------------------------------------------------------- *)
(** The byte-perfect reader *)

Definition row_of (ps : zmap Z) (i : Z) : xrow :=
  match mget i ps with Some p => mkRow i 0 p true None | None => mkRow i 1 0 false None end.

Lemma raw_rows_entries ps rest : (forall i p, mget i ps = Some p -> 0 <= p < 2 ^ 63) ->
  forall m k, raw_rows false (map (entry_line ps) (from_to k m) ++ rest) (Some k) =
              map (row_of ps) (from_to k m) ++ raw_rows false rest (Some (k + Z.of_nat m)).
Proof.
  intros Hps m. induction m as [|m IH]; intros k.
  - cbn [from_to seq map app]. f_equal. f_equal. lia.
  - rewrite from_to_S. cbn [map app raw_rows andb].
    replace (k + Z.of_nat (S m)) with (k + 1 + Z.of_nat m) by lia.
    unfold entry_line at 1, row_of at 1. destruct (mget k ps) as [p|] eqn:E.
    + rewrite classify_entry_all, (atoi_pad p (Hps k p E)), IH. reflexivity.
    + rewrite <- IH. reflexivity.
Qed.

Lemma raw_rows_table next ps : 1 <= next < 2 ^ 63 -> small_table ps ->
  raw_rows true (split_on x0a (xref_table next ps)) None = mkRow 0 65535 0 false None :: map (row_of ps) (range1 next).
Proof.
  intros Hn Hp. rewrite <- (app_nil_r (xref_table next ps)), table_split by lia.
  cbn [raw_rows andb]. change (bytes_eqb (trim is_space (bs "xref")) (bs "xref")) with true. cbv iota.
  cbn [raw_rows andb]. rewrite classify_sub by (try lia; try reflexivity; apply digit_not_space).
  match goal with |- context [classify is_space (bs "0000000000 65535 f ")] =>
    change (classify is_space (bs "0000000000 65535 f ")) with (XEntry (bs "0000000000") (bs "65535") (bs "f")) end.
  cbv iota. change (atoi (bs "0000000000")) with (Some 0). change (atoi (bs "65535")) with (Some 65535). cbv iota.
  change (bytes_eqb (bs "f") (bs "n")) with false. f_equal.
  rewrite range1_from_to. replace (0 + 1) with 1 by lia. rewrite raw_rows_entries by (apply small_63; exact Hp).
  cbn [split_on raw_rows andb]. rewrite <- app_nil_r. reflexivity.
Qed.

Lemma rows_get f prevEnd eof ps l : NoDup l ->
  (forall i p, In i l -> mget i ps = Some p -> prevEnd <= p < Z.of_nat eof) ->
  forall m0 n, mget n (fold_left (fun m r =>
    if rInUse r && (match rInStream r with None => true | Some _ => false end)
       && (prevEnd <=? rOff r) && (rOff r <? Z.of_nat eof)
    then match ParseRawObject f (rNum r) (rGen r) (rOff r) with
         | Ok o => mset (rNum r) o m
         | _ => m
         end
    else m) (map (row_of ps) l) m0) =
  match (if in_dec Z.eq_dec n l then mget n ps else None) with
  | Some p => match ParseRawObject f n 0 p with Ok o => Some o | _ => mget n m0 end
  | None => mget n m0
  end.
Proof.
  intros Hnd Hb. induction l as [|i l IH]; intros m0 n; [reflexivity|].
  inversion Hnd as [|x y Hni Hnd']; subst. cbn [map fold_left].
  rewrite IH; [|exact Hnd'|intros; apply (Hb i0); [right; assumption|assumption]].
  assert (row_of ps i = match mget i ps with Some p => mkRow i 0 p true None | None => mkRow i 1 0 false None end) as -> by reflexivity.
  destruct (mget i ps) as [p|] eqn:Ei.
  - specialize (Hb i p (or_introl eq_refl) Ei). cbn [rInUse rInStream rOff rNum rGen andb].
    replace (prevEnd <=? p) with true by lia. replace (p <? Z.of_nat eof) with true by lia. cbn [andb].
    destruct (in_dec Z.eq_dec n l) as [Hl|Hl], (in_dec Z.eq_dec n (i :: l)) as [Hl'|Hl'].
    + assert (n <> i) by (intros ->; contradiction).
      destruct (ParseRawObject f i 0 p); rewrite ?mget_mset_neq by assumption; reflexivity.
    + exfalso. apply Hl'. right. exact Hl.
    + destruct Hl' as [->|Hl']; [|contradiction]. rewrite Ei.
      destruct (ParseRawObject f n 0 p); rewrite ?mget_mset_eq; reflexivity.
    + assert (n <> i) by (intros ->; apply Hl'; left; reflexivity).
      destruct (ParseRawObject f i 0 p); rewrite ?mget_mset_neq by assumption; reflexivity.
  - cbn [rInUse andb]. destruct (in_dec Z.eq_dec n l) as [Hl|Hl], (in_dec Z.eq_dec n (i :: l)) as [Hl'|Hl'].
    + reflexivity.
    + exfalso. apply Hl'. right. exact Hl.
    + destruct Hl' as [->|Hl']; [|contradiction]. rewrite Ei. reflexivity.
    + reflexivity.
Qed.

Lemma raw_object_clean f pre n t post : 0 <= n -> contains (bs "endobj") t = false -> f = pre ++ obj_text n t ++ post ->
  exists o, ParseRawObject f n 0 (flen pre) = Ok o /\ roBytes o = object_text n t /\ roOffset o = flen pre /\
            roNumber o = n /\ roGeneration o = 0.
Proof.
  intros Hn R1 ->. unfold ParseRawObject, flen, from. rewrite Nat2Z.id, skipn_app_exact.
  rewrite lt_app; [|unfold obj_text; pose proof (decZ_nonnil n Hn); destruct (decZ n); [congruence|discriminate]].
  replace (Z.of_nat (length pre) <? 0) with false by lia. cbn [orb].
  assert (prefixb (decZ n ++ bs " " ++ decZ 0 ++ bs " obj") (obj_text n t ++ post) = true) as ->.
  { apply prefixb_spec. exists (nl ++ t ++ nl ++ bs "endobj" ++ nl ++ post). unfold obj_text.
    change (bs " 0 obj") with (bs " " ++ decZ 0 ++ bs " obj"). rewrite <- !app_assoc. reflexivity. }
  cbn [negb andb].
  set (H := decZ n ++ bs " 0 obj" ++ nl).
  assert (obj_text n t ++ post = (H ++ t ++ nl) ++ bs "endobj" ++ nl ++ post) as ED.
  { unfold obj_text, H. rewrite <- !app_assoc. reflexivity. }
  rewrite ED.
  assert (nostart (bs "endobj") (H ++ t ++ nl)) as Hns.
  { apply nostart_app; [|apply nostart_sep; [exact R1|apply no_nl_in; reflexivity|discriminate]].
    unfold H. apply nostart_app; [apply nostart_decZ; [exact Hn|reflexivity]|apply nostartb_ok; reflexivity]. }
  rewrite index_at by exact Hns.
  replace (firstn (length (H ++ t ++ nl) + 6) ((H ++ t ++ nl) ++ bs "endobj" ++ nl ++ post)) with (object_text n t).
  2:{ symmetry. rewrite (app_assoc (H ++ t ++ nl)). replace (object_text n t) with ((H ++ t ++ nl) ++ bs "endobj") by (unfold object_text, H; rewrite <- !app_assoc; reflexivity).
      apply firstn_len_app. rewrite app_length. reflexivity. }
  destruct (index (bs "stream") (object_text n t)) as [st|].
  - destruct (index (bs "<<") (object_text n t)); cbn [rbind]; eexists; (split; [reflexivity|]); cbn; auto.
  - eexists; (split; [reflexivity|]); cbn; auto.
Qed.

Lemma skip_eol_at f a b c : f = a ++ b ++ c -> forallb is_eol b = true ->
  match c with [] => True | x :: _ => is_eol x = false end -> skip_eol f (length a) = length (a ++ b).
Proof.
  intros -> Hb Hc. unfold skip_eol. rewrite skipn_app_exact, take_while_app by assumption. rewrite app_length. reflexivity.
Qed.

Lemma header_len_written v s : plain_version v = true -> match s with [] => True | b :: _ => is_eol b = false end ->
  header_len (pdf_header v ++ s) = length (pdf_header v).
Proof.
  intros Hv Hs. unfold plain_version in Hv. apply andb_true_iff in Hv. destruct Hv as [Hv1 Hv2]. apply Nat.leb_le in Hv2.
  unfold header_len.
  set (mk := [x25; xe2; xe3; xcf; xd3]).
  assert (pdf_header v ++ s = bs "%PDF-" ++ v ++ nl ++ mk ++ nl ++ s) as E.
  { unfold pdf_header, mk, nl. rewrite <- !app_assoc. reflexivity. }
  assert (forallb (fun b => negb (is_eol b)) v = true) as Hve.
  { rewrite forallb_forall in *. intros b Hb. specialize (Hv1 b Hb). apply orb_true_iff in Hv1.
    destruct Hv1 as [H|H]; [|apply beqb_eq in H; subst b; reflexivity].
    unfold is_eol. pose proof (digit_not_blank b H) as Hd. rewrite !orb_false_iff in Hd. destruct Hd as (((-> & ->) & _) & _). reflexivity. }
  assert (take_while (fun b => negb (is_eol b)) (sub 5 20 (pdf_header v ++ s)) = v) as ->.
  { rewrite E. unfold sub. change (skipn 5 (bs "%PDF-" ++ v ++ nl ++ mk ++ nl ++ s)) with (v ++ nl ++ mk ++ nl ++ s).
    change (20 - 5)%nat with 15%nat. rewrite firstn_app, (firstn_all2 v) by exact Hv2.
    destruct (15 - length v)%nat as [|k]; [rewrite firstn_O|]; apply take_while_app; cbn; auto. }
  rewrite E.
  assert (skip_eol (bs "%PDF-" ++ v ++ nl ++ mk ++ nl ++ s) (5 + length v) = length (bs "%PDF-" ++ v ++ nl)) as ->.
  { replace (5 + length v)%nat with (length (bs "%PDF-" ++ v)) by (rewrite app_length; reflexivity).
    rewrite (skip_eol_at _ (bs "%PDF-" ++ v) nl (mk ++ nl ++ s)); [rewrite <- app_assoc; reflexivity|rewrite <- !app_assoc; reflexivity|reflexivity|reflexivity]. }
  replace (bs "%PDF-" ++ v ++ nl ++ mk ++ nl ++ s) with ((bs "%PDF-" ++ v ++ nl) ++ mk ++ nl ++ s) by (rewrite <- !app_assoc; reflexivity).
  assert (nth_error ((bs "%PDF-" ++ v ++ nl) ++ mk ++ nl ++ s) (length (bs "%PDF-" ++ v ++ nl)) = Some x25) as ->.
  { rewrite nth_error_app2 by lia. rewrite Nat.sub_diag. reflexivity. }
  change (beqb x25 "%") with true. cbv iota.
  rewrite skipn_app_exact. rewrite (take_while_app (fun b => negb (is_eol b)) mk (nl ++ s)) by reflexivity.
  rewrite <- app_length.
  rewrite (skip_eol_at _ ((bs "%PDF-" ++ v ++ nl) ++ mk) nl s); [|rewrite <- !app_assoc; reflexivity|reflexivity|exact Hs].
  unfold pdf_header, mk, nl. rewrite <- !app_assoc. reflexivity.
Qed.

Lemma contains_version q v : plain_version v = true -> (exists c p, q = c :: p /\ is_digit c = false /\ c <> "."%byte) -> contains q v = false.
Proof.
  intros Hv (c & p & -> & H1 & H2). apply nostart_contains; [discriminate|].
  unfold plain_version in Hv. apply andb_true_iff in Hv. destruct Hv as [Hv _].
  apply (nostart_class (fun b => is_digit b || beqb b ".")); [exact Hv|]. rewrite H1. apply beqb_neq. exact H2.
Qed.

Lemma range1_nodup n : NoDup (range1 n).
Proof. unfold range1. apply FinFun.Injective_map_NoDup; [intros a b H; lia|apply seq_NoDup]. Qed.

Lemma head_decZ n s : 
  exists b r, decZ n ++ s = b :: r /\ is_eol b = false.
Proof.
  assert (decZ n <> []) as Hn.
  { unfold decZ. destruct n; try apply dec_nonnil; discriminate. }
  pose proof (fun x => decZ_bytes x n) as Hb. destruct (decZ n) as [|b r]; [congruence|].
  exists b, (r ++ s). split; [reflexivity|]. destruct (Hb b (or_introl eq_refl)) as [H| ->]; [|reflexivity].
  pose proof (digit_not_blank b H) as Hd. rewrite !orb_false_iff in Hd. unfold is_eol. destruct Hd as (((-> & ->) & _) & _). reflexivity.
Qed.

Lemma read_back_document deflate order inflate w out :
  is_order order -> useXRefStream w = false -> useObjectStream w = false -> encryptRef w = None ->
  1 <= nextObjNum w -> plain_version (pdfVersion w) = true ->
  (forall n t, stored_text (updateCatalogWithOutlines w) n t -> plain t) ->
  fst (Write deflate order None w) = out -> Z.of_nat (length out) < 10 ^ 10 ->
  exists d, ParsePDFDocument inflate out = Ok d /\ DBytes d = out /\
    (forall n, ~ (1 <= n < nextObjNum w) \/ mem n (objects w) = false -> DGetObject d n = None) /\
    (forall n t, 1 <= n < nextObjNum w -> stored_text (updateCatalogWithOutlines w) n t ->
       exists o, DGetObject d n = Some o /\ roNumber o = n /\ roBytes o = object_text n t).
Proof.
  intros Hord Hx Hs He Hn Hv Rt Hout Hlen.
  destruct (write_structure deflate order w out Hord Hx Hs Hout) as (body & ps & Eo & Hmem & Hps & Hall).
  cbv zeta in *. set (w1 := updateCatalogWithOutlines w) in *.
  assert (encryptRef w1 = None) as He1 by (unfold w1; destruct (update_catalog_fields w) as (_&_&_&_&_&_&->&_); exact He).
  set (hb := pdf_header (pdfVersion w) ++ body) in *.
  assert (flen hb < 10 ^ 10) as HX.
  { unfold flen. rewrite Eo in Hlen. rewrite app_length in Hlen. lia. }
  assert (small_table ps) as Hsm by (eapply small_positions; [exact Hps|apply Z.le_refl|exact HX]).
  assert (0 <= flen hb < 2 ^ 63) as HX63.
  { pose proof (flen_pos_header (pdfVersion w) body). fold hb in H. change (10 ^ 10) with 10000000000 in HX. change (2 ^ 63) with 9223372036854775808. lia. }
  assert (nextObjNum w < 2 ^ 63) as Hn63.
  { pose proof (table_length (nextObjNum w) ps Hn Hsm) as Hl. rewrite Eo, !app_length in Hlen.
    change (10 ^ 10) with 10000000000 in Hlen. change (2 ^ 63) with 9223372036854775808. lia. }
  set (A := hb ++ xref_table (nextObjNum w) ps ++ trailer_text w1 (nextObjNum w)).
  assert (out = A ++ startxref_text (flen hb)) as EA by (rewrite Eo; unfold A; rewrite <- !app_assoc; reflexivity).
  assert (forall q, keyword q = true -> existsb (beqb x0a) q = false ->
            (exists c p, q = c :: p /\ is_digit c = false /\ c <> "."%byte) ->
            nostartb q (bs "%PDF-") = true -> nostartb q [x25; xe2; xe3; xcf; xd3; x0a] = true ->
            (forall t, plain t -> contains q t = false) -> nostart q A) as HA.
  { intros q K N V B C T. apply no_nl_in in N. unfold A, hb. apply nostart_app; [|apply nostart_app].
    - apply nostart_app; [apply header_nostart; try assumption; apply contains_version; assumption|].
      apply Hall; [apply nostart_nil|intros; apply nostart_app; assumption|].
      intros m u Hu. apply obj_nostart; [exact K|exact N|]. apply T, (Rt m u Hu).
    - apply table_nostart; exact K.
    - apply trailer_nostart; [exact K|exact He1]. }
  assert (nostart (bs "startxref") A) as HsA.
  { apply HA; try reflexivity.
    - do 2 eexists. split; [reflexivity|]. split; [reflexivity|discriminate].
    - intros t (_ & R & _). exact R. }
  assert (nostart (bs "%%EOF") A) as HeA.
  { apply HA; try reflexivity.
    - do 2 eexists. split; [reflexivity|]. split; [reflexivity|discriminate].
    - intros t (_ & _ & R). exact R. }
  destruct (last_eof A (flen hb)) as (l & Hl & Hl0). rewrite (Hl0 HeA) in Hl. cbn [app] in Hl.
  set (eof := (length A + length (sx_line (flen hb)))%nat) in *.
  assert (header_len out = length (pdf_header (pdfVersion w))) as Hh.
  { rewrite Eo. unfold hb. rewrite <- app_assoc. apply header_len_written; [exact Hv|].
    assert (body = [] \/ exists b r, body = b :: r /\ is_eol b = false) as Hb.
    { apply Hall; [left; reflexivity| |].
      - intros a b [->|(x & r & -> & Hx')] Hb; [exact Hb|]. right. exists x, (r ++ b). split; [reflexivity|exact Hx'].
      - intros n t _. right. unfold obj_text. apply head_decZ. }
    destruct Hb as [->|(b & r & -> & Hb)]; [reflexivity|exact Hb]. }
  set (rows := mkRow 0 65535 0 false None :: map (row_of ps) (range1 (nextObjNum w))).
  assert (ParseXRefDataRaw inflate out (flen hb) = Ok (true, rows)) as Hraw.
  { unfold ParseXRefDataRaw. replace (flen hb <? 0) with false by lia.
    assert (flen out <=? flen hb = false) as ->.
    { unfold flen. rewrite Eo. apply lt_app. unfold xref_table. discriminate. }
    cbn [orb]. unfold from, flen. rewrite Eo, Nat2Z.id, skipn_app_exact.
    assert (prefixb (bs "xref") (xref_table (nextObjNum w) ps ++ trailer_text w1 (nextObjNum w) ++ startxref_text (flen hb)) = true) as ->.
    { unfold xref_table. rewrite <- !app_assoc. apply prefixb_app. }
    destruct (trailer_text_split w1 (nextObjNum w)) as [tt Ett]. rewrite Ett, <- !app_assoc.
    rewrite index_at by apply keyword_trailer_table. rewrite firstn_len_app by reflexivity.
    rewrite raw_rows_table by (try exact Hsm; lia). reflexivity. }
  set (objs := revision_objects out (Z.of_nat (header_len out)) eof rows).
  assert (parseRevision inflate out 1 eof (Z.of_nat (header_len out)) = Ok (mkRev 1 objs (flen hb) eof (skip_eol out (eof + 5)))) as Hrev.
  { unfold parseRevision. rewrite EA at 1. rewrite startxref_before_end by assumption. rewrite atoi_clip_decZ by exact HX63.
    rewrite Hraw. cbn [rbind fst snd].
    assert (contains (bs "trailer") (from (flen hb) out) = true) as ->; [|reflexivity].
    unfold from, flen. rewrite Eo, Nat2Z.id, skipn_app_exact. destruct (trailer_text_split w1 (nextObjNum w)) as [tt Ett].
    rewrite Ett, <- !app_assoc. apply contains_app_mid. }
  exists (mkDoc out [mkRev 1 objs (flen hb) eof (skip_eol out (eof + 5))]).
  assert (forall n, mget n objs = match (if in_dec Z.eq_dec n (range1 (nextObjNum w)) then mget n ps else None) with
            | Some p => match ParseRawObject out n 0 p with Ok o => Some o | _ => None end
            | None => None end) as Hobjs.
  { intros n. unfold objs, revision_objects, rows. cbn [fold_left rInUse andb].
    rewrite rows_get; [reflexivity|apply range1_nodup|].
    intros i p _ Hp. rewrite Hh. destruct (Hps i p Hp) as (t & pre & post & _ & -> & Eb).
    unfold eof, A, hb, flen. rewrite Eb, !app_length. unfold obj_text. rewrite !app_length.
    change (length nl) with 1%nat. lia. }
  split; [|split; [|split]].
  - unfold ParsePDFDocument. rewrite EA at 3. rewrite Hl.
    assert (flen out <? 8 = false) as ->.
    { rewrite Eo. unfold hb, flen. rewrite !app_length. pose proof (header_11 (pdfVersion w)). lia. }
    assert (prefixb (bs "%PDF-") out = true) as ->.
    { rewrite Eo. unfold hb, pdf_header. rewrite <- !app_assoc. apply prefixb_app. }
    cbn [negb orb]. cbn [parse_revisions]. rewrite Hrev. reflexivity.
  - reflexivity.
  - intros n H. unfold DGetObject. cbn [dRevisions rev app newest rvObjects]. rewrite Hobjs.
    destruct (in_dec Z.eq_dec n (range1 (nextObjNum w))) as [Hi|Hi]; [|reflexivity].
    apply range1_in in Hi. destruct H as [H|H]; [contradiction|]. specialize (Hmem n). rewrite H in Hmem. unfold mem in Hmem.
    destruct (mget n ps); [discriminate|reflexivity].
  - intros n t Hr Ht. unfold DGetObject. cbn [dRevisions rev app newest rvObjects]. rewrite Hobjs.
    destruct (in_dec Z.eq_dec n (range1 (nextObjNum w))) as [Hi|Hi]; [|exfalso; apply Hi, range1_in; exact Hr].
    destruct (mget n ps) as [p|] eqn:Ep.
    + destruct (Hps n p Ep) as (t' & pre & post & Ht' & -> & Eb).
      assert (t' = t) as ->.
      { destruct Ht as (o & Eo1 & E1), Ht' as (o' & Eo2 & E2). rewrite Eo1 in Eo2. injection Eo2 as <-.
        destruct (oStream o); [congruence|]. destruct (oContent o); congruence. }
      destruct (raw_object_clean out (pdf_header (pdfVersion w) ++ pre) n t
        (post ++ xref_table (nextObjNum w) ps ++ trailer_text w1 (nextObjNum w) ++ startxref_text (flen hb))) as (o & -> & H1 & H2 & H3 & H4).
      * lia.
      * apply (Rt n t Ht).
      * rewrite Eo. unfold hb. rewrite Eb, <- !app_assoc. reflexivity.
      * exists o. auto.
    + exfalso. destruct Ht as (o & Eo1 & _). specialize (Hmem n). unfold mem in Hmem. rewrite Ep in Hmem.
      pose proof (proj1 (mkeys_update_catalog w n)) as Hk. fold w1 in Hk. rewrite Eo1 in Hk. specialize (Hk ltac:(discriminate)).
      destruct (mget n (objects w)); [discriminate|congruence].
Qed.

(** A stream object is readable when its parts are. *)
Lemma readable_stream d s :
  contains (bs "endobj") d = false -> contains (bs "startxref") d = false -> contains (bs "/Encrypt") d = false ->
  contains (bs "endstream") d = false ->
  contains (bs "endobj") s = false -> contains (bs "startxref") s = false -> contains (bs "/Encrypt") s = false ->
  contains (bs "endstream") s = false ->
  match d with [] => False | b :: _ => is_blank b = false end ->
  readable (d ++ bs "
stream
" ++ s ++ bs "
endstream").
Proof.
  intros D1 D2 D3 D4 S1 S2 S3 S4 Hd.
  assert (d ++ bs "
stream
" ++ s ++ bs "
endstream" = (d ++ nl) ++ (bs "stream" ++ nl) ++ (s ++ nl) ++ bs "endstream") as E by (rewrite <- !app_assoc; reflexivity).
  assert (forall q, q <> [] -> existsb (beqb x0a) q = false -> contains q d = false -> contains q s = false ->
           nostartb q (bs "stream" ++ nl) = true -> nostart q ((d ++ nl) ++ (bs "stream" ++ nl) ++ (s ++ nl))) as H.
  { intros q Hq N Q1 Q2 Q3. apply no_nl_in in N. apply nostart_app; [apply nostart_sep; assumption|].
    apply nostart_app; [apply nostartb_ok; exact Q3|apply nostart_sep; assumption]. }
  rewrite E. unfold readable.
  replace ((d ++ nl) ++ (bs "stream" ++ nl) ++ (s ++ nl) ++ bs "endstream")
    with (((d ++ nl) ++ (bs "stream" ++ nl) ++ (s ++ nl)) ++ bs "endstream") by (rewrite <- !app_assoc; reflexivity).
  repeat split.
  - rewrite contains_nostart by (apply H; (assumption || reflexivity || discriminate)). reflexivity.
  - rewrite contains_nostart by (apply H; (assumption || reflexivity || discriminate)). reflexivity.
  - rewrite contains_nostart by (apply H; (assumption || reflexivity || discriminate)). reflexivity.
  - destruct d as [|b d]; [contradiction|]. exact Hd.
  - right. rewrite app_length. change (length (bs "endstream")) with 9%nat.
    set (X := (d ++ nl) ++ (bs "stream" ++ nl) ++ s ++ nl).
    change (X ++ bs "endstream") with (X ++ bs "endstream" ++ []).
    rewrite index_at by (apply H; (assumption || reflexivity || discriminate)). f_equal. lia.
Qed.

(* ---------------------------------------------------------------- *)
(** FindObjectByNumber on written files (C18) *)

Lemma prefix_digits_run d r s u : forallb is_digit d = true -> forallb is_digit u = true ->
  match r with [] => False | b :: _ => is_digit b = false end ->
  match s with [] => True | b :: _ => is_digit b = false end ->
  prefixb (d ++ r) (u ++ s) = true -> d = u.
Proof.
  intros Hd Hu Hr Hs H. apply prefixb_spec in H. destruct H as [t Ht].
  assert (take_while is_digit (u ++ s) = u) as E1 by (apply take_while_app; assumption).
  assert (take_while is_digit ((d ++ r) ++ t) = d) as E2.
  { rewrite <- app_assoc. apply take_while_app; [exact Hd|]. destruct r; [contradiction|exact Hr]. }
  rewrite <- Ht in E2. congruence.
Qed.

Lemma forallb_skipn {A} f j (l : list A) : forallb f l = true -> forallb f (skipn j l) = true.
Proof.
  intros H. rewrite forallb_forall in *. intros x Hx. apply H. rewrite <- (firstn_skipn j l). apply in_or_app. right. exact Hx.
Qed.

Lemma num_suffix_le d j : forallb is_digit d = true -> (num (skipn j d) <= num d)%N.
Proof.
  intros H. rewrite <- (firstn_skipn j d) at 2. rewrite num_app, num_acc. unfold num. lia.
Qed.

Lemma decZ_num n : 0 <= n -> num (decZ n) = Z.to_N n.
Proof. intros H. rewrite decZ_nonneg by exact H. apply num_dec. Qed.

Lemma dec_aux_head f n q : (N.size_nat n < f)%nat -> (0 < n)%N -> dec_aux f n [] <> "0"%byte :: q.
Proof.
  revert n q. induction f as [|f IH]; intros n q Hf Hn; [discriminate|]. cbn [dec_aux].
  destruct (N.eqb_spec (n / 10) 0) as [E|E].
  - intros H. injection H as H _. apply (f_equal b2n) in H. rewrite b2n_n2b_small in H by lia.
    change (b2n "0") with 48%N in H. lia.
  - rewrite dec_aux_app. pose proof (size_nat_div10 n E).
    destruct (dec_aux f (n / 10) []) as [|c r] eqn:Ed.
    + exfalso. destruct (dec_aux_spec f (n / 10)) as (_ & _ & H'); [lia|]. congruence.
    + intros H'. cbn [app] in H'. injection H' as -> _. apply (IH (n / 10)%N r); [lia|lia|exact Ed].
Qed.
Lemma dec_no_leading_zero n q : 0 < n -> decZ n = "0"%byte :: q -> False.
Proof. intros Hn. rewrite decZ_nonneg by lia. apply dec_aux_head; lia. Qed.

(** The text "n 0 obj" cannot start in a line-terminated text without " 0 obj". *)
Lemma header_nostart_line n t : 0 <= n -> contains (bs " 0 obj") t = false -> nostart (decZ n ++ bs " 0 obj") (t ++ nl).
Proof.
  intros Hn Ht b j Hj. destruct (prefixb (decZ n ++ bs " 0 obj") (skipn j ((t ++ nl) ++ b))) eqn:E; [|reflexivity]. exfalso.
  apply prefixb_spec in E. destruct E as [r Er].
  assert (nostart (bs " 0 obj") (t ++ nl)) as Hns by (apply nostart_sep; [exact Ht|apply no_nl_in; reflexivity|discriminate]).
  set (k := (j + length (decZ n))%nat).
  assert (skipn k ((t ++ nl) ++ b) = bs " 0 obj" ++ r) as Ek.
  { unfold k. rewrite Nat.add_comm, <- skipn_skipn, Er, <- app_assoc. apply skipn_app_exact. }
  destruct (Nat.lt_ge_cases k (length (t ++ nl))) as [Hk|Hk].
  - specialize (Hns b k Hk). rewrite Ek, prefixb_app in Hns. discriminate.
  - (* the digits would cover the line end *)
    rewrite app_length in Hj, Hk. change (length nl) with 1%nat in *.
    assert (In x0a (decZ n)) as Hi.
    { assert (nth_error (skipn j ((t ++ nl) ++ b)) (length t - j) = Some x0a) as H1.
      { rewrite <- app_assoc. rewrite skipn_app_l by lia. rewrite nth_error_app2 by (rewrite skipn_length; lia).
        rewrite skipn_length, Nat.sub_diag. reflexivity. }
      rewrite Er, <- app_assoc in H1. rewrite nth_error_app1 in H1 by (unfold k in Hk; lia).
      apply nth_error_In in H1. exact H1. }
    pose proof (decZ_digits n Hn) as Hd. rewrite forallb_forall in Hd. specialize (Hd _ Hi). discriminate.
Qed.

Lemma header_nostart_nodigit n s : 0 <= n -> forallb (fun b => negb (is_digit b)) s = true -> nostart (decZ n ++ bs " 0 obj") s.
Proof.
  intros Hn Hs. pose proof (decZ_nonnil n Hn) as H1. pose proof (decZ_digits n Hn) as H2.
  destruct (decZ n) as [|c r]; [congruence|]. cbn [app]. cbn [forallb] in H2. apply andb_true_iff in H2.
  apply (nostart_class (fun b => negb (is_digit b))); [exact Hs|]. rewrite (proj1 H2). reflexivity.
Qed.

Lemma header_nostart_smaller n m t : 0 <= m -> m < n -> contains (bs " 0 obj") t = false ->
  nostart (decZ n ++ bs " 0 obj") (obj_text m t).
Proof.
  intros Hm Hlt Ht.
  replace (obj_text m t) with (decZ m ++ bs " 0" ++ bs " obj" ++ nl ++ (t ++ nl) ++ bs "endobj" ++ nl)
    by (unfold obj_text; rewrite <- !app_assoc; reflexivity).
  assert (nostart (decZ n ++ bs " 0 obj") (decZ m ++ bs " 0")) as H1.
  { intros b j Hj. rewrite <- app_assoc.
    destruct (prefixb (decZ n ++ bs " 0 obj") (skipn j (decZ m ++ bs " 0" ++ b))) eqn:E; [|reflexivity]. exfalso.
    destruct (Nat.lt_ge_cases j (length (decZ m))) as [Hk|Hk].
    - rewrite skipn_app_l in E by lia.
      apply prefix_digits_run in E; [|apply decZ_digits; lia|apply forallb_skipn, decZ_digits; lia|reflexivity|reflexivity].
      pose proof (num_suffix_le (decZ m) j (decZ_digits m Hm)) as Hle. rewrite <- E, !decZ_num in Hle by lia. lia.
    - rewrite skipn_app_r in E by exact Hk. rewrite app_length in Hj. change (length (bs " 0")) with 2%nat in Hj.
      destruct (j - length (decZ m))%nat as [|[|k]] eqn:Ej; [| |lia].
      + apply prefixb_spec in E. destruct E as [r Er]. pose proof (decZ_nonnil n ltac:(lia)) as N1. pose proof (decZ_digits n ltac:(lia)) as N2.
        destruct (decZ n) as [|c q]; [congruence|]. cbn in Er. injection Er as <- _. discriminate.
      + apply prefixb_spec in E. destruct E as [r Er].
        (* "0" followed by the rest: the digit run is the one of n *)
        cbn [skipn app bs list_byte_of_string] in Er. rewrite <- app_assoc in Er.
        destruct (decZ n) as [|c q] eqn:En; [exact (decZ_nonnil n ltac:(lia) En)|].
        cbn [app] in Er. injection Er as Ec Er. subst c.
        assert (num (decZ n) = Z.to_N n) as Hnum by (apply decZ_num; lia).
        (* a decimal number greater than zero does not start with 0 *)
        exact (dec_no_leading_zero n q ltac:(lia) En). }
  rewrite (app_assoc (decZ m)). apply nostart_app; [exact H1|].
  apply nostart_app; [apply header_nostart_nodigit; [lia|reflexivity]|].
  apply nostart_app; [apply header_nostart_nodigit; [lia|reflexivity]|].
  apply nostart_app; [apply header_nostart_line; [lia|exact Ht]|].
  apply header_nostart_nodigit; [lia|reflexivity].
Qed.

Lemma write_objs_before (P : bytes -> Prop) objs h n :
  P [] -> (forall a b, P a -> P b -> P (a ++ b)) ->
  (forall m o, m < n -> mget m objs = Some o -> P (obj_text m (body_of None h m o))) ->
  forall nums pos body ps h', write_objs None objs [] h pos nums = (body, ps, h') ->
  StronglySorted Z.le nums -> NoDup nums -> In n nums -> (forall m, In m nums -> mget m objs <> None) ->
  exists o pre post, mget n objs = Some o /\ body = pre ++ obj_text n (body_of None h n o) ++ post /\
    mget n ps = Some (pos + Z.of_nat (length pre)) /\ P pre.
Proof.
  intros H0 Happ Hsm nums. induction nums as [|m nums IH]; intros pos body ps h' H Hso Hnd Hin Hk; [destruct Hin|].
  cbn [write_objs] in H. inversion Hnd as [|x y Hni Hnd']; subst. inversion Hso as [|x y Hso' Hle]; subst.
  destruct (mget m objs) as [o|] eqn:Eo; [|exfalso; apply (Hk m); [left; reflexivity|exact Eo]].
  unfold mem in H. cbn [mget] in H.
  destruct (obj_body None h m o) as [bd h1] eqn:Eb. cbv zeta in H.
  destruct (write_objs None objs [] h1 (pos + Z.of_nat (length (obj_text m bd))) nums) as [[rest ps'] h2] eqn:Er.
  injection H as <- <- <-.
  assert (h1 = h) as ->.
  { unfold obj_body in Eb. destruct (oStream o); [|destruct (oContent o)]; injection Eb as _ <-; reflexivity. }
  assert (bd = body_of None h m o) as Ebd by (unfold body_of; rewrite Eb; reflexivity).
  destruct Hin as [->|Hin].
  - exists o, [], rest. cbn [mget]. rewrite Z.eqb_refl. cbn [app length]. rewrite Z.add_0_r, <- Ebd.
    split; [exact Eo|]. split; [reflexivity|]. split; [reflexivity|exact H0].
  - rewrite Forall_forall in Hle. specialize (Hle n Hin).
    assert (n <> m) as Hne by (intros ->; contradiction).
    destruct (IH _ _ _ _ Er Hso' Hnd' Hin) as (o' & pre & post & E1 & E2 & E3 & E4).
    { intros k Hkk. apply Hk. right. exact Hkk. }
    exists o', (obj_text m bd ++ pre), post. split; [exact E1|]. split; [rewrite E2, <- app_assoc; reflexivity|]. split.
    + cbn [mget]. destruct (Z.eqb_spec n m) as [->|_]; [contradiction|]. rewrite E3. f_equal. rewrite app_length. lia.
    + apply Happ; [|exact E4]. rewrite Ebd. apply (Hsm m o); [lia|exact Eo].
Qed.

Lemma find_written deflate order inflate w out n :
  is_order order -> useXRefStream w = false -> useObjectStream w = false ->
  (forall m, mem m (objects w) = true -> 0 <= m) ->
  contains (bs " 0 obj") (pdfVersion w) = false ->
  (forall m t, stored_text (updateCatalogWithOutlines w) m t -> contains (bs " 0 obj") t = false) ->
  fst (Write deflate order None w) = out -> mem n (objects w) = true ->
  exists p t, FindObjectByNumber inflate out n = Ok p /\ stored_text (updateCatalogWithOutlines w) n t /\
    occurs_at out p (obj_text n t) /\
    (exists b, nth_error out (Z.to_nat (p - 1)) = Some b /\ is_digit b = false) .
Proof.
  intros Hord Hx Hs Hk0 Hv Ht Hout Hn. unfold Write in Hout.
  destruct (update_catalog_fields w) as (Ux & Us & Un & Uv & _).
  pose proof (mkeys_update_catalog w) as Hmem. set (w1 := updateCatalogWithOutlines w) in *.
  rewrite createObjectStreams_off in Hout by (rewrite Us; exact Hs). cbv zeta in Hout.
  rewrite Uv in Hout. remember (pdf_header (pdfVersion w)) as hd eqn:Ehd.
  destruct (write_objs None (objects w1) [] (dicts w1) (Z.of_nat (length hd))
              (sortZ (order (mkeys (objects w1))))) as [[body ps] h] eqn:Ew.
  rewrite Ux, Hx, Un in Hout. cbn [fst] in Hout.
  assert (forall n, In n (sortZ (order (mkeys (objects w1)))) <-> mget n (objects w1) <> None) as Hin.
  { intros k. rewrite sortZ_in. split; intros H.
    - apply (Permutation_in k (Hord _)) in H. apply mkeys_in in H. destruct H as [v Hv']. congruence.
    - apply (Permutation_in k (Permutation_sym (Hord _))). apply mkeys_in.
      destruct (mget k (objects w1)) as [v|]; [eauto|congruence]. }
  assert (forall m, mget m (objects w1) <> None -> 0 <= m) as Hk1.
  { intros m Hm. apply Hk0. apply Hmem in Hm. unfold mem. destruct (mget m (objects w)); [reflexivity|congruence]. }
  assert (mget n (objects w1) <> None) as Hn1.
  { apply Hmem. unfold mem in Hn. destruct (mget n (objects w)); [discriminate|discriminate]. }
  destruct (write_objs_before (fun s => nostart (decZ n ++ bs " 0 obj") s /\ (s = [] \/ exists u, s = u ++ nl)) (objects w1) (dicts w1) n)
    with (nums := sortZ (order (mkeys (objects w1)))) (pos := Z.of_nat (length hd)) (body := body) (ps := ps) (h' := h)
    as (o & pre & post & Eo & Eb & Ep & Hpre & Hpre2).
  { split; [apply nostart_nil|left; reflexivity]. }
  { intros a b [Ha Ha2] [Hb Hb2]. split; [apply nostart_app; assumption|].
    destruct Hb2 as [->|[u ->]]; [rewrite app_nil_r; exact Ha2|right; exists (a ++ u); rewrite app_assoc; reflexivity]. }
  { intros m o Hlt Ho. split.
    - apply header_nostart_smaller; [apply Hk1; congruence|exact Hlt|]. apply (Ht m). apply body_stored. exact Ho.
    - right. unfold obj_text. exists (decZ m ++ bs " 0 obj" ++ nl ++ body_of None (dicts w1) m o ++ nl ++ bs "endobj").
      rewrite <- !app_assoc. reflexivity. }
  { exact Ew. }
  { apply sortZ_sorted. }
  { apply sortZ_nodup. apply (Permutation_NoDup (Permutation_sym (Hord _))). apply mkeys_nodup. }
  { apply Hin. exact Hn1. }
  { intros m Hm. apply Hin. exact Hm. }
  set (t := body_of None (dicts w1) n o) in *.
  assert (0 <= n) as Hn0 by (apply Hk1; exact Hn1).
  assert (exists rest, out = (hd ++ pre) ++ obj_text n t ++ rest) as [rest Erest].
  { eexists. rewrite <- Hout, Eb. rewrite <- !app_assoc. reflexivity. }
  exists (flen (hd ++ pre)), t. repeat split.
  - unfold FindObjectByNumber.
    assert (index (decZ n ++ bs " 0 obj") out = Some (length (hd ++ pre))) as ->; [|reflexivity].
    rewrite Erest. unfold obj_text. rewrite <- !app_assoc.
    rewrite (app_assoc hd). rewrite (app_assoc (decZ n)). apply index_at.
    apply nostart_app; [|exact Hpre]. subst hd. unfold pdf_header.
    apply nostart_app; [apply header_nostart_nodigit; [exact Hn0|reflexivity]|]. rewrite app_assoc.
    apply nostart_app; [apply header_nostart_line; [exact Hn0|exact Hv]|apply header_nostart_nodigit; [exact Hn0|reflexivity]].
  - apply body_stored. exact Eo.
  - unfold flen. lia.
  - unfold flen. rewrite Nat2Z.id, Erest, skipn_app_exact. apply prefixb_app.
  - assert (exists u, hd ++ pre = u ++ [x0a]) as [u Eu].
    { destruct Hpre2 as [->|[u ->]].
      - rewrite app_nil_r. subst hd. unfold pdf_header. exists (bs "%PDF-" ++ pdfVersion w ++ nl ++ [x25; xe2; xe3; xcf; xd3]).
        rewrite <- !app_assoc. reflexivity.
      - exists (hd ++ u). rewrite app_assoc. reflexivity. }
    exists x0a. split; [|reflexivity]. rewrite Erest, Eu. unfold flen. rewrite app_length. cbn [length].
    replace (Z.to_nat (Z.of_nat (length u + 1) - 1)) with (length u) by lia.
    rewrite <- app_assoc. rewrite nth_error_app2 by lia. rewrite Nat.sub_diag. reflexivity.
Qed.

(** As [last_startxref], but only the last 100 bytes matter. *)
Lemma last_startxref_window a x : 0 <= x < 2 ^ 63 ->
  contains (bs "startxref") (skipn (length a - 100) a) = false ->
  findLastStartXRef ((a ++ nl) ++ startxref_text x) = Ok x.
Proof.
  intros Hx Ha. unfold findLastStartXRef. destruct (last_eof (a ++ nl) x) as (l & -> & _).
  rewrite rev_app_distr. cbn [rev app].
  assert (E : startxref_before ((a ++ nl) ++ startxref_text x) (length (a ++ nl) + length (sx_line x)) = Some (decZ x)).
  { unfold startxref_before. rewrite startxref_text_split. pose proof (sx_line_length x Hx).
    rewrite (sub_app (a ++ nl) (sx_line x)) by (try reflexivity; lia).
    assert (L1 : length (a ++ nl) = (length a + 1)%nat) by (rewrite app_length; reflexivity).
    assert (nofire m_startxref (skipn (length (a ++ nl) + length (sx_line x) - 100) (a ++ nl))) as Hn.
    { eapply nostart_nofire; [apply m_startxref_lit|].
      rewrite L1. 
      assert (L : (length a - 100 <= length a + 1 + length (sx_line x) - 100)%nat) by lia.
      destruct (Nat.le_gt_cases (length a + 1 + length (sx_line x) - 100) (length a)) as [K|K].
      - rewrite skipn_app_l by lia. apply nostart_sep; [|apply no_nl_in; reflexivity|discriminate].
        apply contains_false. intros j Hj. rewrite skipn_skipn.
        rewrite contains_false in Ha.
        specialize (Ha (j + (length a + 1 + length (sx_line x) - 100) - (length a - 100))%nat).
        rewrite skipn_skipn in Ha.
        rewrite skipn_length in Hj, Ha.
        replace (j + (length a + 1 + length (sx_line x) - 100) - (length a - 100) + (length a - 100))%nat with (j + (length a + 1 + length (sx_line x) - 100))%nat in Ha by lia.
        apply Ha. lia.
      - rewrite skipn_all2 by lia. apply nostart_nil. }
    rewrite (find_at m_startxref _ (sx_line x) (decZ x) Hn); [reflexivity|].
    rewrite <- (app_nil_r (sx_line x)). apply m_startxref_here. lia. }
  rewrite E, atoi_decZ by exact Hx. reflexivity.
Qed.
