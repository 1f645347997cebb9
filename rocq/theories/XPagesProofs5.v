(** Proofs about content/extract/pages.go, part 5: plain texts. *)
From Verif Require Import Scan Utf8 XPagesModel XPagesSpec ExtractSpec EncodingSpec EncodingProofs3 XPagesProofs3 XPagesProofs4 PageModel.
From Verif Require PageSpec CompareProofs3 ManipSpec XPagesProofs.
From Coq Require Import Lia ZArith.
Local Open Scope Z_scope.

Lemma plain_standard s : forallb plain_char s = true -> forallb standard_bytes s = true /\ text_of (map standard_latin (byte_codes s)) = s.
Proof.
  intros H. induction s as [|b s IH]; [split; reflexivity|]. cbn [forallb] in H. apply andb_prop in H. destruct H as [H1 H2].
  destruct (IH H2) as [I1 I2]. cbn [forallb]. rewrite I1.
  assert (E : text_of (map standard_latin (byte_codes (b :: s))) =
    text_of [standard_latin (Z.of_N (b2n b))] ++ text_of (map standard_latin (byte_codes s))).
  { unfold text_of, byte_codes. cbn [map]. unfold utf8. cbn [flat_map]. rewrite app_nil_r. reflexivity. }
  rewrite E, I2. destruct b; try discriminate; split; reflexivity.
Qed.
Lemma plain_decodes s : forallb plain_char s = true -> Decode standard_decoder s = s.
Proof.
  intros H. destruct (plain_standard s H) as [H1 H2].
  transitivity (text_of (map standard_latin (byte_codes s))); [|exact H2].
  apply (decode_base standard_latin standardEncoding standard_bytes); [vm_compute; reflexivity|exact H1].
Qed.
Lemma decoder_standard fonts before : match font_decoder (Some (standard_fonts fonts)) before with Some d => d = standard_decoder | None => True end.
Proof.
  unfold font_decoder, last_of.
  assert (G : forall (l : list (ccall float)) (a : option decoder), (match a with Some d => d = standard_decoder | None => True end) ->
    match fold_left (fun a c => match (match c with SetFont _ n _ => Some (kget n (standard_fonts fonts)) | _ => None end) with Some v => v | None => a end) l a
    with Some d => d = standard_decoder | None => True end).
  { intros l. induction l as [|c l IH]; intros a Ha; [exact Ha|]. cbn [fold_left]. apply IH. destruct c; try exact Ha.
    destruct (kget _ _) as [d|] eqn:E; [|exact I]. apply CompareProofs3.kget_In in E. unfold standard_fonts in E.
    apply in_map_iff in E. destruct E as (e & E & _). congruence. }
  apply G. exact I.
Qed.
Lemma decoded_plain fonts before s : forallb plain_char s = true -> decoded (Some (standard_fonts fonts)) before s = s.
Proof.
  intros H. unfold decoded. pose proof (decoder_standard fonts before) as D.
  destruct (font_decoder (Some (standard_fonts fonts)) before) as [d|]; [|reflexivity]. rewrite D. apply plain_decodes, H.
Qed.
Lemma texts_plain rd fonts cs : Forall plain_call cs -> forall before,
  map teText (seen (texts_seen rd (Some (standard_fonts fonts))) before cs) = texts_drawn cs.
Proof.
  induction 1 as [|c cs H _ IH]; intros before; [reflexivity|]. cbn [seen]. rewrite map_app, IH. unfold texts_drawn. cbn [flat_map]. f_equal.
  unfold texts_seen. destruct c; cbn [text_shown map teText]; try reflexivity; cbn [plain_call] in H.
  - rewrite decoded_plain by exact H. reflexivity.
  - rewrite decoded_plain by exact H. reflexivity.
  - f_equal. induction H as [|e l He _ IHl]; [reflexivity|]. cbn [flat_map]. rewrite decoded_plain by exact He. f_equal. exact IHl.
  - contradiction.
Qed.
Lemma pages_texts rd one zero z pbs ds : forall i, length pbs = length ds -> Forall (fun d => Forall plain_call (dwCalls d)) ds ->
  map (fun p => (xpNumber p, map teText (xpTexts p))) (pages_read rd one zero z i pbs ds) =
  combine (map (fun k => i + Z.of_nat k) (seq 0 (length ds))) (map (fun d => texts_drawn (dwCalls d)) ds).
Proof.
  revert ds. induction pbs as [|pb pbs IH]; intros [|d ds] i L H; try discriminate; [reflexivity|]. inversion H; subst.
  cbn [pages_read map length seq combine]. f_equal.
  - cbn [page_read xpNumber xpTexts]. rewrite texts_plain by assumption. f_equal. lia.
  - rewrite IH; [|injection L; auto|assumption]. f_equal. rewrite <- seq_shift, map_map. apply map_ext. intros k. lia.
Qed.

(** Reading a page does not fail. *)
Section total.
Context (inflate : bytes -> option bytes) (parse_float : bytes -> option float) (get : Z -> result bytes).
Hypothesis Hget : forall n, get n <> Panic.
Lemma try_ok n : exists o, try_get get n = Ok o.
Proof. unfold try_get. specialize (Hget n). destruct (get n); [eauto|eauto|congruence]. Qed.
Lemma base_ok font d : exists d', base_encoding get font d = Ok d'.
Proof.
  unfold base_encoding. destruct (x_value font (bs "/Encoding")) as [|b e]; [eauto|].
  destruct (prefixb (bs "/") (b :: e)); [eauto|]. destruct (parse_ref (b :: e)) as [n|]; [|eauto].
  destruct (try_ok n) as [o ->]. cbn [rmap]. eauto.
Qed.
Lemma decoder_ok n : exists o, extractFontDecoder inflate get n = Ok o.
Proof.
  unfold extractFontDecoder. destruct (try_ok n) as [[font|] ->]; cbn [rbind]; [|eauto].
  destruct (base_ok font NewFontDecoder) as [d ->]. cbn [rbind].
  destruct (x_value font (bs "/ToUnicode")) as [|b r]; [cbn [rmap]; eauto|].
  destruct (parse_ref (b :: r)) as [m|]; [|cbn [rmap]; eauto]. unfold extractStreamData. destruct (try_ok m) as [o ->]. cbn [rmap]. eauto.
Qed.
Lemma decoders_ok l : forall acc, exists m, font_decoders inflate get l acc = Ok m.
Proof.
  induction l as [|[n d] l IH]; intros acc; cbn [font_decoders]; [eauto|].
  destruct (decoder_ok (match atoi d with Some z => z | None => 0 end)) as [o ->]. cbn [rbind]. apply IH.
Qed.
Lemma contents_ok decs refs : exists c, read_contents inflate parse_float get decs refs = Ok c.
Proof.
  induction refs as [|r refs [c IH]]; cbn [read_contents]; [eauto|]. rewrite IH.
  destruct (parse_ref r) as [n|]; [destruct (try_ok n) as [o ->]|]; cbn [rmap rbind]; eauto.
Qed.
Lemma page_total x : exists p, extractPage inflate parse_float get x = Ok p.
Proof.
  unfold extractPage.
  assert (R : exists r, page_resources get x = Ok r).
  { unfold page_resources. destruct (x_value x (bs "/Resources")) as [|b r]; [eauto|]. destruct (parse_ref (b :: r)) as [n|]; [|eauto].
    destruct (try_ok n) as [o ->]. cbn [rmap]. eauto. }
  destruct R as [res ->]. cbn [rbind].
  assert (D : exists d, match res with [] => Ok None | _ => rmap Some (extractFontDecoders inflate get res) end = Ok d).
  { destruct res as [|b res]; [eauto|]. unfold extractFontDecoders. destruct (decoders_ok (matches m_font_entry (font_entries_text (b :: res)) 0) []) as [m ->].
    cbn [rmap]. eauto. }
  destruct D as [d ->]. cbn [rbind]. destruct (contents_ok d (content_refs x)) as [c ->]. cbn [rmap]. eauto.
Qed.
Lemma pages_number i ps : map xpNumber (numbered i ps) = map (fun k => Z.of_nat k + 1) (seq i (length ps)).
Proof. revert i. induction ps as [|p ps IH]; intros i; [reflexivity|]. cbn [numbered map length seq]. f_equal. apply IH. Qed.
End total.
Lemma pages_of_tree inflate parse_float get root t stack : 0 <= root < 2 ^ 63 -> 0 <= ManipSpec.pnum t < 2 ^ 63 ->
  names_tree get root (ManipSpec.pnum t) -> reads_tree get t -> (ManipSpec.height t <= stack)%nat -> (forall n, get n <> Panic) ->
  exists ps, XExtractPages inflate parse_float get stack (ref root) = Ok ps /\
    map xpNumber ps = map (fun k => Z.of_nat k + 1) (seq 0 (length ps)) /\
    Forall2 (fun n p => exists x q, get n = Ok x /\ extractPage inflate parse_float get x = Ok q /\ same_content p q) (ManipSpec.page_list t) ps.
Proof.
  intros Hr Ht (a & wp & wd & b & H1 & H2 & H3 & H4) Hrt Hs Hp.
  assert (L : exists qs, Forall2 (fun n q => exists x, get n = Ok x /\ extractPage inflate parse_float get x = Ok q) (ManipSpec.page_list t) qs).
  { assert (G : forall l, (forall n, In n l -> exists x, get n = Ok x) ->
      exists qs, Forall2 (fun n q => exists x, get n = Ok x /\ extractPage inflate parse_float get x = Ok q) l qs).
    { induction l as [|n l IH]; intros G; [exists []; constructor|]. destruct (G n (or_introl eq_refl)) as [x Hx].
      destruct (page_total inflate parse_float get Hp x) as [q Hq]. destruct IH as [qs IH]; [intros; apply G; right; assumption|].
      exists (q :: qs). constructor; [eauto|exact IH]. }
    apply G. clear - Hrt.
    assert (F : forall t, reads_tree get t -> forall n, In n (ManipSpec.page_list t) -> exists x, get n = Ok x); [|apply F, Hrt].
    fix IH 1. intros [m|m kids]; cbn [reads_tree ManipSpec.page_list].
    - intros (x & Hx & _) n [<-|[]]. eauto.
    - intros [_ Hk] n Hn. induction kids as [|k kids IHk]; [contradiction|]. cbn [fold_right] in Hk. destruct Hk as [Hk1 Hk2].
      cbn [flat_map] in Hn. apply in_app_or in Hn. destruct Hn as [Hn|Hn]; [apply (IH k Hk1 n Hn)|apply IHk; assumption]. }
  destruct L as [qs L]. exists (numbered 0 qs). split; [|split].
  - change (ref root) with (decZ root ++ bs " " ++ bs "0 R").
    eapply XPagesProofs.pages_tree with (w := bs " ") (r := bs "0 R"); [exact Hr|split; [discriminate|reflexivity]|exact H1|reflexivity|exact H2|exact H3|exact H4|exact Ht|exact Hrt|exact Hs|exact L].
  - rewrite (pages_number 0 qs). f_equal. f_equal. generalize 0%nat. clear. induction qs as [|q qs IH]; intros i; [reflexivity|]. cbn [numbered length]. f_equal. apply IH.
  - clear - L. revert L. generalize 0%nat. generalize (ManipSpec.page_list t). intros l i L. revert i.
    induction L as [|n q l qs (x & X1 & X2) _ IH]; intros i; [constructor|].
    cbn [numbered]. constructor; [|apply IH]. exists x, q. split; [exact X1|]. split; [exact X2|]. repeat split.
Qed.
Lemma refs_cons n l pre rest : forallb ManipSpec.space_byte pre = true -> 0 <= n < 2 ^ 63 -> ManipSpec.ref_list l rest ->
  ManipSpec.ref_list (n :: l) (pre ++ decZ n ++ bs " 0 R" ++ rest).
Proof.
  intros H1 H2 H3. change (bs " 0 R" ++ rest) with (bs " " ++ bs "0" ++ bs " " ++ bs "R" ++ rest).
  apply ManipSpec.rl_cons; try assumption; try reflexivity; try discriminate; (split; [discriminate|reflexivity]).
Qed.
