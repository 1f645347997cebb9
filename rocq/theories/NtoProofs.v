(** Proofs about fonts with a ToUnicode map. *)
From Verif Require Import Util Scan Utf8 ReadProofs MarksModel MarksSpec ManipSpec ManipProofs ManipProofs2 EncodingModel EncodingSpec EncodingProofs EncodingProofs3 XPagesModel XPagesProofs XPagesProofs2 XPagesProofs3 MarksProofs ResSpec ResProofs NtoSpec.
From Coq Require Import Lia ZArith.
Local Open Scope Z_scope.

Lemma shown_data inflate x content : stream_shows inflate x content -> stream_data inflate x = Some content.
Proof.
  intros (a & eol & data & b & Ex & He & Na & Nd & Hs & Hc).
  assert (S : stream_start x = Some (length (a ++ bs "stream" ++ eol))).
  { unfold stream_start. rewrite Ex at 1. rewrite (index_at _ _ _ Na). cbn [Util.obind].
    assert (skipn (length a + 6) x = eol ++ data ++ bs "endstream" ++ b) as ->.
    { rewrite Ex. rewrite app_assoc. replace (length a + 6)%nat with (length (a ++ bs "stream")) by (rewrite app_length; reflexivity). apply skipn_app_all. }
    cbv zeta. assert (starts_with (beqb x0a) (data ++ bs "endstream" ++ b) = false) as Hd by (destruct data; [reflexivity|exact Hs]).
    clear - He Hd. rewrite !app_length. destruct (data ++ bs "endstream" ++ b) as [|c r].
    - destruct He as [->| ->]; cbn [app]; change (beqb x0a x0d || beqb x0a x0a) with true; change (beqb x0d x0d || beqb x0d x0a) with true;
        cbv iota; cbn [skipn]; change (beqb x0a x0a) with true; cbv iota; cbn [length]; change (length (bs "stream")) with 6%nat; f_equal; lia.
    - cbn [starts_with] in Hd. assert (beqb c x0a = false) as Hc by (apply beqb_neq; intros ->; discriminate).
      destruct He as [->| ->]; cbn [app]; cbn [beqb skipn]; change (beqb x0a x0d || beqb x0a x0a) with true; change (beqb x0d x0d || beqb x0d x0a) with true;
        cbv iota; cbn [skipn]; rewrite ?Hc; change (beqb x0a x0a) with true; cbv iota; cbn [length]; change (length (bs "stream")) with 6%nat; f_equal; lia. }
  unfold stream_data. rewrite S. cbn [Util.obind].
  assert (skipn (length (a ++ bs "stream" ++ eol)) x = data ++ bs "endstream" ++ b) as ->.
  { rewrite Ex. replace (a ++ bs "stream" ++ eol ++ data ++ bs "endstream" ++ b) with ((a ++ bs "stream" ++ eol) ++ data ++ bs "endstream" ++ b) by (rewrite <- !app_assoc; reflexivity).
    apply skipn_app_all. }
  rewrite (index_at _ _ _ Nd). cbn [Util.obind]. cbv zeta. rewrite firstn_app, firstn_all, Nat.sub_diag, firstn_O, app_nil_r.
  destruct (contains (bs "/FlateDecode") x); [rewrite Hc; reflexivity|subst; reflexivity].
Qed.
Lemma base_unicode n d : toUnicode (SetBaseEncoding n d) = toUnicode d.
Proof. unfold SetBaseEncoding. repeat (destruct (bytes_eqb _ _); [reflexivity|]). reflexivity. Qed.
Lemma simple_base get t : simple_encoding t -> exists d, base_encoding get t NewFontDecoder = Ok d /\ toUnicode d = [].
Proof.
  intros [H|(v & H)]; unfold base_encoding.
  - rewrite (x_absent t (bs "/Encoding") H). eexists. split; [reflexivity|]. destruct (_ || _); [apply base_unicode|reflexivity].
  - rewrite (gives_value t (bs "/Encoding") _ (key_of (bs "Encoding") eq_refl) H). change (bs "/" ++ v) with ("/"%byte :: v). cbv iota.
    change (prefixb (bs "/") ("/"%byte :: v)) with true. cbv iota. eexists. split; [reflexivity|]. apply base_unicode.
Qed.
Lemma cmap_font inflate get n t e x w ss tail : get n = Ok t -> simple_encoding t -> 0 <= e < 2 ^ 63 -> says t (bs "/ToUnicode") (decZ e) ->
  get e = Ok x -> stream_shows inflate x (cmap_text w ss tail) ->
  Forall (fun s => quiet (fst s)) ss -> Forall (fun s => section_fits (snd s)) ss ->
  contains (bs "beginbfchar") tail = false -> contains (bs "beginbfrange") tail = false ->
  exists d, extractFontDecoder inflate get n = Ok (Some d) /\
    forall s us, Forall2 (fun b u => cmap_char ss (b2n b) = Some u) s us -> Forall is_char (map Z.of_N us) -> Decode d s = text_of (map Z.of_N us).
Proof.
  intros Hg Hs He Hu Hx Hsh Q F T1 T2. destruct (simple_base get t Hs) as (d0 & B & U0).
  pose (d1 := match extractDifferencesArray t with [] => d0 | a => ParseDifferencesArray a d0 end).
  assert (U1 : toUnicode d1 = []) by (unfold d1; destruct (extractDifferencesArray t); exact U0).
  pose (d2 := match cmap_text w ss tail with [] => d1 | c => ParseToUnicodeCMap c d1 end).
  assert (U2 : forall c, mget (Z.of_N c) (toUnicode d2) = option_map Z.of_N (cmap_char ss c)).
  { intros c. pose proof (cmap_ok w ss tail d1 c Q F T1 T2) as K. rewrite U1 in K. cbn [mget] in K. unfold d2.
    destruct (cmap_text w ss tail); [|rewrite K; destruct (cmap_char ss c); reflexivity].
    change (toUnicode (ParseToUnicodeCMap [] d1)) with (toUnicode d1) in K. rewrite K. destruct (cmap_char ss c); reflexivity. }
  exists d2. split.
  - unfold extractFontDecoder, try_get. rewrite Hg. cbn [rbind]. rewrite B. cbn [rbind]. cbv zeta. fold d1.
    rewrite (says_value t (bs "/ToUnicode") (decZ e) (key_of (bs "ToUnicode") eq_refl) Hu).
    pose proof (parse_num e He) as P. destruct (plain_word_decZ e) as [Hz _]. destruct (decZ e) as [|c z] eqn:E; [contradiction|].
    unfold XPagesModel.parse_ref. rewrite P. unfold extractStreamData, try_get. rewrite Hx. cbn [rbind rmap]. rewrite (shown_data inflate x _ Hsh). unfold d2. destruct (cmap_text w ss tail); reflexivity.
  - intros s us H I. rewrite <- write_text by exact I. unfold Decode. clear - H U2. induction H as [|b u s us Hb H IH]; [reflexivity|].
    cbn [flat_map map]. rewrite IH. unfold byte_char at 1.
    rewrite U2, Hb. reflexivity.
Qed.
