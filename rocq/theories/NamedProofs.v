(** Proofs about fonts that name their encoding. *)
From Verif Require Import Util Scan Utf8 ReadProofs MarksModel MarksSpec ManipSpec ManipProofs ManipProofs2 EncodingModel EncodingSpec EncodingProofs EncodingProofs3 XPagesModel XPagesProofs XPagesProofs2 XPagesProofs3 MarksProofs ResSpec ResProofs NamedSpec.
From Coq Require Import Lia ZArith.
Local Open Scope Z_scope.

Lemma no_diffs t : contains (bs "/Differences") t = false -> extractDifferencesArray t = [].
Proof.
  intros H. unfold extractDifferencesArray. unfold contains in H. destruct (index (bs "/Differences") t); [discriminate|reflexivity].
Qed.
Lemma no_close l : Forall group_ok l -> ~ In "]"%byte (join (bs " ") (map diff_group l)).
Proof.
  assert (G : forall g, group_ok g -> ~ In "]"%byte (diff_group g)).
  { intros g [_ H] Hi. unfold diff_group in Hi. apply in_app_iff in Hi. destruct Hi as [Hi|Hi].
    - destruct (ManipProofs2.plain_word_decZ (fst g)) as [_ P]. rewrite forallb_forall in P. specialize (P _ Hi). discriminate.
    - apply in_flat_map in Hi. destruct Hi as (n & Hn & Hi). rewrite Forall_forall in H. destruct (H n Hn) as [_ P].
      apply in_app_iff in Hi. destruct Hi as [Hi|Hi]; [cbn in Hi; intuition discriminate|].
      rewrite forallb_forall in P. specialize (P _ Hi). discriminate. }
  induction 1 as [|g l Hg F IH]; [exact (fun x => x)|]. destruct l as [|h l].
  - cbn [map join]. apply G, Hg.
  - cbn [map] in *. intros Hi. change (In "]"%byte (diff_group g ++ bs " " ++ join (bs " ") (diff_group h :: map diff_group l))) in Hi.
    rewrite !in_app_iff in Hi. destruct Hi as [Hi|[Hi|Hi]]; [exact (G g Hg Hi)|cbn in Hi; intuition discriminate|exact (IH Hi)].
Qed.
Lemma some_diffs t l : l <> [] -> replaces t l -> extractDifferencesArray t = diff_text l.
Proof.
  intros Hl H. destruct l as [|g l]; [contradiction|]. destruct H as (a & w & b & -> & Ha & Hw & F & Ho). set (L := g :: l) in *. clearbody L.
  unfold extractDifferencesArray. rewrite (index_sole (bs "/Differences") a); [|exact (key_of (bs "Differences") eq_refl)|exact Ha].
  cbv zeta. rewrite skipn_app_all. unfold diff_text. set (j := join (bs " ") (map diff_group L)) in *.
  replace (bs "/Differences" ++ w ++ (bs "[" ++ j ++ bs "]") ++ b) with ((bs "/Differences" ++ w) ++ bs "[" ++ j ++ "]"%byte :: b)
    by (rewrite <- !app_assoc; reflexivity).
  rewrite index_at by (apply nostart_noin; intros Hi; apply in_app_iff in Hi; destruct Hi as [Hi|Hi]; [cbn in Hi; intuition discriminate|contradiction]).
  rewrite skipn_app_all.
  change (array_end 0 (bs "[" ++ j ++ "]"%byte :: b)) with (option_map S (array_end (Z.succ 0) (j ++ "]"%byte :: b))).
  rewrite (array_end_flat j b Ho (no_close L F)). cbn [option_map]. change (bs "[" ++ j ++ "]"%byte :: b) with ("["%byte :: (j ++ "]"%byte :: b)).
  replace (bs "[" ++ j ++ bs "]") with (firstn (length ("["%byte :: j ++ bs "]")) (("["%byte :: j ++ bs "]") ++ b)) by (rewrite firstn_app, Nat.sub_diag, firstn_all; apply app_nil_r).
  assert (length ("["%byte :: j ++ bs "]") = S (S (length j))) as -> by (cbn [length]; rewrite app_length; cbn [length bs]; change (length (bs "]")) with 1%nat; lia).
  change (("["%byte :: j ++ bs "]") ++ b) with ("["%byte :: (j ++ bs "]") ++ b). rewrite <- app_assoc. reflexivity.
Qed.
Lemma standard_known nm ok f : standard_encoding nm ok f ->
  exists v m, nm = "/"%byte :: v /\ SetBaseEncoding nm NewFontDecoder = mkDec [] m [] /\ codes_ok f m ok = true.
Proof.
  intros [| |]; [exists (bs "WinAnsiEncoding"), winAnsiEncoding|exists (bs "MacRomanEncoding"), macRomanEncoding|exists (bs "StandardEncoding"), standardEncoding];
    (split; [reflexivity|split; [reflexivity|vm_compute; reflexivity]]).
Qed.
Lemma decode_known l ok f m d s : codes_ok f m ok = true -> toUnicode d = [] -> baseEncoding d = m ->
  (forall c, mget c (differences d) = diff_char l c) -> Forall (char_known l ok f) s ->
  Decode d s = text_of (map (char_of l f) (byte_codes s)).
Proof.
  intros H Hu Hb Hd F.
  assert (E : forall b, char_known l ok f b -> byte_char d (Z.of_N (b2n b)) = char_of l f (Z.of_N (b2n b)) /\ is_char (char_of l f (Z.of_N (b2n b)))).
  { intros b K. unfold byte_char, char_of, char_known in *. rewrite Hu, Hd, Hb. cbn [mget]. destruct (diff_char l _); [split; [reflexivity|exact K]|].
    exact (codes_each f m ok H b K). }
  rewrite <- write_text.
  - unfold Decode, byte_codes. induction F as [|b s K F IH]; [reflexivity|]. cbn [map flat_map]. rewrite <- IH, (proj1 (E b K)). reflexivity.
  - unfold byte_codes. rewrite map_map. rewrite Forall_map. eapply Forall_impl; [|exact F]. intros b K. apply (E b K).
Qed.
Lemma named_font inflate get n t nm ok f l : get n = Ok t -> contains (bs "/ToUnicode") t = false -> contains (bs "/Differences") t = false ->
  font_encoding get t nm l -> standard_encoding nm ok f ->
  exists d, extractFontDecoder inflate get n = Ok (Some d) /\
    forall s, Forall (char_known l ok f) s -> Decode d s = text_of (map (char_of l f) (byte_codes s)).
Proof.
  intros Hg Hu Hd He Hs. destruct (standard_known nm ok f Hs) as (v & m & Ev & Es & Hc).
  assert (R : forall d, base_encoding get t NewFontDecoder = Ok d -> extractFontDecoder inflate get n = Ok (Some d)).
  { intros d B. unfold extractFontDecoder, try_get. rewrite Hg. cbn [rbind]. rewrite B. cbn [rbind].
    rewrite (no_diffs t Hd), (x_absent t (bs "/ToUnicode") Hu). reflexivity. }
  destruct He as [Hn|e x l He Hn Hx Hb Hl].
  - exists (mkDec [] m []). split.
    + apply R. unfold base_encoding. rewrite (gives_value t (bs "/Encoding") nm (key_of (bs "Encoding") eq_refl) Hn). rewrite Ev in *. cbv iota.
      change (prefixb (bs "/") ("/"%byte :: v)) with true. cbv iota. rewrite Es. reflexivity.
    + intros s F. apply (decode_known [] ok f m); auto.
  - pose (d := match l with [] => mkDec [] m [] | _ => ParseDifferencesArray (diff_text l) (mkDec [] m []) end). exists d. split.
    + apply R. unfold base_encoding. rewrite (says_value t (bs "/Encoding") (decZ e) (key_of (bs "Encoding") eq_refl) Hn).
      pose proof (parse_num e He) as P. destruct (plain_word_decZ e) as [Hz Hp]. destruct (decZ e) as [|c z] eqn:E; [contradiction|].
      assert (prefixb (bs "/") (c :: z) = false) as ->.
      { destruct (prefixb (bs "/") (c :: z)) eqn:Q; [|reflexivity]. cbn in Q. rewrite andb_true_r in Q. apply beqb_eq in Q. subst c. discriminate. }
      unfold XPagesModel.parse_ref. rewrite P. unfold try_get. rewrite Hx. cbn [rmap].
      rewrite (gives_value x (bs "/BaseEncoding") nm (key_of (bs "BaseEncoding") eq_refl) Hb). rewrite Ev in *. cbv iota. rewrite Es.
      unfold d. destruct l as [|g l].
      * rewrite (no_diffs x Hl). reflexivity.
      * rewrite (some_diffs x (g :: l)) by (discriminate || exact Hl). unfold diff_text at 1. reflexivity.
    + intros s F. apply (decode_known l ok f m); [exact Hc| | | |exact F]; unfold d; destruct l as [|g l]; try reflexivity.
      intros c. destruct Hl as (_ & _ & _ & _ & _ & _ & G & _). rewrite differences_ok by exact G. cbn [differences mget]. destruct (diff_char _ c); reflexivity.
Qed.
Lemma default_font inflate get n t : get n = Ok t -> contains (bs "/ToUnicode") t = false -> contains (bs "/Differences") t = false ->
  default_encoding t ->
  exists d, extractFontDecoder inflate get n = Ok (Some d) /\
    forall s, forallb standard_bytes s = true -> Decode d s = text_of (map standard_latin (byte_codes s)).
Proof.
  intros Hg Hu Hd (He & Hk). destruct (standard_known _ _ _ enc_latin) as (v & m & Ev & Es & Hc).
  assert (G : isStandard14Font (x_value t (bs "/BaseFont")) || bytes_eqb (x_value t (bs "/Subtype")) (bs "/Type1")
             || bytes_eqb (x_value t (bs "/Subtype")) (bs "/TrueType") = true).
  { destruct Hk as [Hk|[Hk|(nm & Hin & Hk)]].
    - rewrite (gives_value t (bs "/Subtype") _ (key_of (bs "Subtype") eq_refl) Hk). rewrite orb_true_iff. left. apply orb_true_r.
    - rewrite (gives_value t (bs "/Subtype") _ (key_of (bs "Subtype") eq_refl) Hk). apply orb_true_r.
    - rewrite (gives_value t (bs "/BaseFont") _ (key_of (bs "BaseFont") eq_refl) Hk).
      assert (F : forallb (fun x => isStandard14Font (bs "/" ++ x)) latin_fonts = true) by (vm_compute; reflexivity).
      rewrite forallb_forall in F. rewrite (F nm Hin). reflexivity. }
  exists (mkDec [] m []). split.
  - unfold extractFontDecoder, try_get. rewrite Hg. cbn [rbind]. unfold base_encoding. rewrite (x_absent t (bs "/Encoding") He), G.
    change (SetBaseEncoding (bs "StandardEncoding") NewFontDecoder) with (SetBaseEncoding (bs "/StandardEncoding") NewFontDecoder).
    rewrite Es. cbn [rbind]. rewrite (no_diffs t Hd), (x_absent t (bs "/ToUnicode") Hu). reflexivity.
  - intros s F. apply (decode_base standard_latin m standard_bytes s Hc F).
Qed.
