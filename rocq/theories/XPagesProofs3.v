(** Proofs about content/extract/pages.go, part 3: pages made by the page
    builder are read back. *)
From Verif Require Import Scan ReadProofs XPagesModel XPagesSpec ManipProofs ManipProofs2 XrefProofs EncodingProofs PageModel XPagesProofs
  XPagesProofs2 ParseSpec ExtractSpec ExtractProofs ExtractProofs4.
From Verif Require ManipSpec PageSpec CompareProofs4.
From Coq Require Import Lia ZArith.
Import PageSpec.
Local Open Scope Z_scope.

(* -------------------- decoders matter through their names only -------------------- *)
Definition look (d : option (list (bytes * decoder))) (n : bytes) : option decoder := match d with Some m => kget n m | None => None end.
Lemma font_decoder_look d cs : font_decoder d cs = last_of (fun c => match c with SetFont _ n _ => Some (look d n) | _ => None end) None cs.
Proof.
  unfold font_decoder. destruct d as [m|]; [reflexivity|]. unfold last_of.
  assert (G : forall l (a : option decoder), a = None -> fold_left (fun a (c : ccall float) => match (match c with SetFont _ n _ => Some (look None n) | _ => None end : option (option decoder)) with Some v => v | None => a end) l a = None).
  { induction l as [|c l IH]; intros a Ha; [exact Ha|]. cbn [fold_left]. apply IH. destruct c; assumption || reflexivity. }
  symmetry. apply G. reflexivity.
Qed.
Lemma font_decoder_ext d d' cs : (forall n, look d n = look d' n) -> font_decoder d cs = font_decoder d' cs.
Proof.
  intros H. rewrite !font_decoder_look. unfold last_of. generalize (@None decoder) as a. induction cs as [|c cs IH]; intros a; [reflexivity|].
  cbn [fold_left]. destruct c; cbn beta iota; try apply IH. rewrite H. apply IH.
Qed.
Lemma texts_seen_ext rd d d' b c : (forall n, look d n = look d' n) -> texts_seen rd d b c = texts_seen rd d' b c.
Proof.
  intros H. unfold texts_seen.
  assert (E : text_shown d b c = text_shown d' b c).
  { destruct c; try reflexivity; cbn [text_shown]; unfold decoded; rewrite (font_decoder_ext d d' b H); reflexivity. }
  rewrite E. reflexivity.
Qed.
Lemma seen_ext {A} (f g : list (ccall float) -> ccall float -> list A) cs : (forall b c, f b c = g b c) -> forall b, seen f b cs = seen g b cs.
Proof. intros H. induction cs as [|c cs IH]; intros b; [reflexivity|]. cbn [seen]. rewrite H, IH. reflexivity. Qed.

(* -------------------- font entries -------------------- *)
Lemma m_font_entry_at e r : forallb is_word (fst e) = true -> fst e <> [] -> 0 <= snd e ->
  m_font_entry (entry_text e ++ r) = Some ((fst e, decZ (snd e)), r).
Proof.
  destruct e as [nm z]. unfold entry_text. cbn [fst snd]. intros Hw Hn He. unfold m_font_entry. rewrite <- !app_assoc, lit_app. cbn [Util.obind].
  pose proof (take_stop is_word nm " "%byte (decZ z ++ bs " 0 R" ++ r) Hw eq_refl) as [T1 T2].
  change (bs " " ++ decZ z ++ bs " 0 R" ++ r) with (" "%byte :: decZ z ++ bs " 0 R" ++ r). unfold bytes in *. rewrite T1, T2.
  destruct nm as [|b w] eqn:Ee; [congruence|].
  assert (D : exists c d, decZ z = c :: d /\ is_digit c = true).
  { pose proof (decZ_digits z He) as D. pose proof (decZ_nonnil z He) as N. destruct (decZ z) as [|c d]; [contradiction|].
    cbn [forallb] in D. apply andb_prop in D. destruct D as [D _]. eauto. }
  destruct D as (c & d & Ed & Dc).
  rewrite ws1_space by (rewrite Ed; cbn [app]; apply digit_not_ws, Dc). cbn [Util.obind].
  unfold digits1 at 1. pose proof (take_stop is_digit (decZ z) " "%byte ("0"%byte :: bs " R" ++ r) (decZ_digits _ He) eq_refl) as [T3 T4].
  change (bs " 0 R" ++ r) with (" "%byte :: "0"%byte :: bs " R" ++ r). unfold bytes in *. rewrite T3, T4.
  destruct (decZ z) as [|c0 d0]; [congruence|]. reflexivity.
Qed.
Lemma entries_matches l : Forall entry_free l -> matches m_font_entry (entries_text l) 0 = map (fun e => (fst e, decZ (snd e))) l.
Proof.
  induction 1 as [|e l [(H1 & H2 & _) H3] F IH]; [reflexivity|].
  change (entries_text (e :: l)) with (entry_text e ++ entries_text l). cbn [map].
  rewrite (matches_at _ _ _ (fst e, decZ (snd e))); [rewrite IH; reflexivity|discriminate|apply m_font_entry_at; [exact H2|exact H1|apply H3]].
Qed.

Lemma groups_fonts fonts images : Forall entry_free fonts -> Forall entry_free images -> font_entries_text (groups fonts images) = entries_text fonts.
Proof.
  intros Hf Hi. unfold font_entries_text. destruct fonts as [|e fonts].
  - unfold groups. cbn [group_of app].
    assert (N : nostart (bs "/Font") (group_of (bs "/XObject") images)).
    { apply (group_nostart (bs "Font")); [cbn; intuition discriminate| |apply nostartb_ok; reflexivity]. apply entry_free_ok; [cbn; tauto|exact Hi]. }
    pose proof (nostart_contains _ _ N ltac:(discriminate)) as C.
    assert (F : find m_font (group_of (bs "/XObject") images) = None).
    { apply (find_nolit _ (bs "/Font")); [|exact C]. intros s Hs. unfold m_font. rewrite (proj2 (lit_none _ _) Hs). reflexivity. }
    rewrite F. unfold extractInlineDict. unfold contains in C. destruct (index (bs "/Font") (group_of (bs "/XObject") images)); [discriminate|]. reflexivity.
  - unfold groups. change (group_of (bs "/Font") (e :: fonts)) with (bs "/Font" ++ bs "<<" ++ entries_text (e :: fonts) ++ bs ">>").
    rewrite <- !app_assoc.
    assert (M : m_font (bs "/Font" ++ bs "<<" ++ entries_text (e :: fonts) ++ bs ">>" ++ group_of (bs "/XObject") images) = Some (entries_text (e :: fonts))).
    { unfold m_font. rewrite lit_app. cbn [Util.obind].
      change (ws0 (bs "<<" ++ ?x)) with (bs "<<" ++ x). rewrite lit_app. cbn [Util.obind].
      change (bs ">>" ++ ?x) with (">"%byte :: ">"%byte :: x).
      destruct (no_angle_entries _ (entry_free_plain _ Hf)) as [_ NA].
      assert (A : forallb (fun b => negb (beqb b ">")) (entries_text (e :: fonts)) = true).
      { apply forallb_forall. intros b Hb. destruct (beqb b ">") eqn:E; [|reflexivity]. apply beqb_eq in E. subst b. contradiction. }
      destruct (take_stop _ (entries_text (e :: fonts)) ">"%byte (">"%byte :: group_of (bs "/XObject") images) A eq_refl) as [-> ->].
      reflexivity. }
    pose proof (find_at m_font [] _ _ (nofire_nil _) M) as F. cbn [app] in F. cbn [app]. rewrite F. reflexivity.
Qed.

Section decs.
Context (inflate : bytes -> option bytes) (parse_float : bytes -> option float) (get : Z -> result bytes).
Lemma decoders_read (dec : bytes * Z -> decoder) l : Forall entry_free l ->
  Forall (fun e => extractFontDecoder inflate get (snd e) = Ok (Some (dec e))) l -> NoDup (map fst l) ->
  forall acc, (forall e, In e l -> ~ In (bs "/" ++ fst e) (map fst acc)) ->
  font_decoders inflate get (map (fun e => (fst e, decZ (snd e))) l) acc = Ok (acc ++ map (fun e => (bs "/" ++ fst e, dec e)) l).
Proof.
  induction l as [|e l IH]; intros Hf Hd Hn acc Ha; [rewrite app_nil_r; reflexivity|].
  inversion Hf as [|? ? [_ F1] F2]; subst. inversion Hd as [|? ? D1 D2]; subst. inversion Hn as [|? ? N1 N2]; subst.
  cbn [map font_decoders]. rewrite ReadProofs.atoi_decZ by exact F1. rewrite D1. cbn [rbind].
  rewrite CompareProofs4.kset_new by (apply Ha; left; reflexivity).
  rewrite IH; [rewrite <- app_assoc; reflexivity|exact F2|exact D2|exact N2|].
  intros e' He' Hin. rewrite map_app, in_app_iff in Hin. destruct Hin as [Hin|[Hin|[]]]; [apply (Ha e'); [right; exact He'|exact Hin]|].
  cbn [fst] in Hin. apply app_inv_head in Hin. apply N1. rewrite Hin. apply in_map, He'.
Qed.

(** A standard font. *)
Lemma prefix_fname k n r : ~ In ">"%byte k -> prefixb k n = false -> prefixb k (n ++ ">"%byte :: r) = false.
Proof.
  revert n. induction k as [|c k IH]; intros n Hk Hp; [discriminate|].
  destruct n as [|b n].
  - cbn [app prefixb]. destruct (beqb c ">") eqn:E; [|reflexivity]. apply beqb_eq in E. subst c. exfalso. apply Hk. left. reflexivity.
  - cbn [app prefixb] in *. destruct (beqb c b); [|reflexivity]. cbn [andb] in *. apply IH; [|exact Hp]. intros Hi. apply Hk. right. exact Hi.
Qed.
Lemma fname_nostart k name : ~ In ">"%byte k -> prefixb k name = false -> ~ In "/"%byte name -> nostart ("/"%byte :: k) (bs "/" ++ name ++ bs ">>").
Proof.
  intros Hk Hp Hn b j Hj. destruct j as [|j].
  - cbn [skipn]. change (bs "/") with ["/"%byte]. cbn [app prefixb]. rewrite beqb_refl. cbn [andb].
    rewrite <- !app_assoc. apply prefix_fname; assumption.
  - assert (N : nostart ("/"%byte :: k) (name ++ bs ">>")).
    { apply nostart_noin. intros Hi. rewrite !in_app_iff in Hi. cbn in Hi. intuition discriminate. }
    change (skipn (S j) ((bs "/" ++ name ++ bs ">>") ++ b)) with (skipn j ((name ++ bs ">>") ++ b)).
    apply N. rewrite app_length in Hj. change (length (bs "/")) with 1%nat in Hj. lia.
Qed.
Lemma standard_font n name : font_word name -> 0 <= n -> get n = Ok (object_text n (font_dict name)) ->
  extractFontDecoder inflate get n = Ok (Some standard_decoder).
Proof.
  intros (Hne & Hw & Hk) Hn Hg. unfold extractFontDecoder, try_get. rewrite Hg. cbn [rbind].
  set (a := decZ n ++ bs " 0 obj" ++ nl ++ bs "<</Type/Font").
  assert (E : object_text n (font_dict name) = a ++ bs "/Subtype" ++ "/"%byte :: bs "Type1" ++ (bs "/BaseFont/" ++ name ++ bs ">>" ++ nl ++ bs "endobj")).
  { unfold object_text, font_dict, a. rewrite <- !app_assoc. reflexivity. }
  assert (NS : ~ In "/"%byte name).
  { intros Hi. rewrite forallb_forall in Hw. specialize (Hw _ Hi). discriminate. }
  assert (C : forall k, In k font_keys -> ~ In ">"%byte k -> nostartb ("/"%byte :: k) (bs "<</Type/Font") = true ->
    nostartb ("/"%byte :: k) (bs "/Subtype/Type1/BaseFont") = true -> contains ("/"%byte :: k) (object_text n (font_dict name)) = false).
  { intros k Hin Hgt H1 H2. apply nostart_contains; [|discriminate].
    replace (object_text n (font_dict name)) with
      (decZ n ++ (bs " 0 obj" ++ nl) ++ bs "<</Type/Font" ++ bs "/Subtype/Type1/BaseFont" ++ (bs "/" ++ name ++ bs ">>") ++ nl ++ bs "endobj")
      by (unfold object_text, font_dict; rewrite <- !app_assoc; reflexivity).
    apply nostart_app; [apply nostart_decZ; [exact Hn|reflexivity]|]. apply nostart_app; [apply nostart_noin; cbn; intuition discriminate|].
    apply nostart_app; [apply nostartb_ok, H1|]. apply nostart_app; [apply nostartb_ok, H2|].
    apply nostart_app; [|apply nostart_noin; cbn; intuition discriminate]. apply fname_nostart; [exact Hgt| |exact NS].
    destruct (prefixb k name) eqn:Ep; [|reflexivity]. exfalso.
    assert (T : existsb (fun k => prefixb k name) font_keys = true) by (apply existsb_exists; exists k; split; assumption). congruence. }
  assert (Dn : extractDifferencesArray (object_text n (font_dict name)) = []).
  { pose proof (C (bs "Differences") ltac:(cbn; tauto) ltac:(cbn; intuition discriminate) eq_refl eq_refl) as D. unfold extractDifferencesArray. unfold contains in D.
    change ("/"%byte :: bs "Differences") with (bs "/Differences") in D.
    destruct (index (bs "/Differences") (object_text n (font_dict name))); [discriminate|reflexivity]. }
  assert (S : x_value (object_text n (font_dict name)) (bs "/Subtype") = bs "/Type1").
  { rewrite E. apply x_named.
    - exact (key_of (bs "Subtype") eq_refl).
    - split.
      + apply nostart_contains; [|discriminate]. unfold a. apply nostart_app; [apply nostart_decZ; [exact Hn|reflexivity]|apply nostartb_ok; reflexivity].
      + apply nostart_contains; [|discriminate]. change (bs "/BaseFont/" ++ name ++ bs ">>" ++ nl ++ bs "endobj") with (bs "/BaseFont" ++ bs "/" ++ name ++ bs ">>" ++ nl ++ bs "endobj").
        apply nostart_app; [apply nostartb_ok; reflexivity|].
        replace (bs "/" ++ name ++ bs ">>" ++ nl ++ bs "endobj") with ((bs "/" ++ name ++ bs ">>") ++ nl ++ bs "endobj") by (rewrite <- !app_assoc; reflexivity).
        apply nostart_app; [|apply nostartb_ok; reflexivity]. apply (fname_nostart (bs "Subtype")); [cbn; intuition discriminate| |exact NS].
        destruct (prefixb (bs "Subtype") name) eqn:Ep; [|reflexivity]. exfalso.
        assert (T : existsb (fun k => prefixb k name) font_keys = true) by (apply existsb_exists; exists (bs "Subtype"); split; [cbn; tauto|exact Ep]). congruence.
    - split; [discriminate|reflexivity].
    - reflexivity.
    - reflexivity. }
  assert (B : base_encoding get (object_text n (font_dict name)) NewFontDecoder = Ok standard_decoder).
  { unfold base_encoding. rewrite (x_absent _ (bs "/Encoding") (C (bs "Encoding") ltac:(cbn; tauto) ltac:(cbn; intuition discriminate) eq_refl eq_refl)), S.
    change (bytes_eqb (bs "/Type1") (bs "/Type1")) with true. rewrite orb_true_r. reflexivity. }
  rewrite B. cbn [rbind]. rewrite Dn, (x_absent _ (bs "/ToUnicode") (C (bs "ToUnicode") ltac:(cbn; tauto) ltac:(cbn; intuition discriminate) eq_refl eq_refl)). reflexivity.
Qed.

(* -------------------- contents -------------------- *)
Lemma no_ref_digits d : forallb is_digit d = true -> forall j, m_reference (skipn j d) = None.
Proof.
  intros H j. assert (Hj : forallb is_digit (skipn j d) = true).
  { rewrite forallb_forall in *. intros b Hb. apply H. apply (MetaProofs.skipn_incl j), Hb. }
  assert (T : take_while is_digit (skipn j d) = skipn j d) by (clear - Hj; induction (skipn j d) as [|b s IH]; [reflexivity|];
    cbn [forallb take_while] in *; apply andb_prop in Hj; destruct Hj as [-> Hj]; rewrite IH by exact Hj; reflexivity).
  unfold m_reference, digits1. rewrite T, (drop_while_all _ _ Hj). destruct (skipn j d); reflexivity.
Qed.
Lemma find_all_none (m : bytes -> option (bytes * bytes)) s : (forall j, m (skipn j s) = None) -> find_all m s 0 = [].
Proof.
  intros H. rewrite <- (app_nil_r s). rewrite find_all_before; [reflexivity|]. intros j Hj. rewrite app_nil_r. apply H.
Qed.
Lemma contents_one c : 0 <= c < 2 ^ 63 -> parseObjectRefArray (decZ c) = [].
Proof.
  intros Hc. pose proof (decZ_digits c ltac:(lia)) as D. unfold parseObjectRefArray. apply find_all_none.
  pose proof (decZ_nonnil c ltac:(lia)) as N.
  assert (HD : forall b, In b (decZ c) -> is_digit b = true) by (apply forallb_forall, D).
  assert (Hl : In (last (decZ c) x00) (decZ c)).
  { rewrite (app_removelast_last x00 N) at 2. apply in_or_app. right. left. reflexivity. }
  rewrite trim_ends; [|exact N| |apply digit_not_space, HD, Hl].
  2:{ destruct (decZ c) as [|b s]; [contradiction|]. apply digit_not_space, HD. left. reflexivity. }
  assert (P : trim_prefix (bs "[") (decZ c) = decZ c).
  { unfold trim_prefix. destruct (decZ c) as [|b s]; [contradiction|]. cbn [prefixb bs]. change (prefixb (bs "[") (b :: s)) with (beqb "[" b && true).
    destruct (beqb "[" b) eqn:E; [|reflexivity]. apply beqb_eq in E. subst b. specialize (HD "["%byte (or_introl eq_refl)). discriminate. }
  rewrite P. unfold trim_suffix.
  destruct (suffixb (bs "]") (decZ c)); apply no_ref_digits; [|exact D].
  rewrite forallb_forall in *. intros b Hb. apply D. rewrite <- (firstn_skipn (length (decZ c) - length (bs "]")) (decZ c)). apply in_or_app. left. exact Hb.
Qed.

(* -------------------- streams -------------------- *)
Lemma contains_split p s : contains p s = true -> exists u v, s = u ++ p ++ v.
Proof.
  intros H. apply WriterProofs.contains_true in H. destruct H as (j & _ & H). apply prefixb_spec in H. destruct H as [v E].
  exists (firstn j s), v. rewrite <- E. symmetry. apply firstn_skipn.
Qed.
Definition stream_of (dict data : bytes) : bytes := dict ++ bs "
stream
" ++ data ++ bs "
endstream".
Lemma stream_found n dict d content : 0 <= n -> nostart (bs "stream") dict -> data_ok d ->
  contains (bs "/FlateDecode") dict = true -> inflate (d ++ nl) = Some content ->
  XPagesModel.stream_data inflate (object_text n (stream_of dict d)) = Some content.
Proof.
  intros Hn Hd [He H0] Hf Hi.
  set (a := decZ n ++ bs " 0 obj" ++ nl ++ dict ++ nl).
  set (r := d ++ nl ++ bs "endstream" ++ nl ++ bs "endobj").
  assert (E : object_text n (stream_of dict d) = a ++ bs "stream" ++ x0a :: r).
  { unfold object_text, stream_of, a, r. rewrite <- !app_assoc. reflexivity. }
  assert (Na : nostart (bs "stream") a).
  { unfold a. apply nostart_app; [apply nostart_decZ; [exact Hn|reflexivity]|].
    apply nostart_app; [apply nostartb_ok; reflexivity|]. apply nostart_app; [apply nostartb_ok; reflexivity|].
    apply nostart_app; [exact Hd|apply nostartb_ok; reflexivity]. }
  assert (S : stream_start (object_text n (stream_of dict d)) = Some (length a + 7)%nat).
  { unfold stream_start. rewrite E, (index_at _ _ _ Na). cbn [Util.obind]. change 6%nat with (length (bs "stream")). rewrite skip_sole.
    change (beqb x0a x0d || beqb x0a x0a) with true. cbn iota. cbn [skipn].
    destruct d as [|b d]; [contradiction|]. unfold r. cbn [app].
    destruct (beqb b x0a) eqn:Eb; [apply beqb_eq in Eb; contradiction|]. change (length (bs "stream")) with 6%nat. f_equal. lia. }
  unfold XPagesModel.stream_data. rewrite S. cbn [Util.obind].
  assert (K : skipn (length a + 7) (object_text n (stream_of dict d)) = r).
  { rewrite E. replace (a ++ bs "stream" ++ x0a :: r) with ((a ++ bs "stream" ++ [x0a]) ++ r) by (rewrite <- !app_assoc; reflexivity).
    rewrite skipn_app_r by (rewrite !app_length; cbn [length bs]; change (length (bs "stream")) with 6%nat; lia).
    rewrite !app_length. change (length (bs "stream")) with 6%nat. change (length [x0a]) with 1%nat.
    replace (length a + 7 - (length a + (6 + 1)))%nat with 0%nat by lia. reflexivity. }
  rewrite K.
  assert (N : nostart (bs "endstream") (d ++ nl)) by (apply nostart_sep; [exact He|cbn; intuition discriminate|discriminate]).
  assert (I : index (bs "endstream") r = Some (length (d ++ nl))).
  { unfold r. rewrite (app_assoc d nl). apply index_at, N. }
  rewrite I. cbn [Util.obind]. f_equal.
  assert (F : firstn (length (d ++ nl)) r = d ++ nl) by (unfold r; rewrite (app_assoc d nl); apply firstn_app_all).
  rewrite F.
  assert (C : contains (bs "/FlateDecode") (object_text n (stream_of dict d)) = true).
  { apply contains_split in Hf. destruct Hf as (u & v & ->).
    replace (object_text n (stream_of (u ++ bs "/FlateDecode" ++ v) d)) with
      ((decZ n ++ bs " 0 obj" ++ nl ++ u) ++ bs "/FlateDecode" ++ (v ++ bs "
stream
" ++ d ++ bs "
endstream" ++ nl ++ bs "endobj")) by (unfold object_text, stream_of; rewrite <- !app_assoc; reflexivity).
    apply contains_mid. }
  rewrite C, Hi. reflexivity.
Qed.
Lemma content_dict z : formatDictionary [(bs "Filter", VStr (bs "/FlateDecode")); (bs "Length", VInt z)] =
  bs "<</Filter /FlateDecode /Length " ++ decZ z ++ bs " >>".
Proof.
  unfold formatDictionary, format_pairs. rewrite !map_cons. cbn [fst snd map].
  change (formatValue (VInt z)) with (decZ z).
  change (sortK _) with [(bs "Filter", bs "/FlateDecode"); (bs "Length", decZ z)].
  cbn [flat_map fst snd].
  change (slash_key (bs "Filter")) with (bs "/Filter"). change (slash_key (bs "Length")) with (bs "/Length").
  change (bs "<</Filter /FlateDecode /Length ") with (bs "<<" ++ bs "/Filter" ++ bs " " ++ bs "/FlateDecode" ++ bs " " ++ bs "/Length" ++ bs " ").
  change (bs " >>") with (bs " " ++ bs ">>"). rewrite <- !app_assoc. reflexivity.
Qed.

(* -------------------- a page without content -------------------- *)
Lemma parse_header decs c p : 0 <= c -> parse_line parse_float decs p (decZ c ++ bs " 0 obj") = p.
Proof.
  intros Hc. pose proof (decZ_digits c Hc) as D. pose proof (decZ_nonnil c Hc) as N.
  assert (F : Forall num_text [decZ c; bs "0"]).
  { apply Forall_cons; [|apply Forall_cons; [split; [discriminate|reflexivity]|apply Forall_nil]]. split; [exact N|].
    rewrite forallb_forall in *. intros b Hb. unfold is_numch. rewrite (D b Hb). reflexivity. }
  assert (L : decZ c ++ bs " 0 obj" = numline [decZ c; bs "0"] (bs "obj")).
  { unfold numline. cbn [flat_map]. rewrite <- !app_assoc. reflexivity. }
  destruct (decZ c) as [|b0 s0] eqn:Ec; [congruence|]. rewrite <- Ec in *.
  assert (B0 : is_digit b0 = true) by (rewrite Ec in D; cbn [forallb] in D; apply andb_prop in D; tauto).
  assert (T : trim is_space (decZ c ++ bs " 0 obj") = decZ c ++ bs " 0 obj").
  { apply trim_ends.
    - rewrite Ec. discriminate.
    - rewrite Ec. cbn [app hd]. apply digit_not_space, B0.
    - rewrite ExtractProofs.last_app by discriminate. reflexivity. }
  assert (Pf : forall q x, is_digit q = false -> prefixb (q :: x) (decZ c ++ bs " 0 obj") = false).
  { intros q x Hq. rewrite Ec. cbn [app prefixb]. destruct (beqb q b0) eqn:E; [|reflexivity]. apply beqb_eq in E. congruence. }
  assert (O : forall k x, op_start x -> prefixb x (bs "obj") = false -> m_op k x (decZ c ++ bs " 0 obj") = None).
  { intros k x Hx Hp. rewrite L, m_op_line; [rewrite Hp, andb_false_r; reflexivity|exact F|reflexivity|reflexivity|exact Hx]. }
  assert (Q : forall q x, is_digit q = false -> lit (q :: x) (decZ c ++ bs " 0 obj") = None).
  { intros q x Hq. apply lit_none, Pf, Hq. }
  assert (R : m_resource (decZ c ++ bs " 0 obj") = Some (decZ c, numline [bs "0"] (bs "obj"))).
  { unfold m_resource. assert (A : forallb is_namech (decZ c) = true).
    { rewrite forallb_forall in *. intros b Hb. specialize (D b Hb). unfold is_namech, is_word. rewrite D. reflexivity. }
    pose proof (take_stop is_namech (decZ c) " "%byte (bs "0 obj") A eq_refl) as [T1 T2].
    change (bs " 0 obj") with (" "%byte :: bs "0 obj"). unfold bytes in *. rewrite T1, T2. destruct (decZ c); [congruence|]. reflexivity. }
  assert (V : forall q, is_digit q = false -> bytes_eqb (decZ c ++ bs " 0 obj") [q] = false).
  { intros q Hq. apply bytes_eqb_neq. rewrite Ec. cbn [app]. intros E. injection E as E _. congruence. }
  unfold parse_line. cbv zeta. rewrite T. clear T. remember (decZ c ++ bs " 0 obj") as line eqn:EL.
  assert (NL : line <> []) by (rewrite EL, Ec; discriminate). destruct line as [|x y] eqn:EE; [contradiction|]. rewrite <- EE in *. clear NL.
  change (bs "BT") with ("B"%byte :: bs "T"). change (bs "ET") with ("E"%byte :: bs "T"). rewrite !Pf by reflexivity. cbn iota.
  rewrite !O by reflexivity. unfold m_Tf, m_Do. rewrite R. cbn [Util.obind].
  rewrite (m_op_line [bs "0"] (bs "obj") (bs "Tf") 1); [|apply Forall_cons; [split; [discriminate|reflexivity]|apply Forall_nil]|reflexivity|reflexivity|reflexivity].
  change ((1 =? length [bs "0"])%nat && prefixb (bs "Tf") (bs "obj")) with false. cbn iota. cbn [Util.obind].
  unfold m_string, m_hexstring, m_TJ.
  change (bs "(") with ["("%byte]. change (bs "<") with ["<"%byte]. change (bs "[") with ["["%byte]. rewrite !Q by reflexivity. cbn [Util.obind].
  change (bs "S") with ["S"%byte]. change (bs "f") with ["f"%byte]. rewrite !Pf by reflexivity. cbn iota.
  change (bs "q") with ["q"%byte]. change (bs "Q") with ["Q"%byte]. rewrite !V by reflexivity. cbn iota.
  reflexivity.
Qed.
Lemma parse_nothing decs c : 0 <= c -> parseContentStream parse_float decs (object_text c []) = ([], [], []).
Proof.
  intros Hc. unfold parseContentStream, parse_lines, object_text.
  assert (S : split_on x0a (decZ c ++ bs " 0 obj" ++ nl ++ [] ++ nl ++ bs "endobj") = [decZ c ++ bs " 0 obj"; []; bs "endobj"]).
  { rewrite app_assoc. change (nl ++ [] ++ nl ++ bs "endobj") with (x0a :: x0a :: bs "endobj"). rewrite split_line; [reflexivity|].
    intros Hi. apply in_app_or in Hi. destruct Hi as [Hi|Hi]; [|cbn in Hi; intuition discriminate].
    pose proof (decZ_digits c Hc) as D. rewrite forallb_forall in D. specialize (D _ Hi). discriminate. }
  rewrite S. cbn [fold_left]. rewrite parse_header by exact Hc. reflexivity.
Qed.
Lemma empty_stream c : 0 <= c -> XPagesModel.stream_data inflate (object_text c []) = None.
Proof.
  intros Hc. unfold XPagesModel.stream_data, stream_start.
  assert (C : contains (bs "stream") (object_text c []) = false).
  { apply nostart_contains; [|discriminate]. unfold object_text. split_nostart; first [apply nostart_decZ; [exact Hc|reflexivity]|apply nostartb_ok; reflexivity]. }
  unfold contains in C. destruct (index (bs "stream") (object_text c [])); [discriminate|]. reflexivity.
Qed.

(* -------------------- the page -------------------- *)
(** Object [c] holds the content [text]. *)
Definition holds_content (deflate : bytes -> bytes) (c : Z) (text : bytes) : Prop :=
  match text with
  | [] => get c = Ok (object_text c [])
  | _ => get c = Ok (object_text c (stream_of (formatDictionary [(bs "Filter", VStr (bs "/FlateDecode"));
           (bs "Length", VInt (Z.of_nat (length (deflate text))))]) (deflate text)))
  end.
Lemma contents_parsed deflate decs c text : 0 <= c < 2 ^ 63 -> (text <> [] -> data_ok (deflate text)) ->
  (forall x, inflate (deflate x ++ nl) = Some x) -> holds_content deflate c text ->
  read_contents inflate parse_float get decs [decZ c] =
  Ok (match text with [] => ([], [], []) | _ => parseContentStream parse_float decs text end).
Proof.
  intros Hc Hd Hi Hg. cbn [read_contents]. unfold XPagesModel.parse_ref. rewrite parse_num by exact Hc. unfold try_get.
  destruct text as [|b t].
  - cbn [holds_content] in Hg. rewrite Hg. cbn [rmap]. rewrite empty_stream by lia. rewrite parse_nothing by lia. reflexivity.
  - remember (b :: t) as text eqn:Et. assert (Hne : text <> []) by (rewrite Et; discriminate).
    assert (Hg' : get c = Ok (object_text c (stream_of (formatDictionary [(bs "Filter", VStr (bs "/FlateDecode"));
           (bs "Length", VInt (Z.of_nat (length (deflate text))))]) (deflate text)))) by (rewrite Et in *; exact Hg).
    rewrite Hg'. cbn [rmap]. rewrite content_dict.
    rewrite (stream_found c _ (deflate text) text); [|lia| |apply Hd, Hne| |apply Hi].
    + destruct (parseContentStream parse_float decs text) as [[t1 t2] t3] eqn:EP. cbn [rbind rmap fst snd]. rewrite !app_nil_r. reflexivity.
    + split_nostart; first [apply nostart_decZ; [lia|reflexivity]|apply nostartb_ok; reflexivity].
    + change (bs "<</Filter /FlateDecode /Length ") with (bs "<</Filter " ++ bs "/FlateDecode" ++ bs " /Length "). rewrite <- !app_assoc. apply contains_mid.
Qed.

Lemma numeral_space v : numeral v -> v <> [] /\ forall b, In b v -> is_space b = false.
Proof.
  intros [H1 H2]. split; [exact H1|]. intros b Hb. rewrite forallb_forall in H2. specialize (H2 b Hb). destruct b; try discriminate; reflexivity.
Qed.
Lemma page_extracted deflate fmt rd one zero z w h n parent c width height fonts images (dec : bytes * Z -> decoder) cs :
  0 <= n -> 0 <= parent -> 0 <= c < 2 ^ 63 -> numeral width -> numeral height -> parse_float (bs "0") = Some z ->
  parse_float width = Some w -> parse_float height = Some h ->
  Forall entry_free fonts -> Forall entry_free images -> NoDup (map fst fonts) ->
  Forall (fun e => extractFontDecoder inflate get (snd e) = Ok (Some (dec e))) fonts ->
  number_ok fmt parse_float rd one -> number_ok fmt parse_float rd zero -> Forall (call_ok fmt parse_float rd) cs ->
  (forall x, inflate (deflate x ++ nl) = Some x) -> (cs <> [] -> data_ok (deflate (content_stream fmt one zero cs))) ->
  holds_content deflate c (content_stream fmt one zero cs) ->
  extractPage inflate parse_float get (pg n parent c width height fonts images) =
  Ok (page_read rd one zero z w h (map (fun e => (bs "/" ++ fst e, dec e)) fonts) cs 0).
Proof.
  intros Hn Hp Hc Hw Hh Pz Pw Ph Hf Hi Nd Hd O1 O0 Hcs Hinf Hdat Hg.
  unfold extractPage.
  assert (M : extractArrayValue parse_float (pg n parent c width height fonts images) (bs "/MediaBox") = [z; z; w; h]).
  { unfold extractArrayValue. destruct (pg_media n parent c width height fonts images Hn Hp Hc Hw Hh) as [M1 M2].
    destruct (find (m_bracketed (bs "/MediaBox")) (pg n parent c width height fonts images)) as [[i t]|]; [|contradiction].
    rewrite (M2 i t eq_refl). change (bs "0 0 " ++ width ++ bs " " ++ height) with ((bs "0") ++ " "%byte :: (bs "0") ++ " "%byte :: width ++ " "%byte :: height).
    destruct (numeral_space _ Hw) as [W1 W2]. destruct (numeral_space _ Hh) as [H1 H2].
    rewrite fields_word; [|discriminate|cbn; intuition (subst; reflexivity)|reflexivity].
    rewrite fields_word; [|discriminate|cbn; intuition (subst; reflexivity)|reflexivity].
    rewrite fields_word; [|exact W1|exact W2|reflexivity]. rewrite fields_last; [|exact H1|exact H2].
    cbn [flat_map]. rewrite Pz, Pw, Ph. reflexivity. }
  assert (C : extractArrayValue parse_float (pg n parent c width height fonts images) (bs "/CropBox") = []).
  { unfold extractArrayValue. rewrite (find_nolit _ (bs "/CropBox")); [reflexivity| |apply pg_no_crop; assumption].
    intros s Hs. apply needs_bracketed, Hs. }
  rewrite M, C. rewrite (x_absent _ (bs "/Rotate")) by (apply pg_no_rotate; assumption).
  unfold page_resources. rewrite pg_resources_value, pg_inline by assumption. cbn [rbind].
  set (decs := map (fun e => (bs "/" ++ fst e, dec e)) fonts).
  assert (D : exists od, match groups fonts images with [] => Ok None | _ => rmap Some (extractFontDecoders inflate get (groups fonts images)) end = Ok od /\
    forall k, look od k = look (Some decs) k).
  { assert (X : extractFontDecoders inflate get (groups fonts images) = Ok decs).
    { unfold extractFontDecoders. rewrite groups_fonts, entries_matches by assumption.
      apply (decoders_read dec fonts Hf Hd Nd []). intros e _ []. }
    destruct (groups fonts images) as [|b g] eqn:EG.
    - exists None. split; [reflexivity|]. unfold decs. destruct fonts as [|e fonts']; [reflexivity|]. discriminate EG.
    - exists (Some decs). rewrite X. split; reflexivity. }
  destruct D as (od & -> & Hod). cbn [rbind].
  assert (R : content_refs (pg n parent c width height fonts images) = [decZ c]).
  { unfold content_refs. rewrite pg_contents_value by assumption. pose proof (contents_one c Hc) as K.
    pose proof (decZ_nonnil c ltac:(lia)). destruct (decZ c); [contradiction|rewrite K; reflexivity]. }
  rewrite R.
  assert (Hdat' : content_stream fmt one zero cs <> [] -> data_ok (deflate (content_stream fmt one zero cs))).
  { intros Hx. apply Hdat. intros ->. apply Hx. reflexivity. }
  rewrite (contents_parsed deflate od c _ Hc Hdat' Hinf Hg). cbn [rmap].
  assert (Y : match content_stream fmt one zero cs with [] => ([], [], []) | _ => parseContentStream parse_float od (content_stream fmt one zero cs) end =
    (seen (texts_seen rd (Some decs)) [] cs, seen (shapes_seen rd) [] cs, seen (images_seen rd one zero) [] cs)).
  { pose proof (extract_calls fmt parse_float rd one zero od cs O1 O0 Hcs) as X.
    rewrite (seen_ext (texts_seen rd od) (texts_seen rd (Some decs))) in X by (intros; apply texts_seen_ext, Hod).
    destruct (content_stream fmt one zero cs) eqn:EC; [|exact X]. rewrite <- X. reflexivity. }
  rewrite Y. reflexivity.
Qed.
End decs.
