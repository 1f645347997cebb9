(** Property theorems: stylesheets (C98) and configuration (C99) written and read back. *)
From Verif Require Import Util XDataSpec XDataProofs XDataProofs2 XDataProofs3 XConfProofs XConfProofs2.
From Verif Require ManipProofs2.
From Coq Require Import Permutation.
Local Open Scope Z_scope.

(* ---------------------------------------------------------------- *)
(** C98, full statement: a stylesheet written with StylesheetToXFA is read back
    by ParseXFAStylesheet: the same styles in order, with name, type and every
    property, and no text makes ParseXFAStylesheet panic.  The numbers [F] are
    any type on which ParseFloat reads what FormatFloat writes. *)
Theorem C98_no_panic : forall (F V : Type) (f0 : F) (parseF : bytes -> option F) ts, exists l, ParseXFAStylesheet (V := V) f0 parseF ts = Some l.
Proof. intros F V f0 parseF ts. apply stylesheet_no_panic. Qed.
Print Assumptions C98_no_panic.
(** Fonts, borders, margins, padding, position and size come back with their
    positive numbers, any other value as what its text looks like. *)
Theorem C98_roundtrip_partial : forall (F V : Type) (f0 : F) pos parseF formatF showF (show : V -> bytes) showS,
  (forall f, pos f = true -> parseF (formatF f) = Some f) ->
  forall perm, (forall l, Permutation (perm l) l) ->
  forall l ts us, StylesheetToXFA pos formatF show showF showS perm l = Some ts -> conveyed false ts us -> Forall plain_style l ->
  exists l', ParseXFAStylesheet f0 parseF us = Some l' /\ Forall2 (same_style f0 pos parseF showF show showS) l l'.
Proof. intros F V f0 pos parseF formatF showF show showS Hf perm Hp l ts us. apply stylesheet_roundtrip; assumption. Qed.
Print Assumptions C98_roundtrip_partial.
(** A boolean comes back as it is when ParseFloat rejects "true" and "false",
    a number when ParseFloat reads what Sprintf prints; a string when it does
    not look like either. *)
Theorem C98_values : forall (F V : Type) (parseF : bytes -> option F) (showF : F -> bytes) (show : V -> bytes) showS,
  (parseF (bs "true") = None -> parseF (bs "false") = None -> forall b, read_value (V := V) parseF (showP show showF showS (SBool b)) = Some (SBool b)) /\
  (forall f, TrimSpace (showF f) = showF f -> showF f <> [] -> parseF (showF f) = Some f -> read_value (V := V) parseF (showP show showF showS (SFloat f)) = Some (SFloat f)) /\
  (forall s, TrimSpace s = s -> s <> [] -> parseF s = None -> ~ In s [bs "true"; bs "false"; bs "1"; bs "0"] ->
     read_value (V := V) parseF (showP show showF showS (SStr s)) = Some (SStr s)).
Proof.
  intros F V parseF showF show showS. split; [|split].
  - intros Ht Hf [|]; unfold read_value; [change (TrimSpace (showP show showF showS (SBool true))) with (bs "true")|change (TrimSpace (showP show showF showS (SBool false))) with (bs "false")];
      [change (bs "true") with ("t" :: bs "rue")%byte in *|change (bs "false") with ("f" :: bs "alse")%byte in *]; cbv beta iota; rewrite ?Ht, ?Hf; reflexivity.
  - intros f H1 H2 H3. unfold read_value. cbn [showP]. rewrite H1. destruct (showF f) as [|b r] eqn:E; [congruence|]. rewrite H3. reflexivity.
  - intros s H1 H2 H3 H4. unfold read_value. cbn [showP]. rewrite H1. destruct s as [|b r] eqn:E; [congruence|]. rewrite H3. rewrite <- E in *.
    assert (G : forall x, In x [bs "true"; bs "false"; bs "1"; bs "0"] -> bytes_eqb s x = false).
    { intros x Hx. destruct (bytes_eqb s x) eqn:Q; [|reflexivity]. apply bytes_eqb_eq in Q. subst x. contradiction. }
    rewrite !G by (cbn [In]; tauto). reflexivity.
Qed.
Print Assumptions C98_values.

(** Whole numbers of 63 bits as an instance. *)
Definition zpos (z : Z) : bool := (0 <? z) && (z <? 2 ^ 63).
Lemma zformat : forall f, zpos f = true -> atoi (decZ f) = Some f.
Proof. intros f H. apply andb_true_iff in H as (H1 & H2). apply Z.ltb_lt in H1, H2. apply ManipProofs2.atoi_decZ64. split; lia. Qed.
Definition zstyle := style (F := Z) (V := bytes).
Definition ident (t : bytes) : bytes := t.
Definition struct_text (v : sval (F := Z) (V := bytes)) : bytes := bs "&{}".
Definition write (l : list zstyle) : option (list token) := StylesheetToXFA zpos decZ ident decZ struct_text (fun l => l) l.
Definition reread (l : list zstyle) : option (list zstyle) :=
  match write l with Some ts => ParseXFAStylesheet 0 atoi (indented ts) | None => None end.
Definition ex_style : zstyle :=
  mkStyle (bs "Header") (bs "text")
    [(bs "font", SFont (mkSFont (bs "Helvetica") 12 (bs "bold") [] (bs "#000000") [])); (bs "margin", SMargin (mkSides 1 2 0 4));
     (bs "visible", SBool true); (bs "opacity", SFloat 7); (bs "align", SStr (bs "left"))].
Example C98_example : (forall f, zpos f = true -> atoi (decZ f) = Some f) /\
  exists ts, write [ex_style; mkStyle (bs "b") [] []] = Some ts /\ conveyed false ts (indented ts) /\ Forall plain_style [ex_style; mkStyle (bs "b") [] []] /\
  ParseXFAStylesheet 0 atoi (indented ts) = Some [ex_style; mkStyle (bs "b") [] []].
Proof.
  split; [exact zformat|]. eexists. split; [reflexivity|]. split; [apply indented_conveyed; reflexivity|]. split; [|reflexivity].
  constructor; [|constructor; [|constructor]]; split.
  - repeat (apply NoDup_cons; [intros H; cbn in H; decompose [or] H; try discriminate; contradiction|]). apply NoDup_nil.
  - intros k Hk H. cbn in Hk. decompose [or] Hk; subst; try contradiction; cbn in H; decompose [or] H; try discriminate; contradiction.
  - apply NoDup_nil.
  - intros k [].
Qed.

(** What is missing. *)
(** A string that looks like a number or like a boolean changes its type. *)
Theorem C98_string_refuted :
  reread [mkStyle (bs "a") [] [(bs "zip", SStr (bs "01234")); (bs "flag", SStr (bs "true"))]] =
  Some [mkStyle (bs "a") [] [(bs "zip", SFloat 1234); (bs "flag", SBool true)]].
Proof. reflexivity. Qed.
Print Assumptions C98_string_refuted.
(** A negative offset comes back as zero. *)
Theorem C98_negative_refuted :
  reread [mkStyle (bs "a") [] [(bs "position", SPosition (mkSPair (-5) 10))]] = Some [mkStyle (bs "a") [] [(bs "position", SPosition (mkSPair 0 10))]].
Proof. reflexivity. Qed.
Print Assumptions C98_negative_refuted.
(** "size" that is not a width and a height, "font" that is a name: lost. *)
Theorem C98_scalar_refuted :
  reread [mkStyle (bs "a") [] [(bs "font", SStr (bs "Helvetica")); (bs "size", SFloat 12)]] = Some [mkStyle (bs "a") [] []].
Proof. reflexivity. Qed.
Print Assumptions C98_scalar_refuted.
(** A property "style" replaces the style that holds it, and takes the
    properties that follow along. *)
Theorem C98_style_refuted :
  reread [mkStyle (bs "a") [] [(bs "style", SStr (bs "italic")); (bs "align", SStr (bs "left"))]] = Some [mkStyle [] [] []].
Proof. reflexivity. Qed.
Print Assumptions C98_style_refuted.

(* ---------------------------------------------------------------- *)
(** C99, full statement: a configuration written with ConfigToXFA is read back
    unchanged by ParseXFAConfig, and no text makes ParseXFAConfig panic.
    Proved: exactly what comes back ([read_config]). *)
Theorem C99_no_panic : forall ts, exists c, ParseXFAConfig ts = Some c.
Proof. exact config_no_panic. Qed.
Print Assumptions C99_no_panic.
Theorem C99_read_back : forall (V : Type) (show : V -> bytes) perm, (forall l, Permutation (perm l) l) ->
  forall c ts us, ConfigToXFA show perm c = Some ts -> conveyed false ts us -> config_ints c -> (forall k, In k (map fst (gProps c)) -> plain_setting k) ->
  ParseXFAConfig us = Some (read_config c).
Proof. intros V show perm Hp c ts us E H H1 H2. exact (config_roundtrip show perm c ts us Hp E H H1 H2). Qed.
Print Assumptions C99_read_back.
(** So the PDF, viewer, submit, destination and acrobat settings survive ... *)
Theorem C99_roundtrip_partial : forall (V : Type) (show : V -> bytes) perm, (forall l, Permutation (perm l) l) ->
  forall c ts us, ConfigToXFA show perm c = Some ts -> conveyed false ts us -> (forall k, In k (map fst (gProps c)) -> plain_setting k) ->
  (forall p, gPresent c = Some p -> prXDP p = None /\ prPrint p = None /\ prScript p = None) ->
  (forall p i, gPresent c = Some p -> prInteractive p = Some i -> 0 <= inPage i < 2 ^ 63) ->
  (forall a, gAcrobat c = Some a -> 0 <= acAutoSaveTime a < 2 ^ 63) ->
  exists c', ParseXFAConfig us = Some c' /\ gPresent c' = gPresent c /\ gDestination c' = gDestination c /\ gAcrobat c' = gAcrobat c /\
    option_map (fun s => mkSubmit (suFormat s) (suTarget s) (suMethod s) (suEmbed s) (suXDP s) (suEncoding s) []) (gSubmit c') =
    option_map (fun s => mkSubmit (suFormat s) (suTarget s) (suMethod s) (suEmbed s) (suXDP s) (suEncoding s) []) (gSubmit c).
Proof.
  intros V show perm Hp c ts us E H Hk H1 H2 H3. exists (read_config c). split.
  - apply (config_roundtrip show perm c ts us Hp E H); [|exact Hk]. split.
    + intros p i E1 E2. specialize (H2 p i E1 E2). split; lia.
    + intros a E1. specialize (H3 a E1). split; lia.
  - destruct c as [pr va su de ac co ou sc tr ps]. cbn [read_config gPresent gDestination gAcrobat gSubmit] in *. split; [|split; [reflexivity|split]].
    + destruct pr as [[pd xd pn it sp rn ot]|]; [|reflexivity]. destruct (H1 _ eq_refl) as (A & B & C). cbn [prXDP prPrint prScript] in A, B, C. subst.
      cbn [option_map read_present]. destruct it as [[pg z v]|]; [|reflexivity]. specialize (H2 _ _ eq_refl eq_refl). cbn [inPage] in H2.
      unfold read_present. cbn [prPDF prInteractive prRender prOutput option_map]. unfold read_interactive, from_zero. cbn [inPage inZoom inViewMode]. rewrite Z.max_r by lia. reflexivity.
    + destruct ac as [[s t f v]|]; [|reflexivity]. specialize (H3 _ eq_refl). cbn [acAutoSaveTime] in H3. unfold read_acrobat, from_zero. cbn [option_map acAutoSave acAutoSaveTime acFormType acVersion]. rewrite Z.max_r by lia. reflexivity.
    + destruct su; reflexivity.
Qed.
Print Assumptions C99_roundtrip_partial.
(** ... and nothing of validate, common, output, script, trace and the
    properties does. *)
Theorem C99_lost_refuted : forall (V : Type) (show : V -> bytes) perm, (forall l, Permutation (perm l) l) ->
  forall c ts us, ConfigToXFA show perm c = Some ts -> conveyed false ts us -> config_ints c -> (forall k, In k (map fst (gProps c)) -> plain_setting k) ->
  exists c', ParseXFAConfig us = Some c' /\ gProps c' = [] /\ gScript c' = None /\ gTrace c' = None /\
    (forall v, gValidate c' = Some v -> v = ([], [], [])) /\ (forall v, gCommon c' = Some v -> v = ([], [])) /\ (forall v, gOutput c' = Some v -> v = ([], [])) /\
    (forall s, gSubmit c' = Some s -> suProps s = []).
Proof.
  intros V show perm Hp c ts us E H H1 H2. exists (read_config c). split; [exact (config_roundtrip show perm c ts us Hp E H H1 H2)|].
  destruct c as [pr [va|] [su|] de ac [co|] [ou|] sc tr ps]; cbn; repeat split; intros v Q; try discriminate Q; injection Q as <-; reflexivity.
Qed.
Print Assumptions C99_lost_refuted.
Definition ex_config : config bytes :=
  mkConfig (Some (mkPresent (Some (mkPDF (bs "1.7") (bs "1") true [] true false false)) None None (Some (mkInter 3 (bs "100") [])) None (bs "server") []))
    (Some (bs "error", bs "warning", [])) (Some (mkSubmit (bs "xdp") (bs "http://a/?b&c") (bs "POST") true [] (bs "UTF-8") []))
    (Some (bs "file", bs "out.pdf")) (Some (mkAcrobat true 5 (bs "static") [])) None None None (Some (true, bs "2")) [(bs "locale", bs "en")].
Example C99_example : exists ts, ConfigToXFA ident (fun l => l) ex_config = Some ts /\ conveyed false ts (indented ts) /\ config_ints ex_config /\
  (forall k, In k (map fst (gProps ex_config)) -> plain_setting k) /\ ParseXFAConfig (indented ts) = Some (read_config ex_config) /\
  gAcrobat (read_config ex_config) = gAcrobat ex_config /\ gPresent (read_config ex_config) = gPresent ex_config /\ gSubmit (read_config ex_config) = gSubmit ex_config.
Proof.
  eexists. split; [reflexivity|]. split; [apply indented_conveyed; reflexivity|]. split; [|split; [|repeat split]].
  - split.
    + intros p i E. injection E as <-. cbn [prInteractive]. intros E. injection E as <-. cbn. split; lia.
    + intros a E. injection E as <-. cbn. split; lia.
  - intros k [<-|[]] H. cbn in H. decompose [or] H; try discriminate; contradiction.
Qed.
(** A property named like a section creates that section. *)
Theorem C99_section_refuted : exists ts, ConfigToXFA ident (fun l => l) (mkConfig None None None None None None None None None [(bs "present", bs "yes")]) = Some ts /\
  option_map gPresent (ParseXFAConfig (indented ts)) = Some (Some new_present).
Proof. eexists. split; reflexivity. Qed.
Print Assumptions C99_section_refuted.
(** Settings of different sections with one name: the later one wins. *)
Theorem C99_flat_refuted : ParseXFAConfig
  [TStart (bs "config") []; TStart (bs "common") []; TStart (bs "level") []; TChars (bs "1"); TEnd (bs "level"); TEnd (bs "common");
   TStart (bs "output") []; TStart (bs "level") []; TChars (bs "2"); TEnd (bs "level"); TEnd (bs "output"); TEnd (bs "config")] =
  Some (mkConfig None None None None None (Some ([], [])) (Some ([], [])) None None [(bs "level", bs "2")]).
Proof. reflexivity. Qed.
Print Assumptions C99_flat_refuted.
