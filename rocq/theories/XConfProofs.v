(** Proofs for the translators of stylesheets and configurations. *)
From Verif Require Import Util XDataSpec XDataProofs XDataProofs2.
From Verif Require DatasetsProofs.
From Coq Require Import Permutation.
Local Open Scope Z_scope.

(** ** Stylesheets *)
Section Floats.
Context {F V : Type} (f0 : F) (pos : F -> bool) (parseF : bytes -> option F) (formatF showF : F -> bytes) (show : V -> bytes) (showS : sval (F := F) (V := V) -> bytes).
Notation sval := (sval (F := F) (V := V)).
Notation style := (style (F := F) (V := V)).
Notation s_step := (s_step (V := V) f0 parseF).
Notation ParseXFAStylesheet := (ParseXFAStylesheet (V := V) f0 parseF).

(** no panic *)
Record typed (c : style) : Prop := {
  ty_margin : forall v, kget (bs "margin") (stProps c) = Some v -> exists m, v = SMargin m;
  ty_padding : forall v, kget (bs "padding") (stProps c) = Some v -> exists m, v = SPadding m;
  ty_position : forall v, kget (bs "position") (stProps c) = Some v -> exists m, v = SPosition m;
  ty_size : forall v, kget (bs "size") (stProps c) = Some v -> exists m, v = SSize m }.
Definition calm (s : sstate (F := F) (V := V)) : Prop := forall c, ssCur s = Some c -> typed c.
Lemma typed_put n v c : typed c ->
  (n = bs "margin" -> exists m, v = SMargin m) -> (n = bs "padding" -> exists m, v = SPadding m) ->
  (n = bs "position" -> exists m, v = SPosition m) -> (n = bs "size" -> exists m, v = SSize m) -> typed (put n v c).
Proof.
  intros [T1 T2 T3 T4] M1 M2 M3 M4. unfold put.
  split; cbn [stProps]; intros w; rewrite kget_kset; match goal with |- context [bytes_eqb ?k n] => destruct (bytes_eqb k n) eqn:E end;
    try (apply bytes_eqb_eq in E; symmetry in E; intros Q; injection Q as <-; auto); auto.
Qed.
Ltac key_eq := let Q := fresh in intros Q; try discriminate Q; try (subst; discriminate); eauto.
Lemma calm_start s n a : calm s -> exists s', s_start f0 parseF s n a = Some s' /\ calm s'.
Proof.
  intros H. destruct s as [done cur p v]. unfold s_start.
  destruct (bytes_eqb n (bs "stylesheet")); [eexists; split; [reflexivity|exact H]|].
  destruct (bytes_eqb n (bs "style")) eqn:E0.
  { eexists. split; [reflexivity|]. intros c Q. injection Q as <-. split; cbn [stProps]; intros w Q; discriminate Q. }
  destruct cur as [c|]; [|eexists; split; [reflexivity|exact H]].
  specialize (H c eq_refl).
  destruct (bytes_eqb n (bs "font")) eqn:E1.
  { apply bytes_eqb_eq in E1. subst n. eexists. split; [reflexivity|]. intros c' Q. injection Q as <-. apply typed_put; [exact H| | | |]; key_eq. }
  destruct (bytes_eqb n (bs "border")) eqn:E2.
  { apply bytes_eqb_eq in E2. subst n. eexists. split; [reflexivity|]. intros c' Q. injection Q as <-. apply typed_put; [exact H| | | |]; key_eq. }
  destruct (bytes_eqb n (bs "margin")) eqn:E3.
  { apply bytes_eqb_eq in E3. subst n. destruct (kget (bs "margin") (stProps c)) as [w|] eqn:K.
    - destruct (ty_margin c H w K) as (m & ->). eexists. split; [reflexivity|]. intros c' Q. injection Q as <-. apply typed_put; [exact H| | | |]; key_eq.
    - eexists. split; [reflexivity|]. intros c' Q. injection Q as <-. apply typed_put; [exact H| | | |]; key_eq. }
  destruct (bytes_eqb n (bs "padding")) eqn:E4.
  { apply bytes_eqb_eq in E4. subst n. destruct (kget (bs "padding") (stProps c)) as [w|] eqn:K.
    - destruct (ty_padding c H w K) as (m & ->). eexists. split; [reflexivity|]. intros c' Q. injection Q as <-. apply typed_put; [exact H| | | |]; key_eq.
    - eexists. split; [reflexivity|]. intros c' Q. injection Q as <-. apply typed_put; [exact H| | | |]; key_eq. }
  destruct (bytes_eqb n (bs "position")) eqn:E5.
  { apply bytes_eqb_eq in E5. subst n. destruct (kget (bs "position") (stProps c)) as [w|] eqn:K.
    - destruct (ty_position c H w K) as (m & ->). eexists. split; [reflexivity|]. intros c' Q. injection Q as <-. apply typed_put; [exact H| | | |]; key_eq.
    - eexists. split; [reflexivity|]. intros c' Q. injection Q as <-. apply typed_put; [exact H| | | |]; key_eq. }
  destruct (bytes_eqb n (bs "size")) eqn:E6.
  { apply bytes_eqb_eq in E6. subst n. destruct (kget (bs "size") (stProps c)) as [w|] eqn:K.
    - destruct (ty_size c H w K) as (m & ->). eexists. split; [reflexivity|]. intros c' Q. injection Q as <-. apply typed_put; [exact H| | | |]; key_eq.
    - eexists. split; [reflexivity|]. intros c' Q. injection Q as <-. apply typed_put; [exact H| | | |]; key_eq. }
  eexists. split; [reflexivity|]. intros c' Q. injection Q as <-. exact H.
Qed.
Lemma special_not n : existsb (bytes_eqb n) special_keys = false -> n <> bs "font" /\ n <> bs "border" /\ n <> bs "margin" /\ n <> bs "padding" /\ n <> bs "position" /\ n <> bs "size".
Proof. intros H. repeat split; intros ->; discriminate H. Qed.
Lemma calm_end s n : calm s -> calm (s_end parseF s n).
Proof.
  intros H. destruct s as [done cur p v]. unfold s_end. destruct (bytes_eqb n (bs "style")); [intros c Q; discriminate Q|].
  destruct (existsb (bytes_eqb n) special_keys) eqn:E; [exact H|]. destruct (special_not n E) as (_ & _ & N3 & N4 & N5 & N6).
  intros c. cbn [ssCur]. destruct cur as [c0|]; [|discriminate]. specialize (H c0 eq_refl).
  destruct p; [intros Q; injection Q as <-; exact H|]. destruct (TrimSpace v); intros Q; injection Q as <-; [exact H|].
  apply typed_put; [exact H| | | |]; intros; contradiction.
Qed.
Lemma calm_run ts : forall s, calm s -> exists s', fold_left s_step ts (Some s) = Some s' /\ calm s'.
Proof.
  induction ts as [|[n a|n|x] ts IH]; intros s H; [exists s; split; [reflexivity|exact H]| | |]; cbn [fold_left XConfModel.s_step].
  - destruct (calm_start s n a H) as (s' & -> & H'). apply IH, H'.
  - apply IH, calm_end, H.
  - apply IH. destruct s as [done cur p v]. unfold s_chars. destruct cur; [destruct p|]; exact H.
Qed.
Theorem stylesheet_no_panic ts : exists l, ParseXFAStylesheet ts = Some l.
Proof.
  destruct (calm_run ts (mkSS [] None [] [])) as (s & E & _); [intros c Q; discriminate Q|]. unfold XConfModel.ParseXFAStylesheet. rewrite E. eexists. reflexivity.
Qed.

(** *** Attributes that are numbers *)
Notation last_float := (last_float parseF).
Notation float_attr := (float_attr pos formatF).
Notation clamp := (clamp f0 pos).
Lemma last_float_app k a b old : last_float k (a ++ b) old = last_float k b (last_float k a old).
Proof. apply fold_left_app. Qed.
Lemma last_float_opt k k' v old : bytes_eqb k' k = false -> last_float k (opt_attr k' v) old = old.
Proof. intros E. destruct v as [|c v]; [reflexivity|]. unfold opt_attr, XConfModel.last_float. cbn [fold_left fst snd]. rewrite E. reflexivity. Qed.
Lemma last_float_other k k' v old : bytes_eqb k' k = false -> last_float k (float_attr k' v) old = old.
Proof. intros E. unfold XConfModel.float_attr. destruct (pos v); [|reflexivity]. unfold XConfModel.last_float. cbn [fold_left fst snd]. rewrite E. reflexivity. Qed.
Lemma last_attr_float k k' v old : bytes_eqb k' k = false -> last_attr k (float_attr k' v) old = old.
Proof. intros E. unfold XConfModel.float_attr. destruct (pos v); [|reflexivity]. unfold last_attr. cbn [fold_left fst snd]. rewrite E. reflexivity. Qed.
Context (Hf : forall f, pos f = true -> parseF (formatF f) = Some f).
Lemma last_float_same k v : last_float k (float_attr k v) f0 = clamp v.
Proof.
  unfold XConfModel.float_attr, XDataSpec.clamp. destruct (pos v) eqn:E; [|reflexivity]. unfold XConfModel.last_float. cbn [fold_left fst snd]. rewrite bytes_eqb_refl, Hf by exact E. reflexivity.
Qed.
Ltac fattr :=
  rewrite ?last_float_app; attr;
  repeat match goal with
    | |- context [XConfModel.last_float parseF ?k (opt_attr ?k' ?v) ?o] => rewrite (last_float_opt k k' v o) by reflexivity
    | |- context [XConfModel.last_float parseF ?k (XConfModel.float_attr pos formatF ?k' ?v) ?o] => rewrite (last_float_other k k' v o) by reflexivity
    | |- context [last_attr ?k (XConfModel.float_attr pos formatF ?k' ?v) ?o] => rewrite (last_attr_float k k' v o) by reflexivity
    | |- context [XConfModel.last_float parseF ?k (XConfModel.float_attr pos formatF ?k ?v) f0] => rewrite (last_float_same k v)
    | |- context [last_attr ?k (opt_attr ?k' ?v) ?o] => rewrite (last_attr_other k k' v o) by reflexivity
    | |- context [last_attr ?k (opt_attr ?k ?v) []] => rewrite (last_attr_same k v [] eq_refl)
    end.

(** *** Writing and reading *)
Definition state (done : list style) (cur : option style) (p v : bytes) : option (sstate (F := F) (V := V)) := Some (mkSS done cur p v).
Lemma s_blank ws : Forall blank_token ws -> forall done cur p v, exists v', fold_left s_step ws (state done cur p v) = state done cur p v'.
Proof.
  induction 1 as [|t ws (w & -> & Hw) H IH]; intros done cur p v; [exists v; reflexivity|]. cbn [fold_left XConfModel.s_step state]. unfold s_chars.
  destruct cur; [destruct p|]; apply IH.
Qed.
(** a structure *)
Lemma sec_font done c p v a : s_step (s_step (state done (Some c) p v) (TStart (bs "font") a)) (TEnd (bs "font")) = state done (Some (put (bs "font") (parseFontAttributes f0 parseF a) c)) [] v.
Proof. reflexivity. Qed.
Lemma sec_border done c p v a : s_step (s_step (state done (Some c) p v) (TStart (bs "border") a)) (TEnd (bs "border")) = state done (Some (put (bs "border") (parseBorderAttributes f0 parseF a) c)) [] v.
Proof. reflexivity. Qed.
Lemma sec_margin done c p v a : kget (bs "margin") (stProps c) = None -> s_step (s_step (state done (Some c) p v) (TStart (bs "margin") a)) (TEnd (bs "margin")) =
  state done (Some (put (bs "margin") (SMargin (parseSides parseF a (mkSides f0 f0 f0 f0))) c)) [] v.
Proof.
  intros K. cbn [XConfModel.s_step state]. unfold s_start. change (bytes_eqb (bs "margin") (bs "stylesheet")) with false. change (bytes_eqb (bs "margin") (bs "style")) with false.
  change (bytes_eqb (bs "margin") (bs "font")) with false. change (bytes_eqb (bs "margin") (bs "border")) with false. cbn beta iota. rewrite bytes_eqb_refl, K. reflexivity.
Qed.
Lemma sec_padding done c p v a : kget (bs "padding") (stProps c) = None -> s_step (s_step (state done (Some c) p v) (TStart (bs "padding") a)) (TEnd (bs "padding")) =
  state done (Some (put (bs "padding") (SPadding (parseSides parseF a (mkSides f0 f0 f0 f0))) c)) [] v.
Proof.
  intros K. cbn [XConfModel.s_step state]. unfold s_start. change (bytes_eqb (bs "padding") (bs "stylesheet")) with false. change (bytes_eqb (bs "padding") (bs "style")) with false.
  change (bytes_eqb (bs "padding") (bs "font")) with false. change (bytes_eqb (bs "padding") (bs "border")) with false. change (bytes_eqb (bs "padding") (bs "margin")) with false. cbn beta iota. rewrite bytes_eqb_refl, K. reflexivity.
Qed.
Lemma sec_position done c p v a : kget (bs "position") (stProps c) = None -> s_step (s_step (state done (Some c) p v) (TStart (bs "position") a)) (TEnd (bs "position")) =
  state done (Some (put (bs "position") (SPosition (parsePair parseF (bs "x") (bs "y") a (mkSPair f0 f0))) c)) [] v.
Proof.
  intros K. cbn [XConfModel.s_step state]. unfold s_start. change (bytes_eqb (bs "position") (bs "stylesheet")) with false. change (bytes_eqb (bs "position") (bs "style")) with false.
  change (bytes_eqb (bs "position") (bs "font")) with false. change (bytes_eqb (bs "position") (bs "border")) with false. change (bytes_eqb (bs "position") (bs "margin")) with false.
  change (bytes_eqb (bs "position") (bs "padding")) with false. cbn beta iota. rewrite bytes_eqb_refl, K. reflexivity.
Qed.
Lemma sec_size done c p v a : kget (bs "size") (stProps c) = None -> s_step (s_step (state done (Some c) p v) (TStart (bs "size") a)) (TEnd (bs "size")) =
  state done (Some (put (bs "size") (SSize (parsePair parseF (bs "width") (bs "height") a (mkSPair f0 f0))) c)) [] v.
Proof.
  intros K. cbn [XConfModel.s_step state]. unfold s_start. change (bytes_eqb (bs "size") (bs "stylesheet")) with false. change (bytes_eqb (bs "size") (bs "style")) with false.
  change (bytes_eqb (bs "size") (bs "font")) with false. change (bytes_eqb (bs "size") (bs "border")) with false. change (bytes_eqb (bs "size") (bs "margin")) with false.
  change (bytes_eqb (bs "size") (bs "padding")) with false. change (bytes_eqb (bs "size") (bs "position")) with false. cbn beta iota. rewrite bytes_eqb_refl, K. reflexivity.
Qed.
Definition put_maybe (k : bytes) (o : option sval) (c : style) : style := match o with Some x => put k x c | None => c end.
Ltac sleaf H :=
  let ws := fresh "ws" in let u := fresh "u" in let Hw := fresh "Hw" in let H' := fresh "H'" in let v' := fresh "v'" in
  destruct (conv_leaf _ _ _ _ _ H) as (ws & u & -> & Hw & H'); rewrite fold_leaf;
  edestruct (s_blank ws Hw) as (v' & ->); exists false, u, (@nil byte), v'; split; [|exact H'].
Definition pick_font (o : option sval) : option sfont := match o with Some (SFont f) => Some f | _ => None end.
Definition pick_border (o : option sval) : option sborder := match o with Some (SBorder f) => Some f | _ => None end.
Definition pick_margin (o : option sval) : option sides := match o with Some (SMargin f) => Some f | _ => None end.
Definition pick_padding (o : option sval) : option sides := match o with Some (SPadding f) => Some f | _ => None end.
Definition pick_position (o : option sval) : option spair := match o with Some (SPosition f) => Some f | _ => None end.
Definition pick_size (o : option sval) : option spair := match o with Some (SSize f) => Some f | _ => None end.
Lemma s_font o ts us b done c p v : conveyed b (maybe (encodeStyleFont pos formatF) o ++ ts) us ->
  exists b' us' p' v', fold_left s_step us (state done (Some c) p v) = fold_left s_step us' (state done (Some (put_maybe (bs "font") (option_map (fun x => SFont (read_font f0 pos x)) o) c)) p' v') /\ conveyed b' ts us'.
Proof.
  destruct o as [x|]; intros H; [|exists b, us, p, v; split; [reflexivity|exact H]]. sleaf H. rewrite sec_font. unfold parseFontAttributes, read_font. fattr. reflexivity.
Qed.
Lemma s_border o ts us b done c p v : conveyed b (maybe (encodeStyleBorder pos formatF) o ++ ts) us ->
  exists b' us' p' v', fold_left s_step us (state done (Some c) p v) = fold_left s_step us' (state done (Some (put_maybe (bs "border") (option_map (fun x => SBorder (read_border f0 pos x)) o) c)) p' v') /\ conveyed b' ts us'.
Proof.
  destruct o as [x|]; intros H; [|exists b, us, p, v; split; [reflexivity|exact H]]. sleaf H. rewrite sec_border. unfold parseBorderAttributes, read_border. fattr. reflexivity.
Qed.
Lemma s_margin o ts us b done c p v : conveyed b (maybe (encodeSides pos formatF (bs "margin")) o ++ ts) us -> kget (bs "margin") (stProps c) = None ->
  exists b' us' p' v', fold_left s_step us (state done (Some c) p v) = fold_left s_step us' (state done (Some (put_maybe (bs "margin") (option_map (fun x => SMargin (read_sides f0 pos x)) o) c)) p' v') /\ conveyed b' ts us'.
Proof.
  destruct o as [x|]; intros H K; [|exists b, us, p, v; split; [reflexivity|exact H]]. sleaf H. rewrite sec_margin by exact K. unfold parseSides, read_sides. cbn [sTop sRight sBottom sLeft]. fattr. reflexivity.
Qed.
Lemma s_padding o ts us b done c p v : conveyed b (maybe (encodeSides pos formatF (bs "padding")) o ++ ts) us -> kget (bs "padding") (stProps c) = None ->
  exists b' us' p' v', fold_left s_step us (state done (Some c) p v) = fold_left s_step us' (state done (Some (put_maybe (bs "padding") (option_map (fun x => SPadding (read_sides f0 pos x)) o) c)) p' v') /\ conveyed b' ts us'.
Proof.
  destruct o as [x|]; intros H K; [|exists b, us, p, v; split; [reflexivity|exact H]]. sleaf H. rewrite sec_padding by exact K. unfold parseSides, read_sides. cbn [sTop sRight sBottom sLeft]. fattr. reflexivity.
Qed.
Lemma s_position o ts us b done c p v : conveyed b (maybe (encodePair pos formatF (bs "position") (bs "x") (bs "y")) o ++ ts) us -> kget (bs "position") (stProps c) = None ->
  exists b' us' p' v', fold_left s_step us (state done (Some c) p v) = fold_left s_step us' (state done (Some (put_maybe (bs "position") (option_map (fun x => SPosition (read_pair f0 pos x)) o) c)) p' v') /\ conveyed b' ts us'.
Proof.
  destruct o as [x|]; intros H K; [|exists b, us, p, v; split; [reflexivity|exact H]]. sleaf H. rewrite sec_position by exact K. unfold parsePair, read_pair. cbn [sFst sSnd]. fattr. reflexivity.
Qed.
Lemma s_size o ts us b done c p v : conveyed b (maybe (encodePair pos formatF (bs "size") (bs "width") (bs "height")) o ++ ts) us -> kget (bs "size") (stProps c) = None ->
  exists b' us' p' v', fold_left s_step us (state done (Some c) p v) = fold_left s_step us' (state done (Some (put_maybe (bs "size") (option_map (fun x => SSize (read_pair f0 pos x)) o) c)) p' v') /\ conveyed b' ts us'.
Proof.
  destruct o as [x|]; intros H K; [|exists b, us, p, v; split; [reflexivity|exact H]]. sleaf H. rewrite sec_size by exact K. unfold parsePair, read_pair. cbn [sFst sSnd]. fattr. reflexivity.
Qed.
(** other properties *)
Notation showP := (showP show showF showS).
Definition put_style (c : style) (e : bytes * option sval) : style := mkStyle (stName c) (stType c) (put_opt (stProps c) e).
Definition other_key (k : bytes) : Prop := ~ In k structure_keys /\ ~ In k [bs "stylesheet"; bs "style"].
Lemma parse_value t : match TrimSpace t with [] => None | b :: r => Some (parseStyleValue parseF (b :: r)) end = read_value (V := V) parseF t.
Proof.
  unfold read_value. destruct (TrimSpace t) as [|b r]; [reflexivity|]. f_equal. unfold parseStyleValue. destruct (parseF (b :: r)); [reflexivity|].
  destruct (bytes_eqb (b :: r) (bs "true")); [reflexivity|]. cbn [orb]. destruct (bytes_eqb (b :: r) (bs "false")) eqn:E.
  - apply bytes_eqb_eq in E. rewrite E. reflexivity.
  - destruct (bytes_eqb (b :: r) (bs "1")); reflexivity.
Qed.
Lemma s_property e ts us b done c p v : conveyed b (property showP e ++ ts) us -> other_key (fst e) ->
  exists us' p' v', fold_left s_step us (state done (Some c) p v) = fold_left s_step us' (state done (Some (put_style c (fst e, read_value parseF (showP (snd e))))) p' v') /\ conveyed false ts us'.
Proof.
  intros H (Hk & Hs). destruct e as [k x]. cbn [fst snd] in *. unfold property, element in H. cbn [app fst snd] in H.
  destruct (conv_start _ _ _ _ _ H) as (ws & u1 & -> & Hw & H1 & Hname).
  assert (E : forall y, In y structure_keys \/ In y [bs "stylesheet"; bs "style"] -> bytes_eqb k y = false).
  { intros y Hy. destruct (bytes_eqb k y) eqn:E; [|reflexivity]. apply bytes_eqb_eq in E. subst y. tauto. }
  assert (Kn : exists k0 kr, k = k0 :: kr) by (destruct k as [|k0 kr]; [discriminate Hname|exists k0, kr; reflexivity]). destruct Kn as (k0 & kr & Ek).
  rewrite fold_step. edestruct (s_blank ws Hw) as (v1 & ->).
  replace (XConfModel.s_step f0 parseF (state done (Some c) p v1) (TStart k [])) with (state done (Some c) k []).
  2:{ cbn [XConfModel.s_step state]. unfold s_start. rewrite !E by (unfold structure_keys; cbn [In]; tauto). reflexivity. }
  assert (G : forall u2 val, conveyed true (TEnd k :: ts) u2 -> val = showP x ->
    exists us' p' v', fold_left s_step u2 (state done (Some c) k val) = fold_left s_step us' (state done (Some (put_style c (k, read_value parseF (showP x)))) p' v') /\ conveyed false ts us').
  { intros u2 val H2 ->. destruct (conv_end _ _ _ _ H2) as (w2 & u3 & -> & _ & Hnil & H3). rewrite (Hnil eq_refl). cbn [app fold_left].
    exists u3, k, []. split; [|exact H3]. f_equal. cbn [XConfModel.s_step state]. unfold s_end, state. rewrite (E (bs "style")) by (cbn [In]; tauto).
    rewrite (not_in_eqb k special_keys Hk). do 3 f_equal. rewrite <- parse_value. subst k. destruct (TrimSpace (showP x)); [destruct c; reflexivity|reflexivity]. }
  assert (K : forall u2, conveyed true (TEnd k :: ts) u2 ->
    exists us' p' v', fold_left s_step (TChars (showP x) :: u2) (state done (Some c) k []) = fold_left s_step us' (state done (Some (put_style c (k, read_value parseF (showP x)))) p' v') /\ conveyed false ts us').
  { intros u2 H2. cbn [fold_left].
    replace (XConfModel.s_step f0 parseF (state done (Some c) k []) (TChars (showP x))) with (state done (Some c) k (showP x)) by (rewrite Ek; reflexivity).
    apply (G u2 (showP x)); [exact H2|reflexivity]. }
  destruct (conv_text _ _ _ H1) as (u2 & [(-> & H2)|(-> & H2)]); [|apply K, H2].
  destruct (showP x) as [|b0 h] eqn:Ex; [|apply K, H2]. cbn [app]. apply G; [exact H2|reflexivity].
Qed.
Definition values (l : list (bytes * sval)) : list (bytes * option sval) := map (fun e => (fst e, read_value parseF (showP (snd e)))) l.
Lemma s_properties l ts : forall us b done c p v, conveyed b (flat_map (property showP) l ++ ts) us -> (forall k, In k (map fst l) -> other_key k) ->
  exists b' us' p' v', fold_left s_step us (state done (Some c) p v) = fold_left s_step us' (state done (Some (fold_left put_style (values l) c)) p' v') /\ conveyed b' ts us'.
Proof.
  induction l as [|e l IH]; intros us b done c p v H Hk; [exists b, us, p, v; split; [reflexivity|exact H]|].
  cbn [flat_map] in H. rewrite <- app_assoc in H. destruct (s_property e _ us b done c p v H (Hk _ (or_introl eq_refl))) as (u1 & p1 & v1 & -> & H1).
  cbn [values map fold_left]. apply (IH u1 false done _ p1 v1 H1). intros k Q. apply Hk. right. exact Q.
Qed.
Lemma put_styles l : forall c, fold_left put_style l c = mkStyle (stName c) (stType c) (fold_left put_opt l (stProps c)).
Proof. induction l as [|e l IH]; intros c; [destruct c; reflexivity|]. cbn [fold_left]. rewrite IH. reflexivity. Qed.

Lemma kget_filter {A} (g : bytes -> bool) (l : list (bytes * A)) k : kget k (List.filter (fun e => g (fst e)) l) = if g k then kget k l else None.
Proof.
  induction l as [|[n v] l IH]; [destruct (g k); reflexivity|]. cbn [List.filter fst]. destruct (g n) eqn:En.
  - cbn [kget]. rewrite IH. destruct (bytes_eqb k n) eqn:E; [apply bytes_eqb_eq in E; subst n; rewrite En; reflexivity|reflexivity].
  - rewrite IH. destruct (g k) eqn:Ek; [|reflexivity]. cbn [kget]. destruct (bytes_eqb k n) eqn:E; [apply bytes_eqb_eq in E; subst n; rewrite En in Ek; discriminate Ek|reflexivity].
Qed.
Lemma nodup_filter {A} (g : bytes * A -> bool) (l : list (bytes * A)) : NoDup (map fst l) -> NoDup (map fst (List.filter g l)).
Proof.
  induction l as [|[n v] l IH]; intros H; [constructor|]. inversion H as [|x y N1 N2]; subst. cbn [List.filter]. destruct (g (n, v)); [|apply IH, N2].
  cbn [map fst]. constructor; [|apply IH, N2]. intros Q. apply N1. apply in_map_iff in Q as (e & E & Q). apply filter_In in Q as (Q & _). apply in_map_iff. exists e. split; [exact E|exact Q].
Qed.
Lemma kget_put_maybe k k' o c : kget k (stProps (put_maybe k' o c)) = if bytes_eqb k k' then match o with Some x => Some x | None => kget k (stProps c) end else kget k (stProps c).
Proof. destruct o as [x|]; cbn [put_maybe put stProps]; [rewrite kget_kset; reflexivity|destruct (bytes_eqb k k'); reflexivity]. Qed.
Lemma put_maybe_name k o c : stName (put_maybe k o c) = stName c /\ stType (put_maybe k o c) = stType c.
Proof. destruct o; split; reflexivity. Qed.
Context (perm : list (bytes * sval) -> list (bytes * sval)) (Hperm : forall l, Permutation (perm l) l).
Definition structures (s c : style) : style :=
  let get k := kget k (stProps s) in
  put_maybe (bs "size") (option_map (fun x => SSize (read_pair f0 pos x)) (pick_size (get (bs "size"))))
  (put_maybe (bs "position") (option_map (fun x => SPosition (read_pair f0 pos x)) (pick_position (get (bs "position"))))
  (put_maybe (bs "padding") (option_map (fun x => SPadding (read_sides f0 pos x)) (pick_padding (get (bs "padding"))))
  (put_maybe (bs "margin") (option_map (fun x => SMargin (read_sides f0 pos x)) (pick_margin (get (bs "margin"))))
  (put_maybe (bs "border") (option_map (fun x => SBorder (read_border f0 pos x)) (pick_border (get (bs "border"))))
  (put_maybe (bs "font") (option_map (fun x => SFont (read_font f0 pos x)) (pick_font (get (bs "font")))) c))))).
Definition others (s : style) : list (bytes * sval) := List.filter (fun e => negb (existsb (bytes_eqb (fst e)) special_keys)) (perm (stProps s)).
Definition read_style (s : style) : style :=
  fold_left put_style (values (others s)) (structures s (mkStyle (stName s) (stType s) [])).
Lemma encode_style s : encodeStyle pos formatF show showF showS perm s =
  element (bs "style") (opt_attr (bs "name") (stName s) ++ opt_attr (bs "type") (stType s))
    (maybe (encodeStyleFont pos formatF) (pick_font (kget (bs "font") (stProps s))) ++
     maybe (encodeStyleBorder pos formatF) (pick_border (kget (bs "border") (stProps s))) ++
     maybe (encodeSides pos formatF (bs "margin")) (pick_margin (kget (bs "margin") (stProps s))) ++
     maybe (encodeSides pos formatF (bs "padding")) (pick_padding (kget (bs "padding") (stProps s))) ++
     maybe (encodePair pos formatF (bs "position") (bs "x") (bs "y")) (pick_position (kget (bs "position") (stProps s))) ++
     maybe (encodePair pos formatF (bs "size") (bs "width") (bs "height")) (pick_size (kget (bs "size") (stProps s))) ++
     flat_map (property showP) (others s)).
Proof.
  unfold encodeStyle. do 7 (f_equal; try reflexivity).
  all: match goal with |- context [kget ?k ?l] => destruct (kget k l) as [[]|]; reflexivity end.
Qed.
Lemma s_style s ts us b done p v : conveyed b (encodeStyle pos formatF show showF showS perm s ++ ts) us -> plain_style s ->
  exists us' v', fold_left s_step us (state done None p v) = fold_left s_step us' (state (done ++ [read_style s]) None [] v') /\ conveyed false ts us'.
Proof.
  intros H (Hn & Hk). rewrite encode_style in H. unfold element in H. cbn [app] in H. rewrite <- !app_assoc in H. cbn [app] in H.
  destruct (conv_start _ _ _ _ _ H) as (ws & u1 & -> & Hw & H1 & _). rewrite fold_step. edestruct (s_blank ws Hw) as (v1 & ->).
  replace (XConfModel.s_step f0 parseF _ (TStart _ _)) with (state done (Some (mkStyle (stName s) (stType s) [])) p v1).
  2:{ cbn [XConfModel.s_step state]. unfold s_start, state. change (bytes_eqb (bs "style") (bs "stylesheet")) with false. cbn beta iota. rewrite bytes_eqb_refl. fattr. reflexivity. }
  edestruct s_font as (b2 & u2 & p2 & v2 & -> & H2); [exact H1|].
  edestruct s_border as (b3 & u3 & p3 & v3 & -> & H3); [exact H2|].
  edestruct s_margin as (b4 & u4 & p4 & v4 & -> & H4); [exact H3|rewrite !kget_put_maybe; reflexivity|].
  edestruct s_padding as (b5 & u5 & p5 & v5 & -> & H5); [exact H4|rewrite !kget_put_maybe; reflexivity|].
  edestruct s_position as (b6 & u6 & p6 & v6 & -> & H6); [exact H5|rewrite !kget_put_maybe; reflexivity|].
  edestruct s_size as (b7 & u7 & p7 & v7 & -> & H7); [exact H6|rewrite !kget_put_maybe; reflexivity|].
  edestruct (s_properties (others s)) as (b8 & u8 & p8 & v8 & -> & H8); [exact H7| |].
  { intros k Q. unfold others in Q. apply in_map_iff in Q as (e & <- & Q). apply filter_In in Q as (Q & E).
    split.
    - intros W. apply Bool.negb_true_iff in E. assert (T : existsb (bytes_eqb (fst e)) special_keys = true) by (apply existsb_exists; exists (fst e); split; [exact W|apply bytes_eqb_refl]). rewrite T in E. discriminate E.
    - apply Hk. apply in_map. eapply Permutation_in; [apply Hperm|exact Q]. }
  destruct (conv_end _ _ _ _ H8) as (ws3 & u9 & -> & Hw3 & _ & H9). rewrite fold_step. edestruct (s_blank ws3 Hw3) as (v9 & ->).
  exists u9, v9. split; [reflexivity|exact H9].
Qed.
Lemma s_styles l ts : forall us b done p v, conveyed b (flat_map (encodeStyle pos formatF show showF showS perm) l ++ ts) us -> Forall plain_style l ->
  exists b' us' p' v', fold_left s_step us (state done None p v) = fold_left s_step us' (state (done ++ map read_style l) None p' v') /\ conveyed b' ts us'.
Proof.
  induction l as [|s l IH]; intros us b done p v H Hp; [exists b, us, p, v; rewrite app_nil_r; split; [reflexivity|exact H]|].
  cbn [flat_map] in H. rewrite <- app_assoc in H. inversion Hp as [|x y P1 P2]; subst. destruct (s_style s _ us b done p v H P1) as (u1 & v1 & -> & H1).
  destruct (IH u1 false (done ++ [read_style s]) [] v1 H1 P2) as (b2 & u2 & p2 & v2 & -> & H2). exists b2, u2, p2, v2. rewrite <- app_assoc. split; [reflexivity|exact H2].
Qed.
Lemma read_style_same s : plain_style s -> same_style f0 pos parseF showF show showS s (read_style s).
Proof.
  intros (Hn & _). unfold read_style. rewrite put_styles. unfold values, others.
  assert (Nd : NoDup (map fst (List.filter (fun e => negb (existsb (bytes_eqb (fst e)) special_keys)) (perm (stProps s))))).
  { apply nodup_filter. eapply Permutation_NoDup; [apply Permutation_map, Permutation_sym, Hperm|exact Hn]. }
  assert (G : forall k, kget k (fold_left put_opt (map (fun e => (fst e, read_value parseF (showP (snd e)))) (List.filter (fun e => negb (existsb (bytes_eqb (fst e)) special_keys)) (perm (stProps s)))) (stProps (structures s (mkStyle (stName s) (stType s) [])))) =
    if existsb (bytes_eqb k) special_keys then kget k (stProps (structures s (mkStyle (stName s) (stType s) [])))
    else match kget k (stProps s) with Some v => match read_value parseF (showP v) with Some t => Some t | None => kget k (stProps (structures s (mkStyle (stName s) (stType s) []))) end | None => kget k (stProps (structures s (mkStyle (stName s) (stType s) []))) end).
  { intros k. rewrite (put_opts (fun v => read_value parseF (showP v))) by exact Nd.
    rewrite (kget_filter (fun k => negb (existsb (bytes_eqb k) special_keys))).
    rewrite <- (DatasetsProofs.kget_perm (stProps s) (perm (stProps s)) k Hn (Permutation_sym (Hperm _))).
    destruct (existsb (bytes_eqb k) special_keys); reflexivity. }
  split; cbn [stName stType stProps].
  - unfold structures. destruct (pick_size _), (pick_position _), (pick_padding _), (pick_margin _), (pick_border _), (pick_font _); reflexivity.
  - unfold structures. destruct (pick_size _), (pick_position _), (pick_padding _), (pick_margin _), (pick_border _), (pick_font _); reflexivity.
  - rewrite G. change (existsb (bytes_eqb (bs "font")) special_keys) with true. cbn beta iota. unfold structures. rewrite !kget_put_maybe. destruct (kget (bs "font") (stProps s)) as [[]|]; reflexivity.
  - rewrite G. change (existsb (bytes_eqb (bs "border")) special_keys) with true. cbn beta iota. unfold structures. rewrite !kget_put_maybe. destruct (kget (bs "border") (stProps s)) as [[]|]; reflexivity.
  - rewrite G. change (existsb (bytes_eqb (bs "margin")) special_keys) with true. cbn beta iota. unfold structures. rewrite !kget_put_maybe. destruct (kget (bs "margin") (stProps s)) as [[]|]; reflexivity.
  - rewrite G. change (existsb (bytes_eqb (bs "padding")) special_keys) with true. cbn beta iota. unfold structures. rewrite !kget_put_maybe. destruct (kget (bs "padding") (stProps s)) as [[]|]; reflexivity.
  - rewrite G. change (existsb (bytes_eqb (bs "position")) special_keys) with true. cbn beta iota. unfold structures. rewrite !kget_put_maybe. destruct (kget (bs "position") (stProps s)) as [[]|]; reflexivity.
  - rewrite G. change (existsb (bytes_eqb (bs "size")) special_keys) with true. cbn beta iota. unfold structures. rewrite !kget_put_maybe. destruct (kget (bs "size") (stProps s)) as [[]|]; reflexivity.
  - intros k Hk. rewrite G, (not_in_eqb k special_keys Hk).
    assert (K : kget k (stProps (structures s (mkStyle (stName s) (stType s) []))) = None).
    { unfold structures. rewrite !kget_put_maybe. unfold structure_keys in Hk. rewrite !(fun y => eqb_false k y _ Hk) by (cbn [In]; tauto). reflexivity. }
    rewrite K. destruct (kget k (stProps s)) as [w|]; [|reflexivity]. destruct (read_value parseF (showP w)); reflexivity.
Qed.
Theorem stylesheet_roundtrip l ts us : StylesheetToXFA pos formatF show showF showS perm l = Some ts -> conveyed false ts us -> Forall plain_style l ->
  exists l', ParseXFAStylesheet us = Some l' /\ Forall2 (same_style f0 pos parseF showF show showS) l l'.
Proof.
  intros E H Hp. apply encoded_some in E as (-> & _). unfold element in H. cbn [app] in H.
  destruct (conv_start _ _ _ _ _ H) as (ws & u1 & -> & Hw & H1 & _). unfold XConfModel.ParseXFAStylesheet. rewrite fold_step. edestruct (s_blank ws Hw) as (v1 & X).
  unfold state in X. rewrite X. cbn [XConfModel.s_step]. unfold s_start. rewrite bytes_eqb_refl.
  destruct (s_styles l _ u1 true [] [] v1 H1 Hp) as (b2 & u2 & p2 & v2 & Y & H2). unfold state in Y. rewrite Y.
  destruct (conv_end _ _ _ _ H2) as (ws3 & u8 & -> & Hw3 & _ & H8). rewrite fold_step. edestruct (s_blank ws3 Hw3) as (v8 & Z). unfold state in Z. rewrite Z.
  rewrite (conv_nil _ _ H8). cbn [fold_left]. exists (map read_style l). split; [destruct p2; reflexivity|].
  clear -Hp Hperm. induction Hp as [|c cs Hc Hp IH]; [constructor|]. cbn [map]. constructor; [apply read_style_same, Hc|exact IH].
Qed.
End Floats.
