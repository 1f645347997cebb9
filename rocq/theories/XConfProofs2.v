(** Proofs for the translator of configurations. *)
From Verif Require Import Util XDataSpec XDataProofs XDataProofs2.
From Coq Require Import Permutation.
Local Open Scope Z_scope.

(** ** No panic *)
Definition sound (s : gstate) : Prop := gsSection s = bs "present" -> gPresent (gsConf s) <> None.
Lemma sound_start s n a : sound s -> exists s', g_start s n a = Some s' /\ sound s'.
Proof.
  intros H. destruct s as [[pr va su de ac co ou sc tr ps] sec v]. unfold sound in H. cbn [gsSection gsConf gPresent] in H. unfold g_start, sound.
  destruct (bytes_eqb n (bs "config")); [eexists; split; [reflexivity|exact H]|].
  destruct (bytes_eqb n (bs "present")); [eexists; split; [reflexivity|]; discriminate|].
  destruct (bytes_eqb n (bs "validate")) eqn:E1; [apply bytes_eqb_eq in E1; subst n; eexists; split; [reflexivity|]; discriminate|].
  destruct (bytes_eqb n (bs "submit")) eqn:E2; [apply bytes_eqb_eq in E2; subst n; eexists; split; [reflexivity|]; discriminate|].
  destruct (bytes_eqb n (bs "destination")) eqn:E3; [apply bytes_eqb_eq in E3; subst n; eexists; split; [reflexivity|]; discriminate|].
  destruct (bytes_eqb n (bs "acrobat")) eqn:E4; [apply bytes_eqb_eq in E4; subst n; eexists; split; [reflexivity|]; discriminate|].
  destruct (bytes_eqb n (bs "common")) eqn:E5; [apply bytes_eqb_eq in E5; subst n; eexists; split; [reflexivity|]; discriminate|].
  destruct (bytes_eqb n (bs "output")) eqn:E6; [apply bytes_eqb_eq in E6; subst n; eexists; split; [reflexivity|]; discriminate|].
  destruct (bytes_eqb sec (bs "present")) eqn:E.
  - apply bytes_eqb_eq in E. specialize (H E). destruct pr as [p|]; [|contradiction].
    destruct (bytes_eqb n (bs "script")); [eexists; split; [reflexivity|]; discriminate|].
    destruct (bytes_eqb n (bs "pdf")); [eexists; split; [reflexivity|]; discriminate|].
    destruct (bytes_eqb n (bs "xdp")); [eexists; split; [reflexivity|]; discriminate|].
    destruct (bytes_eqb n (bs "print")); [eexists; split; [reflexivity|]; discriminate|].
    destruct (bytes_eqb n (bs "interactive")); eexists; (split; [reflexivity|]); discriminate.
  - destruct (bytes_eqb n (bs "script")); [eexists; split; [reflexivity|exact H]|].
    destruct (bytes_eqb n (bs "pdf")); [eexists; split; [reflexivity|exact H]|].
    destruct (bytes_eqb n (bs "xdp")); [eexists; split; [reflexivity|exact H]|].
    destruct (bytes_eqb n (bs "print")); [eexists; split; [reflexivity|exact H]|].
    destruct (bytes_eqb n (bs "interactive")); eexists; (split; [reflexivity|exact H]).
Qed.
Lemma sound_end s n : sound s -> sound (g_end s n).
Proof.
  intros H. destruct s as [[pr va su de ac co ou sc tr ps] sec v]. unfold sound in *. unfold g_end. destruct (existsb _ _); [discriminate|]. destruct sec; [discriminate|exact H].
Qed.
Theorem config_no_panic ts : exists c, ParseXFAConfig ts = Some c.
Proof.
  assert (G : forall s, sound s -> exists s', fold_left g_step ts (Some s) = Some s').
  { induction ts as [|[n a|n|x] ts IH]; intros s H; [exists s; reflexivity| | |]; cbn [fold_left g_step].
    - destruct (sound_start s n a H) as (s' & -> & H'). apply IH, H'.
    - apply IH, sound_end, H.
    - apply IH. destruct s. exact H. }
  destruct (G (mkGS no_config [] [])) as (s & E); [discriminate|]. unfold ParseXFAConfig. rewrite E. eexists. reflexivity.
Qed.

(** ** Writing and reading *)
Definition gst (c : config bytes) (sec v : bytes) : option gstate := Some (mkGS c sec v).
Lemma g_blank ws : Forall blank_token ws -> forall c sec v, exists v', fold_left g_step ws (gst c sec v) = gst c sec v' /\ (forallb (fun b => beqb b x20 || beqb b x0a) v = true -> blank v').
Proof.
  induction 1 as [|t ws (w & -> & Hw) H IH]; intros c sec v; [exists v; split; [reflexivity|intros Q; exact Q]|]. cbn [fold_left g_step gst gsConf gsSection gsValue].
  destruct (IH c sec (v ++ w)) as (v' & E & B). exists v'. split; [exact E|]. intros Q. apply B. rewrite forallb_app, Q. exact Hw.
Qed.
Lemma trim_blank w : blank w -> TrimSpace w = [].
Proof.
  intros H. unfold TrimSpace. assert (E : TrimLeft w = []); [|rewrite E; reflexivity]. unfold TrimLeft.
  assert (G : forall k w, blank w -> (length w <= k)%nat -> cut_all k space_chars w = []).
  { clear. induction k as [|k IH]; intros w H L; [destruct w; [reflexivity|cbn [length] in L; lia]|]. destruct w as [|b w]; [reflexivity|]. cbn [length] in L.
    unfold blank in H. cbn [forallb] in H. apply andb_prop in H as (Hb & Hw). cbn [cut_all].
    assert (C : cut space_chars (b :: w) = Some w).
    { apply orb_prop in Hb as [Hb|Hb]; apply beqb_eq in Hb; subst b; reflexivity. }
    rewrite C. apply IH; [exact Hw|lia]. }
  apply G; [exact H|lia].
Qed.
(** a section without content *)
Ltac gsec := intros; reflexivity.
Lemma gsec_present c sec v a : g_step (gst c sec v) (TStart (bs "present") a) =
  gst (mkConfig (Some (parsePresentAttributes a (or_new new_present (gPresent c)))) (gValidate c) (gSubmit c) (gDestination c) (gAcrobat c) (gCommon c) (gOutput c) (gScript c) (gTrace c) (gProps c)) (bs "present") v.
Proof. destruct c. gsec. Qed.
Lemma gsec_pdf p va su de ac co ou sc tr ps v a : g_step (g_step (gst (mkConfig (Some p) va su de ac co ou sc tr ps) (bs "present") v) (TStart (bs "pdf") a)) (TEnd (bs "pdf")) =
  gst (mkConfig (Some (mkPresent (Some (parsePDFAttributes a (or_new (mkPDF [] [] false [] false false false) (prPDF p)))) (prXDP p) (prPrint p) (prInteractive p) (prScript p) (prRender p) (prOutput p)))
         va su de ac co ou sc tr (put_text (bs "pdf") v ps)) (bs "present") [].
Proof. reflexivity. Qed.
Lemma gsec_interactive p va su de ac co ou sc tr ps v a : g_step (g_step (gst (mkConfig (Some p) va su de ac co ou sc tr ps) (bs "present") v) (TStart (bs "interactive") a)) (TEnd (bs "interactive")) =
  gst (mkConfig (Some (mkPresent (prPDF p) (prXDP p) (prPrint p) (Some (parseInteractiveAttributes a (or_new (mkInter 0 [] []) (prInteractive p)))) (prScript p) (prRender p) (prOutput p)))
         va su de ac co ou sc tr (put_text (bs "interactive") v ps)) (bs "present") [].
Proof. reflexivity. Qed.
Lemma gsec_validate pr su de ac co ou sc tr ps sec v a : g_step (g_step (gst (mkConfig pr None su de ac co ou sc tr ps) sec v) (TStart (bs "validate") a)) (TEnd (bs "validate")) =
  gst (mkConfig pr (Some ([], [], [])) su de ac co ou sc tr ps) [] v.
Proof. reflexivity. Qed.
Lemma gsec_submit pr va de ac co ou sc tr ps sec v a : g_step (g_step (gst (mkConfig pr va None de ac co ou sc tr ps) sec v) (TStart (bs "submit") a)) (TEnd (bs "submit")) =
  gst (mkConfig pr va (Some (parseSubmitAttributes a (mkSubmit [] [] [] false [] [] []))) de ac co ou sc tr ps) [] v.
Proof. reflexivity. Qed.
Lemma gsec_destination pr va su ac co ou sc tr ps sec v a : g_step (g_step (gst (mkConfig pr va su None ac co ou sc tr ps) sec v) (TStart (bs "destination") a)) (TEnd (bs "destination")) =
  gst (mkConfig pr va su (Some (parseDestinationAttributes a ([], []))) ac co ou sc tr ps) [] v.
Proof. reflexivity. Qed.
Lemma gsec_acrobat pr va su de co ou sc tr ps sec v a : g_step (g_step (gst (mkConfig pr va su de None co ou sc tr ps) sec v) (TStart (bs "acrobat") a)) (TEnd (bs "acrobat")) =
  gst (mkConfig pr va su de (Some (parseAcrobatAttributes a (mkAcrobat false 0 [] []))) co ou sc tr ps) [] v.
Proof. reflexivity. Qed.
Lemma gsec_common pr va su de ac ou sc tr ps sec v a : g_step (g_step (gst (mkConfig pr va su de ac None ou sc tr ps) sec v) (TStart (bs "common") a)) (TEnd (bs "common")) =
  gst (mkConfig pr va su de ac (Some ([], [])) ou sc tr ps) [] v.
Proof. reflexivity. Qed.
Lemma gsec_output pr va su de ac co sc tr ps sec v a : g_step (g_step (gst (mkConfig pr va su de ac co None sc tr ps) sec v) (TStart (bs "output") a)) (TEnd (bs "output")) =
  gst (mkConfig pr va su de ac co (Some ([], [])) sc tr ps) [] v.
Proof. reflexivity. Qed.
Ltac gleaf H B :=
  let ws := fresh "ws" in let u := fresh "u" in let Hw := fresh "Hw" in let H' := fresh "H'" in let v' := fresh "v'" in
  destruct (conv_leaf _ _ _ _ _ H) as (ws & u & -> & Hw & H'); rewrite fold_leaf;
  edestruct (g_blank ws Hw) as (v' & -> & B).

Lemma g_pdf o ts us b p va su de ac co ou sc tr v : conveyed b (maybe encodeConfigPDF o ++ ts) us -> blank v -> prPDF p = None ->
  exists b' us' v', fold_left g_step us (gst (mkConfig (Some p) va su de ac co ou sc tr []) (bs "present") v) =
    fold_left g_step us' (gst (mkConfig (Some (mkPresent o (prXDP p) (prPrint p) (prInteractive p) (prScript p) (prRender p) (prOutput p))) va su de ac co ou sc tr []) (bs "present") v') /\ conveyed b' ts us' /\ blank v'.
Proof.
  intros H Bv Hp. destruct o as [x|]; [|exists b, us, v; split; [destruct p; cbn in Hp; subst; reflexivity|split; [exact H|exact Bv]]].
  gleaf H B. exists false, u, []. split; [|split; [exact H'|reflexivity]]. rewrite gsec_pdf. unfold put_text. rewrite (trim_blank v' (B Bv)). rewrite Hp. cbn [or_new].
  unfold parsePDFAttributes. cbn [pdVersion pdCompression pdLinearized pdEncryption pdEmbedFonts pdTagged pdAccessibility]. attr. destruct x; reflexivity.
Qed.
Lemma g_interactive o ts us b p va su de ac co ou sc tr v : conveyed b (maybe encodeConfigInteractive o ++ ts) us -> blank v -> prInteractive p = None -> (forall i, o = Some i -> is_int (inPage i)) ->
  exists b' us' v', fold_left g_step us (gst (mkConfig (Some p) va su de ac co ou sc tr []) (bs "present") v) =
    fold_left g_step us' (gst (mkConfig (Some (mkPresent (prPDF p) (prXDP p) (prPrint p) (option_map read_interactive o) (prScript p) (prRender p) (prOutput p))) va su de ac co ou sc tr []) (bs "present") v') /\ conveyed b' ts us' /\ blank v'.
Proof.
  intros H Bv Hp Hi. destruct o as [x|]; [|exists b, us, v; split; [destruct p; cbn in Hp; subst; reflexivity|split; [exact H|exact Bv]]]. specialize (Hi x eq_refl).
  gleaf H B. exists false, u, []. split; [|split; [exact H'|reflexivity]]. rewrite gsec_interactive. unfold put_text. rewrite (trim_blank v' (B Bv)). rewrite Hp. cbn [or_new].
  unfold parseInteractiveAttributes, read_interactive. cbn [inPage inZoom inViewMode]. attr. reflexivity.
Qed.
Lemma g_present o ts us b va su de ac co ou sc tr v : conveyed b (maybe encodeConfigPresent o ++ ts) us -> blank v ->
  (forall p i, o = Some p -> prInteractive p = Some i -> is_int (inPage i)) ->
  exists b' us' v', fold_left g_step us (gst (mkConfig None va su de ac co ou sc tr []) [] v) =
    fold_left g_step us' (gst (mkConfig (option_map read_present o) va su de ac co ou sc tr []) [] v') /\ conveyed b' ts us' /\ blank v'.
Proof.
  intros H Bv Hi. destruct o as [x|]; [|exists b, us, v; split; [reflexivity|split; [exact H|exact Bv]]].
  cbn [maybe] in H. unfold encodeConfigPresent, element in H. cbn [app] in H. rewrite <- !app_assoc in H. cbn [app] in H.
  destruct (conv_start _ _ _ _ _ H) as (ws & u1 & -> & Hw & H1 & _). rewrite fold_step. edestruct (g_blank ws Hw) as (v1 & -> & B1). specialize (B1 Bv).
  rewrite gsec_present. cbn [gPresent gValidate gSubmit gDestination gAcrobat gCommon gOutput gScript gTrace gProps or_new].
  unfold parsePresentAttributes, new_present. cbn [prPDF prXDP prPrint prInteractive prScript prRender prOutput]. attr.
  edestruct g_pdf as (b2 & u2 & v2 & -> & H2 & B2); [exact H1|exact B1|reflexivity|].
  edestruct g_interactive as (b3 & u3 & v3 & -> & H3 & B3); [exact H2|exact B2|reflexivity|intros i Q; exact (Hi x i eq_refl Q)|].
  destruct (conv_end _ _ _ _ H3) as (ws3 & u4 & -> & Hw3 & _ & H4). rewrite fold_step. edestruct (g_blank ws3 Hw3) as (v4 & -> & B4). specialize (B4 B3).
  exists false, u4, v4. split; [reflexivity|split; [exact H4|exact B4]].
Qed.
Lemma g_validate o ts us b pr su de ac co ou sc tr v : conveyed b (maybe encodeConfigValidate o ++ ts) us -> blank v ->
  exists b' us' v', fold_left g_step us (gst (mkConfig pr None su de ac co ou sc tr []) [] v) =
    fold_left g_step us' (gst (mkConfig pr (option_map (fun _ => ([], [], [])) o) su de ac co ou sc tr []) [] v') /\ conveyed b' ts us' /\ blank v'.
Proof.
  intros H Bv. destruct o as [[[x y] z]|]; [|exists b, us, v; split; [reflexivity|split; [exact H|exact Bv]]].
  gleaf H B. exists false, u, v'. rewrite gsec_validate. split; [reflexivity|split; [exact H'|exact (B Bv)]].
Qed.
Lemma submit_none a b c d e f : fold_left (fun m x => if existsb (bytes_eqb (fst x)) submit_known then m else kset (fst x) (snd x) m)
  (opt_attr (bs "format") a ++ opt_attr (bs "target") b ++ opt_attr (bs "method") c ++ bool_attr (bs "embedPDF") d ++ opt_attr (bs "xdpContent") e ++ opt_attr (bs "textEncoding") f) [] = ([] : list (bytes * bytes)).
Proof.
  assert (G : forall k v (m : list (bytes * bytes)), existsb (bytes_eqb k) submit_known = true -> fold_left (fun m x => if existsb (bytes_eqb (fst x)) submit_known then m else kset (fst x) (snd x) m) (opt_attr k v) m = m).
  { intros k v m E. destruct v; [reflexivity|]. cbn [opt_attr fold_left fst snd]. rewrite E. reflexivity. }
  rewrite !fold_left_app. rewrite (G (bs "format")), (G (bs "target")), (G (bs "method")) by reflexivity.
  replace (fold_left _ (bool_attr (bs "embedPDF") d) []) with ([] : list (bytes * bytes)) by (destruct d; reflexivity).
  rewrite (G (bs "xdpContent")), (G (bs "textEncoding")) by reflexivity. reflexivity.
Qed.
Lemma g_submit o ts us b pr va de ac co ou sc tr v : conveyed b (maybe encodeConfigSubmit o ++ ts) us -> blank v ->
  exists b' us' v', fold_left g_step us (gst (mkConfig pr va None de ac co ou sc tr []) [] v) =
    fold_left g_step us' (gst (mkConfig pr va (option_map read_submit o) de ac co ou sc tr []) [] v') /\ conveyed b' ts us' /\ blank v'.
Proof.
  intros H Bv. destruct o as [x|]; [|exists b, us, v; split; [reflexivity|split; [exact H|exact Bv]]].
  gleaf H B. exists false, u, v'. rewrite gsec_submit. split; [|split; [exact H'|exact (B Bv)]].
  unfold parseSubmitAttributes, read_submit. cbn [suFormat suTarget suMethod suEmbed suXDP suEncoding suProps]. rewrite submit_none. attr. reflexivity.
Qed.
Lemma g_destination o ts us b pr va su ac co ou sc tr v : conveyed b (maybe (encodeTwo (bs "destination") (bs "type") (bs "target")) o ++ ts) us -> blank v ->
  exists b' us' v', fold_left g_step us (gst (mkConfig pr va su None ac co ou sc tr []) [] v) =
    fold_left g_step us' (gst (mkConfig pr va su o ac co ou sc tr []) [] v') /\ conveyed b' ts us' /\ blank v'.
Proof.
  intros H Bv. destruct o as [[x y]|]; [|exists b, us, v; split; [reflexivity|split; [exact H|exact Bv]]].
  gleaf H B. exists false, u, v'. rewrite gsec_destination. split; [|split; [exact H'|exact (B Bv)]].
  unfold parseDestinationAttributes. cbn [fst snd]. attr. reflexivity.
Qed.
Lemma g_acrobat o ts us b pr va su de co ou sc tr v : conveyed b (maybe encodeConfigAcrobat o ++ ts) us -> blank v -> (forall a, o = Some a -> is_int (acAutoSaveTime a)) ->
  exists b' us' v', fold_left g_step us (gst (mkConfig pr va su de None co ou sc tr []) [] v) =
    fold_left g_step us' (gst (mkConfig pr va su de (option_map read_acrobat o) co ou sc tr []) [] v') /\ conveyed b' ts us' /\ blank v'.
Proof.
  intros H Bv Hi. destruct o as [x|]; [|exists b, us, v; split; [reflexivity|split; [exact H|exact Bv]]]. specialize (Hi x eq_refl).
  gleaf H B. exists false, u, v'. rewrite gsec_acrobat. split; [|split; [exact H'|exact (B Bv)]].
  unfold parseAcrobatAttributes, read_acrobat. cbn [acAutoSave acAutoSaveTime acFormType acVersion]. attr. reflexivity.
Qed.
Lemma g_common o ts us b pr va su de ac ou sc tr v : conveyed b (maybe (encodeTwo (bs "common") (bs "dataPrefix") (bs "timeStamp")) o ++ ts) us -> blank v ->
  exists b' us' v', fold_left g_step us (gst (mkConfig pr va su de ac None ou sc tr []) [] v) =
    fold_left g_step us' (gst (mkConfig pr va su de ac (option_map (fun _ => ([], [])) o) ou sc tr []) [] v') /\ conveyed b' ts us' /\ blank v'.
Proof.
  intros H Bv. destruct o as [x|]; [|exists b, us, v; split; [reflexivity|split; [exact H|exact Bv]]].
  gleaf H B. exists false, u, v'. rewrite gsec_common. split; [reflexivity|split; [exact H'|exact (B Bv)]].
Qed.
Lemma g_output o ts us b pr va su de ac co sc tr v : conveyed b (maybe (encodeTwo (bs "output") (bs "format") (bs "destination")) o ++ ts) us -> blank v ->
  exists b' us' v', fold_left g_step us (gst (mkConfig pr va su de ac co None sc tr []) [] v) =
    fold_left g_step us' (gst (mkConfig pr va su de ac co (option_map (fun _ => ([], [])) o) sc tr []) [] v') /\ conveyed b' ts us' /\ blank v'.
Proof.
  intros H Bv. destruct o as [x|]; [|exists b, us, v; split; [reflexivity|split; [exact H|exact Bv]]].
  gleaf H B. exists false, u, v'. rewrite gsec_output. split; [reflexivity|split; [exact H'|exact (B Bv)]].
Qed.
(** properties outside the sections leave no trace *)
Lemma g_property {V} (show : V -> bytes) e ts us b c v : conveyed b (property show e ++ ts) us -> plain_setting (fst e) ->
  exists us' v', fold_left g_step us (gst c [] v) = fold_left g_step us' (gst c [] v') /\ conveyed false ts us'.
Proof.
  intros H Hk. destruct e as [k x]. cbn [fst snd] in *. unfold property, element in H. cbn [app fst snd] in H.
  destruct (conv_start _ _ _ _ _ H) as (ws & u1 & -> & Hw & H1 & Hname). rewrite fold_step. edestruct (g_blank ws Hw) as (v1 & -> & _).
  assert (S1 : exists v2, g_step (gst c [] v1) (TStart k []) = gst c [] v2).
  { destruct c. cbn [g_step gst]. unfold g_start, gst. unfold plain_setting in Hk.
    rewrite (eqb_false k (bs "present") _ Hk), (eqb_false k (bs "validate") _ Hk), (eqb_false k (bs "submit") _ Hk), (eqb_false k (bs "destination") _ Hk),
      (eqb_false k (bs "acrobat") _ Hk), (eqb_false k (bs "common") _ Hk), (eqb_false k (bs "output") _ Hk), (eqb_false k (bs "script") _ Hk) by (cbn [In]; tauto).
    change (bytes_eqb [] (bs "present")) with false. cbn beta iota.
    destruct (bytes_eqb k (bs "config")); [eexists; reflexivity|]. destruct (bytes_eqb k (bs "pdf")); [eexists; reflexivity|]. destruct (bytes_eqb k (bs "xdp")); [eexists; reflexivity|].
    destruct (bytes_eqb k (bs "print")); [eexists; reflexivity|]. destruct (bytes_eqb k (bs "interactive")); eexists; reflexivity. }
  destruct S1 as (v2 & ->).
  assert (G : forall u2 val, conveyed true (TEnd k :: ts) u2 -> exists us' v', fold_left g_step u2 (gst c [] val) = fold_left g_step us' (gst c [] v') /\ conveyed false ts us').
  { intros u2 val H2. destruct (conv_end _ _ _ _ H2) as (w2 & u3 & -> & _ & Hnil & H3). rewrite (Hnil eq_refl). cbn [app fold_left]. exists u3, []. split; [|exact H3]. f_equal.
    destruct c. cbn [g_step gst]. unfold g_end. rewrite not_in_eqb; [reflexivity|]. intros Q. apply Hk. unfold config_sections in Q. cbn [In] in *. tauto. }
  destruct (conv_text _ _ _ H1) as (u2 & [(-> & H2)|(-> & H2)]).
  - destruct (show x); cbn [app fold_left g_step gst]; apply G, H2.
  - cbn [app fold_left g_step gst]. apply G, H2.
Qed.
Lemma g_properties {V} (show : V -> bytes) l ts : forall us b c v, conveyed b (flat_map (property show) l ++ ts) us -> (forall k, In k (map fst l) -> plain_setting k) ->
  exists b' us' v', fold_left g_step us (gst c [] v) = fold_left g_step us' (gst c [] v') /\ conveyed b' ts us'.
Proof.
  induction l as [|e l IH]; intros us b c v H Hk; [exists b, us, v; split; [reflexivity|exact H]|].
  cbn [flat_map] in H. rewrite <- app_assoc in H. destruct (g_property show e _ us b c v H (Hk _ (or_introl eq_refl))) as (u1 & v1 & -> & H1).
  apply (IH u1 false c v1 H1). intros k Q. apply Hk. right. exact Q.
Qed.
Theorem config_roundtrip {V} (show : V -> bytes) perm c ts us : (forall l, Permutation (perm l) l) -> ConfigToXFA show perm c = Some ts -> conveyed false ts us ->
  config_ints c -> (forall k, In k (map fst (gProps c)) -> plain_setting k) -> ParseXFAConfig us = Some (read_config c).
Proof.
  intros Hperm E H (I1 & I2) Hk. apply encoded_some in E as (-> & _). unfold element in H. cbn [app] in H. rewrite <- !app_assoc in H.
  destruct (conv_start _ _ _ _ _ H) as (ws & u1 & -> & Hw & H1 & _). unfold ParseXFAConfig. rewrite fold_step. fold (gst no_config [] []). edestruct (g_blank ws Hw no_config [] []) as (v1 & -> & B1). specialize (B1 eq_refl).
  replace (g_step _ _) with (gst no_config [] v1) by reflexivity. unfold no_config.
  edestruct g_present as (b2 & u2 & v2 & -> & H2 & B2); [exact H1|exact B1|exact I1|].
  edestruct g_validate as (b3 & u3 & v3 & -> & H3 & B3); [exact H2|exact B2|].
  edestruct g_submit as (b4 & u4 & v4 & -> & H4 & B4); [exact H3|exact B3|].
  edestruct g_destination as (b5 & u5 & v5 & -> & H5 & B5); [exact H4|exact B4|].
  edestruct g_acrobat as (b6 & u6 & v6 & -> & H6 & B6); [exact H5|exact B5|exact I2|].
  edestruct g_common as (b7 & u7 & v7 & -> & H7 & B7); [exact H6|exact B6|].
  edestruct g_output as (b8 & u8 & v8 & -> & H8 & B8); [exact H7|exact B7|].
  edestruct (g_properties show) as (b9 & u9 & v9 & -> & H9); [exact H8| |].
  { intros k Q. apply Hk. eapply Permutation_in; [|exact Q]. apply Permutation_map, Hperm. }
  destruct (conv_end _ _ _ _ H9) as (ws3 & u10 & -> & Hw3 & _ & H10). rewrite fold_step. edestruct (g_blank ws3 Hw3) as (v10 & -> & _).
  rewrite (conv_nil _ _ H10). reflexivity.
Qed.
