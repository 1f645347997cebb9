From Verif Require Import XForeignSpec XForeignProofs Util.
Local Open Scope Z_scope.

(** ** Configurations *)
Fixpoint open_after (open : bool) (ts : list token) : bool :=
  match ts with
  | [] => open
  | TStart m _ :: ts' => open_after (if is_section m then bytes_eqb m (bs "present") else open) ts'
  | TEnd m :: ts' => open_after (if is_section m then false else open) ts'
  | TChars _ :: ts' => open_after open ts'
  end.
Lemma inside_app ts us : forall o, inside o (ts ++ us) = inside o ts ++ inside (open_after o ts) us.
Proof.
  induction ts as [|t ts IH]; intros o; [reflexivity|]. cbn [app inside open_after]. destruct t as [m a|m|x]; [destruct (is_section m)|destruct (is_section m)|];
  rewrite IH; rewrite ?app_assoc; reflexivity.
Qed.
Lemma open_app ts us : forall o, open_after o (ts ++ us) = open_after (open_after o ts) us.
Proof. induction ts as [|t ts IH]; intros o; [reflexivity|]. cbn [app open_after]. destruct t; apply IH. Qed.

Definition const {A} (_ : attrs) (x : A) : A := x.
Definition present_attrs (a : attrs) (p : bytes * bytes) : bytes * bytes := (last_attr (bs "renderPolicy") a (fst p), last_attr (bs "effectiveOutputPolicy") a (snd p)).
Definition present_view (p : cpresent) : bytes * bytes := (prRender p, prOutput p).
Notation no_submit := (mkSubmit [] [] [] false [] [] []).
Notation no_acrobat := (mkAcrobat false 0 [] []).
Notation no_pdf := (mkPDF [] [] false [] false false false).
Notation no_inter := (mkInter 0 [] []).
Record config_is (ts : list token) (s : gstate) : Prop := {
  gi_submit : gSubmit (gsConf s) = acc (bs "submit") no_submit parseSubmitAttributes ts;
  gi_dest : gDestination (gsConf s) = acc (bs "destination") ([], []) parseDestinationAttributes ts;
  gi_acrobat : gAcrobat (gsConf s) = acc (bs "acrobat") no_acrobat parseAcrobatAttributes ts;
  gi_validate : gValidate (gsConf s) = acc (bs "validate") ([], [], []) const ts;
  gi_common : gCommon (gsConf s) = acc (bs "common") ([], []) const ts;
  gi_output : gOutput (gsConf s) = acc (bs "output") ([], []) const ts;
  gi_present : option_map present_view (gPresent (gsConf s)) = acc (bs "present") ([], []) present_attrs ts;
  gi_pdf : match gPresent (gsConf s) with
           | Some p => prPDF p = acc (bs "pdf") no_pdf parsePDFAttributes (inside false ts) /\
                       prInteractive p = acc (bs "interactive") no_inter parseInteractiveAttributes (inside false ts)
           | None => inside false ts = [] /\ open_after false ts = false
           end;
  gi_open : bytes_eqb (gsSection s) (bs "present") = open_after false ts;
  gi_trace : gTrace (gsConf s) = None }.

Lemma submit_app a b x : parseSubmitAttributes (a ++ b) x = parseSubmitAttributes b (parseSubmitAttributes a x).
Proof. parse_app || (unfold parseSubmitAttributes; cbn [suFormat suTarget suMethod suEmbed suXDP suEncoding suProps]; rewrite ?last_attr_app, ?last_bool_app', fold_left_app; reflexivity). Qed.
Ltac fin := constructor; cbn [gsConf gsSection gsValue gPresent gValidate gSubmit gDestination gAcrobat gCommon gOutput gScript gTrace gProps] in *;
  others; match goal with |- bytes_eqb _ _ = open_after _ _ => rewrite open_app; cbn [open_after] | _ => idtac end; try assumption; try reflexivity.
Ltac spread := rewrite ?inside_app, ?open_app; cbn [inside open_after].
Ltac quiet_section := match goal with H : context [match ?pr with Some _ => _ | None => _ end] |- _ => idtac end.
Lemma pdf_same o ts t : (match o with
   | Some p => prPDF p = acc (bs "pdf") no_pdf parsePDFAttributes (inside false ts) /\ prInteractive p = acc (bs "interactive") no_inter parseInteractiveAttributes (inside false ts)
   | None => inside false ts = [] /\ open_after false ts = false end) ->
  (o = None -> inside (open_after false ts) [t] = [] /\ open_after (open_after false ts) [t] = false) -> existsb (starts (bs "pdf")) (inside (open_after false ts) [t]) = false -> existsb (starts (bs "interactive")) (inside (open_after false ts) [t]) = false ->
  match o with
   | Some p => prPDF p = acc (bs "pdf") no_pdf parsePDFAttributes (inside false (ts ++ [t])) /\ prInteractive p = acc (bs "interactive") no_inter parseInteractiveAttributes (inside false (ts ++ [t]))
   | None => inside false (ts ++ [t]) = [] /\ open_after false (ts ++ [t]) = false end.
Proof.
  intros H Ho E1 E2. rewrite inside_app, open_app.
  assert (L : inside (open_after false ts) [t] = [] \/ inside (open_after false ts) [t] = [t]).
  { destruct t as [m a|m|x]; cbn [inside]; [destruct (is_section m); [left; reflexivity|]|destruct (is_section m); [left; reflexivity|]|]; rewrite app_nil_r; destruct (open_after false ts); auto. }
  destruct o as [p|].
  - destruct H as (A & B). destruct L as [L|L]; rewrite L in *; [rewrite app_nil_r; split; assumption|]. cbn [existsb] in E1, E2. rewrite orb_false_r in E1, E2. rewrite !acc_other by assumption. split; assumption.
  - destruct H as (A & _). destruct (Ho eq_refl) as (B & C). rewrite A, B, C. split; reflexivity.
Qed.
Lemma section_step (n : bytes) (a : attrs) ts o : is_section n = true -> n <> bs "present" -> (match o with
   | Some p => prPDF p = acc (bs "pdf") no_pdf parsePDFAttributes (inside false ts) /\ prInteractive p = acc (bs "interactive") no_inter parseInteractiveAttributes (inside false ts)
   | None => inside false ts = [] /\ open_after false ts = false end) ->
  match o with
   | Some p => prPDF p = acc (bs "pdf") no_pdf parsePDFAttributes (inside false (ts ++ [TStart n a])) /\ prInteractive p = acc (bs "interactive") no_inter parseInteractiveAttributes (inside false (ts ++ [TStart n a]))
   | None => inside false (ts ++ [TStart n a]) = [] /\ open_after false (ts ++ [TStart n a]) = false end.
Proof.
  intros S N H. apply pdf_same; [exact H| | |]; cbn [inside open_after]; rewrite S; try reflexivity. intros _. split; [reflexivity|].
  destruct (bytes_eqb n (bs "present")) eqn:E; [apply bytes_eqb_eq in E; contradiction|reflexivity].
Qed.
Ltac is_false := repeat match goal with |- context [bytes_eqb ?n ?k] => match goal with H : bytes_eqb n k = false |- _ => rewrite H end end; reflexivity.

Lemma end_step pr va su de ac co ou sc tr ps sec v n : g_end (mkGS (mkConfig pr va su de ac co ou sc tr ps) sec v) n =
  if is_section n then mkGS (mkConfig pr va su de ac co ou sc tr ps) [] v
  else match sec with [] => mkGS (mkConfig pr va su de ac co ou sc tr ps) sec [] | _ => mkGS (mkConfig pr va su de ac co ou sc tr (put_text n v ps)) sec [] end.
Proof. reflexivity. Qed.
Lemma some_eq {A} (x y : A) : Some x = Some y -> x = y.
Proof. congruence. Qed.
Lemma config_step ts s t s' : config_is ts s -> g_step (Some s) t = Some s' -> config_is (ts ++ [t]) s'.
Proof.
  intros [] E. destruct s as [[pr va su de ac co ou sc tr ps] sec v]. cbn [gsConf gsSection gPresent gValidate gSubmit gDestination gAcrobat gCommon gOutput gTrace] in *. subst va su de ac co ou tr.
  destruct t as [n a|n|x]; cbn [g_step] in E.
  - unfold g_start in E.
    destruct (bytes_eqb n (bs "config")) eqn:E0.
    { injection E as <-. apply bytes_eqb_eq in E0 as ->. fin; [apply pdf_same; [assumption| |destruct (open_after false ts); reflexivity|destruct (open_after false ts); reflexivity]; intros ->; destruct gi_pdf0 as (_ & Q); rewrite Q; split; reflexivity]. }
    destruct (bytes_eqb n (bs "present")) eqn:E1.
    { injection E as <-. apply bytes_eqb_eq in E1 as ->. fin.
      - rewrite acc_start; [|intros; unfold present_attrs; cbn [fst snd]; rewrite !last_attr_app; reflexivity|reflexivity]. rewrite <- gi_present0. destruct pr; reflexivity.
      - spread. destruct pr as [p|]; cbn [or_new parsePresentAttributes prPDF prInteractive new_present].
        + rewrite app_nil_r. exact gi_pdf0.
        + destruct gi_pdf0 as (Q & _). rewrite Q. split; reflexivity. }
    destruct (bytes_eqb n (bs "validate")) eqn:E2.
    { injection E as <-. apply bytes_eqb_eq in E2 as ->. fin; [rewrite acc_start by (intros; reflexivity); reflexivity|apply section_step; [reflexivity|discriminate|assumption]]. }
    destruct (bytes_eqb n (bs "submit")) eqn:E3.
    { injection E as <-. apply bytes_eqb_eq in E3 as ->. fin; [rewrite acc_start; [reflexivity|intros; apply submit_app|reflexivity]|apply section_step; [reflexivity|discriminate|assumption]]. }
    destruct (bytes_eqb n (bs "destination")) eqn:E4.
    { injection E as <-. apply bytes_eqb_eq in E4 as ->. fin; [rewrite acc_start; [reflexivity|parse_app|reflexivity]|apply section_step; [reflexivity|discriminate|assumption]]. }
    destruct (bytes_eqb n (bs "acrobat")) eqn:E5.
    { injection E as <-. apply bytes_eqb_eq in E5 as ->. fin; [rewrite acc_start; [reflexivity|parse_app|reflexivity]|apply section_step; [reflexivity|discriminate|assumption]]. }
    destruct (bytes_eqb n (bs "common")) eqn:E6.
    { injection E as <-. apply bytes_eqb_eq in E6 as ->. fin; [rewrite acc_start by (intros; reflexivity); reflexivity|apply section_step; [reflexivity|discriminate|assumption]]. }
    destruct (bytes_eqb n (bs "output")) eqn:E7.
    { injection E as <-. apply bytes_eqb_eq in E7 as ->. fin; [rewrite acc_start by (intros; reflexivity); reflexivity|apply section_step; [reflexivity|discriminate|assumption]]. }
    assert (S : is_section n = false) by (unfold is_section, top_sections; cbn [existsb]; is_false).
    assert (Base : existsb (starts (bs "pdf")) [TStart n a] = false -> existsb (starts (bs "interactive")) [TStart n a] = false -> match pr with
       | Some p => prPDF p = acc (bs "pdf") no_pdf parsePDFAttributes (inside false (ts ++ [TStart n a])) /\ prInteractive p = acc (bs "interactive") no_inter parseInteractiveAttributes (inside false (ts ++ [TStart n a]))
       | None => inside false (ts ++ [TStart n a]) = [] /\ open_after false (ts ++ [TStart n a]) = false end).
    { intros F1 F2. apply pdf_same; [assumption| | |]; cbn [inside open_after]; rewrite ?S; rewrite ?app_nil_r.
      - intros ->. destruct gi_pdf0 as (_ & Q). rewrite Q. split; reflexivity.
      - destruct (open_after false ts); [exact F1|reflexivity].
      - destruct (open_after false ts); [exact F2|reflexivity]. }
    destruct (bytes_eqb n (bs "script")) eqn:E8.
    { apply bytes_eqb_eq in E8 as ->. specialize (Base eq_refl eq_refl). rewrite gi_open0 in E. destruct (open_after false ts) eqn:Eo.
      - destruct pr as [p|]; [|discriminate E]. injection E as <-. fin; rewrite ?Eo; try assumption.
      - injection E as <-. fin; rewrite ?Eo; assumption. }
    destruct (bytes_eqb n (bs "pdf")) eqn:E9.
    { apply bytes_eqb_eq in E9 as ->. rewrite gi_open0 in E. destruct (open_after false ts) eqn:Eo.
      - destruct pr as [p|]; [|destruct gi_pdf0 as (_ & Q); congruence]. injection E as <-. destruct gi_pdf0 as (Q1 & Q2). fin; rewrite ?Eo; try assumption. spread; rewrite ?Eo. cbn [app prPDF prInteractive]. change (is_section (bs "pdf")) with false. change (is_section (bs "interactive")) with false. cbn iota. cbn [app].
        rewrite acc_start; [|parse_app|reflexivity]. rewrite acc_other by reflexivity. rewrite Q1. split; [reflexivity|exact Q2].
      - injection E as <-. fin; rewrite ?Eo; try assumption. spread; rewrite ?Eo. change (is_section (bs "pdf")) with false. change (is_section (bs "interactive")) with false. cbn iota. cbn [app]. rewrite app_nil_r. destruct pr; [exact gi_pdf0|split; [apply gi_pdf0|reflexivity]]. }
    destruct (bytes_eqb n (bs "xdp")) eqn:E10.
    { apply bytes_eqb_eq in E10 as ->. specialize (Base eq_refl eq_refl). rewrite gi_open0 in E. destruct (open_after false ts) eqn:Eo; [destruct pr as [p|]|]; injection E as <-; fin; rewrite ?Eo; assumption. }
    destruct (bytes_eqb n (bs "print")) eqn:E11.
    { apply bytes_eqb_eq in E11 as ->. specialize (Base eq_refl eq_refl). rewrite gi_open0 in E. destruct (open_after false ts) eqn:Eo; [destruct pr as [p|]|]; injection E as <-; fin; rewrite ?Eo; assumption. }
    destruct (bytes_eqb n (bs "interactive")) eqn:E12.
    { apply bytes_eqb_eq in E12 as ->. rewrite gi_open0 in E. destruct (open_after false ts) eqn:Eo.
      - destruct pr as [p|]; [|destruct gi_pdf0 as (_ & Q); congruence]. injection E as <-. destruct gi_pdf0 as (Q1 & Q2). fin; rewrite ?Eo; try assumption. spread; rewrite ?Eo. cbn [app prPDF prInteractive]. change (is_section (bs "pdf")) with false. change (is_section (bs "interactive")) with false. cbn iota. cbn [app].
        rewrite (acc_start (bs "interactive")); [|parse_app|reflexivity]. rewrite acc_other by reflexivity. rewrite Q2. split; [exact Q1|reflexivity].
      - injection E as <-. fin; rewrite ?Eo; try assumption. spread; rewrite ?Eo. change (is_section (bs "pdf")) with false. change (is_section (bs "interactive")) with false. cbn iota. cbn [app]. rewrite app_nil_r. destruct pr; [exact gi_pdf0|split; [apply gi_pdf0|reflexivity]]. }
    injection E as <-. fin; rewrite ?S; try assumption. apply Base; cbn [existsb starts]; rewrite orb_false_r; assumption.
  - apply some_eq in E. rewrite end_step in E.
    assert (Base : match pr with
       | Some p => prPDF p = acc (bs "pdf") no_pdf parsePDFAttributes (inside false (ts ++ [TEnd n])) /\ prInteractive p = acc (bs "interactive") no_inter parseInteractiveAttributes (inside false (ts ++ [TEnd n]))
       | None => inside false (ts ++ [TEnd n]) = [] /\ open_after false (ts ++ [TEnd n]) = false end).
    { apply pdf_same; [assumption| | |]; cbn [inside open_after]; destruct (is_section n); rewrite ?app_nil_r; try reflexivity; try (intros _; split; reflexivity).
      - intros ->. destruct gi_pdf0 as (_ & Q). rewrite Q. split; reflexivity.
      - destruct (open_after false ts); reflexivity.
      - destruct (open_after false ts); reflexivity. }
    destruct (is_section n) eqn:S.
    + subst s'. fin; rewrite ?S; try assumption; reflexivity.
    + destruct sec as [|c0 sec]; subst s'; fin; rewrite ?S; assumption.
  - injection E as <-. fin. apply pdf_same; [assumption| | |]; cbn [inside open_after]; rewrite ?app_nil_r.
    + intros ->. destruct gi_pdf0 as (_ & Q). rewrite Q. split; reflexivity.
    + destruct (open_after false ts); reflexivity.
    + destruct (open_after false ts); reflexivity.
Qed.
Lemma config_fold ts s : fold_left g_step ts (Some (mkGS no_config [] [])) = Some s -> config_is ts s.
Proof.
  revert s. induction ts as [|t ts IH] using rev_ind; intros s E.
  - injection E as <-. constructor; try reflexivity. split; reflexivity.
  - rewrite fold_left_app in E. cbn [fold_left] in E. destruct (fold_left g_step ts (Some (mkGS no_config [] []))) as [s0|] eqn:E0; [|discriminate E]. exact (config_step ts s0 t s (IH s0 eq_refl) E).
Qed.
Lemma submit_says a : says_submit a (parseSubmitAttributes a no_submit).
Proof.
  constructor; try apply says_attr; try apply ticked_bool. intros k v. cbn [parseSubmitAttributes suProps].
  assert (G : kget k (fold_left (fun m e => if existsb (bytes_eqb (fst e)) submit_known then m else kset (fst e) (snd e) m) a []) =
    if existsb (bytes_eqb k) submit_known then None else if existsb (fun e => bytes_eqb (fst e) k) a then Some (last_attr k a []) else None).
  { induction a as [|[m x] a IH] using rev_ind; [destruct (existsb _ _); reflexivity|]. rewrite fold_left_app, existsb_app, last_attr_app. remember (last_attr k a []) as w eqn:Ew. clear Ew. unfold last_attr. cbn [fold_left existsb fst snd].
    destruct (existsb (bytes_eqb m) submit_known) eqn:Em.
    - rewrite IH. destruct (bytes_eqb m k) eqn:Ek; [apply bytes_eqb_eq in Ek as ->; rewrite Em; reflexivity|]. rewrite !orb_false_r. reflexivity.
    - rewrite kget_kset, IH. destruct (bytes_eqb m k) eqn:Ek.
      + apply bytes_eqb_eq in Ek as ->. rewrite Em, bytes_eqb_refl, orb_true_r. reflexivity.
      + rewrite (neq_eqb m k Ek) || rewrite Ek. rewrite !orb_false_r. reflexivity. }
  rewrite G. fold submit_known. destruct (existsb (bytes_eqb k) submit_known) eqn:E.
  - split; [discriminate|]. intros (_ & _ & N). exfalso. apply N. apply existsb_exists in E as (y & Q & E). apply bytes_eqb_eq in E as ->. exact Q.
  - assert (N : ~ In k submit_known) by (intros Q; assert (existsb (bytes_eqb k) submit_known = true) by (apply existsb_exists; exists k; split; [exact Q|apply bytes_eqb_refl]); congruence).
    destruct (existsb (fun e => bytes_eqb (fst e) k) a) eqn:Ea.
    + apply existsb_exists in Ea as (y & Q & Ey). apply bytes_eqb_eq in Ey as <-. split.
      * intros W. injection W as <-. split; [apply in_map, Q|split; [apply says_attr|exact N]].
      * intros (_ & W & _). f_equal. exact (says_unique _ _ _ _ (says_attr _ _) W).
    + split; [discriminate|]. intros (W & _). apply in_map_iff in W as (y & <- & W). assert (existsb (fun e => bytes_eqb (fst e) (fst y)) a = true) by (apply existsb_exists; exists y; split; [exact W|apply bytes_eqb_refl]). congruence.
Qed.
Theorem config_says ts c : ParseXFAConfig ts = Some c ->
  section (bs "present") ts (says_present ts) (gPresent c) /\ section (bs "submit") ts says_submit (gSubmit c) /\
  section (bs "destination") ts (fun a d => says (bs "type") a (fst d) /\ says (bs "target") a (snd d)) (gDestination c) /\
  section (bs "acrobat") ts says_acrobat (gAcrobat c) /\
  section (bs "validate") ts (fun _ v => v = ([], [], [])) (gValidate c) /\ section (bs "common") ts (fun _ v => v = ([], [])) (gCommon c) /\
  section (bs "output") ts (fun _ v => v = ([], [])) (gOutput c) /\ gTrace c = None.
Proof.
  unfold ParseXFAConfig. destruct (fold_left g_step ts (Some (mkGS no_config [] []))) as [s|] eqn:E; [|discriminate]. intros Q. injection Q as <-.
  destruct (config_fold ts s E). rewrite gi_submit0, gi_dest0, gi_acrobat0, gi_validate0, gi_common0, gi_output0. repeat apply conj; try (apply acc_section; intros a).
  - unfold acc in gi_present0. destruct (existsb (starts (bs "present")) ts) eqn:Es; destruct (gPresent (gsConf s)) as [p|]; try discriminate gi_present0; cbn [section].
    + split; [apply starts_occurs, Es|]. cbn [option_map] in gi_present0. injection gi_present0 as Q1 Q2. destruct gi_pdf0 as (A & B). constructor.
      * rewrite Q1. apply says_attr.
      * rewrite Q2. apply says_attr.
      * rewrite A. apply acc_section. intros a. constructor; first [apply says_attr|apply ticked_bool].
      * rewrite B. apply acc_section. intros a. constructor; first [apply says_attr|apply counts_int].
    + intros Q. apply starts_occurs in Q. congruence.
  - apply submit_says.
  - split; apply says_attr.
  - constructor; first [apply says_attr|apply ticked_bool|apply counts_int].
  - reflexivity.
  - reflexivity.
  - reflexivity.
  - exact gi_trace0.
Qed.
