From Verif Require Import XForeignSpec Util.
Local Open Scope Z_scope.

(** ** Attributes *)
Lemma last_attr_app k a b o : last_attr k (a ++ b) o = last_attr k b (last_attr k a o).
Proof. unfold last_attr. apply fold_left_app. Qed.
Lemma last_int_app' k a b o : last_int k (a ++ b) o = last_int k b (last_int k a o).
Proof. unfold last_int. apply fold_left_app. Qed.
Lemma last_bool_app' k a b o : last_bool k (a ++ b) o = last_bool k b (last_bool k a o).
Proof. unfold last_bool. apply fold_left_app. Qed.
Lemma says_attr k a : says k a (last_attr k a []).
Proof.
  induction a as [|[m v] a IH] using rev_ind; [right; split; [reflexivity|intros []]|]. rewrite last_attr_app. remember (last_attr k a []) as w eqn:Ew. clear Ew. unfold last_attr. cbn [fold_left fst snd].
  destruct (bytes_eqb m k) eqn:E.
  - apply bytes_eqb_eq in E as ->. left. exists a, []. split; [reflexivity|intros []].
  - assert (N : m <> k) by (intros ->; rewrite bytes_eqb_refl in E; discriminate). destruct IH as [(a1 & a2 & -> & H)|(-> & H)].
    + left. exists a1, (a2 ++ [(m, v)]). split; [rewrite <- app_assoc; reflexivity|]. rewrite map_app, in_app_iff. intros [Q|[Q|[]]]; [exact (H Q)|exact (N Q)].
    + right. split; [reflexivity|]. rewrite map_app, in_app_iff. intros [Q|[Q|[]]]; [exact (H Q)|exact (N Q)].
Qed.
Lemma says_unique k a v w : says k a v -> says k a w -> v = w.
Proof.
  assert (G : forall (a1 a2 b1 b2 : attrs), a1 ++ (k, v) :: a2 = b1 ++ (k, w) :: b2 -> ~ In k (map fst a2) -> ~ In k (map fst b2) -> v = w).
  { induction a1 as [|x a1 IH]; intros a2 b1 b2 E H1 H2; destruct b1 as [|y b1]; cbn [app] in E; injection E as E1 E2.
    - exact E1.
    - subst. exfalso. apply H1. rewrite map_app, in_app_iff. right. left. reflexivity.
    - subst. exfalso. apply H2. rewrite map_app, in_app_iff. right. left. reflexivity.
    - exact (IH _ _ _ E2 H1 H2). }
  intros [(a1 & a2 & -> & H)|(-> & H)] [(b1 & b2 & E & H')|(-> & H')].
  - exact (G _ _ _ _ E H H').
  - exfalso. apply H'. rewrite map_app, in_app_iff. right. left. reflexivity.
  - exfalso. apply H. rewrite E, map_app, in_app_iff. right. left. reflexivity.
  - reflexivity.
Qed.
Lemma last_bool_attr k a v : last_bool k a (XFormModel.parseBool v) = XFormModel.parseBool (last_attr k a v).
Proof. revert v. induction a as [|[m x] a IH]; intros v; [reflexivity|]. cbn [last_bool last_attr fold_left fst snd]. unfold last_bool, last_attr in IH. destruct (bytes_eqb m k); apply IH. Qed.
Lemma ticked_bool k a : ticked k a (last_bool k a false).
Proof.
  exists (last_attr k a []). split; [apply says_attr|]. replace false with (XFormModel.parseBool []) by reflexivity. rewrite (last_bool_attr k a []). unfold XFormModel.parseBool.
  rewrite existsb_exists. split.
  - intros (x & H & E). apply bytes_eqb_eq in E. rewrite E. exact H.
  - intros H. eexists. split; [exact H|apply bytes_eqb_refl].
Qed.
Lemma counts_int k a : counts k a (last_int k a 0).
Proof.
  induction a as [|[m v] a IH] using rev_ind; [right; split; [reflexivity|intros w []]|]. rewrite last_int_app'. remember (last_int k a 0) as z0 eqn:Ez. clear Ez. unfold last_int. cbn [fold_left fst snd].
  assert (Old : (m = k -> atoi v = None) -> counts k (a ++ [(m, v)]) z0).
  { intros N. destruct IH as [(a1 & x & a2 & -> & H & H')|(E & H)].
    - left. exists a1, x, (a2 ++ [(m, v)]). split; [rewrite <- app_assoc; reflexivity|split; [exact H|]]. intros w Q. apply in_app_iff in Q as [Q|[Q|[]]]; [exact (H' w Q)|]. injection Q as -> ->. exact (N eq_refl).
    - right. split; [exact E|]. intros w Q. apply in_app_iff in Q as [Q|[Q|[]]]; [exact (H w Q)|]. injection Q as -> ->. exact (N eq_refl). }
  destruct (bytes_eqb m k) eqn:E.
  - apply bytes_eqb_eq in E as ->. destruct (atoi v) as [z|] eqn:Ev; [|exact (Old (fun _ => eq_refl))]. left. exists a, v, []. split; [reflexivity|split; [exact Ev|intros w []]].
  - apply Old. intros ->. rewrite bytes_eqb_refl in E. discriminate.
Qed.

(** ** Sections *)
Definition starts (n : bytes) (t : token) : bool := match t with TStart m _ => bytes_eqb m n | _ => false end.
Lemma starts_occurs n ts : existsb (starts n) ts = true <-> occurs n ts.
Proof.
  rewrite existsb_exists. split.
  - intros (t & H & E). destruct t as [m a| |]; try discriminate E. apply bytes_eqb_eq in E as ->. exists a. exact H.
  - intros (a & H). exists (TStart n a). split; [exact H|apply bytes_eqb_refl].
Qed.
Lemma attributes_app n a b : attributes n (a ++ b) = attributes n a ++ attributes n b.
Proof. apply flat_map_app. Qed.
Lemma attributes_none n ts : existsb (starts n) ts = false -> attributes n ts = [].
Proof.
  induction ts as [|t ts IH]; intros H; [reflexivity|]. cbn [existsb] in H. apply orb_false_iff in H as (A & B). cbn [attributes flat_map]. fold (attributes n ts). rewrite (IH B).
  destruct t as [m a| |]; [|reflexivity|reflexivity]. cbn [starts] in A. rewrite A. reflexivity.
Qed.
Section Acc.
Context {A : Type} (n : bytes) (new : A) (parse : attrs -> A -> A).
Definition acc (ts : list token) : option A := if existsb (starts n) ts then Some (parse (attributes n ts) new) else None.
Lemma acc_start (Hp : forall a b x, parse (a ++ b) x = parse b (parse a x)) (H0 : parse [] new = new) ts a : acc (ts ++ [TStart n a]) = Some (parse a (or_new new (acc ts))).
Proof.
  unfold acc. rewrite existsb_app. cbn [existsb starts]. rewrite bytes_eqb_refl, orb_true_r, attributes_app. cbn [attributes flat_map]. rewrite bytes_eqb_refl, app_nil_r, Hp.
  destruct (existsb (starts n) ts) eqn:E; [reflexivity|]. rewrite (attributes_none n ts E), H0. reflexivity.
Qed.
Lemma acc_other ts t : starts n t = false -> acc (ts ++ [t]) = acc ts.
Proof.
  intros E. unfold acc. rewrite existsb_app. cbn [existsb]. rewrite E, !orb_false_r, attributes_app. cbn [attributes flat_map].
  destruct t as [m a| |]; [|rewrite !app_nil_r; reflexivity|rewrite !app_nil_r; reflexivity]. cbn [starts] in E. rewrite E, !app_nil_r. reflexivity.
Qed.
Lemma acc_section ts (P : attrs -> A -> Prop) : (forall a, P a (parse a new)) -> section n ts P (acc ts).
Proof.
  intros H. unfold acc. destruct (existsb (starts n) ts) eqn:E; cbn [section].
  - split; [apply starts_occurs, E|apply H].
  - intros Q. apply starts_occurs in Q. congruence.
Qed.
End Acc.

(** ** Locale sets *)
Ltac parse_app := intros; cbv beta iota delta [parseCurrencyAttributes parsePatternAttributes parseNumberPatternAttributes parseTextAttributes parseSubmitAttributes parseDestinationAttributes parseAcrobatAttributes parsePDFAttributes parseInteractiveAttributes curSymbol curName curPrecision patFormat patSymbol numFormat numSymbol numGrouping numDecimal numPrecision txDirection txEncoding suFormat suTarget suMethod suEmbed suXDP suEncoding suProps acAutoSave acAutoSaveTime acFormType acVersion pdVersion pdCompression pdLinearized pdEncryption pdEmbedFonts pdTagged pdAccessibility inPage inZoom inViewMode fst snd]; rewrite ?last_attr_app, ?last_int_app', ?last_bool_app'; reflexivity.
Definition pattern_of : attrs -> pattern -> pattern := parsePatternAttributes.
Definition calendar_attrs (a : attrs) (c : bytes * bytes * bytes) : bytes * bytes * bytes :=
  let '(s, f, w) := c in (last_attr (bs "symbols") a s, last_attr (bs "firstDay") a f, last_attr (bs "weekend") a w).
Definition calendar_view (c : calendar) : bytes * bytes * bytes := (calSymbols c, calFirstDay c, calWeekend c).
Record locale_is (e : attrs * list token) (l : locale) : Prop := {
  li_code : lCode l = last_code (fst e); li_name : lName l = last_attr (bs "name") (fst e) [];
  li_calendar : option_map calendar_view (lCalendar l) = acc (bs "calendar") ([], [], []) calendar_attrs (snd e);
  li_currency : lCurrency l = acc (bs "currency") (mkCur [] [] 0) parseCurrencyAttributes (snd e);
  li_date : lDate l = acc (bs "datePattern") (mkPat [] []) parsePatternAttributes (snd e);
  li_time : lTime l = acc (bs "timePattern") (mkPat [] []) parsePatternAttributes (snd e);
  li_number : lNumber l = acc (bs "numberPattern") (mkNum [] [] [] [] 0) parseNumberPatternAttributes (snd e);
  li_text : lText l = acc (bs "text") (mkText [] []) parseTextAttributes (snd e) }.
Definition locale_rel (cur : option (attrs * list token)) (o : option locale) : Prop :=
  match cur, o with Some e, Some l => locale_is e l | None, None => True | _, _ => False end.
Definition snoc (t : token) (cur : option (attrs * list token)) := option_map (fun e : attrs * list token => (fst e, snd e ++ [t])) cur.
Ltac others := repeat match goal with |- context [acc ?n ?w ?p (?ts ++ [?t])] => rewrite (acc_other n w p ts t) by (cbn [starts]; first [assumption|reflexivity]) end.
Ltac close := constructor; cbn [fst snd lCode lName lCalendar lCurrency lDate lTime lNumber lText] in *; others; try assumption.
Lemma locale_other e l t : locale_is e l -> (forall n, In n sections -> starts n t = false) -> locale_is (fst e, snd e ++ [t]) l.
Proof.
  intros [] H. constructor; cbn [fst snd]; rewrite ?acc_other by (apply H; cbn; tauto); assumption.
Qed.
Lemma neq_eqb (n m : bytes) : bytes_eqb n m = false -> bytes_eqb m n = false.
Proof. intros E. destruct (bytes_eqb m n) eqn:F; [apply bytes_eqb_eq in F as ->; rewrite bytes_eqb_refl in E; discriminate|reflexivity]. Qed.
Lemma rel_other cur o t : locale_rel cur o -> (forall n, In n sections -> starts n t = false) -> locale_rel (snoc t cur) o.
Proof. destruct cur, o; cbn; intros H Hs; try exact H. apply locale_other; assumption. Qed.
Lemma rel_start cur set o cal v n a : bytes_eqb n (bs "locale") = false -> locale_rel cur o ->
  lsLocales (sSet (l_start (mkLState set o cal v) n a)) = lsLocales set /\ locale_rel (snoc (TStart n a) cur) (sLocale (l_start (mkLState set o cal v) n a)).
Proof.
  intros E H. cbn [l_start]. rewrite E.
  destruct (bytes_eqb n (bs "localeSet")) eqn:E0.
  { split; [reflexivity|]. apply rel_other; [exact H|]. apply bytes_eqb_eq in E0 as ->. cbn. intros m Q. decompose [or] Q; subst; try reflexivity; contradiction. }
  destruct (bytes_eqb n (bs "calendar")) eqn:E1.
  { apply bytes_eqb_eq in E1 as ->. destruct cur as [e|], o as [[c nm ca cu da ti nu te]|]; cbn [locale_rel] in H; try contradiction; cbn [snoc option_map sSet sLocale locale_rel]; (split; [reflexivity|]); [|exact I].
    destruct H; close. rewrite acc_start; [|intros b c0 [[x y] z]; cbn; rewrite !last_attr_app; reflexivity|reflexivity]. rewrite <- li_calendar0. destruct ca as [[? ? ? ?]|]; reflexivity. }
  destruct (bytes_eqb n (bs "currency")) eqn:E2.
  { apply bytes_eqb_eq in E2 as ->. destruct cur as [e|], o as [[c nm ca cu da ti nu te]|]; cbn [locale_rel] in H; try contradiction; cbn [snoc option_map sSet sLocale locale_rel]; (split; [reflexivity|]); [|exact I].
    destruct H; close. rewrite acc_start; [|parse_app|reflexivity]. rewrite li_currency0. reflexivity. }
  destruct (bytes_eqb n (bs "datePattern")) eqn:E3.
  { apply bytes_eqb_eq in E3 as ->. destruct cur as [e|], o as [[c nm ca cu da ti nu te]|]; cbn [locale_rel] in H; try contradiction; cbn [snoc option_map sSet sLocale locale_rel]; (split; [reflexivity|]); [|exact I].
    destruct H; close. rewrite acc_start; [|parse_app|reflexivity]. rewrite li_date0. reflexivity. }
  destruct (bytes_eqb n (bs "timePattern")) eqn:E4.
  { apply bytes_eqb_eq in E4 as ->. destruct cur as [e|], o as [[c nm ca cu da ti nu te]|]; cbn [locale_rel] in H; try contradiction; cbn [snoc option_map sSet sLocale locale_rel]; (split; [reflexivity|]); [|exact I].
    destruct H; close. rewrite acc_start; [|parse_app|reflexivity]. rewrite li_time0. reflexivity. }
  destruct (bytes_eqb n (bs "numberPattern")) eqn:E5.
  { apply bytes_eqb_eq in E5 as ->. destruct cur as [e|], o as [[c nm ca cu da ti nu te]|]; cbn [locale_rel] in H; try contradiction; cbn [snoc option_map sSet sLocale locale_rel]; (split; [reflexivity|]); [|exact I].
    destruct H; close. rewrite acc_start; [|parse_app|reflexivity]. rewrite li_number0. reflexivity. }
  destruct (bytes_eqb n (bs "text")) eqn:E6.
  { apply bytes_eqb_eq in E6 as ->. destruct cur as [e|], o as [[c nm ca cu da ti nu te]|]; cbn [locale_rel] in H; try contradiction; cbn [snoc option_map sSet sLocale locale_rel]; (split; [reflexivity|]); [|exact I].
    destruct H; close. rewrite acc_start; [|parse_app|reflexivity]. rewrite li_text0. reflexivity. }
  assert (R : locale_rel (snoc (TStart n a) cur) o).
  { apply rel_other; [exact H|]. intros m Q. cbn [starts]. cbn in Q. decompose [or] Q; subst; try assumption; contradiction. }
  destruct (bytes_eqb n (bs "holiday")); [|split; [reflexivity|exact R]].
  destruct o as [l|]; [|split; [reflexivity|exact R]]. destruct cal; [|split; [reflexivity|exact R]]. destruct (lCalendar l); (split; [reflexivity|exact R]).
Qed.
Lemma rel_end cur set o cal v n : bytes_eqb n (bs "locale") = false -> locale_rel cur o ->
  sSet (l_end (mkLState set o cal v) n) = set /\ locale_rel (snoc (TEnd n) cur) (sLocale (l_end (mkLState set o cal v) n)).
Proof.
  intros E H. cbn [l_end]. rewrite E. assert (R : locale_rel (snoc (TEnd n) cur) o) by (apply rel_other; [exact H|reflexivity]).
  destruct (existsb (bytes_eqb n) sections); [split; [reflexivity|exact R]|]. destruct (bytes_eqb n (bs "holiday")); [|split; [reflexivity|exact R]].
  destruct o as [[c nm ca cu da ti nu te]|]; [|split; [reflexivity|exact R]]. destruct cal; [|split; [reflexivity|exact R]]. destruct ca as [k|]; [|split; [reflexivity|exact R]].
  destruct (TrimSpace v); [split; [reflexivity|exact R]|]. split; [reflexivity|]. destruct cur as [e|]; [|exact R]. cbn [snoc option_map sLocale locale_rel] in *. destruct R; constructor; assumption.
Qed.
Lemma locales_read ts : forall set o cal v cur, locale_rel cur o -> exists new,
  lsLocales (sSet (fold_left l_step ts (mkLState set o cal v))) = lsLocales set ++ new /\ Forall2 locale_is (elements (bs "locale") cur ts) new.
Proof.
  induction ts as [|t ts IH]; intros set o cal v cur H; [exists []; split; [symmetry; apply app_nil_r|constructor]|].
  cbn [fold_left]. destruct t as [n a|n|x]; cbn [elements l_step].
  - destruct (bytes_eqb n (bs "locale")) eqn:E.
    + apply bytes_eqb_eq in E as ->. cbn [l_start]. change (bytes_eqb (bs "locale") (bs "localeSet")) with false. rewrite bytes_eqb_refl. apply IH. cbn [locale_rel]. constructor; reflexivity.
    + destruct (rel_start cur set o cal v n a E H) as (A & B). destruct (l_start (mkLState set o cal v) n a) as [set' o' cal' v']. cbn [sSet sLocale] in A, B. rewrite <- A. apply IH, B.
  - destruct (bytes_eqb n (bs "locale")) eqn:E.
    + cbn [l_end]. rewrite E. destruct cur as [e|], o as [l|]; cbn [locale_rel] in H; try contradiction.
      * destruct (IH (mkLS (lsLocales set ++ [l]) (lsDefault set)) None false v None I) as (new & A & B). exists (l :: new). split; [rewrite A; cbn [lsLocales]; rewrite <- app_assoc; reflexivity|]. cbn [app]. constructor; assumption.
      * apply IH, I.
    + destruct (rel_end cur set o cal v n E H) as (A & B). destruct (l_end (mkLState set o cal v) n) as [set' o' cal' v']. cbn [sSet sLocale] in A, B. rewrite A. apply IH, B.
  - cbn [l_chars]. destruct (cal && contains (bs "holiday") x); apply IH; apply rel_other; try exact H; reflexivity.
Qed.
Lemma default_read ts : forall s, lsDefault (sSet (fold_left l_step ts s)) = last_attr (bs "default") (attributes (bs "localeSet") ts) (lsDefault (sSet s)).
Proof.
  induction ts as [|t ts IH]; intros s; [reflexivity|]. cbn [fold_left]. rewrite IH. cbn [attributes flat_map]. fold (attributes (bs "localeSet") ts). rewrite last_attr_app. f_equal.
  destruct s as [set o cal v]. destruct t as [n a|n|x]; cbn [l_step l_start l_end l_chars].
  - destruct (bytes_eqb n (bs "localeSet")); [reflexivity|]. cbn [last_attr fold_left].
    destruct (bytes_eqb n (bs "locale")); [reflexivity|].
    repeat match goal with |- context [if bytes_eqb n ?k then _ else _] => destruct (bytes_eqb n k); [destruct o as [[? ? ca ? ? ? ? ?]|]; try reflexivity; cbn [lCalendar]; destruct cal; try reflexivity; destruct ca; reflexivity|] end. reflexivity.
  - destruct (bytes_eqb n (bs "locale")); [destruct o; reflexivity|]. destruct (existsb (bytes_eqb n) sections); [reflexivity|]. destruct (bytes_eqb n (bs "holiday")); [|reflexivity].
    destruct o as [[? ? ca ? ? ? ? ?]|]; [|reflexivity]. destruct cal; [|reflexivity]. destruct ca; [|reflexivity]. destruct (TrimSpace v); reflexivity.
  - destruct (cal && contains (bs "holiday") x); reflexivity.
Qed.
Lemma code_either a : forall o, fold_left (fun acc e => if bytes_eqb (fst e) (bs "code") || bytes_eqb (fst e) (bs "id") then snd e else acc) a o = last_attr (bs "code") (either a) o.
Proof.
  induction a as [|[k v] a IH]; intros o; [reflexivity|]. cbn [fold_left either map fst snd last_attr]. fold (either a). unfold last_attr in IH. destruct (bytes_eqb k (bs "id")) eqn:E; cbn [fst snd].
  - rewrite orb_true_r. change (bytes_eqb (bs "code") (bs "code")) with true. apply IH.
  - rewrite orb_false_r. apply IH.
Qed.
Lemma locale_says e l : locale_is e l -> says_locale e l.
Proof.
  intros []. constructor.
  - rewrite li_code0. unfold last_code. rewrite code_either. apply says_attr.
  - rewrite li_name0. apply says_attr.
  - unfold acc in li_calendar0. destruct (existsb (starts (bs "calendar")) (snd e)) eqn:E; destruct (lCalendar l) as [[]|]; try discriminate; cbn [section].
    + split; [apply starts_occurs, E|]. injection li_calendar0 as -> -> ->. constructor; apply says_attr.
    + intros Q. apply starts_occurs in Q. congruence.
  - rewrite li_currency0. apply acc_section. intros a. constructor; first [apply says_attr|apply counts_int].
  - rewrite li_date0. apply acc_section. intros a. constructor; apply says_attr.
  - rewrite li_time0. apply acc_section. intros a. constructor; apply says_attr.
  - rewrite li_number0. apply acc_section. intros a. constructor; first [apply says_attr|apply counts_int].
  - rewrite li_text0. apply acc_section. intros a. constructor; apply says_attr.
Qed.
Theorem locale_set_says ts : says (bs "default") (attributes (bs "localeSet") ts) (lsDefault (ParseXFALocaleSet ts)) /\
  Forall2 says_locale (elements (bs "locale") None ts) (lsLocales (ParseXFALocaleSet ts)).
Proof.
  unfold ParseXFALocaleSet. split.
  - rewrite default_read. apply says_attr.
  - destruct (locales_read ts (mkLS [] []) None false [] None I) as (new & -> & H). cbn [lsLocales app]. induction H; constructor; [apply locale_says; assumption|assumption].
Qed.

(** ** Connection sets *)
Definition desc_attrs (a : attrs) (d : bytes * bytes * bytes) : bytes * bytes * bytes :=
  let '(s, f, w) := d in (last_attr (bs "ref") a s, last_attr (bs "schema") a f, last_attr (bs "namespace") a w).
Definition desc_view {V} (d : description V) : bytes * bytes * bytes := (dRef d, dSchema d, dNamespace d).
Record connection_is (e : attrs * list token) (c : connection bytes) : Prop := {
  ci_name : cName c = last_attr (bs "name") (fst e) []; ci_type : cType c = last_attr (bs "type") (fst e) [];
  ci_desc : option_map desc_view (cDesc c) = acc (bs "dataDescription") ([], [], []) desc_attrs (snd e) }.
Definition connection_rel (cur : option (attrs * list token)) (o : option (connection bytes)) : Prop :=
  match cur, o with Some e, Some l => connection_is e l | None, None => True | _, _ => False end.
Lemma crel_other cur o t : connection_rel cur o -> starts (bs "dataDescription") t = false -> connection_rel (snoc t cur) o.
Proof. destruct cur, o; cbn; intros H Hs; try exact H. destruct H; constructor; cbn [fst snd]; rewrite ?acc_other by exact Hs; assumption. Qed.
Lemma connections_read ts : forall done o v iD cur, connection_rel cur o -> exists new,
  csDone (fold_left c_step ts (mkCS done o v iD)) = done ++ new /\ Forall2 connection_is (elements (bs "connection") cur ts) new.
Proof.
  induction ts as [|t ts IH]; intros done o v iD cur H; [exists []; split; [symmetry; apply app_nil_r|constructor]|].
  cbn [fold_left]. destruct t as [n a|n|x]; cbn [elements c_step].
  - cbn [c_start]. destruct (bytes_eqb n (bs "connection")) eqn:E.
    + apply bytes_eqb_eq in E as ->. change (bytes_eqb (bs "connection") (bs "connectionSet")) with false. apply IH. constructor; reflexivity.
    + destruct (bytes_eqb n (bs "connectionSet")) eqn:E0.
      { apply IH. apply (crel_other cur o (TStart n a) H). apply bytes_eqb_eq in E0 as ->. reflexivity. }
      destruct o as [c|]; [|apply IH; destruct cur; [contradiction|exact I]].
      destruct (bytes_eqb n (bs "dataDescription")) eqn:E1.
      * apply IH. destruct cur as [e|]; [|contradiction]. apply bytes_eqb_eq in E1 as ->. cbn [connection_rel option_map] in *. destruct H. constructor; cbn [fst snd cName cType cDesc]; try assumption.
        rewrite acc_start; [|intros b c0 [[x y] z]; cbn; rewrite !last_attr_app; reflexivity|reflexivity]. rewrite <- ci_desc0. destruct (cDesc c) as [[? ? ? ?]|]; reflexivity.
      * apply IH. apply (crel_other cur (Some c) (TStart n a) H E1).
  - cbn [c_end]. destruct (bytes_eqb n (bs "connection")) eqn:E.
    + destruct cur as [e|], o as [l|]; cbn [connection_rel] in H; try contradiction.
      * destruct (IH (done ++ [l]) None v iD None I) as (new & A & B). exists (l :: new). split; [rewrite A, <- app_assoc; reflexivity|]. cbn [app]. constructor; assumption.
      * apply IH, I.
    + pose proof (crel_other cur o (TEnd n) H eq_refl) as R. fold (snoc (TEnd n) cur).
      destruct (bytes_eqb n (bs "dataDescription")); [apply IH, R|].
      destruct (existsb (bytes_eqb n) known_properties); apply IH; destruct o as [c|], cur as [e|]; try exact R; cbn [snoc option_map connection_rel] in *.
      * destruct R; constructor; assumption.
      * destruct iD; [|destruct R; constructor; assumption]. destruct (cDesc c) as [d|] eqn:Ed; [|destruct R; constructor; cbn [cName cType cDesc]; rewrite ?Ed in *; assumption].
        destruct R; constructor; cbn [cName cType cDesc]; try assumption. rewrite Ed in *. rewrite <- ci_desc0. reflexivity.
  - apply IH. apply (crel_other cur o (TChars x) H eq_refl).
Qed.
Theorem connection_set_says ts : Forall2 says_connection (elements (bs "connection") None ts) (ParseXFAConnectionSet ts).
Proof.
  unfold ParseXFAConnectionSet. destruct (connections_read ts [] None [] false None I) as (new & -> & H). cbn [app]. induction H as [|e c l l' H H' IH]; constructor; [|exact IH].
  destruct H. constructor.
  - rewrite ci_name0. apply says_attr.
  - rewrite ci_type0. apply says_attr.
  - unfold acc in ci_desc0. destruct (existsb (starts (bs "dataDescription")) (snd e)) eqn:E; destruct (cDesc c) as [[]|]; try discriminate; cbn [section].
    + split; [apply starts_occurs, E|]. injection ci_desc0 as -> -> ->. constructor; apply says_attr.
    + intros Q. apply starts_occurs in Q. congruence.
Qed.
