(** Proofs for the translator of locales. *)
From Verif Require Import Util XDataSpec XDataProofs.
Local Open Scope Z_scope.

Lemma conv_leaf b n a ts us : conveyed b (element n a [] ++ ts) us ->
  exists ws us', us = ws ++ TStart n a :: TEnd n :: us' /\ Forall blank_token ws /\ conveyed false ts us'.
Proof.
  intros H. unfold element in H. cbn [app] in H. destruct (conv_start _ _ _ _ _ H) as (ws & u1 & -> & Hw & H1 & _).
  destruct (conv_end _ _ _ _ H1) as (w2 & u2 & -> & _ & Hnil & H2). rewrite (Hnil eq_refl). exists ws, u2. repeat split; [exact Hw|exact H2].
Qed.
Lemma fold_leaf {S} (f : S -> token -> S) a t1 t2 b s : fold_left f (a ++ t1 :: t2 :: b) s = fold_left f b (f (f (fold_left f a s) t1) t2).
Proof. rewrite fold_left_app. reflexivity. Qed.

Lemma l_blank ws : Forall blank_token ws -> forall set loc cal v, exists v', fold_left l_step ws (mkLState set loc cal v) = mkLState set loc cal v'.
Proof.
  induction 1 as [|t ws (w & -> & Hw) H IH]; intros set loc cal v; [exists v; reflexivity|]. cbn [fold_left l_step l_chars].
  destruct (cal && contains (bs "holiday") w); apply IH.
Qed.
Lemma sec_calendar set c nm cu da ti nu te cal v a :
  l_step (mkLState set (Some (mkLoc c nm None cu da ti nu te)) cal v) (TStart (bs "calendar") a) =
  mkLState set (Some (mkLoc c nm (Some (parseCalendarAttributes a (mkCal [] [] [] []))) cu da ti nu te)) true v.
Proof. reflexivity. Qed.
Lemma sec_currency set c nm ca da ti nu te cal v a :
  l_step (l_step (mkLState set (Some (mkLoc c nm ca None da ti nu te)) cal v) (TStart (bs "currency") a)) (TEnd (bs "currency")) =
  mkLState set (Some (mkLoc c nm ca (Some (parseCurrencyAttributes a (mkCur [] [] 0))) da ti nu te)) false v.
Proof. reflexivity. Qed.
Lemma sec_date set c nm ca cu ti nu te cal v a :
  l_step (l_step (mkLState set (Some (mkLoc c nm ca cu None ti nu te)) cal v) (TStart (bs "datePattern") a)) (TEnd (bs "datePattern")) =
  mkLState set (Some (mkLoc c nm ca cu (Some (parsePatternAttributes a (mkPat [] []))) ti nu te)) false v.
Proof. reflexivity. Qed.
Lemma sec_time set c nm ca cu da nu te cal v a :
  l_step (l_step (mkLState set (Some (mkLoc c nm ca cu da None nu te)) cal v) (TStart (bs "timePattern") a)) (TEnd (bs "timePattern")) =
  mkLState set (Some (mkLoc c nm ca cu da (Some (parsePatternAttributes a (mkPat [] []))) nu te)) false v.
Proof. reflexivity. Qed.
Lemma sec_number set c nm ca cu da ti te cal v a :
  l_step (l_step (mkLState set (Some (mkLoc c nm ca cu da ti None te)) cal v) (TStart (bs "numberPattern") a)) (TEnd (bs "numberPattern")) =
  mkLState set (Some (mkLoc c nm ca cu da ti (Some (parseNumberPatternAttributes a (mkNum [] [] [] [] 0))) te)) false v.
Proof. reflexivity. Qed.
Lemma sec_text set c nm ca cu da ti nu cal v a :
  l_step (l_step (mkLState set (Some (mkLoc c nm ca cu da ti nu None)) cal v) (TStart (bs "text") a)) (TEnd (bs "text")) =
  mkLState set (Some (mkLoc c nm ca cu da ti nu (Some (parseTextAttributes a (mkText [] []))))) false v.
Proof. reflexivity. Qed.
Ltac leaf H :=
  let ws := fresh "ws" in let u := fresh "u" in let Hw := fresh "Hw" in let H' := fresh "H'" in let v' := fresh "v'" in
  destruct (conv_leaf _ _ _ _ _ H) as (ws & u & -> & Hw & H'); rewrite fold_leaf;
  edestruct (l_blank ws Hw) as (v' & ->); exists false, u, v'; split; [|exact H'].

Lemma l_currency o ts us b set c nm ca da ti nu te cal v : conveyed b (maybe encodeCurrency o ++ ts) us -> (forall x, o = Some x -> is_int (curPrecision x)) ->
  exists b' us' v', fold_left l_step us (mkLState set (Some (mkLoc c nm ca None da ti nu te)) cal v) =
    fold_left l_step us' (mkLState set (Some (mkLoc c nm ca (option_map read_currency o) da ti nu te)) (match o with Some _ => false | None => cal end) v') /\ conveyed b' ts us'.
Proof.
  destruct o as [x|]; intros H Hi; [|exists b, us, v; split; [reflexivity|exact H]]. specialize (Hi x eq_refl). leaf H.
  rewrite sec_currency. unfold parseCurrencyAttributes, read_currency. cbn [curSymbol curName curPrecision]. attr. reflexivity.
Qed.
Lemma l_date o ts us b set c nm ca cu ti nu te cal v : conveyed b (maybe (encodePattern (bs "datePattern")) o ++ ts) us ->
  exists b' us' v', fold_left l_step us (mkLState set (Some (mkLoc c nm ca cu None ti nu te)) cal v) =
    fold_left l_step us' (mkLState set (Some (mkLoc c nm ca cu o ti nu te)) (match o with Some _ => false | None => cal end) v') /\ conveyed b' ts us'.
Proof.
  destruct o as [[f s]|]; intros H; [|exists b, us, v; split; [reflexivity|exact H]]. leaf H.
  rewrite sec_date. unfold parsePatternAttributes. cbn [patFormat patSymbol]. attr. reflexivity.
Qed.
Lemma l_time o ts us b set c nm ca cu da nu te cal v : conveyed b (maybe (encodePattern (bs "timePattern")) o ++ ts) us ->
  exists b' us' v', fold_left l_step us (mkLState set (Some (mkLoc c nm ca cu da None nu te)) cal v) =
    fold_left l_step us' (mkLState set (Some (mkLoc c nm ca cu da o nu te)) (match o with Some _ => false | None => cal end) v') /\ conveyed b' ts us'.
Proof.
  destruct o as [[f s]|]; intros H; [|exists b, us, v; split; [reflexivity|exact H]]. leaf H.
  rewrite sec_time. unfold parsePatternAttributes. cbn [patFormat patSymbol]. attr. reflexivity.
Qed.
Lemma l_number o ts us b set c nm ca cu da ti te cal v : conveyed b (maybe encodeNumberPattern o ++ ts) us -> (forall x, o = Some x -> is_int (numPrecision x)) ->
  exists b' us' v', fold_left l_step us (mkLState set (Some (mkLoc c nm ca cu da ti None te)) cal v) =
    fold_left l_step us' (mkLState set (Some (mkLoc c nm ca cu da ti (option_map read_number o) te)) (match o with Some _ => false | None => cal end) v') /\ conveyed b' ts us'.
Proof.
  destruct o as [x|]; intros H Hi; [|exists b, us, v; split; [reflexivity|exact H]]. specialize (Hi x eq_refl). leaf H.
  rewrite sec_number. unfold parseNumberPatternAttributes, read_number. cbn [numFormat numSymbol numGrouping numDecimal numPrecision]. attr. reflexivity.
Qed.
Lemma l_text o ts us b set c nm ca cu da ti nu cal v : conveyed b (maybe encodeText o ++ ts) us ->
  exists b' us' v', fold_left l_step us (mkLState set (Some (mkLoc c nm ca cu da ti nu None)) cal v) =
    fold_left l_step us' (mkLState set (Some (mkLoc c nm ca cu da ti nu o)) (match o with Some _ => false | None => cal end) v') /\ conveyed b' ts us'.
Proof.
  destruct o as [[f s]|]; intros H; [|exists b, us, v; split; [reflexivity|exact H]]. leaf H.
  rewrite sec_text. unfold parseTextAttributes. cbn [txDirection txEncoding]. attr. reflexivity.
Qed.

(** a holiday *)
Definition add_holidays (c : calendar) (l : list bytes) : calendar := mkCal (calSymbols c) (calFirstDay c) (calWeekend c) (calHolidays c ++ l).
Lemma l_holiday h ts us b set c nm k cu da ti nu te v : conveyed b (element (bs "holiday") [] [TChars h] ++ ts) us ->
  exists us' v', fold_left l_step us (mkLState set (Some (mkLoc c nm (Some k) cu da ti nu te)) true v) =
    fold_left l_step us' (mkLState set (Some (mkLoc c nm (Some (add_holidays k (read_holiday h))) cu da ti nu te)) true v') /\ conveyed false ts us'.
Proof.
  intros H. unfold element in H. cbn [app] in H. destruct (conv_start _ _ _ _ _ H) as (ws & u1 & -> & Hw & H1 & _).
  rewrite fold_step. edestruct (l_blank ws Hw) as (v1 & ->).
  replace (l_step _ (TStart (bs "holiday") [])) with (mkLState set (Some (mkLoc c nm (Some k) cu da ti nu te)) true []) by reflexivity.
  assert (G : forall u2 val, conveyed true (TEnd (bs "holiday") :: ts) u2 -> val = (if contains (bs "holiday") h then [] else h) ->
    exists us' v', fold_left l_step u2 (mkLState set (Some (mkLoc c nm (Some k) cu da ti nu te)) true val) =
    fold_left l_step us' (mkLState set (Some (mkLoc c nm (Some (add_holidays k (read_holiday h))) cu da ti nu te)) true v') /\ conveyed false ts us').
  { intros u2 val H2 ->. destruct (conv_end _ _ _ _ H2) as (w2 & u3 & -> & _ & Hnil & H3). rewrite (Hnil eq_refl). cbn [app fold_left].
    exists u3, (if contains (bs "holiday") h then [] else h). split; [|exact H3]. f_equal. unfold read_holiday, add_holidays.
    destruct (contains (bs "holiday") h).
    - cbn [l_step]. unfold l_end. rewrite app_nil_r. destruct k; reflexivity.
    - cbn [l_step]. unfold l_end. change (bytes_eqb (bs "holiday") (bs "locale")) with false. change (existsb (bytes_eqb (bs "holiday")) sections) with false.
      cbn beta iota. rewrite bytes_eqb_refl. destruct (TrimSpace h); [rewrite app_nil_r; destruct k; reflexivity|reflexivity]. }
  assert (K : forall u2, conveyed true (TEnd (bs "holiday") :: ts) u2 ->
    exists us' v', fold_left l_step (TChars h :: u2) (mkLState set (Some (mkLoc c nm (Some k) cu da ti nu te)) true []) =
    fold_left l_step us' (mkLState set (Some (mkLoc c nm (Some (add_holidays k (read_holiday h))) cu da ti nu te)) true v') /\ conveyed false ts us').
  { intros u2 H2. cbn [fold_left l_step l_chars andb app]. destruct (contains (bs "holiday") h) eqn:E; apply G; try exact H2; rewrite ?E; reflexivity. }
  destruct (conv_text _ _ _ H1) as (u2 & [(-> & H2)|(-> & H2)]); [|apply K, H2].
  destruct h as [|b0 h]; [|apply K, H2]. cbn [app]. apply G; [exact H2|reflexivity].
Qed.
Lemma l_holidays l ts : forall us b set c nm k cu da ti nu te v, conveyed b (flat_map (fun h => element (bs "holiday") [] [TChars h]) l ++ ts) us ->
  exists b' us' v', fold_left l_step us (mkLState set (Some (mkLoc c nm (Some k) cu da ti nu te)) true v) =
    fold_left l_step us' (mkLState set (Some (mkLoc c nm (Some (add_holidays k (flat_map read_holiday l))) cu da ti nu te)) true v') /\ conveyed b' ts us'.
Proof.
  induction l as [|h l IH]; intros us b set c nm k cu da ti nu te v H.
  - exists b, us, v. split; [|exact H]. cbn [flat_map]. unfold add_holidays. rewrite app_nil_r. destruct k; reflexivity.
  - cbn [flat_map] in H. rewrite <- app_assoc in H. destruct (l_holiday h _ us b set c nm k cu da ti nu te v H) as (u1 & v1 & -> & H1).
    destruct (IH u1 false set c nm (add_holidays k (read_holiday h)) cu da ti nu te v1 H1) as (b2 & u2 & v2 & -> & H2). exists b2, u2, v2. split; [|exact H2].
    unfold add_holidays. cbn [calSymbols calFirstDay calWeekend calHolidays flat_map]. rewrite <- app_assoc. reflexivity.
Qed.
Lemma l_calendar o ts us b set c nm cu da ti nu te cal v : conveyed b (maybe encodeCalendar o ++ ts) us ->
  exists b' us' v', fold_left l_step us (mkLState set (Some (mkLoc c nm None cu da ti nu te)) cal v) =
    fold_left l_step us' (mkLState set (Some (mkLoc c nm (option_map read_calendar o) cu da ti nu te)) (match o with Some _ => false | None => cal end) v') /\ conveyed b' ts us'.
Proof.
  destruct o as [x|]; intros H; [|exists b, us, v; split; [reflexivity|exact H]].
  cbn [maybe] in H. unfold encodeCalendar, element in H. cbn [app] in H. rewrite <- app_assoc in H. cbn [app] in H.
  destruct (conv_start _ _ _ _ _ H) as (ws & u1 & -> & Hw & H1 & _). rewrite fold_step. edestruct (l_blank ws Hw) as (v1 & ->).
  replace (l_step _ _) with (mkLState set (Some (mkLoc c nm (Some (mkCal (calSymbols x) (calFirstDay x) (calWeekend x) [])) cu da ti nu te)) true v1).
  2:{ rewrite sec_calendar. unfold parseCalendarAttributes. cbn [calSymbols calFirstDay calWeekend calHolidays]. attr. reflexivity. }
  change (fun h0 : bytes => element (bs "holiday") [] [TChars h0]) with (fun h0 : bytes => element (bs "holiday") [] [TChars h0]) in H1.
  destruct (l_holidays (calHolidays x) _ u1 true set c nm (mkCal (calSymbols x) (calFirstDay x) (calWeekend x) []) cu da ti nu te v1 H1) as (b2 & u2 & v2 & -> & H2).
  destruct (conv_end _ _ _ _ H2) as (ws3 & u4 & -> & Hw3 & _ & H4). rewrite fold_step. edestruct (l_blank ws3 Hw3) as (v4 & ->).
  exists false, u4, v4. split; [reflexivity|exact H4].
Qed.
Lemma last_code_same a b : last_code (opt_attr (bs "code") a ++ opt_attr (bs "name") b) = a.
Proof. destruct a, b; reflexivity. Qed.
Lemma l_locale l ts us b set v : conveyed b (encodeLocale l ++ ts) us -> locale_ints l ->
  exists us' v', fold_left l_step us (mkLState set None false v) =
    fold_left l_step us' (mkLState (mkLS (lsLocales set ++ [read_locale l]) (lsDefault set)) None false v') /\ conveyed false ts us'.
Proof.
  intros H (I1 & I2). unfold encodeLocale, element in H. cbn [app] in H. rewrite <- !app_assoc in H. cbn [app] in H.
  destruct (conv_start _ _ _ _ _ H) as (ws & u1 & -> & Hw & H1 & _). rewrite fold_step. edestruct (l_blank ws Hw) as (v1 & ->).
  replace (l_step _ _) with (mkLState set (Some (mkLoc (lCode l) (lName l) None None None None None None)) false v1).
  2:{ cbn [l_step]. unfold l_start. change (bytes_eqb (bs "locale") (bs "localeSet")) with false. cbn beta iota. rewrite bytes_eqb_refl, last_code_same. attr. reflexivity. }
  edestruct l_calendar as (b2 & u2 & v2 & -> & H2); [exact H1|].
  edestruct l_currency as (b3 & u3 & v3 & -> & H3); [exact H2|exact I1|].
  edestruct l_date as (b4 & u4 & v4 & -> & H4); [exact H3|].
  edestruct l_time as (b5 & u5 & v5 & -> & H5); [exact H4|].
  edestruct l_number as (b6 & u6 & v6 & -> & H6); [exact H5|exact I2|].
  edestruct l_text as (b7 & u7 & v7 & -> & H7); [exact H6|].
  destruct (conv_end _ _ _ _ H7) as (ws3 & u8 & -> & Hw3 & _ & H8). rewrite fold_step. edestruct (l_blank ws3 Hw3) as (v8 & ->).
  exists u8, v8. split; [reflexivity|exact H8].
Qed.
Lemma l_locales l ts : forall us b set v, conveyed b (flat_map encodeLocale l ++ ts) us -> Forall locale_ints l ->
  exists b' us' v', fold_left l_step us (mkLState set None false v) =
    fold_left l_step us' (mkLState (mkLS (lsLocales set ++ map read_locale l) (lsDefault set)) None false v') /\ conveyed b' ts us'.
Proof.
  induction l as [|x l IH]; intros us b set v H Hi.
  - exists b, us, v. split; [|exact H]. cbn [map]. rewrite app_nil_r. destruct set; reflexivity.
  - cbn [flat_map] in H. rewrite <- app_assoc in H. inversion Hi as [|y z P1 P2]; subst. destruct (l_locale x _ us b set v H P1) as (u1 & v1 & -> & H1).
    destruct (IH u1 false (mkLS (lsLocales set ++ [read_locale x]) (lsDefault set)) v1 H1 P2) as (b2 & u2 & v2 & -> & H2). exists b2, u2, v2. split; [|exact H2].
    cbn [lsLocales lsDefault map]. rewrite <- app_assoc. reflexivity.
Qed.
Theorem locales_roundtrip s ts us : LocaleSetToXFA s = Some ts -> conveyed false ts us -> Forall locale_ints (lsLocales s) ->
  ParseXFALocaleSet us = mkLS (map read_locale (lsLocales s)) (lsDefault s).
Proof.
  intros E H Hi. apply encoded_some in E as (-> & _). unfold element in H. cbn [app] in H.
  destruct (conv_start _ _ _ _ _ H) as (ws & u1 & -> & Hw & H1 & _). unfold ParseXFALocaleSet. rewrite fold_step. edestruct (l_blank ws Hw) as (v1 & ->).
  replace (l_step _ _) with (mkLState (mkLS [] (lsDefault s)) None false v1).
  2:{ cbn [l_step]. unfold l_start. rewrite bytes_eqb_refl. cbn [lsLocales lsDefault]. attr. reflexivity. }
  destruct (l_locales (lsLocales s) _ u1 true (mkLS [] (lsDefault s)) v1 H1 Hi) as (b2 & u2 & v2 & -> & H2).
  destruct (conv_end _ _ _ _ H2) as (ws3 & u8 & -> & Hw3 & _ & H8). rewrite fold_step. edestruct (l_blank ws3 Hw3) as (v8 & ->).
  rewrite (conv_nil _ _ H8). reflexivity.
Qed.
Lemma tidy_same l : tidy_locale l -> read_locale l = l /\ locale_ints l.
Proof.
  intros (T1 & T2 & T3). split.
  - destruct l as [c n ca cu da ti nu te]. cbn [lCurrency lNumber lCalendar] in *. unfold read_locale. cbn [lCode lName lCalendar lCurrency lDate lTime lNumber lText]. f_equal.
    + destruct ca as [x|]; [|reflexivity]. cbn [option_map]. f_equal. unfold read_calendar. destruct x as [a b w hs]. cbn [calSymbols calFirstDay calWeekend calHolidays]. f_equal.
      assert (G : forall h, In h hs -> h <> [] /\ TrimSpace h = h /\ contains (bs "holiday") h = false) by (intros h Hh; exact (T3 _ h eq_refl Hh)).
      clear -G. induction hs as [|h hs IH]; [reflexivity|]. cbn [flat_map]. destruct (G h (or_introl eq_refl)) as (N & E & C). unfold read_holiday at 1. rewrite C, E.
      destruct h; [contradiction|]. cbn [app]. f_equal. apply IH. intros h' Hh. apply G. right. exact Hh.
    + destruct cu as [x|]; [|reflexivity]. cbn [option_map]. f_equal. specialize (T1 x eq_refl). destruct x as [a b p]. unfold read_currency, from_zero. cbn [curSymbol curName curPrecision] in *. f_equal. lia.
    + destruct nu as [x|]; [|reflexivity]. cbn [option_map]. f_equal. specialize (T2 x eq_refl). destruct x as [a b g d p]. unfold read_number, from_zero. cbn [numFormat numSymbol numGrouping numDecimal numPrecision] in *. f_equal. lia.
  - split; [intros x E; specialize (T1 x E)|intros x E; specialize (T2 x E)]; unfold is_int; lia.
Qed.
Theorem locales_tidy s ts us : LocaleSetToXFA s = Some ts -> conveyed false ts us -> Forall tidy_locale (lsLocales s) -> ParseXFALocaleSet us = s.
Proof.
  intros E H Ht. rewrite (locales_roundtrip s ts us E H).
  - destruct s as [ls d]. cbn [lsLocales lsDefault] in *. f_equal. clear -Ht. induction Ht as [|l ls Hl Ht IH]; [reflexivity|]. cbn [map]. rewrite IH, (proj1 (tidy_same l Hl)). reflexivity.
  - eapply Forall_impl; [|exact Ht]. intros l Hl. apply tidy_same, Hl.
Qed.
(** writing never fails *)
Lemma named_element n a body : existsb unnamed (element n a body) = match n with [] => true | _ => false end || existsb unnamed body.
Proof. unfold element. cbn [existsb unnamed]. rewrite existsb_app. cbn [existsb unnamed]. rewrite !orb_false_r. destruct n; reflexivity. Qed.
Lemma named_flat_map {A} (f : A -> list token) l : (forall x, existsb unnamed (f x) = false) -> existsb unnamed (flat_map f l) = false.
Proof. intros H. induction l as [|x l IH]; [reflexivity|]. cbn [flat_map]. rewrite existsb_app, H, IH. reflexivity. Qed.
Lemma named_maybe {A} (f : A -> list token) o : (forall x, existsb unnamed (f x) = false) -> existsb unnamed (maybe f o) = false.
Proof. intros H. destruct o; [apply H|reflexivity]. Qed.
Theorem locales_written s : exists ts, LocaleSetToXFA s = Some ts.
Proof.
  unfold LocaleSetToXFA, encoded. rewrite named_element.
  change (match bs "localeSet" with [] => true | _ => false end) with false. cbn [orb].
  assert (G : existsb unnamed (flat_map encodeLocale (lsLocales s)) = false); [|rewrite G; eexists; reflexivity].
  apply named_flat_map. intros l. unfold encodeLocale. rewrite named_element, !existsb_app. change (match bs "locale" with [] => true | _ => false end) with false. cbn [orb].
  rewrite !named_maybe; [reflexivity| | | | | |]; intros x; try (unfold encodeText, encodeNumberPattern, encodePattern, encodeCurrency; rewrite named_element; reflexivity).
  unfold encodeCalendar. rewrite named_element. cbn [orb]. change (match bs "calendar" with [] => true | _ => false end) with false. cbn [orb].
  apply named_flat_map. intros h. reflexivity.
Qed.
