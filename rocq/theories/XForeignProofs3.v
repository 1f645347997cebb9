From Coq Require Import Permutation.
From Verif Require Import XDataSpec XDataProofs XForeignSpec XForeignProofs XForeignProofs2 Util.
Local Open Scope Z_scope.

Lemma says_eq k a v : last_attr k a [] = v -> says k a v.
Proof. intros <-. apply says_attr. Qed.
Lemma ticked_eq k a v : last_bool k a false = v -> ticked k a v.
Proof. intros <-. apply ticked_bool. Qed.
Lemma counts_eq k a v : last_int k a 0 = v -> counts k a v.
Proof. intros <-. apply counts_int. Qed.
Lemma natural_int z : natural z -> is_int z.
Proof. unfold natural, is_int. lia. Qed.
Lemma natural_from z : natural z -> from_zero z = z.
Proof. unfold natural, from_zero. lia. Qed.

Definition free (n : bytes) (ts : list token) : Prop := existsb (starts n) ts = false.
Lemma free_app n a b : free n a -> free n b -> free n (a ++ b).
Proof. unfold free. intros A B. rewrite existsb_app, A, B. reflexivity. Qed.
Lemma free_maybe {A} n (f : A -> list token) o : (forall x, free n (f x)) -> free n (maybe f o).
Proof. intros H. destruct o; [apply H|reflexivity]. Qed.
Lemma free_element n m a body : bytes_eqb m n = false -> free n body -> free n (element m a body).
Proof. unfold free, element. intros E H. cbn [existsb starts]. rewrite E, existsb_app, H. reflexivity. Qed.
Lemma free_flat {A} n (f : A -> list token) l : (forall x, In x l -> free n (f x)) -> free n (flat_map f l).
Proof. induction l as [|x l IH]; intros H; [reflexivity|]. cbn [flat_map]. apply free_app; [apply H; left; reflexivity|apply IH; intros y Q; apply H; right; exact Q]. Qed.
Lemma free_nil n : free n [].
Proof. reflexivity. Qed.
Lemma free_chars n x : free n [TChars x].
Proof. reflexivity. Qed.
(** one section among others *)
Lemma section_maybe {A} n (P : attrs -> A -> Prop) (f : A -> list token) (o : option A) pre post : free n pre -> free n post ->
  (forall x, o = Some x -> exists a body, f x = element n a body /\ free n body /\ P a x) -> section n (pre ++ maybe f o ++ post) P o.
Proof.
  intros H1 H2 H. destruct o as [x|]; cbn [maybe section].
  - destruct (H x eq_refl) as (a & body & -> & Hb & HP). split; [exists a; apply in_app_iff; right; left; reflexivity|].
    unfold element. cbn [app]. rewrite !attributes_app. cbn [attributes flat_map]. fold (attributes n). rewrite bytes_eqb_refl. fold (attributes n ((body ++ [TEnd n]) ++ post)).
    rewrite !attributes_app, (attributes_none n pre H1), (attributes_none n body Hb), (attributes_none n post H2). cbn. rewrite !app_nil_r. exact HP.
  - cbn [app]. intros Q. apply starts_occurs in Q. rewrite existsb_app in Q. unfold free in *. rewrite H1, H2 in Q. discriminate.
Qed.
Lemma section_change {A} n (P : attrs -> A -> Prop) ts us o : section n ts P o -> ts = us -> section n us P o.
Proof. intros H <-. exact H. Qed.
Ltac frees := repeat first [apply free_app|apply free_maybe; intros|apply free_nil|apply free_chars|apply free_element; [reflexivity|]|reflexivity].
(** the section in the [k]-th place of a concatenation *)
Lemma section_head {A} n (P : attrs -> A -> Prop) (f : A -> list token) (o : option A) post : free n post ->
  (forall x, o = Some x -> exists a body, f x = element n a body /\ free n body /\ P a x) -> section n (maybe f o ++ post) P o.
Proof. intros H2 H. exact (section_maybe n P f o [] post (free_nil n) H2 H). Qed.
Lemma section_last {A} n (P : attrs -> A -> Prop) (f : A -> list token) (o : option A) :
  (forall x, o = Some x -> exists a body, f x = element n a body /\ free n body /\ P a x) -> section n (maybe f o) P o.
Proof. intros H. apply (section_change n P (maybe f o ++ [])); [|apply app_nil_r]. apply section_head; [reflexivity|exact H]. Qed.
Lemma section_skip {A} n (P : attrs -> A -> Prop) (o : option A) pre ts : free n pre -> section n ts P o -> section n (pre ++ ts) P o.
Proof.
  intros H S. unfold section in *. destruct o as [x|].
  - destruct S as ((a & Q) & S). split; [exists a; apply in_app_iff; right; exact Q|]. rewrite attributes_app, (attributes_none n pre H). exact S.
  - intros (a & Q). apply in_app_iff in Q as [Q|Q]; [|apply S; exists a; exact Q]. assert (occurs n pre) as W by (exists a; exact Q). apply starts_occurs in W. unfold free in H. congruence.
Qed.
Lemma section_drop {A} n (P : attrs -> A -> Prop) (o : option A) post ts : free n post -> section n ts P o -> section n (ts ++ post) P o.
Proof.
  intros H S. unfold section in *. destruct o as [x|].
  - destruct S as ((a & Q) & S). split; [exists a; apply in_app_iff; left; exact Q|]. rewrite attributes_app, (attributes_none n post H), app_nil_r. exact S.
  - intros (a & Q). apply in_app_iff in Q as [Q|Q]; [apply S; exists a; exact Q|]. assert (occurs n post) as W by (exists a; exact Q). apply starts_occurs in W. unfold free in H. congruence.
Qed.
(** ** Elements *)
Definition untagged (n : bytes) (ts : list token) : Prop := forall t, In t ts -> match t with TStart m _ => bytes_eqb m n = false | TEnd m => bytes_eqb m n = false | TChars _ => True end.
Lemma untagged_app n a b : untagged n a -> untagged n b -> untagged n (a ++ b).
Proof. intros A B t Q. apply in_app_iff in Q as [Q|Q]; [apply A, Q|apply B, Q]. Qed.
Lemma untagged_maybe {A} n (f : A -> list token) o : (forall x, untagged n (f x)) -> untagged n (maybe f o).
Proof. intros H. destruct o; [apply H|intros t []]. Qed.
Lemma untagged_element n m a body : bytes_eqb m n = false -> untagged n body -> untagged n (element m a body).
Proof. intros E H t Q. unfold element in Q. cbn [In] in Q. destruct Q as [<-|Q]; [exact E|]. apply in_app_iff in Q as [Q|[<-|[]]]; [apply H, Q|exact E]. Qed.
Lemma untagged_flat {A} n (f : A -> list token) l : (forall x, In x l -> untagged n (f x)) -> untagged n (flat_map f l).
Proof. intros H t Q. apply in_flat_map in Q as (x & Q & R). exact (H x Q t R). Qed.
Lemma untagged_nil n : untagged n [].
Proof. intros t []. Qed.
Lemma untagged_chars n x : untagged n [TChars x].
Proof. intros t [<-|[]]. exact I. Qed.
Ltac untag := repeat first [apply untagged_app|apply untagged_maybe; intros|apply untagged_nil|apply untagged_chars|apply untagged_element; [reflexivity|]].
Lemma elements_body n body : untagged n body -> forall a b rest, elements n (Some (a, b)) (body ++ TEnd n :: rest) = (a, b ++ body) :: elements n None rest.
Proof.
  induction body as [|t body IH]; intros H a b rest.
  - cbn [app elements]. rewrite bytes_eqb_refl, app_nil_r. reflexivity.
  - pose proof (H t (or_introl eq_refl)) as Ht. assert (Hb : untagged n body) by (intros u Q; apply H; right; exact Q).
    cbn [app elements]. destruct t as [m x|m|x]; try rewrite Ht; cbn [option_map fst snd]; rewrite IH by exact Hb; rewrite <- app_assoc; reflexivity.
Qed.
Lemma elements_element n a body rest : untagged n body -> elements n None (element n a body ++ rest) = (a, body) :: elements n None rest.
Proof. intros H. unfold element. cbn [app elements]. rewrite bytes_eqb_refl, <- app_assoc. cbn [app]. rewrite (elements_body n body H). reflexivity. Qed.

(** ** Locale sets *)
Lemma either_code (l : locale) : last_attr (bs "code") (either (opt_attr (bs "code") (lCode l) ++ opt_attr (bs "name") (lName l))) [] = lCode l.
Proof. destruct (lCode l), (lName l); reflexivity. Qed.
Ltac piece := let x := fresh "x" in let E := fresh "E" in intros x E; eexists; eexists; split; [reflexivity|split; [frees|constructor; first [apply says_eq|apply counts_eq|apply ticked_eq]; attr; try reflexivity]].
Lemma locale_body_says l : locale_numbers l -> says_locale
  (opt_attr (bs "code") (lCode l) ++ opt_attr (bs "name") (lName l),
   maybe encodeCalendar (lCalendar l) ++ maybe encodeCurrency (lCurrency l) ++ maybe (encodePattern (bs "datePattern")) (lDate l) ++
     maybe (encodePattern (bs "timePattern")) (lTime l) ++ maybe encodeNumberPattern (lNumber l) ++ maybe encodeText (lText l)) l.
Proof.
  intros (N1 & N2). constructor; cbn [fst snd].
  - apply says_eq, either_code.
  - apply says_eq. attr. reflexivity.
  - apply section_head; [frees|]. intros x E. eexists. eexists. split; [reflexivity|split; [|constructor; apply says_eq; attr; reflexivity]]. apply free_flat. intros h _. reflexivity.
  - apply section_skip; [apply free_maybe; intros x; unfold encodeCalendar; apply free_element; [reflexivity|apply free_flat; intros h _; reflexivity]|].
    apply section_head; [frees|]. piece. apply N1 in E. rewrite last_int_same by (apply natural_int, E). apply natural_from, E.
  - apply section_skip; [apply free_maybe; intros x; unfold encodeCalendar; apply free_element; [reflexivity|apply free_flat; intros h _; reflexivity]|].
    apply section_skip; [frees|]. apply section_head; [frees|]. piece.
  - apply section_skip; [apply free_maybe; intros x; unfold encodeCalendar; apply free_element; [reflexivity|apply free_flat; intros h _; reflexivity]|].
    do 2 (apply section_skip; [frees|]). apply section_head; [frees|]. piece.
  - apply section_skip; [apply free_maybe; intros x; unfold encodeCalendar; apply free_element; [reflexivity|apply free_flat; intros h _; reflexivity]|].
    do 3 (apply section_skip; [frees|]). apply section_head; [frees|]. piece. apply N2 in E. rewrite last_int_same by (apply natural_int, E). apply natural_from, E.
  - apply section_skip; [apply free_maybe; intros x; unfold encodeCalendar; apply free_element; [reflexivity|apply free_flat; intros h _; reflexivity]|].
    do 4 (apply section_skip; [frees|]). apply section_last. piece.
Qed.
Theorem locale_set_written s ts : LocaleSetToXFA s = Some ts -> Forall locale_numbers (lsLocales s) ->
  says (bs "default") (attributes (bs "localeSet") ts) (lsDefault s) /\ Forall2 says_locale (elements (bs "locale") None ts) (lsLocales s).
Proof.
  intros E H. apply encoded_some in E as (-> & _). split.
  - apply says_eq. unfold element. cbn [attributes flat_map]. rewrite bytes_eqb_refl. fold (attributes (bs "localeSet")).
    match goal with |- context [flat_map ?f (?b ++ [?e])] => replace (flat_map f (b ++ [e])) with ([] : attrs); [rewrite app_nil_r; attr; reflexivity|] end.
    symmetry. change (attributes (bs "localeSet") (flat_map encodeLocale (lsLocales s) ++ [TEnd (bs "localeSet")]) = []). apply attributes_none. apply free_app; [|reflexivity].
    apply free_flat. intros l _. unfold encodeLocale. apply free_element; [reflexivity|]. frees; unfold encodeCalendar, encodeCurrency, encodePattern, encodeNumberPattern, encodeText; frees. apply free_flat. intros h _. reflexivity.
  - unfold element. cbn [elements]. change (bytes_eqb (bs "localeSet") (bs "locale")) with false. cbn iota. cbn [option_map].
    induction H as [|l ls Hl H IH]; [constructor|]. cbn [flat_map]. rewrite <- app_assoc. unfold encodeLocale at 1. rewrite elements_element.
    + constructor; [apply locale_body_says, Hl|exact IH].
    + untag; unfold encodeCalendar, encodeCurrency, encodePattern, encodeNumberPattern, encodeText; untag. apply untagged_flat. intros h _. untag.
Qed.

(** ** Configurations *)
Lemma section_element {A} n m a body (P : attrs -> A -> Prop) o : bytes_eqb m n = false -> section n body P o -> section n (element m a body) P o.
Proof.
  intros E H. unfold element. apply (section_skip n P o [TStart m a]); [unfold free; cbn [existsb starts]; rewrite E; reflexivity|]. apply section_drop; [reflexivity|exact H].
Qed.
Lemma inside_closed ts : (forall t, In t ts -> match t with TStart m _ => m <> bs "present" | _ => True end) -> inside false ts = [] /\ open_after false ts = false.
Proof.
  induction ts as [|t ts IH]; intros H; [split; reflexivity|]. destruct IH as (A & B); [intros u Q; apply H; right; exact Q|]. pose proof (H t (or_introl eq_refl)) as Ht.
  destruct t as [m a|m|x]; cbn [inside open_after app]; try (destruct (is_section m)); try (split; assumption).
  replace (bytes_eqb m (bs "present")) with false; [split; assumption|]. symmetry. destruct (bytes_eqb m (bs "present")) eqn:E; [apply bytes_eqb_eq in E; contradiction|reflexivity].
Qed.
Lemma free_present ts : free (bs "present") ts -> forall t, In t ts -> match t with TStart m _ => m <> bs "present" | _ => True end.
Proof. intros H t Q. destruct t as [m a| |]; try exact I. intros ->. assert (occurs (bs "present") ts) as W by (exists a; exact Q). apply starts_occurs in W. unfold free in H. congruence. Qed.
Section Written.
Context {V : Type} (show : V -> bytes) (perm : list (bytes * V) -> list (bytes * V)) (Hperm : forall l, Permutation (perm l) l).
Lemma props_free n ps : (forall k, In k (map fst ps) -> plain_name k) -> In n (top_sections ++ [bs "config"; bs "pdf"; bs "interactive"]) -> free n (flat_map (property show) (perm ps)).
Proof.
  intros H Q. apply free_flat. intros e R. apply free_element; [|reflexivity].
  assert (K : plain_name (fst e)) by (apply H; apply in_map; apply (Permutation_in e (Hperm ps)); exact R).
  destruct (bytes_eqb (fst e) n) eqn:E; [|reflexivity]. apply bytes_eqb_eq in E. exfalso. apply K. rewrite E. exact Q.
Qed.
Ltac cfree := repeat first [apply free_element; [reflexivity|]|apply free_app|apply free_maybe; intros|apply free_nil|apply free_chars|
  progress (unfold encodeConfigPresent, encodeConfigPDF, encodeConfigInteractive, encodeConfigSubmit, encodeTwo, encodeConfigAcrobat)|
  match goal with |- free _ (encodeConfigValidate ?x) => destruct x as [[? ?] ?]; unfold encodeConfigValidate end|
  apply free_element; [reflexivity|]|apply props_free; [assumption|cbn; tauto]|reflexivity].
Ltac cpiece := let x := fresh "x" in let E := fresh "E" in intros x E; eexists; eexists; split; [reflexivity|split; [cfree|]].
Lemma submit_said s : suProps s = [] -> says_submit (opt_attr (bs "format") (suFormat s) ++ opt_attr (bs "target") (suTarget s) ++ opt_attr (bs "method") (suMethod s) ++
     bool_attr (bs "embedPDF") (suEmbed s) ++ opt_attr (bs "xdpContent") (suXDP s) ++ opt_attr (bs "textEncoding") (suEncoding s)) s.
Proof.
  intros E. constructor; first [apply says_eq; attr; reflexivity|apply ticked_eq; attr; reflexivity|idtac]. intros k v. rewrite E. split; [discriminate|]. intros (Q & _ & N). exfalso. apply N.
  assert (G : forall j x, In k (map fst (opt_attr j x)) -> k = j) by (intros j [|c x]; cbn; [intros []|intros [<-|[]]; reflexivity]).
  assert (G' : forall j b, In k (map fst (bool_attr j b)) -> k = j) by (intros j [|]; cbn; [intros [<-|[]]; reflexivity|intros []]).
  rewrite !map_app, !in_app_iff in Q. decompose [or] Q; match goal with W : In k _ |- _ => (apply G in W || apply G' in W); subst; cbn; tauto end.
Qed.
Theorem config_written c ts : ConfigToXFA show perm c = Some ts -> (forall k, In k (map fst (gProps c)) -> plain_name k) ->
  (forall p i, gPresent c = Some p -> prInteractive p = Some i -> natural (inPage i)) -> (forall a, gAcrobat c = Some a -> natural (acAutoSaveTime a)) ->
  (forall s, gSubmit c = Some s -> suProps s = []) ->
  section (bs "present") ts (says_present ts) (gPresent c) /\ section (bs "submit") ts says_submit (gSubmit c) /\
  section (bs "destination") ts (says_two (bs "type") (bs "target")) (gDestination c) /\ section (bs "acrobat") ts says_acrobat (gAcrobat c) /\
  section (bs "validate") ts says_validate (gValidate c) /\ section (bs "common") ts (says_two (bs "dataPrefix") (bs "timeStamp")) (gCommon c) /\
  section (bs "output") ts (says_two (bs "format") (bs "destination")) (gOutput c).
Proof.
  intros E Hk Hi Ha Hs. apply encoded_some in E as (-> & _).
  repeat apply conj.
  - (* present *)
    match goal with |- section _ ?T _ _ => set (ts := T) end.
    apply section_element; [reflexivity|]. apply section_head; [cfree|].
    intros p Ep. eexists. eexists. split; [reflexivity|split; [cfree|]].
    match goal with |- says_present _ ?A _ => set (a := A) end.
    assert (In1 : exists rest, inside false ts = (maybe encodeConfigPDF (prPDF p) ++ maybe encodeConfigInteractive (prInteractive p)) ++ rest /\ rest = []).
    { eexists. split; [|reflexivity]. rewrite app_nil_r. subst ts. rewrite Ep. unfold element. cbn [inside]. change (is_section (bs "config")) with false. cbn iota. cbn [app maybe].
      rewrite <- app_assoc. unfold encodeConfigPresent, element. cbn [app]. cbn [inside]. change (is_section (bs "present")) with true. cbn iota. rewrite bytes_eqb_refl.
      rewrite <- app_assoc. cbn [app]. 
      assert (O : forall o i rest, inside true ((maybe encodeConfigPDF o ++ maybe encodeConfigInteractive i) ++ TEnd (bs "present") :: rest) =
        (maybe encodeConfigPDF o ++ maybe encodeConfigInteractive i) ++ inside false rest) by (intros [o|] [i|] rest; reflexivity).
      rewrite O. match goal with |- _ ++ inside false ?R = _ => assert (FR : free (bs "present") R) by cfree end. rewrite (proj1 (inside_closed _ (free_present _ FR))). apply app_nil_r. }
    destruct In1 as (rest & In1 & ->). rewrite app_nil_r in In1. constructor.
    + apply says_eq. subst a. attr. reflexivity.
    + apply says_eq. subst a. attr. reflexivity.
    + rewrite In1. apply section_head; [cfree|]. cpiece. constructor; first [apply says_eq|apply ticked_eq]; attr; reflexivity.
    + rewrite In1. apply section_skip; [cfree|]. apply section_last. cpiece. specialize (Hi p _ Ep E). constructor; first [apply says_eq; attr; reflexivity|apply counts_eq; attr].
      rewrite last_int_same by (apply natural_int, Hi). apply natural_from, Hi.
  - apply section_element; [reflexivity|]. do 2 (apply section_skip; [cfree|]). apply section_head; [cfree|]. cpiece. apply submit_said, Hs, E.
  - apply section_element; [reflexivity|]. do 3 (apply section_skip; [cfree|]). apply section_head; [cfree|]. cpiece. split; apply says_eq; attr; reflexivity.
  - apply section_element; [reflexivity|]. do 4 (apply section_skip; [cfree|]). apply section_head; [cfree|]. cpiece. specialize (Ha _ E).
    constructor; first [apply says_eq; attr; reflexivity|apply ticked_eq; attr; reflexivity|apply counts_eq; attr]. rewrite last_int_same by (apply natural_int, Ha). apply natural_from, Ha.
  - apply section_element; [reflexivity|]. do 1 (apply section_skip; [cfree|]). apply section_head; [cfree|]. intros [[x y] z] E. eexists. eexists. split; [reflexivity|split; [reflexivity|]].
    constructor; apply says_eq; attr; reflexivity.
  - apply section_element; [reflexivity|]. do 5 (apply section_skip; [cfree|]). apply section_head; [cfree|]. cpiece. split; apply says_eq; attr; reflexivity.
  - apply section_element; [reflexivity|]. do 6 (apply section_skip; [cfree|]). apply section_head; [cfree|]. cpiece. split; apply says_eq; attr; reflexivity.
Qed.
(** ** Connection sets *)
Lemma not_in_neq (k n : bytes) l : ~ In k l -> In n l -> bytes_eqb k n = false.
Proof. intros H Q. destruct (bytes_eqb k n) eqn:E; [apply bytes_eqb_eq in E as ->; contradiction|reflexivity]. Qed.
Theorem connections_written (cs : list (connection V)) ts : ConnectionSetToXFA show perm cs = Some ts -> Forall plain_connection cs ->
  Forall2 says_connection (elements (bs "connection") None ts) cs.
Proof.
  intros E H. apply encoded_some in E as (-> & _). unfold element. cbn [elements]. change (bytes_eqb (bs "connectionSet") (bs "connection")) with false. cbn iota. cbn [option_map].
  induction H as [|c cs Hc H IH]; [constructor|]. cbn [flat_map]. rewrite <- app_assoc. unfold encodeConnection at 1.
  assert (K1 : forall n e, In n [bs "connection"; bs "dataDescription"] -> In e (perm (cProps c)) -> bytes_eqb (fst e) n = false).
  { intros n e Hn He. apply (not_in_neq _ n [bs "connection"; bs "dataDescription"]); [|exact Hn]. apply Hc. left. apply in_map, (Permutation_in e (Hperm _)), He. }
  assert (K2 : forall n d e, cDesc c = Some d -> In n [bs "connection"; bs "dataDescription"] -> In e (perm (dProps d)) -> bytes_eqb (fst e) n = false).
  { intros n d e Hd Hn He. apply (not_in_neq _ n [bs "connection"; bs "dataDescription"]); [|exact Hn]. apply Hc. right. exists d. split; [exact Hd|]. apply in_map, (Permutation_in e (Hperm _)), He. }
  rewrite elements_element.
  - constructor; [|exact IH]. constructor; cbn [fst snd].
    + apply says_eq. attr. reflexivity.
    + apply says_eq. attr. reflexivity.
    + change (match cDesc c with Some d => encodeDataDescription show perm d | None => [] end) with (maybe (encodeDataDescription show perm) (cDesc c)).
      apply section_head; [apply free_flat; intros e Q; apply free_element; [apply K1; [cbn; tauto|exact Q]|reflexivity]|].
      intros d Hd. eexists. eexists. split; [reflexivity|split; [apply free_flat; intros e Q; apply free_element; [apply (K2 _ d); [exact Hd|cbn; tauto|exact Q]|reflexivity]|]].
      constructor; apply says_eq; attr; reflexivity.
  - apply untagged_app.
    + destruct (cDesc c) as [d|] eqn:Hd; [|apply untagged_nil]. unfold encodeDataDescription. apply untagged_element; [reflexivity|]. apply untagged_flat. intros e Q. apply untagged_element; [apply (K2 _ d); [reflexivity|cbn; tauto|exact Q]|apply untagged_chars].
    + apply untagged_flat. intros e Q. apply untagged_element; [apply K1; [cbn; tauto|exact Q]|apply untagged_chars].
Qed.
End Written.
