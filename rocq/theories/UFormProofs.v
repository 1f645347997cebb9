(** Proofs about the unified interface. *)
From Verif Require Import Util Scan XfaModel XfaSpec WriterProofs ParseProofs ReadProofs XrefProofs XfaProofs XfaProofs2 XfaProofs3.
From Verif Require Import TextModel FormsModel FormsSpec FormsProofs2 FormsProofs3 UFormModel UFormSpec.
From Verif Require XFormModel DatasetsModel.
Local Open Scope Z_scope.

(** ** A written file that does not mention encryption *)
Lemma written_no_encrypt deflate order w out :
  is_order order -> useXRefStream w = false -> useObjectStream w = false -> encryptRef w = None -> all_readable w ->
  fst (Write deflate order None w) = out -> contains (bs "/Encrypt") out = false.
Proof.
  intros Hord Hx Hs He (Rv1 & Rv2 & Rt) Hout.
  destruct (write_structure deflate order w out Hord Hx Hs Hout) as (body & ps & Eo & Hmem & Hps & Hall).
  cbv zeta in *. set (w1 := updateCatalogWithOutlines w) in *.
  assert (encryptRef w1 = None) as He1 by (unfold w1; destruct (update_catalog_fields w) as (_&_&_&_&_&_&->&_); exact He).
  set (hb := pdf_header (pdfVersion w) ++ body) in *.
  assert (nostart (bs "/Encrypt") hb) as Hen.
  { unfold hb. apply nostart_app; [apply header_nostart; try reflexivity; [apply no_nl_in; reflexivity|exact Rv2]|].
    apply Hall; [apply nostart_nil|intros; apply nostart_app; assumption|].
    intros n t Ht. apply obj_nostart; [reflexivity|apply no_nl_in; reflexivity|]. destruct (Rt n t Ht) as (_&_&R&_). exact R. }
  apply ReadProofs.nostart_contains; [discriminate|]. rewrite Eo. apply nostart_app; [exact Hen|].
  apply nostart_app; [apply table_nostart; reflexivity|].
  apply nostart_app; [apply trailer_nostart; [reflexivity|exact He1]|apply startxref_text_nostart; reflexivity].
Qed.

Lemma flags_kept w ds form w1 cat w2 : plain_writer w -> BuildFields ds w = (Ok form, w1) -> AddAcroFormToCatalog cat form w1 = Ok w2 ->
  useXRefStream w2 = false /\ useObjectStream w2 = false /\ encryptRef w2 = None.
Proof.
  intros (Wx & Ws & We & _) Hb Ha. unfold BuildFields in Hb. destruct ds as [|d0 ds0]; [discriminate|]. remember (d0 :: ds0) as ds eqn:Eds.
  destruct (create_fields ds w) as [ns wa] eqn:Ec. unfold AddObject in Hb. injection Hb as Hform Hw1.
  destruct (create_spec ds w ns wa Ec) as (N & L & Nth & Ob & Lo & Hi & D & R & Ee & Eo & Ev & Ex & Es).
  assert (G : useXRefStream w1 = false /\ useObjectStream w1 = false /\ encryptRef w1 = None).
  { rewrite <- Hw1. cbn [set_next set_objects useXRefStream useObjectStream encryptRef]. repeat split; congruence. }
  unfold AddAcroFormToCatalog in Ha. destruct (WGetObject cat w1) as [t| |]; cbn [rbind] in Ha; [|discriminate Ha|discriminate Ha].
  destruct (contains (bs "/AcroForm") t); [injection Ha as <-; exact G|].
  destruct (last_index (bs ">>") t); [|discriminate Ha]. injection Ha as <-. unfold SetObject. destruct (nextObjNum w1 <=? cat); exact G.
Qed.

Section Forms.
Context {F : Type} (parseF : bytes -> option F).
Context (stack : nat) (inflate zl fl : bytes -> option bytes) (deflate : bytes -> bytes).
Context (crypt : bytes -> bytes -> result (option decryptor)) (tokens : bytes -> list DatasetsModel.token).
Context (ff sf : bytes -> Z -> result bytes) (order : list Z -> list Z).
Notation ExtractAcroForm := (ExtractAcroForm stack inflate crypt).
Notation xfa_streams := (xfa_streams inflate zl fl ff sf).
Notation Detect := (Detect stack inflate zl fl crypt ff sf).
Notation Extract := (Extract parseF stack inflate zl fl crypt tokens ff sf).
Notation ExtractXFA := (ExtractXFA parseF inflate zl fl tokens ff sf).

Lemma password_used f pw : contains (bs "/Encrypt") f = true ->
  (crypt pw f = Err -> ExtractAcroForm f pw = Err) /\
  (forall dec, crypt pw f = Ok dec -> ExtractAcroForm f pw = ParseAcroForm stack inflate (crypt []) dec f).
Proof. intros H. unfold UFormModel.ExtractAcroForm. rewrite H. split; [intros ->|intros dec ->]; reflexivity. Qed.
Lemma password_unused f pw : contains (bs "/Encrypt") f = false ->
  ExtractAcroForm f pw = ParseAcroForm stack inflate (crypt []) None f.
Proof. intros H. unfold UFormModel.ExtractAcroForm. rewrite H. reflexivity. Qed.

Lemma fill_acro rawdeflate a f0 pw0 f data pw :
  Fill stack inflate zl fl deflate rawdeflate crypt ff sf order (@AcroFormWrapper F a f0 pw0) f data pw =
  FillFormFields stack inflate deflate (crypt pw) (crypt []) order f data.
Proof. reflexivity. Qed.

Lemma detect_extract f pw : Detect f pw = rmap Type_ (Extract f pw).
Proof.
  unfold UFormModel.Detect, UFormModel.Extract.
  assert (E : match xfa_streams f with
    | Ok s => match kget (bs "template") s with Some i => match siData i with [] => Err | _ :: _ => Ok TypeXFA end | None => Err end
    | Err => Err | Panic => Panic end =
    rmap Type_ (match xfa_streams f with
    | Ok s => match kget (bs "template") s with Some i => match siData i with [] => Err | b :: t => Ok (XFAFormWrapper (XFormModel.ParseXFAForm parseF (tokens (b :: t))) (datasets_of parseF tokens s) f pw) end | None => Err end
    | Err => Err | Panic => Panic end)).
  { destruct (xfa_streams f) as [s| |]; [|reflexivity|reflexivity]. destruct (kget (bs "template") s) as [i|]; [|reflexivity].
    destruct (siData i); reflexivity. }
  destruct (ExtractAcroForm f pw) as [a| |]; [|exact E|reflexivity]. destruct (fmFields a); [exact E|reflexivity].
Qed.



Lemma extract_acro f pw a : ExtractAcroForm f pw = Ok a -> fmFields a <> [] -> Extract f pw = Ok (AcroFormWrapper a f pw).
Proof. intros H Hn. unfold UFormModel.Extract. rewrite H. destruct (fmFields a); [congruence|reflexivity]. Qed.
Lemma extract_xfa f pw s i : fieldless (ExtractAcroForm f pw) -> xfa_streams f = Ok s -> kget (bs "template") s = Some i -> siData i <> [] ->
  Extract f pw = Ok (XFAFormWrapper (XFormModel.ParseXFAForm parseF (tokens (siData i))) (datasets_of parseF tokens s) f pw).
Proof.
  intros H Hs Hi Hd. unfold UFormModel.Extract. rewrite Hs, Hi. destruct (siData i) as [|b t]; [congruence|].
  destruct H as [->|(a & -> & ->)]; reflexivity.
Qed.
Lemma extract_none f pw : Extract f pw = Err <->
  fieldless (ExtractAcroForm f pw) /\
  templateless (xfa_streams f).
Proof.
  unfold UFormModel.Extract, fieldless, templateless. split.
  - intros H.
    assert (Q : match xfa_streams f with
      | Ok s => match kget (bs "template") s with Some i => match siData i with [] => Err | b :: t => Ok (XFAFormWrapper (XFormModel.ParseXFAForm parseF (tokens (b :: t))) (datasets_of parseF tokens s) f pw) end | None => Err end
      | Err => Err | Panic => Panic end = Err ->
      xfa_streams f = Err \/ exists s, xfa_streams f = Ok s /\ forall i, kget (bs "template") s = Some i -> siData i = []).
    { destruct (xfa_streams f) as [s| |]; [|auto|discriminate]. intros Q. right. exists s. split; [reflexivity|]. intros i Hi. rewrite Hi in Q.
      destruct (siData i); [reflexivity|discriminate]. }
    destruct (ExtractAcroForm f pw) as [a| |]; [|split; [left; reflexivity|apply Q, H]|discriminate].
    destruct (fmFields a) eqn:E; [|discriminate]. split; [right; exists a; auto|apply Q, H].
  - intros [H Hx].
    assert (Q : match xfa_streams f with
      | Ok s => match kget (bs "template") s with Some i => match siData i with [] => Err | b :: t => Ok (XFAFormWrapper (XFormModel.ParseXFAForm parseF (tokens (b :: t))) (datasets_of parseF tokens s) f pw) end | None => Err end
      | Err => Err | Panic => Panic end = Err).
    { destruct Hx as [->|(s & -> & Hi)]; [reflexivity|]. destruct (kget (bs "template") s) as [i|]; [|reflexivity]. rewrite (Hi i eq_refl). reflexivity. }
    destruct H as [->|(a & -> & ->)]; exact Q.
Qed.
Lemma extract_same f pw x : Extract f pw = Ok x ->
  match x with
  | AcroFormWrapper a f' pw' => ExtractAcroForm f pw = Ok a /\ fmFields a <> [] /\ f' = f /\ pw' = pw
  | XFAFormWrapper s d f' pw' => fieldless (ExtractAcroForm f pw) /\ ExtractXFA f pw = Ok (Some s, d) /\ f' = f /\ pw' = pw
  end.
Proof.
  unfold UFormModel.Extract, UFormModel.ExtractXFA, fieldless. intros H.
  assert (Q : match xfa_streams f with
      | Ok s => match kget (bs "template") s with Some i => match siData i with [] => Err | b :: t => Ok (XFAFormWrapper (XFormModel.ParseXFAForm parseF (tokens (b :: t))) (datasets_of parseF tokens s) f pw) end | None => Err end
      | Err => Err | Panic => Panic end = Ok x ->
      match x with
      | AcroFormWrapper _ _ _ => False
      | XFAFormWrapper s d f' pw' => rbind (xfa_streams f) (fun s => Ok (match kget (bs "template") s with Some i => Some (XFormModel.ParseXFAForm parseF (tokens (siData i))) | None => None end, datasets_of parseF tokens s)) = Ok (Some s, d) /\ f' = f /\ pw' = pw
      end).
  { destruct (xfa_streams f) as [s| |]; [|discriminate|discriminate]. cbn [rbind]. destruct (kget (bs "template") s) as [i|]; [|discriminate].
    destruct (siData i); [discriminate|]. intros Q. injection Q as <-. auto. }
  destruct (ExtractAcroForm f pw) as [a| |]; [|apply Q in H; destruct x; [contradiction|destruct H as (?&?&?); auto]|discriminate].
  destruct (fmFields a) as [|y ys] eqn:E.
  - apply Q in H. destruct x; [contradiction|]. destruct H as (?&?&?). split; [right; exists a; auto|auto].
  - injection H as <-. rewrite E. repeat split. discriminate.
Qed.

(** ** A document built from XFA streams *)
Lemma form_no_fields n es get : 0 <= n -> good_entries es ->
  exists b, parseAcroFormDict stack get (object_text n (xfa_form es)) = Ok (mkForm [] b).
Proof.
  intros Hn _. unfold parseAcroFormDict.
  assert (E : search (m_arr (bs "/Fields")) (object_text n (xfa_form es)) = Some []).
  { unfold search, object_text, xfa_form.
    assert (Q : decZ n ++ bs " 0 obj" ++ nl ++ (bs "<</Fields[]/XFA[" ++ flat_map xfa_entry es ++ bs "]>>") ++ nl ++ bs "endobj" =
      (decZ n ++ bs " 0 obj" ++ nl ++ bs "<<") ++ bs "/Fields[]/XFA[" ++ flat_map xfa_entry es ++ bs "]>>" ++ nl ++ bs "endobj") by (rewrite <- !app_assoc; reflexivity).
    rewrite Q. erewrite find_at; [reflexivity| |].
    - apply (nostart_nofire _ (bs "/Fields")); [intros u Hu; unfold m_arr; rewrite (proj2 (lit_none _ _) Hu); reflexivity|].
      apply nostart_app; [apply nostart_decZ; [exact Hn|reflexivity]|apply nostartb_ok; reflexivity].
    - reflexivity. }
  rewrite E. eexists. reflexivity.
Qed.

Lemma built_fieldless l out pw : is_order order -> l <> [] -> NoDup (map xdName l) -> Forall (good_stream deflate zl fl) l ->
  fst (Write deflate order None (BuildFromXFA deflate l)) = out -> Z.of_nat (length out) < 10 ^ 10 -> fieldless (ExtractAcroForm out pw).
Proof.
  intros Hord Hne Hd Hg Hout HL.
  assert (Hnames : Forall (fun s => In (xdName s) stream_names) l) by (eapply Forall_impl; [|exact Hg]; intros s Hs; apply Hs).
  assert (Hlen : (length l <= 9)%nat).
  { rewrite <- (map_length xdName). change 9%nat with (length stream_names). apply NoDup_incl_length; [exact Hd|].
    intros n Hn. apply in_map_iff in Hn. destruct Hn as (s & <- & Hs). rewrite Forall_forall in Hnames. apply Hnames, Hs. }
  remember (BuildFromXFA deflate l) as w eqn:Ew. symmetry in Ew.
  destruct (XfaProofs.built deflate l w Ew) as (B1 & B2 & B3 & B4 & B5 & B6 & B7 & B8 & B9 & B10 & B11).
  set (k := Z.of_nat (length l)) in *.
  assert (GE : good_entries (form_entries l)) by (apply entries_good; [lia|exact Hnames]).
  assert (AR : all_readable w).
  { unfold all_readable. rewrite B4, B5. split; [reflexivity|]. split; [reflexivity|]. intros n t Ht.
    destruct (B11 n t Ht) as [(s & Hs & ->)|[[_ ->]|[_ ->]]].
    - apply stream_readable. apply numbered_range in Hs. destruct Hs as [_ Hs]. rewrite Forall_forall in Hg. apply (Hg s Hs).
    - apply form_readable. exact GE.
    - apply catalog_readable. lia. }
  assert (Get : forall n t, 1 <= n < k + 3 -> stored_text w n t -> GetObject inflate None out n = Ok (object_text n t)).
  { intros n t Hn Ht. eapply read_back_get; try eassumption; try lia. rewrite B5. exact Ht. }
  unfold UFormModel.ExtractAcroForm. rewrite (written_no_encrypt deflate order w out) by assumption. cbn [rbind].
  destruct (read_back deflate order inflate (crypt []) w out) as (p & HOpen & _); try eassumption; try lia.
  unfold ParseAcroForm. rewrite HOpen. cbn [rbind]. unfold parseAcroFormFromBytes.
  destruct (search m_acroform out) as [[d r]|] eqn:Es; [|left; reflexivity].
  assert (Ed : d = decZ (k + 1)).
  { destruct (written_before (bs "/AcroForm") deflate order w out (k + 2)) as (pre & t & rest & E1 & E2 & E3); try assumption; try reflexivity.
    - apply no_nl_in; reflexivity.
    - rewrite B4. reflexivity.
    - intros m t Hm Ht. rewrite B5 in Ht. destruct (B11 m t Ht) as [(s & Hs & ->)|[[_ ->]|[Q _]]]; [| |lia].
      + apply numbered_range in Hs. destruct Hs as [_ Hs]. rewrite Forall_forall in Hg. destruct (Hg s Hs) as (_ & Q & _).
        apply stream_lacks; try reflexivity; [discriminate|apply no_nl_in; reflexivity|apply Q].
      + apply form_lacks; [exact GE|..]; reflexivity.
    - destruct B10 as (o & Ho & _). unfold mem. rewrite Ho. reflexivity.
    - rewrite B5 in E2. assert (t = xfa_catalog (k + 1)) by (eapply stored_unique; eassumption). subst t.
      assert (EE : out = (pre ++ decZ (k + 2) ++ bs " 0 obj" ++ nl ++ bs "<</Type/Catalog") ++ bs "/AcroForm " ++ ref (k + 1) ++ (bs ">>" ++ nl ++ bs "endobj" ++ nl ++ rest)).
      { rewrite E1. unfold obj_text, xfa_catalog, ref. rewrite <- !app_assoc. reflexivity. }
      rewrite EE in Es. unfold search in Es. erewrite find_at in Es; [|
        | apply acroform_here; lia].
      + cbn [value_of] in Es. injection Es as <- _; reflexivity.
      + eapply nostart_nofire; [exact acroform_lit|].
        apply nostart_app; [exact E3|]. apply nostart_app; [apply nostart_decZ; [lia|reflexivity]|apply nostartb_ok; reflexivity]. }
  rewrite Ed, atoi_decZ by (change (2 ^ 63) with 9223372036854775808; lia). rewrite (Get (k + 1) _ ltac:(lia) B9). cbn [rbind].
  destruct (form_no_fields (k + 1) (form_entries l) (GetObject inflate None out) ltac:(lia) GE) as [b Eb]. right. exists (mkForm [] b). split; [exact Eb|reflexivity].
Qed.

Lemma built_extract l out pw t n : is_order order -> NoDup (map xdName l) -> Forall (good_stream deflate zl fl) l ->
  fst (Write deflate order None (BuildFromXFA deflate l)) = out -> Z.of_nat (length out) < 10 ^ 10 ->
  In (mkXD (bs "template") t n) l -> t <> [] ->
  Extract out pw = Ok (XFAFormWrapper (XFormModel.ParseXFAForm parseF (tokens t))
    (option_map (fun s => DatasetsModel.ParseXFADatasets parseF (tokens (xdData s))) (List.find (fun s => bytes_eqb (xdName s) (bs "datasets")) l)) out pw).
Proof.
  intros Hord Hd Hg Hout HL Hi Ht. assert (Hne : l <> []) by (intros ->; destruct Hi).
  destruct (build_extract deflate order inflate zl fl (ff out) (sf out) l out Hord Hne Hd Hg Hout HL) as (xs & X1 & X2 & X3).
  assert (Q : forall s (m : list xfa_data), In s m -> forall k, exists j, In (s, j) (numbered_from k m)).
  { clear. intros s m. induction m as [|x m IH]; intros H k; [destruct H|]. cbn [numbered_from]. destruct H as [->|H]; [exists k; left; reflexivity|].
    destruct (IH H (k + 1)) as [j Hj]. exists j. right. exact Hj. }
  destruct (Q _ _ Hi 1) as [j Hj]. pose proof (X2 _ _ Hj) as Et. cbn [xdName xdData] in Et.
  rewrite (extract_xfa out pw xs (mkSI t j false)).
  - cbn [siData]. do 2 f_equal. unfold datasets_of.
    destruct (List.find (fun s => bytes_eqb (xdName s) (bs "datasets")) l) as [s|] eqn:Ef; cbn [option_map].
    + apply List.find_some in Ef. destruct Ef as [Hs Es]. apply bytes_eqb_eq in Es. destruct (Q _ _ Hs 1) as [j' Hj'].
      pose proof (X2 _ _ Hj') as E. rewrite Es in E. rewrite E. reflexivity.
    + rewrite X3; [reflexivity|]. intros Hin. apply in_map_iff in Hin. destruct Hin as (s & Es & Hs).
      pose proof (List.find_none _ _ Ef s Hs) as E. cbn beta in E. rewrite Es in E. discriminate E.
  - apply (built_fieldless l out pw); assumption.
  - exact X1.
  - exact Et.
  - exact Ht.
Qed.

(** ** A document with a form built field by field *)
Lemma form_extract w ds form w1 cat w2 out pw :
  is_order order -> plain_writer w -> Forall simple_def ds ->
  (forall n t, stored_text w n t -> contains (bs "/AcroForm") t = false) ->
  contains (bs "/AcroForm") (pdfVersion w) = false ->
  BuildFields ds w = (Ok form, w1) ->
  (exists o c, mget cat (objects w) = Some o /\ oStream o = None /\ oContent o = Some c) ->
  AddAcroFormToCatalog cat form w1 = Ok w2 ->
  nextObjNum w2 <= 499 -> all_readable w2 ->
  fst (Write deflate order None w2) = out -> Z.of_nat (length out) < 10 ^ 10 -> (0 < stack)%nat ->
  Extract out pw = Ok (AcroFormWrapper (mkForm (built_fields (nextObjNum w) ds) false) out pw).
Proof.
  intros Hord Hw Hds Hna Hva Hb Hcat Ha H499 Hread Hout Hlen Hst.
  destruct (flags_kept _ _ _ _ _ _ Hw Hb Ha) as (U1 & U2 & U3).
  apply extract_acro.
  - unfold UFormModel.ExtractAcroForm. rewrite (written_no_encrypt deflate order w2 out) by assumption. cbn [rbind].
    destruct stack as [|k]; [lia|]. eapply form_read_back; eassumption.
  - cbn [fmFields]. unfold BuildFields in Hb. destruct ds as [|d ds]; [discriminate Hb|]. unfold built_fields. cbn. discriminate.
Qed.
End Forms.

(** ** From a schema and its data to the form *)
From Verif Require XFormSpec XFormProofs DatasetsSpec DatasetsProofs.
From Coq Require Import Permutation.
Lemma kget_mapped {A B} (h : A -> B) k (l : list (bytes * A)) : kget k (map (fun e => (fst e, h (snd e))) l) = option_map h (kget k l).
Proof. induction l as [|[k' v] l IH]; [reflexivity|]. cbn [map kget fst snd]. destruct (bytes_eqb k k'); [reflexivity|exact IH]. Qed.
Lemma document F (parseF : bytes -> option F) (showF formatF : F -> bytes) stack inflate zl fl deflate crypt tokens ff sf order
  perm perm' (s : XFormModel.schema F) (d : DatasetsModel.datasets F) l out pw t u z z' :
  is_order order -> NoDup (map xdName l) -> Forall (good_stream deflate zl fl) l ->
  In (mkXD (bs "template") t z) l -> t <> [] -> In (mkXD (bs "datasets") u z') l ->
  (forall m, Permutation (perm m) m) ->
  Forall (fun q => NoDup (map fst (XFormModel.qProperties q)) /\ XFormSpec.page_property q < 2 ^ 63) (XFormModel.sQuestions s) ->
  XFormSpec.indented false (XFormModel.FormToXFA showF perm s) (tokens t) ->
  (forall m, Permutation (perm' m) m) -> NoDup (map fst (DatasetsModel.dsFields d)) ->
  Forall DatasetsSpec.plain_group (DatasetsModel.dsGroups d) -> Forall (fun g => NoDup (map fst (DatasetsSpec.group_fields g))) (DatasetsModel.dsGroups d) ->
  DatasetsSpec.spaced false (DatasetsModel.DatasetsToXFA formatF perm' d) (tokens u) ->
  fst (Write deflate order None (BuildFromXFA deflate l)) = out -> Z.of_nat (length out) < 10 ^ 10 ->
  exists x s', Extract parseF stack inflate zl fl crypt tokens ff sf out pw = Ok x /\ Type_ x = TypeXFA /\ Schema x = inr s' /\
    XFormModel.sTitle s' = XFormModel.sTitle s /\ Forall2 (XFormSpec.kept parseF showF) (XFormModel.sQuestions s) (XFormModel.sQuestions s') /\
    (forall k, k <> [] -> kget k (GetValues x) = option_map inr (option_map (DatasetsSpec.reread parseF formatF) (kget k (DatasetsModel.dsFields d)))).
Proof.
  intros Hord Hd Hg Ht Hne Hu Hp Hq Hi Hp' Hn Hgr Hgn Hs Hout HL.
  destruct (XFormProofs.form_roundtrip parseF showF perm s (tokens t) Hp Hq Hi) as (A & B & _).
  destruct (DatasetsProofs.datasets_roundtrip parseF formatF perm' d (tokens u) Hp' Hn Hgr Hgn Hs) as (C & _).
  eexists. exists (XFormModel.ParseXFAForm parseF (tokens t)). split; [eapply built_extract; eassumption|]. split; [reflexivity|]. split; [reflexivity|].
  split; [exact A|]. split; [exact B|]. intros k Hk. rewrite <- (C k Hk).
  destruct (List.find (fun s0 => bytes_eqb (xdName s0) (bs "datasets")) l) as [y|] eqn:Ef.
  - apply List.find_some in Ef. destruct Ef as [Hy Ey]. apply bytes_eqb_eq in Ey.
    assert (y = mkXD (bs "datasets") u z').
    { clear -Hd Hy Hu Ey. induction l as [|x l IH]; [destruct Hy|]. cbn [map] in Hd. inversion Hd as [|? ? Hx Hd']; subst.
      destruct Hy as [->|Hy], Hu as [Hu|Hu].
      - exact Hu.
      - exfalso. apply Hx. rewrite Ey. apply (in_map xdName) in Hu. exact Hu.
      - exfalso. subst x. apply Hx. cbn [xdName]. rewrite <- Ey. apply in_map. exact Hy.
      - apply IH; assumption. }
    subst y. cbn [option_map GetValues xdData]. apply (kget_mapped inr).
  - exfalso. pose proof (List.find_none _ _ Ef _ Hu) as E. cbn [xdName] in E. discriminate E.
Qed.

(** ** Filling an XFA form *)
From Verif Require XfaProofs5.
Lemma fill_stream F stack inflate zl fl deflate rawdeflate crypt ff sf order (s : XFormModel.schema F) ds f0 pw pw' entries pre obj a digits b ws data post xml xml' :
  let f := stream_file pre obj a digits b ws data post in
  findable pre obj a digits b ws data post ->
  FindXFADatasetsStream zl fl (GetObject inflate None f) (ff f) (sf f) f = Ok (xml, obj) -> zl xml = None -> fl xml = None ->
  UpdateXFAValues xml (map (fun e => (fst e, show (snd e))) entries) = Ok xml' ->
  (length (decZ (flen xml')) <= length digits)%nat -> (length (decZ (flen xml')) + length xml' <= length digits + length data)%nat ->
  Fill stack inflate zl fl deflate rawdeflate crypt ff sf order (XFAFormWrapper s ds f0 pw) f entries pw' =
  Ok (stream_file pre obj a (decZ (flen xml')) b ws xml' post).
Proof.
  cbv zeta. intros Hf Hx Hz Hl Hu H1 H2. cbn [Fill]. unfold UpdateXFAInPDF. rewrite firstn_all, Hx. cbn [rbind fst snd].
  unfold DecompressStream, inflated. rewrite Hz, Hl. rewrite Hu. cbn [rbind].
  destruct (XfaProofs5.replace_clear pre obj a digits b ws data post xml' [] Hf H1 (or_introl H2)) as [after E]. cbv zeta in E. rewrite app_nil_r in E.
  rewrite E. reflexivity.
Qed.
