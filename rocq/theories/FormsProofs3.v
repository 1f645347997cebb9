(** Proofs about forms: a form that is built is read back. *)
From Verif Require Import Util Scan Utf8 WriterModel ParseModel ManipModel TextModel FormsModel FormsSpec WriterSpec ParseSpec ParseProofs WriterProofs XrefProofs FormsProofs2 ReadProofs.
Local Open Scope Z_scope.

(** The text of a field object *)
Lemma map_escape os : Forall simple os ->
  map (fun o => bs "(" ++ escapeFieldValue o ++ bs ")") os = map paren os.
Proof.
  intros H. induction H as [|o os Ho H IH]; [reflexivity|]. cbn [map]. rewrite IH, simple_escape by exact Ho. reflexivity.
Qed.
Lemma optional_piece b k c : optional b (bs " /" ++ k ++ c) = piece b k c.
Proof. reflexivity. Qed.
Lemma pos_max m : (if 0 <? m then Z.max 0 m else 0) = Z.max 0 m.
Proof. destruct (Z.ltb_spec 0 m); lia. Qed.
Lemma ml_piece m r : optional (0 <? m) (bs " /MaxLen " ++ decZ m) ++ r = piece (0 <? m) (bs "MaxLen ") (decZ (Z.max 0 m)) ++ r.
Proof. destruct (Z.ltb_spec 0 m) as [H|H]; [|reflexivity]. rewrite Z.max_r by lia. reflexivity. Qed.

Definition field_pieces (d : fielddef) (rest : bytes) : bytes :=
  simple_dict (dType d) (dName d) (firstn 4 (dRect d)) (dFlags d)
    (formatFieldValue (dValue d) (dType d)) (formatFieldValue (dDefault d) (dType d)) (Z.max 0 (dMaxLen d)) (dOptions d)
    (negb (bytes_eqb (dName d) [])) (4 <=? length (dRect d))%nat (negb (dFlags d =? 0)) (given (dValue d)) (given (dDefault d))
    (0 <? dMaxLen d) (negb (length (dOptions d) =? 0)%nat) rest.
Lemma field_dict_pieces d rest : simple_def d -> field_dict d ++ rest = field_pieces d rest.
Proof.
  intros (Hty & Hn & Hv & Hdv & Ho & Hr & Hf & Hm). unfold field_dict, field_pieces, simple_dict.
  rewrite (simple_escape _ Hn), (simple_escape _ Hv), (simple_escape _ Hdv), (map_escape _ Ho).
  rewrite <- !app_assoc. rewrite ml_piece. reflexivity.
Qed.

Lemma object_head n : 0 <= n -> no_slash (decZ n ++ bs " 0 obj" ++ nl) = true.
Proof.
  intros H. rewrite no_slash_app, (no_slash_digits (decZ n)) by (apply decZ_digits; exact H). reflexivity.
Qed.
Lemma object_tail : no_slash (nl ++ bs "endobj") = true.
Proof. reflexivity. Qed.
Lemma object_pieces n d : simple_def d ->
  object_text n (field_dict d) = (decZ n ++ bs " 0 obj" ++ nl) ++ field_pieces d (nl ++ bs "endobj").
Proof.
  intros H. unfold object_text. rewrite (field_dict_pieces d (nl ++ bs "endobj") H). rewrite <- !app_assoc. reflexivity.
Qed.

Lemma bool_stored v ft : (if given v then FStr (formatFieldValue v ft) else FNil) = stored_value v ft.
Proof. destruct v; reflexivity. Qed.

Lemma attrs_read n d : 0 <= n -> simple_def d ->
  attrs_of n 0 (object_text n (field_dict d)) = built n d /\ get_Kids (object_text n (field_dict d)) = [].
Proof.
  intros Hn Hd. rewrite (object_pieces n d Hd). destruct Hd as (Hty & Hnm & Hv & Hdv & Ho & Hr & Hf & Hm).
  pose proof (object_head n Hn) as Hh.
  assert (Hr4 : Forall numeral (firstn 4 (dRect d))).
  { rewrite Forall_forall in *. intros x Hx. apply Hr. rewrite <- (firstn_skipn 4 (dRect d)). apply in_or_app. left. exact Hx. }
  assert (Hm' : 0 <= Z.max 0 (dMaxLen d) < 2 ^ 63) by lia.
  unfold field_pieces. split; [|apply read_Kids; try assumption; reflexivity].
  unfold attrs_of, built.
  rewrite read_FT, read_T, read_TU, read_Ff, read_V, read_DV, read_MaxLen, read_Opt, read_Rect by (assumption || reflexivity).
  rewrite !bool_stored, pos_max.
  f_equal.
  - destruct (dName d) as [|c l] eqn:E; [reflexivity|]. reflexivity.
  - destruct (Z.eqb_spec (dFlags d) 0) as [->|]; reflexivity.
  - destruct (dOptions d); reflexivity.
Qed.

Lemma field_read stack get n d : 0 <= n -> simple_def d -> get n = Ok (object_text n (field_dict d)) ->
  parseField (S stack) get n 0 = Ok (Field (built n d) []).
Proof.
  intros Hn Hd Hg. cbn [parseField]. rewrite Hg. cbn [rbind].
  destruct (attrs_read n d Hn Hd) as [-> ->]. reflexivity.
Qed.

(** The references of the form *)
Lemma ref2_here n r : 0 <= n < 2 ^ 63 -> m_ref2 (ref n ++ r) = Some ((n, 0), r).
Proof.
  intros H. unfold m_ref2, ref. rewrite <- app_assoc.
  rewrite digits1_app; [|apply decZ_nonnil; lia|apply decZ_digits; lia|reflexivity]. cbn [obind].
  change (bs " 0 R" ++ r) with (bs " " ++ bs "0" ++ bs " R" ++ r).
  rewrite atoi_clip_decZ by exact H. reflexivity.
Qed.
Lemma find_each_ref n r : 0 <= n < 2 ^ 63 -> find_each m_ref2 (ref n ++ r) 0 = (n, 0) :: find_each m_ref2 r 0.
Proof.
  intros H. destruct (ref n) as [|c l] eqn:E.
  { exfalso. unfold ref in E. apply (f_equal (@length byte)) in E. rewrite app_length in E. cbn in E. lia. }
  cbn [app find_each]. change (c :: l ++ r) with ((c :: l) ++ r). rewrite <- E, ref2_here by exact H. f_equal.
  rewrite find_each_skip. f_equal. rewrite app_length, E. cbn [length].
  replace (S (length l) + length r - length r - 1)%nat with (length l) by lia. apply skipn_app_exact.
Qed.
Lemma refs_read ns : Forall (fun n => 0 <= n < 2 ^ 63) ns -> refs_of (join (bs " ") (map ref ns)) = map (fun n => (n, 0)) ns.
Proof.
  unfold refs_of. induction ns as [|n ns IH]; intros H; [reflexivity|]. inversion H as [|x y H1 H2]; subst.
  destruct ns as [|n' ns].
  - cbn [map join]. rewrite <- (app_nil_r (ref n)), find_each_ref by exact H1. reflexivity.
  - change (join (bs " ") (map ref (n :: n' :: ns))) with (ref n ++ " "%byte :: join (bs " ") (map ref (n' :: ns))).
    rewrite find_each_ref by exact H1. cbn [map]. f_equal. cbn [find_each]. exact (IH H2).
Qed.
Lemma slashed_arr' k : slashed (m_arr (bs ("/" ++ k))).
Proof. apply slashed_arr. Qed.

Lemma ref_class (f : byte -> bool) n : 0 <= n -> (forall b, is_digit b = true -> f b = true) ->
  forallb f (bs " 0 R") = true -> forallb f (ref n) = true.
Proof.
  intros Hn Hd Hc. unfold ref. rewrite forallb_app, Hc, andb_true_r.
  rewrite forallb_forall. intros b Hb. apply Hd. pose proof (decZ_digits n Hn) as D. rewrite forallb_forall in D. apply D, Hb.
Qed.
Lemma refs_class (f : byte -> bool) ns : Forall (fun n => 0 <= n < 2 ^ 63) ns -> (forall b, is_digit b = true -> f b = true) ->
  forallb f (bs " 0 R") = true -> forallb f (join (bs " ") (map ref ns)) = true.
Proof.
  intros H Hd Hc. apply forallb_join.
  - change (forallb f (bs " ")) with (f " "%byte && true).
    change (forallb f (bs " 0 R")) with (f " "%byte && (f "0"%byte && (f " "%byte && (f "R"%byte && true)))) in Hc.
    apply andb_true_iff in Hc as [-> _]. reflexivity.
  - rewrite Forall_map. eapply Forall_impl; [|exact H]. intros n Hn. cbn beta in Hn. apply ref_class; [lia|exact Hd|exact Hc].
Qed.

Lemma slashed_lit k : slashed (lit ("/"%byte :: k)).
Proof.
  intros s Hb. apply lit_none. destruct s as [|b s]; [reflexivity|]. cbn [prefixb].
  replace (beqb "/" b) with (beqb b "/") by (destruct b; reflexivity). rewrite Hb. reflexivity.
Qed.
Lemma search_contains k s : search (lit k) s = None -> contains k s = false.
Proof.
  unfold search. intros H. apply contains_false. intros j Hj. apply lit_none.
  assert (F : find (lit k) s = None) by (destruct (find (lit k) s) as [[i x]|]; [discriminate|reflexivity]).
  exact (find_none _ _ F j Hj).
Qed.

Lemma form_text n ns : Forall (fun n => 0 <= n < 2 ^ 63) ns -> 0 <= n ->
  search (m_arr (bs "/Fields")) (object_text n (form_dict ns)) = Some (join (bs " ") (map ref ns)) /\
  contains (bs "/XFA") (object_text n (form_dict ns)) = false /\
  contains (bs "/AcroForm") (form_dict ns) = false.
Proof.
  intros H Hn.
  assert (F : form_dict ns = bs "<< " ++ bs "/Fields [" ++ join (bs " ") (map ref ns) ++ bs "] " ++ bs "/NeedAppearances true >>").
  { unfold form_dict. rewrite <- ?app_assoc. reflexivity. }
  assert (E : object_text n (form_dict ns) = (decZ n ++ bs " 0 obj" ++ nl ++ bs "<< ") ++ bs "/Fields [" ++
     join (bs " ") (map ref ns) ++ bs "] " ++ bs "/NeedAppearances true >>" ++ nl ++ bs "endobj").
  { unfold object_text, form_dict. rewrite <- !app_assoc. reflexivity. }
  assert (Hs : no_slash (join (bs " ") (map ref ns)) = true).
  { apply refs_class; [exact H|intros b; destruct b; vm_compute; congruence|reflexivity]. }
  assert (Hh : no_slash (decZ n ++ bs " 0 obj" ++ nl ++ bs "<< ") = true).
  { rewrite no_slash_app, (no_slash_digits (decZ n)) by (apply decZ_digits; exact Hn). reflexivity. }
  assert (G : forall k h t, no_slash h = true -> no_slash t = true ->
     (forall r, lit ("/"%byte :: k) ("/"%byte :: bs "Fields [" ++ r) = None) ->
     (forall r, lit ("/"%byte :: k) ("/"%byte :: bs "NeedAppearances true >>" ++ r) = None) ->
     contains ("/"%byte :: k) (h ++ bs "/Fields [" ++
       join (bs " ") (map ref ns) ++ bs "] " ++ bs "/NeedAppearances true >>" ++ t) = false).
  { intros k h t H1 H2 H3 H4. apply search_contains. pose proof (slashed_lit k) as L.
    rewrite search_skip by assumption.
    match goal with |- search _ (bs "/Fields [" ++ ?x) = _ => change (bs "/Fields [" ++ x) with ("/"%byte :: bs "Fields [" ++ x) end.
    rewrite search_step by apply H3.
    rewrite search_skip by (assumption || reflexivity). rewrite search_skip by assumption.
    rewrite search_skip by (assumption || reflexivity).
    match goal with |- search _ (bs "/NeedAppearances true >>" ++ ?x) = _ =>
      change (bs "/NeedAppearances true >>" ++ x) with ("/"%byte :: bs "NeedAppearances true >>" ++ x) end.
    rewrite search_step by apply H4. rewrite search_skip by (assumption || reflexivity). apply search_none; assumption. }
  split; [|split].
  - rewrite E. rewrite search_skip by (apply slashed_arr || exact Hh).
    apply search_hit. apply (arr_here "/Fields").
    apply refs_class; [exact H|intros b; destruct b; vm_compute; congruence|reflexivity].
  - rewrite E. apply (G (bs "XFA")); [exact Hh|reflexivity|intros r; reflexivity|intros r; reflexivity].
  - rewrite F. pose proof (G (bs "AcroForm") (bs "<< ") []) as G'. rewrite app_nil_r in G'.
    apply G'; [reflexivity|reflexivity|intros r; reflexivity|intros r; reflexivity].
Qed.

(** No field mentions a form *)
Lemma type_no_form d k : simple_def d -> In k [bs "AcroForm"] -> contains ("/"%byte :: k) (field_dict d) = false.
Proof.
  intros Hd Hk. rewrite <- (app_nil_r (field_dict d)), (field_dict_pieces d [] Hd).
  destruct Hd as (Hty & Hnm & Hv & Hdv & Ho & Hr & Hf & Hm).
  assert (Hr4 : Forall numeral (firstn 4 (dRect d))).
  { rewrite Forall_forall in *. intros x Hx. apply Hr. rewrite <- (firstn_skipn 4 (dRect d)). apply in_or_app. left. exact Hx. }
  apply search_contains. unfold field_pieces.
  eapply (lit_absent []); try eassumption; try reflexivity. split; [apply Z.le_max_l|lia].
Qed.

Lemma create_spec ds : forall w ns w', create_fields ds w = (ns, w') ->
  nextObjNum w' = nextObjNum w + Z.of_nat (length ds) /\
  length ns = length ds /\
  (forall i, (i < length ds)%nat -> nth_error ns i = Some (nextObjNum w + Z.of_nat i)) /\
  (forall i d, nth_error ds i = Some d ->
     mget (nextObjNum w + Z.of_nat i) (objects w') = Some (mkObj (Some (field_dict d)) None None)) /\
  (forall n, n < nextObjNum w -> mget n (objects w') = mget n (objects w)) /\
  (forall n, nextObjNum w + Z.of_nat (length ds) <= n -> mget n (objects w') = mget n (objects w)) /\
  dicts w' = dicts w /\ rootRef w' = rootRef w /\ encryptRef w' = encryptRef w /\ outlinesRef w' = outlinesRef w /\
  pdfVersion w' = pdfVersion w /\ useXRefStream w' = useXRefStream w /\ useObjectStream w' = useObjectStream w.
Proof.
  induction ds as [|d ds IH]; intros w ns w' H.
  - cbn [create_fields] in H. injection H as <- <-. cbn [length]. rewrite Z.add_0_r.
    split; [reflexivity|]. split; [reflexivity|]. split; [intros i Hi; lia|].
    split; [intros i d Hd; destruct i; discriminate|]. repeat split.
  - cbn [create_fields] in H. unfold createFieldObject, AddObject in H.
    set (w1 := set_next (set_objects w (mset (nextObjNum w) (mkObj (Some (field_dict d)) None None) (objects w))) (nextObjNum w + 1)) in H.
    destruct (create_fields ds w1) as [ns1 w2] eqn:E. injection H as <- <-.
    destruct (IH _ _ _ E) as (N & L & Nth & Ob & Lo & Hi & D & R & Ec & Ou & V & X & S).
    change (nextObjNum w1) with (nextObjNum w + 1) in *.
    cbn [length]. rewrite Nat2Z.inj_succ.
    split; [lia|]. split; [congruence|].
    split. { intros [|i] Hi'; cbn [nth_error]; [f_equal; lia|]. rewrite Nth by lia. f_equal. lia. }
    split.
    { intros [|i] d' Hd; cbn [nth_error] in Hd.
      - injection Hd as ->. rewrite Lo by lia. rewrite Z.add_0_r. unfold w1. cbn [objects set_next set_objects].
        rewrite mget_mset, Z.eqb_refl. reflexivity.
      - specialize (Ob i d' Hd). rewrite <- Ob. f_equal. lia. }
    split. { intros n Hn. rewrite Lo by lia. unfold w1. cbn [objects set_next set_objects]. rewrite mget_mset.
             destruct (Z.eqb_spec (nextObjNum w) n); [lia|]. destruct (Z.eqb_spec n (nextObjNum w)); [lia|]. reflexivity. }
    split. { intros n Hn. rewrite Hi by lia. unfold w1. cbn [objects set_next set_objects]. rewrite mget_mset.
             destruct (Z.eqb_spec n (nextObjNum w)); [lia|]. destruct (Z.eqb_spec (nextObjNum w) n); [lia|]. reflexivity. }
    rewrite D, R, Ec, Ou, V, X, S. repeat split.
Qed.

(** What AddAcroFormToCatalog stores *)
Lemma catalog_text w cat form w2 t : WGetObject cat w = Ok t -> contains (bs "/AcroForm") t = false ->
  AddAcroFormToCatalog cat form w = Ok w2 ->
  exists i, (i <= length t)%nat /\
    w2 = SetObject cat (Some (firstn i t ++ bs " /AcroForm " ++ ref form ++ skipn i t)) w.
Proof.
  intros Hg Hc H. unfold AddAcroFormToCatalog in H. rewrite Hg in H. cbn [rbind] in H. rewrite Hc in H.
  destruct (last_index (bs ">>") t) as [i|] eqn:E; [|discriminate]. injection H as <-.
  apply last_index_some in E. exists i. split; [tauto|reflexivity].
Qed.

Lemma acroform_here n r : 0 <= n -> m_acroform (bs "/AcroForm " ++ ref n ++ r) = Some (decZ n, r).
Proof.
  intros H. unfold m_acroform, ref. change (bs "/AcroForm ") with (bs "/AcroForm" ++ bs " ").
  rewrite <- !app_assoc, lit_app. cbn [obind]. change (bs " " ++ decZ n ++ bs " 0 R" ++ r) with (" "%byte :: decZ n ++ bs " 0 R" ++ r).
  rewrite ws1_space by (apply digits_head; [apply decZ_nonnil; exact H|apply decZ_digits; exact H|exact digit_not_ws]).
  cbn [obind]. rewrite digits1_app; [|apply decZ_nonnil; exact H|apply decZ_digits; exact H|reflexivity].
  reflexivity.
Qed.
Lemma acroform_lit s : prefixb (bs "/AcroForm") s = false -> m_acroform s = None.
Proof. intros H. unfold m_acroform. apply lit_none in H. rewrite H. reflexivity. Qed.
Lemma contains_firstn k i s : contains k s = false -> contains k (firstn i s) = false.
Proof.
  intros H. destruct (contains k (firstn i s)) eqn:E; [|reflexivity]. exfalso.
  unfold contains in E. destruct (index k (firstn i s)) as [j|] eqn:Ej; [|discriminate].
  apply index_some in Ej. destruct Ej as (P & L & _). apply prefixb_spec in P. destruct P as [r P].
  rewrite contains_false in H. assert (J : (j <= length s)%nat) by (rewrite firstn_length in L; lia).
  specialize (H j J). assert (X : prefixb k (skipn j s) = true); [|congruence].
  apply prefixb_spec. exists (r ++ skipn i s). rewrite app_assoc, <- P.
  rewrite <- (firstn_skipn i s) at 1. apply skipn_app_l. exact L.
Qed.

Lemma written_before q deflate order w out n :
  is_order order -> useXRefStream w = false -> useObjectStream w = false ->
  keyword q = true -> ~ In x0a q -> nostartb q (bs "%PDF-") = true -> nostartb q [x25; xe2; xe3; xcf; xd3; x0a] = true ->
  contains q (pdfVersion w) = false ->
  (forall m t, m < n -> stored_text (updateCatalogWithOutlines w) m t -> contains q t = false) ->
  fst (Write deflate order None w) = out -> mem n (objects w) = true ->
  exists pre t rest, out = pre ++ obj_text n t ++ rest /\ stored_text (updateCatalogWithOutlines w) n t /\ nostart q pre.
Proof.
  intros Hord Hx Hs Q1 Q2 Q3 Q4 Hv Ht Hout Hn. unfold Write in Hout.
  destruct (update_catalog_fields w) as (Ux & Us & Un & Uv & _).
  pose proof (mkeys_update_catalog w) as Hmem. set (w1 := updateCatalogWithOutlines w) in *.
  rewrite createObjectStreams_off in Hout by (rewrite Us; exact Hs). cbv zeta in Hout.
  rewrite Uv in Hout. remember (pdf_header (pdfVersion w)) as hd eqn:Ehd.
  destruct (write_objs None (objects w1) [] (dicts w1) (Z.of_nat (length hd))
              (sortZ (order (mkeys (objects w1))))) as [[body ps] h] eqn:Ew.
  rewrite Ux, Hx, Un in Hout. cbn [fst] in Hout.
  assert (forall n, In n (sortZ (order (mkeys (objects w1)))) <-> mget n (objects w1) <> None) as Hin.
  { intros k. rewrite sortZ_in. split; intros H.
    - apply (Permutation_in k (Hord _)) in H. apply mkeys_in in H. destruct H as [v Hv']. congruence.
    - apply (Permutation_in k (Permutation_sym (Hord _))). apply mkeys_in.
      destruct (mget k (objects w1)) as [v|]; [eauto|congruence]. }
  assert (mget n (objects w1) <> None) as Hn1.
  { apply Hmem. unfold mem in Hn. destruct (mget n (objects w)); [discriminate|discriminate]. }
  destruct (write_objs_before (nostart q) (objects w1) (dicts w1) n)
    with (nums := sortZ (order (mkeys (objects w1)))) (pos := Z.of_nat (length hd)) (body := body) (ps := ps) (h' := h)
    as (o & pre & post & Eo & Eb & Ep & Hpre).
  { apply nostart_nil. }
  { intros a b Ha Hb. apply nostart_app; assumption. }
  { intros m o Hlt Ho. apply obj_nostart; [exact Q1|exact Q2|]. apply (Ht m); [exact Hlt|]. apply body_stored. exact Ho. }
  { exact Ew. }
  { apply sortZ_sorted. }
  { apply sortZ_nodup. apply (Permutation_NoDup (Permutation_sym (Hord _))). apply mkeys_nodup. }
  { apply Hin. exact Hn1. }
  { intros m Hm. apply Hin. exact Hm. }
  exists (hd ++ pre), (body_of None (dicts w1) n o).
  assert (exists rest, out = (hd ++ pre) ++ obj_text n (body_of None (dicts w1) n o) ++ rest) as [rest Erest].
  { eexists. rewrite <- Hout, Eb. rewrite <- !app_assoc. reflexivity. }
  exists rest. split; [exact Erest|]. split; [apply body_stored; exact Eo|].
  apply nostart_app; [|exact Hpre]. subst hd. apply header_nostart; assumption.
Qed.

Lemma parse_built stack get ds : forall first, 0 <= first -> Forall simple_def ds ->
  (forall i d, nth_error ds i = Some d -> get (first + Z.of_nat i) = Ok (object_text (first + Z.of_nat i) (field_dict d))) ->
  forall ns, length ns = length ds -> (forall i, (i < length ds)%nat -> nth_error ns i = Some (first + Z.of_nat i)) ->
  parse_each (parseField (S stack) get) (map (fun n => (n, 0)) ns) = Ok (built_fields first ds).
Proof.
  induction ds as [|d ds IH]; intros first Hf Hd Hg ns L N.
  - destruct ns; [reflexivity|discriminate].
  - inversion Hd as [|x y D1 D2]; subst. destruct ns as [|n ns]; [discriminate|]. injection L as L.
    pose proof (N 0%nat ltac:(cbn [length]; lia)) as N0. cbn [nth_error] in N0. injection N0 as N0. change (Z.of_nat 0) with 0 in N0. rewrite Z.add_0_r in N0. subst n.
    change (map (fun n => (n, 0)) (first :: ns)) with ((first, 0) :: map (fun n => (n, 0)) ns).
    remember (parseField (S stack) get) as go eqn:Ego. cbn [parse_each built_fields].
    rewrite Ego. rewrite (field_read stack get first d Hf D1).
    2:{ specialize (Hg 0%nat d eq_refl). change (Z.of_nat 0) with 0 in Hg. rewrite Z.add_0_r in Hg. exact Hg. }
    cbn iota. rewrite <- Ego. rewrite (IH (first + 1)); [reflexivity|lia|exact D2| |exact L|].
    + intros i d' Hi. specialize (Hg (S i) d' Hi). rewrite Nat2Z.inj_succ in Hg.
      replace (first + 1 + Z.of_nat i) with (first + Z.succ (Z.of_nat i)) by lia. exact Hg.
    + intros i Hi. specialize (N (S i) ltac:(cbn [length]; lia)). cbn [nth_error] in N. rewrite N. f_equal. lia.
Qed.

Lemma form_read_back deflate order inflate crypt stack w ds form w1 cat w2 out :
  is_order order -> plain_writer w -> Forall simple_def ds ->
  (forall n t, stored_text w n t -> contains (bs "/AcroForm") t = false) ->
  contains (bs "/AcroForm") (pdfVersion w) = false ->
  BuildFields ds w = (Ok form, w1) ->
  (exists o c, mget cat (objects w) = Some o /\ oStream o = None /\ oContent o = Some c) ->
  AddAcroFormToCatalog cat form w1 = Ok w2 ->
  nextObjNum w2 <= 499 -> all_readable w2 ->
  fst (Write deflate order None w2) = out -> Z.of_nat (length out) < 10 ^ 10 ->
  ParseAcroForm (S stack) inflate crypt None out = Ok (mkForm (built_fields (nextObjNum w) ds) false).
Proof.
  intros Hord (Wx & Ws & We & Wo & W1 & Wr) Hds Hna Hva Hb (oc & c & Hcat & Hcs & Hcc) Ha H499 Hread Hout Hlen.
  unfold BuildFields in Hb. destruct ds as [|d0 ds0]; [discriminate|]. remember (d0 :: ds0) as ds eqn:Eds.
  destruct (create_fields ds w) as [ns wa] eqn:Ec. unfold AddObject in Hb. injection Hb as Hform Hw1.
  destruct (create_spec ds w ns wa Ec) as (N & L & Nth & Ob & Lo & Hi & D & R & Ee & Eo & Ev & Ex & Es).
  set (m := Z.of_nat (length ds)) in *. assert (Hm : 1 <= m) by (unfold m; rewrite Eds; cbn [length]; lia).
  assert (Hcr : 1 <= cat < nextObjNum w) by (apply Wr; unfold mem; rewrite Hcat; reflexivity).
  assert (Hca : mget cat (objects w1) = Some oc).
  { rewrite <- Hw1. cbn [objects set_next set_objects]. rewrite mget_mset.
    destruct (Z.eqb_spec (nextObjNum wa) cat); [lia|]. destruct (Z.eqb_spec cat (nextObjNum wa)); [lia|].
    rewrite Lo by lia. exact Hcat. }
  assert (Hct : contains (bs "/AcroForm") c = false).
  { apply (Hna cat). exists oc. split; [exact Hcat|]. rewrite Hcs, Hcc. reflexivity. }
  destruct (catalog_text w1 cat form w2 c) as (i & Hil & Ew2).
  { unfold WGetObject. rewrite Hca, Hcc. reflexivity. } { exact Hct. } { exact Ha. }
  assert (Fn : form = nextObjNum w + m) by lia.
  assert (W1n : nextObjNum w1 = nextObjNum w + m + 1) by (rewrite <- Hw1; cbn [nextObjNum set_next]; lia).
  assert (W2 : nextObjNum w2 = nextObjNum w1 /\ useXRefStream w2 = false /\ useObjectStream w2 = false /\ encryptRef w2 = None /\
    outlinesRef w2 = None /\ pdfVersion w2 = pdfVersion w /\ dicts w2 = dicts w /\
    (forall n, mget n (objects w2) = if n =? cat then
        Some (mkObj (Some (firstn i c ++ bs " /AcroForm " ++ ref form ++ skipn i c)) None None) else mget n (objects w1))).
  { rewrite Ew2. unfold SetObject. destruct (Z.leb_spec (nextObjNum w1) cat); [lia|].
    cbn [set_objects nextObjNum useXRefStream useObjectStream encryptRef outlinesRef pdfVersion dicts objects].
    rewrite <- Hw1. cbn [set_next set_objects nextObjNum useXRefStream useObjectStream encryptRef outlinesRef pdfVersion dicts objects].
    split; [reflexivity|]. split; [congruence|]. split; [congruence|]. split; [congruence|]. split; [congruence|]. split; [congruence|].
    split; [congruence|]. intros n. rewrite mget_mset. reflexivity. }
  destruct W2 as (Y1 & Y2 & Y3 & Y4 & Y5 & Y6 & Y7 & Y8).
  assert (U : updateCatalogWithOutlines w2 = w2) by (unfold updateCatalogWithOutlines; rewrite Y5; reflexivity).
  assert (Hfield : forall k d, nth_error ds k = Some d -> stored_text w2 (nextObjNum w + Z.of_nat k) (field_dict d)).
  { intros k d Hk. exists (mkObj (Some (field_dict d)) None None). split; [|reflexivity].
    assert ((k < length ds)%nat) by (apply nth_error_Some; congruence).
    rewrite Y8. destruct (Z.eqb_spec (nextObjNum w + Z.of_nat k) cat); [lia|].
    rewrite <- Hw1. cbn [set_next set_objects objects]. rewrite mget_mset.
    destruct (Z.eqb_spec (nextObjNum w + Z.of_nat k) (nextObjNum wa)); [unfold m in *; lia|]. apply Ob. exact Hk. }
  assert (Hforms : stored_text w2 form (form_dict ns)).
  { exists (mkObj (Some (form_dict ns)) None None). split; [|reflexivity]. rewrite Y8.
    destruct (Z.eqb_spec form cat); [lia|]. rewrite <- Hw1. cbn [set_next set_objects objects]. rewrite mget_mset.
    rewrite <- Hform, Z.eqb_refl. reflexivity. }
  assert (Hget : forall n t, 1 <= n < nextObjNum w2 -> stored_text w2 n t -> GetObject inflate None out n = Ok (object_text n t)).
  { intros n t Hn Ht. eapply read_back_get; try eassumption; try lia. rewrite U. exact Ht. }
  assert (Hns : Forall (fun n => 0 <= n < 2 ^ 63) ns).
  { apply Forall_forall. intros x Hx. apply In_nth_error in Hx. destruct Hx as [k Hk].
    assert (K : (k < length ds)%nat) by (rewrite <- L; apply nth_error_Some; congruence).
    rewrite (Nth k K) in Hk. injection Hk as <-. change (2 ^ 63) with 9223372036854775808. lia. }
  destruct (read_back deflate order inflate crypt w2 out) as (p & HOpen & _); try eassumption; try lia.
  unfold ParseAcroForm. rewrite HOpen. cbn [rbind]. unfold parseAcroFormFromBytes.
  destruct (form_text form ns Hns ltac:(lia)) as (F1 & F2 & F3).
  assert (Hs : search m_acroform out = Some (decZ form, skipn i c ++ nl ++ bs "endobj" ++ nl ++ [] ) \/ exists r, search m_acroform out = Some (decZ form, r)).
  { right.
    destruct (written_before (bs "/AcroForm") deflate order w2 out cat) as (pre & t & rest & Eout & St & Hpre); try assumption; try reflexivity.
    { apply no_nl_in; reflexivity. }
    { rewrite Y6. exact Hva. }
    { intros k t Hk [o [Ho Hot]]. rewrite U in Ho, Hot. rewrite Y8 in Ho. destruct (Z.eqb_spec k cat); [lia|].
      rewrite <- Hw1 in Ho. cbn [set_next set_objects objects] in Ho. rewrite mget_mset in Ho.
      destruct (Z.eqb_spec k (nextObjNum wa)); [lia|]. rewrite Lo in Ho by lia.
      apply (Hna k t). exists o. split; [exact Ho|]. rewrite Y7 in Hot. exact Hot. }
    { unfold mem. rewrite Y8, Z.eqb_refl. reflexivity. }
    destruct St as (o & Ho & Hot). rewrite U, Y8, Z.eqb_refl in Ho.
    assert (Eobj : o = mkObj (Some (firstn i c ++ bs " /AcroForm " ++ ref form ++ skipn i c)) None None) by congruence.
    rewrite Eobj in Hot. cbn [oStream oContent] in Hot.
    remember (skipn i c ++ nl ++ bs "endobj" ++ nl ++ rest) as after eqn:Eaf.
    assert (Esplit : out = (pre ++ decZ cat ++ bs " 0 obj" ++ nl ++ firstn i c ++ [" "%byte]) ++ bs "/AcroForm " ++ ref form ++ after).
    { rewrite Eout, Hot, Eaf. unfold obj_text. change (bs " /AcroForm ") with ([" "%byte] ++ bs "/AcroForm ").
      rewrite <- ?app_assoc. reflexivity. }
    eexists. rewrite Esplit. unfold search.
    rewrite (find_at m_acroform _ (bs "/AcroForm " ++ ref form ++ after) (decZ form, after)); [reflexivity| |apply acroform_here; lia].
    eapply nostart_nofire; [exact acroform_lit|].
    apply nostart_app; [exact Hpre|]. apply nostart_app; [apply nostart_decZ; [lia|reflexivity]|].
    apply nostart_app; [apply nostartb_ok; reflexivity|]. apply nostart_app; [apply nostartb_ok; reflexivity|].
    apply nostart_sep; [apply contains_firstn; exact Hct| |discriminate].
    intros K. cbn in K. repeat (destruct K as [K|K]; [discriminate|]). destruct K. }
  assert (exists r, search m_acroform out = Some (decZ form, r)) as [r Hr] by (destruct Hs as [Hs|Hs]; [eauto|exact Hs]).
  clear Hs. rewrite Hr. rewrite atoi_decZ by (change (2 ^ 63) with 9223372036854775808; lia).
  rewrite (Hget form (form_dict ns)); [|lia|exact Hforms]. cbn [rbind].
  unfold parseAcroFormDict. rewrite F1, F2, (refs_read ns Hns).
  rewrite (parse_built stack _ ds (nextObjNum w)); [reflexivity|lia|exact Hds| |exact L|exact Nth].
  intros k d Hk. apply Hget; [|apply Hfield; exact Hk].
  assert ((k < length ds)%nat) by (apply nth_error_Some; congruence). lia.
Qed.
