(** Proofs about appearances and the form builder. *)
From Verif Require Import XPagesProofs3 ManipSpec Util Scan WriterModel TextModel TextSpec TextProofs ParseProofs WriterProofs ManipModel ManipProofs FormsModel FormsProofs2 FormsProofs3 FormsProofs4 PageProofs2 WriterSpec ParseModel ParseSpec ReadProofs ActsModel ActsSpec ActsProofs.
Local Open Scope Z_scope.

Lemma ap_key : key_name (bs "/AP"). Proof. exists (bs "AP"). split; reflexivity. Qed.
Lemma decZ_avoid c z : is_digit c = false -> beqb "-" c = false -> forallb (fun b => negb (beqb b c)) (decZ z) = true.
Proof.
  intros H1 H2. apply forallb_forall. intros x Hx. apply decZ_bytes in Hx. destruct (beqb x c) eqn:E; [|reflexivity].
  apply beqb_eq in E. subst x. destruct Hx as [Hx| ->]; [congruence|]. rewrite beqb_refl in H2. discriminate.
Qed.
Lemma ap_text (n : Z) : forallb (fun c => negb (beqb c "$")) (bs "/AP << /N " ++ decZ n ++ bs " 0 R >>") = true.
Proof. rewrite !forallb_app, decZ_avoid by reflexivity. reflexivity. Qed.
Lemma ap_new n p w t x y : WGetObject n w = Ok t -> closes t x y -> contains (bs "/AP") t = false -> n < nextObjNum w ->
  exists w', AddAppearanceToField n p w = Ok w' /\ only_object n w w' /\
    WGetObject n w' = Ok (x ++ bs "/AP << /N " ++ decZ p ++ bs " 0 R >> >>" ++ y).
Proof.
  intros G C F N. unfold AddAppearanceToField. rewrite G. cbn [rbind]. rewrite F, (insert_closes _ _ _ _ C). cbn [rbind].
  eexists. split; [reflexivity|]. split; [apply set_only, N|]. rewrite set_get. rewrite <- !app_assoc. reflexivity.
Qed.
Lemma ap_replaced n p w a old b : WGetObject n w = Ok (a ++ bs "/AP <<" ++ old ++ bs ">>" ++ b) ->
  contains (bs "/AP") a = false -> contains (bs "/AP") b = false -> forallb (fun c => negb (beqb c ">")) old = true ->
  n < nextObjNum w ->
  exists w', AddAppearanceToField n p w = Ok w' /\ only_object n w w' /\
    WGetObject n w' = Ok (a ++ bs "/AP << /N " ++ decZ p ++ bs " 0 R >>" ++ b).
Proof.
  intros G Ha Hb Ho N. unfold AddAppearanceToField. rewrite G. cbn [rbind].
  assert (C : contains (bs "/AP") (a ++ bs "/AP <<" ++ old ++ bs ">>" ++ b) = true).
  { change (bs "/AP <<" ++ ?r) with (bs "/AP" ++ bs " <<" ++ r). apply contains_app_mid. }
  rewrite C. change (bs "/AP <<" ++ old ++ bs ">>" ++ b) with (bs "/AP" ++ bs " <<" ++ old ++ bs ">>" ++ b).
  rewrite flat_replaced; [|exact ap_key|exact Ha|exact Hb|exact Ho|apply ap_text]. cbn [rbind].
  eexists. split; [reflexivity|]. split; [apply set_only, N|]. rewrite set_get. rewrite <- !app_assoc. reflexivity.
Qed.
Lemma no_split p a b : contains p (a ++ b) = false -> contains p a = false /\ contains p b = false.
Proof.
  intros H. split.
  - destruct (contains p a) eqn:E; [|reflexivity]. apply contains_split in E as (u & v & ->).
    rewrite <- !app_assoc in H. rewrite contains_app_mid in H. discriminate.
  - destruct (contains p b) eqn:E; [|reflexivity]. apply contains_split in E as (u & v & ->).
    rewrite app_assoc in H. rewrite contains_app_mid in H. discriminate.
Qed.
Lemma no_space p y : contains (bs "/AP") (bs ">>" ++ y) = false -> p = bs "/AP" -> contains p (bs " >>" ++ y) = false.
Proof.
  intros H ->. rewrite contains_false in H |- *. intros j Hj. rewrite app_length in Hj. change (length (bs " >>")) with 3%nat in Hj.
  destruct j as [|j]; [reflexivity|]. change (skipn (S j) (bs " >>" ++ y)) with (skipn j (bs ">>" ++ y)). apply H.
  rewrite app_length. change (length (bs ">>")) with 2%nat. lia.
Qed.
(** The last appearance stays *)
Lemma ap_twice n p q w t x y : WGetObject n w = Ok t -> closes t x y -> contains (bs "/AP") t = false -> n < nextObjNum w ->
  exists w1 w2, AddAppearanceToField n p w = Ok w1 /\ AddAppearanceToField n q w1 = Ok w2 /\ only_object n w w2 /\
    WGetObject n w2 = Ok (x ++ bs "/AP << /N " ++ decZ q ++ bs " 0 R >> >>" ++ y).
Proof.
  intros G C F N. destruct (ap_new n p w t x y G C F N) as (w1 & A1 & O1 & T1).
  destruct C as [-> Hy]. apply no_split in F as [Fx Fy].
  destruct (ap_replaced n q w1 x (bs " /N " ++ decZ p ++ bs " 0 R ") (bs " >>" ++ y)) as (w2 & A2 & O2 & T2).
  - rewrite T1. rewrite <- !app_assoc. reflexivity.
  - exact Fx.
  - apply no_space; [exact Fy|reflexivity].
  - rewrite !forallb_app, decZ_avoid by reflexivity. reflexivity.
  - destruct O1 as (_ & O & _). lia.
  - exists w1, w2. split; [exact A1|]. split; [exact A2|]. split.
    + destruct O1 as (U1 & U2 & U3 & U4 & U5 & U6), O2 as (V1 & V2 & V3 & V4 & V5 & V6).
      repeat split; try congruence. intros m Hm. rewrite V1, U1 by exact Hm. reflexivity.
    + rewrite T2. reflexivity.
Qed.
(** /AP that is no dictionary: nothing happens *)
Lemma ap_lost n p w t : WGetObject n w = Ok t -> contains (bs "/AP") t = true ->
  (forall j, (j < length t)%nat -> m_flat (bs "/AP") (skipn j t) = None) ->
  exists w', AddAppearanceToField n p w = Ok w' /\ WGetObject n w' = Ok t.
Proof.
  intros G C H. unfold AddAppearanceToField. rewrite G. cbn [rbind]. rewrite C, replace_expand_none by exact H. cbn [rbind].
  eexists. split; [reflexivity|apply set_get].
Qed.

(* ---------------- the streams ---------------- *)
Lemma drawn deflate d content w n w' : content <> [] ->
  kset (bs "Length") (VInt (Z.of_nat (length (deflate content)))) (kset (bs "Filter") (VStr (bs "/FlateDecode")) d) =
  d ++ [(bs "Filter", VStr (bs "/FlateDecode")); (bs "Length", VInt (Z.of_nat (length (deflate content))))] ->
  add_stream deflate d (Some content) true w = (n, w') ->
  n = nextObjNum w /\ kept w w' /\ form_xobject deflate w' n d content.
Proof.
  intros Hc Hd E. pose proof (add_stream_spec deflate d (Some content) true w) as S. rewrite E in S.
  destruct S as (S1 & S2 & S3 & S4 & (a & S5 & S6) & _). split; [exact S1|]. split.
  - intros m o Hm Ho. rewrite S3 by lia. exact Ho.
  - destruct content as [|c0 ct]; [congruence|]. cbn [stream_data fst snd] in S5, S6. exists a. split; [exact S5|].
    rewrite S6. unfold stream_dict. cbn [blen]. rewrite Hd. reflexivity.
Qed.
Lemma text_drawn deflate text w h size font y wr n wr' :
  CreateTextAppearance deflate text w h size font y wr = (n, wr') ->
  n = nextObjNum wr /\ kept wr wr' /\
  form_xobject deflate wr' n (drawing w h ++ [(bs "/Resources", VDict [(bs "/Font", VDict [(font, VStr (bs "0 0 R"))])])])
    (text_content text size font y).
Proof. intros H. eapply drawn; [|reflexivity|exact H]. discriminate. Qed.
Lemma button_drawn deflate label w h w2 h2 x y wr n wr' :
  CreateButtonAppearance deflate label w h w2 h2 x y wr = (n, wr') ->
  n = nextObjNum wr /\ kept wr wr' /\ form_xobject deflate wr' n (drawing w h) (button_content label w2 h2 x y).
Proof. intros H. eapply drawn; [|reflexivity|exact H]. discriminate. Qed.
Lemma check_drawn deflate c w h lw w2 h2 x1 y1 x2 y2 x3 y3 wr n wr' :
  CreateCheckboxAppearance deflate c w h lw w2 h2 x1 y1 x2 y2 x3 y3 wr = (n, wr') ->
  n = nextObjNum wr /\ kept wr wr' /\ form_xobject deflate wr' n (drawing w h) (check_content c lw w2 h2 x1 y1 x2 y2 x3 y3).
Proof. intros H. eapply drawn; [|reflexivity|exact H]. discriminate. Qed.

(** The text that is drawn is the text that was asked for *)
Lemma text_reads rs w h size font y deflate wr n wr' :
  forallb (fun r => (r <? 256)%N) rs = true ->
  CreateTextAppearance deflate (utf8 rs) w h size font y wr = (n, wr') ->
  exists l, reads_as l rs /\ n = nextObjNum wr /\ kept wr wr' /\
  form_xobject deflate wr' n (drawing w h ++ [(bs "/Resources", VDict [(bs "/Font", VDict [(font, VStr (bs "0 0 R"))])])])
    (bs "q" ++ nl ++ bs "BT" ++ nl ++ bs "/" ++ font ++ bs " " ++ size ++ bs " Tf" ++ nl ++ bs "0 0 0 rg" ++ nl ++
     bs "0 " ++ y ++ bs " Td" ++ nl ++ l ++ bs " Tj" ++ nl ++ bs "ET" ++ nl ++ bs "Q" ++ nl).
Proof.
  intros Hr H. exists (bs "(" ++ escapeFieldValue (utf8 rs) ++ bs ")"). split.
  - intros rest. rewrite <- !app_assoc. apply field_escape_reads_back. exact Hr.
  - apply text_drawn in H as (H1 & H2 & H3). split; [exact H1|]. split; [exact H2|].
    assert (E : text_content (utf8 rs) size font y = bs "q" ++ nl ++ bs "BT" ++ nl ++ bs "/" ++ font ++ bs " " ++ size ++ bs " Tf" ++ nl ++ bs "0 0 0 rg" ++ nl ++
     bs "0 " ++ y ++ bs " Td" ++ nl ++ (bs "(" ++ escapeFieldValue (utf8 rs) ++ bs ")") ++ bs " Tj" ++ nl ++ bs "ET" ++ nl ++ bs "Q" ++ nl).
    { unfold text_content. rewrite <- !app_assoc. reflexivity. }
    rewrite <- E. exact H3.
Qed.
Lemma button_reads rs w h w2 h2 x y deflate wr n wr' :
  forallb (fun r => (r <? 256)%N) rs = true ->
  CreateButtonAppearance deflate (utf8 rs) w h w2 h2 x y wr = (n, wr') ->
  exists pre l, reads_as l rs /\ n = nextObjNum wr /\ kept wr wr' /\
  form_xobject deflate wr' n (drawing w h)
    (pre ++ x ++ bs " " ++ y ++ bs " Td" ++ nl ++ l ++ bs " Tj" ++ nl ++ bs "ET" ++ nl ++ bs "Q" ++ nl).
Proof.
  intros Hr H.
  exists (bs "q" ++ nl ++ bs "0.9 0.9 0.9 rg" ++ nl ++ bs "0 0 " ++ w2 ++ bs " " ++ h2 ++ bs " re" ++ nl ++ bs "f" ++ nl ++
  bs "0 0 0 RG" ++ nl ++ bs "1 w" ++ nl ++ bs "0 0 " ++ w2 ++ bs " " ++ h2 ++ bs " re" ++ nl ++ bs "S" ++ nl ++
  bs "BT" ++ nl ++ bs "/Helvetica 12 Tf" ++ nl ++ bs "0 0 0 rg" ++ nl), (bs "(" ++ escapeFieldValue (utf8 rs) ++ bs ")"). split.
  - intros rest. rewrite <- !app_assoc. apply field_escape_reads_back. exact Hr.
  - apply button_drawn in H as (H1 & H2 & H3). split; [exact H1|]. split; [exact H2|].
    match goal with |- form_xobject _ _ _ _ ?c => assert (E : button_content (utf8 rs) w2 h2 x y = c)
      by (unfold button_content; rewrite <- !app_assoc; reflexivity) end.
    rewrite <- E. exact H3.
Qed.

(* ---------------- BuildForm ---------------- *)
Lemma build_form ds b form b' : BuildForm ds b = (Ok form, b') ->
  exists w, BuildFields ds (sbWriter b) = (Ok form, w) /\
  sbPages b' = sbPages b /\ sbPagesNum b' = sbPagesNum b /\
  rootRef (sbWriter b') = Some (nextObjNum w) /\
  mget (nextObjNum w) (objects (sbWriter b')) = Some (mkObj (Some (form_catalog (sbPagesNum b) form)) None None) /\
  (forall m, m < nextObjNum w -> mget m (objects (sbWriter b')) = mget m (objects w)).
Proof.
  unfold BuildForm. destruct (BuildFields ds (sbWriter b)) as [[f| |] w] eqn:E; try discriminate.
  unfold AddObject. intros H. injection H as <- <-. exists w. split; [reflexivity|]. split; [reflexivity|]. split; [reflexivity|].
  split; [reflexivity|]. cbn [sbWriter SetRoot objects set_next set_objects]. unfold SetRoot. cbn [objects set_next set_objects].
  split; [rewrite mget_mset, Z.eqb_refl; reflexivity|]. intros m Hm. rewrite mget_mset. destruct (Z.eqb_spec m (nextObjNum w)); [lia|reflexivity].
Qed.
Lemma catalog_no_form p : contains (bs "/AcroForm") (catalog_dict p) = false.
Proof.
  unfold catalog_dict, ref. apply ReadProofs.nostart_contains; [discriminate|].
  apply nostart_app. { apply nostartb_ok. reflexivity. }
  rewrite <- app_assoc. apply nostart_app. { apply (nostart_class (fun b => negb (beqb b "/"))); [apply decZ_avoid; reflexivity|reflexivity]. } apply nostartb_ok. reflexivity.
Qed.
Lemma finish_root b : exists c, rootRef (sbWriter (finish b)) = Some c /\
  mget c (objects (sbWriter (finish b))) = Some (mkObj (Some (catalog_dict (sbPagesNum b))) None None).
Proof.
  unfold finish, AddObject, SetRoot. cbn [sbWriter rootRef]. eexists. split; [reflexivity|].
  cbn [objects set_next set_objects]. rewrite mget_mset, Z.eqb_refl. reflexivity.
Qed.

(** The catalog of the written file is the builder's own *)
Lemma form_dropped deflate order inflate crypt ds b form b' out :
  BuildForm ds b = (Ok form, b') -> is_order order ->
  (let w := sbWriter (finish b') in useXRefStream w = false /\ useObjectStream w = false /\ encryptRef w = None /\
     outlinesRef w = None /\ nextObjNum w <= 499 /\ all_readable w) -> 1 <= nextObjNum (sbWriter b') -> 
  fst (SBytes deflate order b') = out -> Z.of_nat (length out) < 10 ^ 10 ->
  exists p c t, Open inflate crypt out = Ok p /\ pRoot p = decZ c ++ bs " 0 R" /\
    PGetObject inflate p c = Ok (object_text c t) /\ contains (bs "/AcroForm") t = false.
Proof.
  intros _ Or (H1 & H2 & H3 & H4 & H5 & H6) N Ho Hl. destruct (finish_root b') as (c & R & M).
  assert (Nw : nextObjNum (sbWriter b') <= c < nextObjNum (sbWriter (finish b'))).
  { clear - R N. unfold finish, AddObject in R |- *. cbn [sbWriter] in R |- *. unfold SetRoot in R |- *. cbn [rootRef nextObjNum set_next set_objects] in R |- *.
    injection R as <-. unfold SetObject. destruct (Z.leb_spec (nextObjNum (sbWriter b')) (sbPagesNum b')); cbn [nextObjNum set_next set_objects]; lia. }
  assert (U : updateCatalogWithOutlines (sbWriter (finish b')) = sbWriter (finish b')) by (unfold updateCatalogWithOutlines; rewrite H4; reflexivity).
  destruct (read_back deflate order inflate crypt (sbWriter (finish b')) out) as (p & P1 & P2 & P3 & P4 & P5); auto; [lia| |].
  - rewrite <- Ho. unfold SBytes. destruct (Write deflate order None (sbWriter (finish b'))). reflexivity.
  - exists p, c, (catalog_dict (sbPagesNum b')). split; [exact P1|]. split; [apply (P5 c R); lia|]. split.
    + apply P4; [lia|]. rewrite U. eexists. split; [exact M|]. reflexivity.
    + apply catalog_no_form.
Qed.
