(** Proofs about the resources of a page. *)
From Verif Require Import Util Scan ReadProofs MarksModel MarksSpec ManipSpec ManipProofs ManipProofs2 PageSpec PageModel XPagesSpec XPagesProofs XPagesProofs2 XPagesProofs3 MarksProofs ParseSpec ExtractProofs ResSpec.
From Verif Require MetaProofs XPagesProofs5.
From Verif Require CompareProofs4.
Local Open Scope Z_scope.

Lemma gives_value t key v : key_name key -> gives t key v -> x_value t key = v.
Proof.
  intros Hk [H|(a & nm & b & -> & -> & Hs & Hn & Hb & Hp)]; [apply says_value; assumption|]. apply x_named; assumption.
Qed.
Lemma family_value nm fam : family_of nm fam -> take_while (fun b => negb (beqb b "-")) nm = fam.
Proof.
  intros (r & -> & Hf & Hr). induction fam as [|c fam IH].
  - destruct r as [|b r]; [reflexivity|]. subst b. reflexivity.
  - cbn [app take_while]. destruct (beqb c "-") eqn:E; [apply beqb_eq in E; subst c; exfalso; apply Hf; left; reflexivity|]. cbn [negb].
    f_equal. apply IH. intros X. apply Hf. right. exact X.
Qed.
Section res.
Context (inflate : bytes -> option bytes) (parse_float : bytes -> option float) (to_int : float -> Z) (get : Z -> result bytes).

Lemma font_read n f : font_object get n f -> extractFontInfo get n = Ok (Some (mkFI [] (fiName f) (fiFamily f) (fiSubtype f) (fiEmbedded f) (fiEncoding f) (fiToUnicode f))).
Proof.
  intros (t & nm & fam & desc & Hg & Hb & En & Hfam & Hs & (st & Es) & He & Hu & Hd & Ho & H). unfold extractFontInfo.
  unfold try_get at 1. rewrite Hg. cbn [rbind]. unfold two_keys.
  rewrite (gives_value t (bs "/Subtype") _ (key_lit (bs "Subtype") eq_refl) Hs).
  rewrite (gives_value t (bs "/BaseFont") _ (key_lit (bs "BaseFont") eq_refl) Hb).
  rewrite (gives_value t (bs "/Encoding") _ (key_lit (bs "Encoding") eq_refl) He).
  rewrite (says_value t (bs "/FontDescriptor") _ (key_lit (bs "FontDescriptor") eq_refl) Hd).
  rewrite Es, En, Hu. change (prefixb (bs "/") ("/"%byte :: st)) with true. cbv iota zeta.
  change (trim_prefix (bs "/") ("/"%byte :: nm)) with nm. rewrite (family_value nm fam Hfam).
  destruct desc as [d|]; cbn [number_text] in *.
  - destruct H as (x & own & Gx & Hown & Hemb & Hff). pose proof (parse_num d Ho) as P.
    destruct (decZ d) as [|c0 r0] eqn:E; [destruct (ManipProofs2.decZ_nonnil d E)|]. unfold XPagesModel.parse_ref. rewrite P.
    unfold try_get. rewrite Gx. cbn [rmap]. rewrite (gives_value x (bs "/FontFamily") _ (key_lit (bs "FontFamily") eq_refl) Hown).
    rewrite Hemb, Hff. destruct own; reflexivity.
  - destruct H as [-> ->]. reflexivity.
Qed.
(** The object as it is kept *)
Definition external_says (n : Z) (x : xobject) : Prop := exists t, get n = Ok t /\ gives t (bs "/Subtype") (xoSubtype x) /\ xoSubtype x <> [] /\ xoID x = [].
Lemma external_read n x : external_object parse_float to_int get n x -> exists o, extractXObjectInfo parse_float get n = Ok (Some o) /\ external_says n o /\
  match x with Picture w h => xoSubtype o = bs "/Image" /\ to_int (xoWidth o) = w /\ to_int (xoHeight o) = h | Other st => xoSubtype o <> bs "/Image" end.
Proof.
  intros (t & Hg & H). unfold extractXObjectInfo, try_get. rewrite Hg. cbn [rmap]. destruct x as [w h|st].
  - destruct H as (Hs & tw & th & fw & fh & N1 & N2 & Hw & Hh & Pw & Ph & Iw & Ih).
    rewrite (gives_value t (bs "/Subtype") _ (key_lit (bs "Subtype") eq_refl) Hs).
    change (bs "/Image") with ("/"%byte :: bs "Image") at 1. cbv iota. change (bytes_eqb ("/"%byte :: bs "Image") (bs "/Image")) with true. cbv iota.
    eexists. split; [reflexivity|]. split; [exists t; repeat split; try assumption; discriminate|]. cbn [xoSubtype xoWidth xoHeight]. split; [reflexivity|].
    unfold float_value. rewrite (says_value t (bs "/Width") _ (key_lit (bs "Width") eq_refl) Hw), (says_value t (bs "/Height") _ (key_lit (bs "Height") eq_refl) Hh).
    destruct tw; [congruence|]. destruct th; [congruence|]. rewrite Pw, Ph. auto.
  - destruct H as (N & Hs & Ni). rewrite (gives_value t (bs "/Subtype") _ (key_lit (bs "Subtype") eq_refl) Hs).
    destruct st as [|c st]; [congruence|].
    destruct (bytes_eqb (c :: st) (bs "/Image")) eqn:E; [apply bytes_eqb_eq in E; contradiction|].
    eexists. split; [reflexivity|]. cbn [xoSubtype]. split; [exists t; repeat split; try assumption; discriminate|exact Ni].
Qed.

Lemma entries_kept {A} (info : Z -> result (option A)) (name : bytes -> A -> A) (P : bytes * Z -> A -> Prop) l :
  Forall entry_free l -> NoDup (map fst l) -> (forall e, In e l -> exists v, info (snd e) = Ok (Some v) /\ P e v) -> forall acc, (forall e, In e l -> ~ In (fst e) (map fst acc)) ->
  exists m, read_entries info name (map (fun e => (fst e, decZ (snd e))) l) acc = Ok (acc ++ m) /\
    Forall2 (fun e kv => exists v, kv = (fst e, name (bs "/" ++ fst e) v) /\ P e v) l m.
Proof.
  induction l as [|e l IH]; intros Hf Hn Hv acc Ha; [exists []; rewrite app_nil_r; split; [reflexivity|constructor]|].
  inversion Hf as [|? ? [_ F1] F2]; subst. inversion Hn as [|? ? N1 N2]; subst.
  destruct (Hv e (or_introl eq_refl)) as (v & V1 & V2).
  cbn [map read_entries]. unfold entry_number. rewrite ReadProofs.atoi_decZ by exact F1. rewrite V1. cbn [rbind].
  rewrite CompareProofs4.kset_new by (apply Ha; left; reflexivity).
  destruct (IH F2 N2 (fun e' He' => Hv e' (or_intror He')) (acc ++ [(fst e, name (bs "/" ++ fst e) v)])) as (m & M1 & M2).
  { intros e' He' Hin. rewrite map_app, in_app_iff in Hin. destruct Hin as [Hin|[Hin|[]]]; [apply (Ha e'); [right; exact He'|exact Hin]|].
    cbn [fst] in Hin. apply N1. rewrite Hin. apply in_map, He'. }
  exists ((fst e, name (bs "/" ++ fst e) v) :: m). split; [rewrite M1, <- app_assoc; reflexivity|]. constructor; [|exact M2]. exists v. auto.
Qed.
Lemma kept_keys {A} (name : bytes -> A -> A) (P : bytes * Z -> A -> Prop) l m :
  Forall2 (fun e kv => exists v, kv = (fst e, name (bs "/" ++ fst e) v) /\ P e v) l m -> map fst m = map fst l.
Proof. induction 1 as [|e kv l m (v & -> & _) F IH]; [reflexivity|]. cbn [map fst]. rewrite IH. reflexivity. Qed.
Lemma kept_get {A} (name : bytes -> A -> A) (P : bytes * Z -> A -> Prop) l m : NoDup (map fst l) ->
  Forall2 (fun e kv => exists v, kv = (fst e, name (bs "/" ++ fst e) v) /\ P e v) l m ->
  forall e, In e l -> exists v, kget (fst e) m = Some (name (bs "/" ++ fst e) v) /\ P e v.
Proof.
  intros Hn F. induction F as [|e kv l m (v & -> & V) F IH]; [intros ? []|]. inversion Hn as [|? ? N1 N2]; subst.
  intros e' [<-|He']; cbn [kget].
  - exists v. rewrite bytes_eqb_refl. auto.
  - destruct (bytes_eqb (fst e') (fst e)) eqn:E; [apply bytes_eqb_eq in E; exfalso; apply N1; rewrite <- E; apply in_map, He'|]. apply IH; assumption.
Qed.
Lemma groups_externals fonts images : Forall (entry_ok (bs "XObject")) fonts -> Forall entry_free images ->
  xobject_entries_text (groups fonts images) = entries_text images.
Proof.
  intros Hf Hi. unfold xobject_entries_text, groups.
  assert (N : nostart (bs "/XObject") (group_of (bs "/Font") fonts)).
  { apply (group_nostart (bs "XObject")); [cbn; intuition discriminate|exact Hf|apply nostartb_ok; reflexivity]. }
  destruct images as [|e images].
  - cbn [group_of]. rewrite app_nil_r. pose proof (nostart_contains _ _ N ltac:(discriminate)) as C.
    rewrite (find_nolit _ (bs "/XObject")); [|intros s Hs; unfold m_dict; rewrite (proj2 (lit_none _ _) Hs); reflexivity|exact C].
    rewrite (find_nolit _ (bs "/XObject")); [reflexivity|intros s Hs; unfold m_dict_open; rewrite (proj2 (lit_none _ _) Hs); reflexivity|exact C].
  - change (group_of (bs "/XObject") (e :: images)) with (bs "/XObject" ++ bs "<<" ++ entries_text (e :: images) ++ bs ">>").
    rewrite (find_at (m_dict (bs "/XObject")) (group_of (bs "/Font") fonts) _ (entries_text (e :: images))); [reflexivity| |].
    + intros b j Hj. unfold m_dict. rewrite (proj2 (lit_none _ _)); [reflexivity|]. apply N, Hj.
    + unfold m_dict. rewrite lit_app. cbn [Util.obind].
      change (ws0 (bs "<<" ++ ?x)) with (bs "<<" ++ x). rewrite lit_app. cbn [Util.obind].
      change (bs ">>") with (">"%byte :: [">"%byte]).
      destruct (no_angle_entries _ (entry_free_plain _ Hi)) as [_ NA].
      assert (A : forallb (fun b => negb (beqb b ">")) (entries_text (e :: images)) = true).
      { apply forallb_forall. intros b Hb. destruct (beqb b ">") eqn:E; [|reflexivity]. apply beqb_eq in E. subst b. contradiction. }
      destruct (take_stop _ (entries_text (e :: images)) ">"%byte [">"%byte] A eq_refl) as [-> ->]. reflexivity.
Qed.

Lemma names_free l : resource_names l -> Forall entry_free l /\ Forall (entry_ok (bs "XObject")) l /\ NoDup (map fst l).
Proof.
  intros [Hn H]. split; [|split; [|exact Hn]]; apply Forall_forall; intros e He; rewrite Forall_forall in H; destruct (H e He) as (H1 & H2 & H3).
  - split; assumption.
  - destruct H1 as (_ & W & _). split; [exact H2|]. split; [exact W|lia].
Qed.
Lemma filter_kget (h : bytes * xobject -> bytes * ximage) (p : bytes * xobject -> bool) (m : list (bytes * xobject)) k : NoDup (map fst m) -> (forall x, fst (h x) = fst x) ->
  kget k (map h (filter p m)) = match kget k m with Some x => if p (k, x) then Some (snd (h (k, x))) else None | None => None end.
Proof.
  intros Hn Hh. induction m as [|[k' x] m IH]; [reflexivity|]. inversion Hn as [|? ? N1 N2]; subst. cbn [filter kget].
  destruct (bytes_eqb k k') eqn:E.
  - apply bytes_eqb_eq in E. subst k'. destruct (p (k, x)) eqn:P.
    + cbn [map kget]. pose proof (Hh (k, x)) as H. destruct (h (k, x)) as [k2 i]. cbn [fst snd] in *. subst k2. rewrite bytes_eqb_refl. reflexivity.
    + rewrite IH by exact N2. cbn [fst] in N1. assert (Q : kget k m = None) by (apply CompareProofs3.kget_none, N1). rewrite Q. reflexivity.
  - destruct (p (k', x)); [|apply IH, N2]. cbn [map kget]. pose proof (Hh (k', x)) as H. destruct (h (k', x)) as [k2 i]. cbn [fst] in *. subst k2. rewrite E. apply IH, N2.
Qed.
Lemma resources_read fonts images : resource_names fonts -> resource_names images ->
  (forall e, In e fonts -> exists f, font_object get (snd e) f) -> (forall e, In e images -> exists x, external_object parse_float to_int get (snd e) x) ->
  exists r, extractResources parse_float to_int get (groups fonts images) = Ok r /\
    fonts_known get fonts (xrFonts r) /\ externals_known get images (xrObjects r) /\ picture_known parse_float to_int get images (xrImages r).
Proof.
  intros Hf Hi Of Oi. destruct (names_free fonts Hf) as (F1 & F2 & F3). destruct (names_free images Hi) as (I1 & I2 & I3).
  unfold extractResources, extractFontsDict, extractXObjectsDict. rewrite groups_fonts by assumption. rewrite groups_externals by assumption.
  rewrite !entries_matches by assumption.
  destruct (entries_kept (extractFontInfo get) name_font (fun e v => fiID v = [] /\ font_object get (snd e) v) fonts F1 F3) with (acc := @nil (bytes * font_info)) as (m & M1 & M2).
  { intros e He. destruct (Of e He) as [f Hff]. eexists. split; [apply font_read, Hff|]. split; [reflexivity|]. exact Hff. }
  { intros e He []. }
  destruct (entries_kept (extractXObjectInfo parse_float get) name_xobject (fun e v => external_says (snd e) v /\ forall x, external_object parse_float to_int get (snd e) x ->
     match x with Picture w h => xoSubtype v = bs "/Image" /\ to_int (xoWidth v) = w /\ to_int (xoHeight v) = h | Other st => xoSubtype v <> bs "/Image" end) images I1 I3)
     with (acc := @nil (bytes * xobject)) as (q & Q1 & Q2).
  { intros e He. destruct (Oi e He) as [x Hx]. destruct (external_read (snd e) x Hx) as (o & O1 & O2 & _). exists o. split; [exact O1|]. split; [exact O2|].
    intros y Hy. destruct (external_read (snd e) y Hy) as (o' & O1' & _ & O3). assert (o' = o) by congruence. subst o'. exact O3. }
  { intros e He []. }
  rewrite M1. cbn [rbind app]. rewrite Q1. cbn [rmap app]. eexists. split; [reflexivity|]. cbn [xrFonts xrImages xrObjects].
  pose proof (kept_keys _ _ _ _ M2) as K1. pose proof (kept_keys _ _ _ _ Q2) as K2. split; [|split].
  - split; [exact K1|]. intros k n Hin. destruct (kept_get _ _ _ _ F3 M2 _ Hin) as (v & V1 & _ & V2). exists (name_font (bs "/" ++ k) v). cbn [fst snd] in *.
    split; [exact V1|]. split; [reflexivity|]. exact V2.
  - split; [exact K2|]. intros k n Hin. destruct (kept_get _ _ _ _ I3 Q2 _ Hin) as (v & V1 & (t & T1 & T2 & T3 & T4) & V2). cbn [fst snd] in *.
    exists (name_xobject (bs "/" ++ k) v), t. split; [exact V1|]. split; [reflexivity|]. split; [exact T1|exact T2].
  - assert (Nq : NoDup (map fst q)) by (exact (eq_ind_r (fun l => NoDup l) I3 K2)).
    split.
    + intros k Hk. rewrite filter_kget by (try exact Nq; intros; reflexivity). assert (Q : kget k q = None) by (apply CompareProofs3.kget_none; intros X; apply Hk; exact (eq_ind _ (fun l => In k l) X _ K2)). rewrite Q. reflexivity.
    + intros k n x Hin Hx. destruct (kept_get _ _ _ _ I3 Q2 _ Hin) as (v & V1 & V0 & V2). cbn [fst snd] in *. specialize (V2 x Hx).
      rewrite filter_kget by (try exact Nq; intros; reflexivity). rewrite V1. cbn [snd name_xobject xoSubtype]. destruct x as [w h|st].
      * destruct V2 as (-> & Ew & Eh). rewrite bytes_eqb_refl. eexists. split; [reflexivity|]. split; [reflexivity|]. split; [exact Ew|exact Eh].
      * destruct (bytes_eqb (xoSubtype v) (bs "/Image")) eqn:E; [apply bytes_eqb_eq in E; contradiction|]. reflexivity.
Qed.
(** A page as the writer writes it *)
Lemma page_resources n parent c width height fonts images : 0 <= n -> 0 <= parent -> 0 <= c < 2 ^ 63 -> numeral width -> numeral height ->
  (forall k, get k <> Panic) -> fonts ++ images <> [] -> resource_names fonts -> resource_names images -> Forall (entry_ok (bs "Annots")) fonts -> Forall (entry_ok (bs "Annots")) images ->
  (forall e, In e fonts -> exists f, font_object get (snd e) f) -> (forall e, In e images -> exists x, external_object parse_float to_int get (snd e) x) ->
  exists p r, extractFullPage inflate parse_float to_int get n (object_text n (page_text parent c width height fonts images)) = Ok (mkFP p (Some r) []) /\
    extractPage inflate parse_float get (object_text n (page_text parent c width height fonts images)) = Ok p /\
    fonts_known get fonts (xrFonts r) /\ externals_known get images (xrObjects r) /\ picture_known parse_float to_int get images (xrImages r).
Proof.
  intros Hn Hp Hc Hw Hh Hg Hne Hf Hi Af Ai Of Oi. destruct (names_free fonts Hf) as (F1 & F2 & F3). destruct (names_free images Hi) as (I1 & I2 & I3).
  destruct (resources_read fonts images Hf Hi Of Oi) as (r & R1 & R2).
  destruct (XPagesProofs5.page_total inflate parse_float get Hg (object_text n (page_text parent c width height fonts images))) as [p Ep].
  change (object_text n (page_text parent c width height fonts images)) with (pg n parent c width height fonts images) in *.
  assert (Ea : x_value (pg n parent c width height fonts images) (bs "/Annots") = []).
  { apply x_absent, nostart_contains; [|discriminate]. rewrite pg_contents. 
    apply nostart_app; [apply (before_nostart n parent c width height); try assumption; reflexivity|].
    apply nostart_app; [apply nostartb_ok; reflexivity|]. apply nostart_app; [apply nostartb_ok; reflexivity|].
    apply nostart_app; [apply nostart_decZ; [lia|reflexivity]|]. apply nostart_app; [apply nostartb_ok; reflexivity|].
    apply nostart_app; [|apply nostartb_ok; reflexivity]. unfold groups.
    apply nostart_app; apply (group_nostart (bs "Annots")); try assumption; try (cbn; intuition discriminate); apply nostartb_ok; reflexivity. }
  exists p, r. split; [|split; [exact Ep|exact R2]]. unfold extractFullPage, page_has_resources.
  rewrite (pg_resources_value n parent c width height fonts images) by assumption.
  rewrite (pg_inline n parent c width height fonts images) by assumption. rewrite Ea.
  destruct (groups fonts images) as [|b g] eqn:G.
  { exfalso. unfold groups in G. destruct fonts; [destruct images; [apply Hne; reflexivity|discriminate G]|discriminate G]. }
  cbn [rbind]. rewrite R1. cbn [rmap rbind]. rewrite Ep. reflexivity.
Qed.

(** The page tree *)
Lemma kid_fpages_ok (go : Z -> result (list fpage)) l : forall refs, map XPagesModel.parse_ref refs = map Some l ->
  kid_fpages go refs = fold_right (fun n acc => match go n with Panic => Panic | Err => acc | Ok x => rmap (app x) acc end) (Ok []) l.
Proof.
  induction l as [|n l IH]; intros refs H; destruct refs as [|r refs]; try discriminate; [reflexivity|]. cbn [map] in H. injection H as H1 H2.
  cbn [kid_fpages fold_right]. rewrite H1, (IH refs H2). reflexivity.
Qed.
Lemma full_walk t : reads_tree get t -> forall ps, Forall2 (fun n p => exists x, get n = Ok x /\ extractFullPage inflate parse_float to_int get n x = Ok p) (page_list t) ps ->
  forall stack, (height t <= stack)%nat -> full_tree inflate parse_float to_int get stack (pnum t) = Ok ps.
Proof.
  induction t as [n|n kids IH] using ptree_ind'; intros Hf ps Hp stack Hs.
  - destruct Hf as (x & Hx & Hsh). cbn [height page_list] in *. destruct stack as [|stack]; [lia|].
    inversion Hp as [|? p ? ps' (x' & Hx' & Hpp) Hn]; subst. inversion Hn; subst.
    assert (x' = x) by congruence. subst x'.
    cbn [full_tree pnum]. rewrite Hx. cbn [rbind]. rewrite (shows_page_is _ Hsh), Hpp. reflexivity.
  - cbn [reads_tree] in Hf. destruct Hf as [(x & Hx & Hn) Hk]. apply reads_kids in Hk.
    cbn [height] in Hs. destruct stack as [|stack]; [lia|].
    cbn [full_tree pnum]. rewrite Hx. cbn [rbind]. rewrite (shows_node_is _ _ Hn).
    rewrite (kid_fpages_ok _ _ _ (node_kids _ _ Hn)). cbn [page_list] in Hp.
    clear - IH Hk Hs Hp. revert Hs ps Hp. induction kids as [|k kids IHk]; intros Hs ps Hp.
    + inversion Hp; subst. reflexivity.
    + cbn [map fold_right flat_map] in *. inversion IH as [|? ? I1 I2]; subst. inversion Hk as [|? ? K1 K2]; subst.
      apply Forall2_app_inv_l in Hp. destruct Hp as (p1 & p2 & P1 & P2 & ->).
      rewrite (I1 K1 p1 P1 stack) by lia. rewrite (IHk I2 K2 ltac:(lia) p2 P2). reflexivity.
Qed.
Lemma full_pages root t ps stack : 0 <= root < 2 ^ 63 -> names_tree get root (pnum t) -> 0 <= pnum t < 2 ^ 63 -> reads_tree get t -> (height t <= stack)%nat ->
  Forall2 (fun n p => exists x, get n = Ok x /\ extractFullPage inflate parse_float to_int get n x = Ok p) (page_list t) ps ->
  ExtractFullPages inflate parse_float to_int get stack (ref root) = Ok (full_numbered 0 ps).
Proof.
  intros Hr (a & wp & wd & b & Hc & Ha & Hwp & Hwd) Hn Ht Hs Hps. unfold ExtractFullPages.
  assert (E : ref root = decZ root ++ bs " " ++ bs "0 R") by reflexivity.
  pose proof (decZ_nonnil root) as Z0.
  destruct (ref root) as [|c0 t0] eqn:E0; [exfalso; apply Z0; destruct (decZ root); [reflexivity|discriminate]|]. rewrite E.
  rewrite ManipProofs2.parse_ref; [|exact Hr|split; [discriminate|reflexivity]]. cbn [rbind]. rewrite Hc. cbn [rbind].
  rewrite x_spaced; [|apply key_Pages|exact Ha|exact Hwp|apply word_decZ|apply gap_not_plain, Hwd].
  pose proof (decZ_nonnil (pnum t)). pose proof (parse_num (pnum t) Hn) as P.
  destruct (decZ (pnum t)); [contradiction|]. rewrite P. cbn [rbind].
  rewrite (full_walk t Ht ps Hps stack Hs). reflexivity.
Qed.
(** A standard font, as it is written *)
Lemma standard_font_object n nm fam : 0 <= n -> standard_name nm -> family_of nm fam -> get n = Ok (object_text n (font_dict nm)) ->
  font_object get n (mkFI [] ("/"%byte :: nm) fam (bs "/Type1") false [] false).
Proof.
  intros Hn (Hw & Hgt & Hlt & Hk) Hfam Hg.
  assert (NS : ~ In "/"%byte nm).
  { intros Hi. destruct Hw as [_ Hw]. rewrite forallb_forall in Hw. specialize (Hw _ Hi). rewrite andb_false_r in Hw. discriminate. }
  assert (C : forall k, In k [bs "BaseFont"; bs "Subtype"; bs "Encoding"; bs "ToUnicode"; bs "FontDescriptor"; bs "FontFile"] -> ~ In ">"%byte k ->
    nostart ("/"%byte :: k) ((bs "/" ++ nm ++ bs ">>") ++ nl ++ bs "endobj")).
  { intros k Hin Hg2. apply nostart_app; [|apply nostart_noin; cbn; intuition discriminate]. apply (fname_nostart inflate parse_float); [exact Hg2| |exact NS].
    destruct (prefixb k nm) eqn:Ep; [|reflexivity]. exfalso.
    assert (T : existsb (fun k => prefixb k nm) [bs "BaseFont"; bs "Subtype"; bs "Encoding"; bs "ToUnicode"; bs "FontDescriptor"; bs "FontFile"] = true) by (apply existsb_exists; exists k; split; assumption). congruence. }
  assert (D : forall k, In k [bs "BaseFont"; bs "Subtype"; bs "Encoding"; bs "ToUnicode"; bs "FontDescriptor"; bs "FontFile"] -> ~ In ">"%byte k ->
    nostartb ("/"%byte :: k) (bs "<</Type/Font/Subtype/Type1/BaseFont") = true -> contains ("/"%byte :: k) (object_text n (font_dict nm)) = false).
  { intros k Hin Hg2 H1. apply nostart_contains; [|discriminate].
    replace (object_text n (font_dict nm)) with (decZ n ++ (bs " 0 obj" ++ nl) ++ bs "<</Type/Font/Subtype/Type1/BaseFont" ++ ((bs "/" ++ nm ++ bs ">>") ++ nl ++ bs "endobj"))
      by (unfold object_text, font_dict; rewrite <- !app_assoc; reflexivity).
    apply nostart_app; [apply nostart_decZ; [exact Hn|reflexivity]|]. apply nostart_app; [apply nostart_noin; cbn; intuition discriminate|].
    apply nostart_app; [apply nostartb_ok, H1|]. apply C; assumption. }
  exists (object_text n (font_dict nm)), nm, fam, None. split; [exact Hg|]. split; [|split; [reflexivity|split; [exact Hfam|split; [|split; [exists (bs "Type1"); reflexivity|]]]]].
  - right. exists (decZ n ++ bs " 0 obj" ++ nl ++ bs "<</Type/Font/Subtype/Type1"), nm, (bs ">>" ++ nl ++ bs "endobj"). cbn [fiName].
    split; [unfold object_text, font_dict; rewrite <- !app_assoc; reflexivity|]. split; [reflexivity|]. split; [|split; [exact Hw|split; [reflexivity|exact (proj1 (proj1 (orb_false_iff _ _) Hk))]]].
    split; apply nostart_contains; try discriminate; [|apply nostartb_ok; reflexivity].
    apply nostart_app; [apply nostart_decZ; [exact Hn|reflexivity]|apply nostartb_ok; reflexivity].
  - right. exists (decZ n ++ bs " 0 obj" ++ nl ++ bs "<</Type/Font"), (bs "Type1"), (bs "/BaseFont" ++ ((bs "/" ++ nm ++ bs ">>") ++ nl ++ bs "endobj")). cbn [fiSubtype].
    split; [unfold object_text, font_dict; rewrite <- !app_assoc; reflexivity|]. split; [reflexivity|]. split; [|split; [split; [discriminate|reflexivity]|split; reflexivity]].
    split; apply nostart_contains; try discriminate.
    + apply nostart_app; [apply nostart_decZ; [exact Hn|reflexivity]|apply nostartb_ok; reflexivity].
    + apply nostart_app; [apply nostartb_ok; reflexivity|]. apply (C (bs "Subtype")); [cbn; tauto|cbn; intuition discriminate].
  - cbn [fiEncoding fiToUnicode fiEmbedded fiFamily]. split; [left; apply (D (bs "Encoding")); [cbn; tauto|cbn; intuition discriminate|reflexivity]|].
    split; [symmetry; apply (D (bs "ToUnicode")); [cbn; tauto|cbn; intuition discriminate|reflexivity]|].
    split; [apply (D (bs "FontDescriptor")); [cbn; tauto|cbn; intuition discriminate|reflexivity]|]. split; [exact I|].
    split; [symmetry; apply (D (bs "FontFile")); [cbn; tauto|cbn; intuition discriminate|reflexivity]|reflexivity].
Qed.
End res.
