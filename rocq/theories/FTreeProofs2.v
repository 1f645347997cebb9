(** Proofs: attributes and trees. *)
From Verif Require Import Util Scan WriterModel ParseModel ManipModel TextModel FormsModel FormsProofs2 FTreeSpec FTreeProofs.
From Verif Require Import WriterProofs XrefProofs.
From Verif Require ReadProofs ParseProofs.
Local Open Scope Z_scope.

(* ---------------- arrays ---------------- *)
Lemma list_read {A} (m : bytes -> option (A * bytes)) (text : A -> bytes) (ok : A -> Prop) l :
  (forall a r, ok a -> m (text a ++ r) = Some (a, r)) -> (forall a, ok a -> text a <> []) -> (forall r, m (" "%byte :: r) = None) ->
  Forall ok l -> find_each m (join (bs " ") (map text l)) 0 = l.
Proof.
  intros Hm Hn Hs.
  assert (One : forall a r, ok a -> find_each m (text a ++ r) 0 = a :: find_each m r 0).
  { intros a r Ha. pose proof (Hm a r Ha) as E. destruct (text a) as [|c x] eqn:Et; [destruct (Hn a Ha Et)|].
    cbn [app find_each]. cbn [app] in E. rewrite E. f_equal. rewrite find_each_skip. f_equal. cbn [length]. rewrite app_length.
    replace (S (length x + length r) - length r - 1)%nat with (length x) by lia. apply skipn_app_exact. }
  induction l as [|a l IH]; intros H; [reflexivity|]. inversion H as [|x y H1 H2]; subst. destruct l as [|b l].
  - cbn [map join]. rewrite <- (app_nil_r (text a)), One by exact H1. reflexivity.
  - change (join (bs " ") (map text (a :: b :: l))) with (text a ++ " "%byte :: join (bs " ") (map text (b :: l))).
    rewrite One by exact H1. f_equal. cbn [find_each]. rewrite Hs. exact (IH H2).
Qed.
Lemma strings_read l : Forall (without ")") l -> parseOptions (join (bs " ") (map in_parens l)) = l.
Proof.
  intros H. unfold parseOptions. apply (list_read m_paren in_parens (without ")")); [| |reflexivity|exact H].
  - intros s r Hs. unfold m_paren, in_parens. rewrite <- !app_assoc, lit_app. cbn [obind]. change (bs ")" ++ r) with (")"%byte :: r).
    rewrite until_app by exact Hs. rewrite skipn_app_exact. reflexivity.
  - intros s _. discriminate.
Qed.
Lemma references_read l : Forall (fun r => object_number (fst r) /\ object_number (snd r)) l ->
  refs_of (join (bs " ") (map ref_text l)) = l.
Proof.
  intros H. unfold refs_of. apply (list_read m_ref2 ref_text (fun r => object_number (fst r) /\ object_number (snd r))); [| |reflexivity|exact H].
  - intros [n g] r [H1 H2]. cbn [fst snd] in *. unfold m_ref2, ref_text. cbn [fst snd]. rewrite <- !app_assoc.
    pose proof (proj1 H1) as P1. pose proof (proj1 H2) as P2.
    rewrite digits1_app; [|apply decZ_nonnil, P1|apply decZ_digits, P1|reflexivity]. cbn [obind].
    change (bs " " ++ decZ g ++ bs " R" ++ r) with (" "%byte :: decZ g ++ bs " R" ++ r).
    rewrite ws1_space by (apply digits_hd; [exact P2|exact digit_not_ws]). cbn [obind].
    rewrite digits1_app; [|apply decZ_nonnil, P2|apply decZ_digits, P2|reflexivity]. cbn [obind].
    change (bs " R" ++ r) with (" "%byte :: bs "R" ++ r). rewrite ws1_space by reflexivity. cbn [obind]. rewrite lit_app. cbn [obind].
    rewrite !atoi_clip_decZ by assumption. reflexivity.
  - intros [n g] [H1 _] E. unfold ref_text in E. apply app_eq_nil in E. exact (decZ_nonnil n (proj1 H1) (proj1 E)).
Qed.
Lemma words_read l : Forall (fun w => w <> [] /\ forallb (fun b => negb (is_space b)) w = true) l -> fields is_space (join (bs " ") l) = l.
Proof.
  assert (N : forall w, forallb (fun b => negb (is_space b)) w = true -> forall b, In b w -> is_space b = false).
  { intros w H b I. rewrite forallb_forall in H. apply negb_true_iff, H, I. }
  induction l as [|a l IH]; intros H; [reflexivity|]. inversion H as [|x y [H1 H1'] H2]; subst. destruct l as [|b l].
  - apply fields_last; [exact H1|apply N, H1'].
  - change (join (bs " ") (a :: b :: l)) with (a ++ " "%byte :: join (bs " ") (b :: l)).
    rewrite fields_word, IH; [reflexivity|exact H2|exact H1|apply N, H1'|reflexivity].
Qed.
Lemma strip_in_parens s : strip_parens (in_parens s) = s.
Proof.
  unfold strip_parens, in_parens.
  assert (S : suffixb (bs ")") (bs "(" ++ s ++ bs ")") = true).
  { rewrite app_assoc. apply ParseProofs.suffixb_app. }
  rewrite S, prefixb_app. cbn [andb]. rewrite !app_length. change (length (bs "(")) with 1%nat. change (length (bs ")")) with 1%nat.
  change (skipn 1 (bs "(" ++ s ++ bs ")")) with (s ++ bs ")"). replace (1 + (length s + 1) - 2)%nat with (length s) by lia.
  rewrite firstn_app, firstn_all, Nat.sub_diag. apply app_nil_r.
Qed.
Lemma strip_word w : forallb word_byte w = true -> strip_parens w = w.
Proof.
  intros H. unfold strip_parens. destruct w as [|b w]; [reflexivity|]. cbn [forallb] in H. apply andb_true_iff in H. destruct H as [H _].
  assert (P : prefixb (bs "(") (b :: w) = false).
  { change (bs "(") with ["("%byte]. cbn [prefixb]. destruct (beqb "(" b) eqn:E; [|reflexivity]. apply beqb_eq in E. subst b. discriminate. }
  rewrite P. reflexivity.
Qed.

(* ---------------- attributes ---------------- *)
Section Attrs.
Variables (es : list entry) (d : bytes).
Hypothesis Hd : dictionary field_keys es d.
Hypothesis Hf : field_ok es.
Lemma value_ok q v : value_at es q = Some v -> val_ok field_keys v.
Proof.
  unfold value_at. destruct (List.find _ es) as [e|] eqn:E; [|discriminate]. intros X. injection X as <-.
  apply List.find_some in E. destruct E as [I _]. destruct Hd as (_ & F & _). rewrite Forall_forall in F. apply (F e I).
Qed.
Ltac key := match goal with |- In ?q field_keys => unfold field_keys; repeat (try (left; reflexivity); right) | _ => idtac end.
Lemma r_str q : In q field_keys -> search (m_str (bs "/" ++ q)) d = match value_at es q with Some v => s_str v | None => None end.
Proof. intros H. apply (read_str field_keys es d Hd q H); destruct H as [<-|[<-|[<-|[<-|[<-|[<-|[<-|[<-|[<-|[<-|[]]]]]]]]]]]; (reflexivity || discriminate). Qed.
Lemma r_name q : In q field_keys -> search (m_name (bs "/" ++ q)) d = match value_at es q with Some v => s_name v | None => None end.
Proof. intros H. apply (read_name field_keys es d Hd q H); destruct H as [<-|[<-|[<-|[<-|[<-|[<-|[<-|[<-|[<-|[<-|[]]]]]]]]]]]; (reflexivity || discriminate). Qed.
Lemma r_arr q : In q field_keys -> search (m_arr (bs "/" ++ q)) d = match value_at es q with Some v => s_arr v | None => None end.
Proof. intros H. apply (read_arr field_keys es d Hd q H); destruct H as [<-|[<-|[<-|[<-|[<-|[<-|[<-|[<-|[<-|[<-|[]]]]]]]]]]]; (reflexivity || discriminate). Qed.
Lemma r_num q : In q field_keys -> search (m_key (bs "/" ++ q)) d = match value_at es q with Some v => s_num v | None => None end.
Proof. intros H. apply (read_num field_keys es d Hd q H); destruct H as [<-|[<-|[<-|[<-|[<-|[<-|[<-|[<-|[<-|[<-|[]]]]]]]]]]]; (reflexivity || discriminate). Qed.
Ltac find_key := unfold field_keys; cbn [In]; repeat (first [left; reflexivity|right]).

Lemma number_read q : In q field_keys -> of_kind es q (fun v => match v with VRef _ _ => False | _ => True end) ->
  atoi0 (search (m_key (bs "/" ++ q)) d) = a_number (value_at es q).
Proof.
  intros H Hk. rewrite r_num by exact H. destruct (value_at es q) as [v|] eqn:E; [|reflexivity].
  pose proof (value_ok q v E) as V. specialize (Hk v E). destruct v; try reflexivity; [|destruct Hk].
  cbn [s_num atoi0 a_number]. apply atoi_clip_decZ. exact V.
Qed.
Lemma attrs_read n g : attrs_of n g d = field_attrs n g es.
Proof.
  destruct Hf as (F1 & F2 & F3 & F4 & F5). unfold attrs_of, field_attrs. f_equal.
  - unfold get_FT. change (bs "/FT") with (bs "/" ++ bs "FT"). rewrite r_name by find_key. destruct (value_at es (bs "FT")) as [[]|]; reflexivity.
  - unfold get_T. change (bs "/T") with (bs "/" ++ bs "T"). rewrite r_str, r_name by find_key. destruct (value_at es (bs "T")) as [[]|]; reflexivity.
  - unfold get_TU. change (bs "/TU") with (bs "/" ++ bs "TU"). rewrite r_str by find_key. destruct (value_at es (bs "TU")) as [[]|]; reflexivity.
  - unfold get_Ff. apply (number_read (bs "Ff")); [find_key|exact F1].
  - unfold get_V. change (bs "/V") with (bs "/" ++ bs "V"). rewrite r_str, r_name, r_arr by find_key.
    destruct (value_at es (bs "V")) as [v|] eqn:E; [|reflexivity]. specialize (F3 v E). pose proof (value_ok _ _ E) as V.
    destruct v as [s|w|z|a b|l|l|l|t]; try reflexivity; cbn [s_str s_name s_arr val_ok] in *.
    + unfold parseArray. rewrite words_read.
      * rewrite map_map. f_equal. rewrite <- (map_id l) at 2. apply map_ext. apply strip_in_parens.
      * rewrite Forall_map. revert F3. apply Forall_impl. intros s H. split; [discriminate|].
        unfold in_parens. rewrite !forallb_app, H. reflexivity.
    + unfold parseArray. rewrite words_read.
      * f_equal. rewrite <- (map_id l) at 2. apply map_ext_in. intros w I. rewrite Forall_forall in V. apply strip_word, (V w I).
      * revert V. apply Forall_impl. intros w [H1 H2]. split; [exact H1|]. revert H2. apply class_impl. unfold word_byte. intros b H. apply andb_true_iff in H. apply H.
    + destruct F3.
  - unfold get_DV. change (bs "/DV") with (bs "/" ++ bs "DV"). rewrite r_str by find_key. destruct (value_at es (bs "DV")) as [[]|]; reflexivity.
  - unfold get_MaxLen. apply (number_read (bs "MaxLen")); [find_key|exact F2].
  - unfold get_Opt. change (bs "/Opt") with (bs "/" ++ bs "Opt"). rewrite r_arr by find_key.
    destruct (value_at es (bs "Opt")) as [v|] eqn:E; [|reflexivity]. specialize (F4 v E). pose proof (value_ok _ _ E) as V.
    destruct v as [s|w|z|a b|l|l|l|t]; try reflexivity; cbn [s_arr val_ok] in *; try destruct F4.
    apply strings_read. revert V. apply Forall_impl. intros s [(_ & H & _) _]. exact H.
  - unfold get_Rect. change (bs "/Rect") with (bs "/" ++ bs "Rect"). rewrite r_arr by find_key.
    destruct (value_at es (bs "Rect")) as [v|] eqn:E; [|reflexivity]. specialize (F5 v E). pose proof (value_ok _ _ E) as V.
    destruct v as [s|w|z|a b|l|l|l|t]; try reflexivity; cbn [s_arr val_ok] in *; try destruct F5.
    apply words_read. revert V. apply Forall_impl. intros w [H1 H2]. split; [exact H1|]. revert H2. apply class_impl. unfold word_byte. intros b H. apply andb_true_iff in H. apply H.
Qed.
Lemma kids_read : get_Kids d = match value_at es (bs "Kids") with Some v => match s_arr v with Some t => refs_of t | None => [] end | None => [] end.
Proof.
  unfold get_Kids. change (bs "/Kids") with (bs "/" ++ bs "Kids"). rewrite r_arr by find_key.
  destruct (value_at es (bs "Kids")) as [v|]; [|reflexivity]. destruct (s_arr v); reflexivity.
Qed.
End Attrs.

(* ---------------- trees ---------------- *)
Definition tree_ind' (P : ftree -> Prop) (Hg : forall n g, P (Gone n g))
  (Hn : forall n g es kids, Forall P kids -> P (Node n g es kids)) : forall t, P t :=
  fix go t := match t with
  | Gone n g => Hg n g
  | Node n g es kids => Hn n g es kids ((fix all l : Forall P l := match l with [] => Forall_nil _ | t :: l => Forall_cons _ (go t) (all l) end) kids)
  end.
Lemma kids_height kids t : In t kids -> (tree_height t <= fold_right (fun t h => Nat.max (tree_height t) h) 0%nat kids)%nat.
Proof. induction kids as [|x l IH]; intros []; cbn [fold_right]; [subst; lia|]. specialize (IH H). lia. Qed.
Lemma trees_read get stack ts :
  Forall (fun t => forall rest fs, parse_each (parseField stack get) rest = Ok fs ->
     parse_each (parseField stack get) (tree_ref t :: rest) = Ok (tree_fields t ++ fs)) ts ->
  parse_each (parseField stack get) (map tree_ref ts) = Ok (flat_map tree_fields ts).
Proof. intros H. induction H as [|t ts Ht H IH]; [reflexivity|]. cbn [map flat_map]. apply Ht, IH. Qed.
Lemma tree_read get : forall t stack, in_file get t -> (tree_height t <= stack)%nat ->
  forall rest fs, parse_each (parseField stack get) rest = Ok fs ->
  parse_each (parseField stack get) (tree_ref t :: rest) = Ok (tree_fields t ++ fs).
Proof.
  induction t as [n g|n g es kids IH] using tree_ind'; intros stack Hi Hh rest fs Hr; cbn [tree_height tree_ref] in *.
  - destruct stack as [|k]; [lia|]. cbn [parse_each]. cbn [parseField]. inversion Hi; subst.
    match goal with H : get n = Err |- _ => rewrite H end. cbn [rbind]. exact Hr.
  - destruct stack as [|k]; [lia|]. inversion Hi as [|n' g' es' kids' d Hg Hd Hf Hk Ha]; subst.
    assert (E : parseField (S k) get n g = Ok (Field (field_attrs n g es) (flat_map tree_fields kids))).
    { cbn [parseField]. rewrite Hg. cbn [rbind]. rewrite (attrs_read es d Hd Hf n g).
      assert (K : get_Kids d = map tree_ref kids).
      { rewrite (kids_read es d Hd). destruct (value_at es (bs "Kids")) as [v|] eqn:Ev; [|subst kids; reflexivity].
        pose proof (value_ok es d Hd _ _ Ev) as V.
        destruct v as [s|w|z|a b|l|l|l|t]; try (subst kids; reflexivity); try destruct Hk. cbn [s_arr val_ok] in *. rewrite references_read by exact V. reflexivity. }
      rewrite K, trees_read; [reflexivity|]. rewrite Forall_forall in *. intros t It. apply (IH t It); [exact (Ha t It)|].
      pose proof (kids_height kids t It). lia. }
    cbn [parse_each]. rewrite E, Hr. reflexivity.
Qed.
Lemma node_read get n g es kids stack : in_file get (Node n g es kids) -> (tree_height (Node n g es kids) <= stack)%nat ->
  parseField stack get n g = Ok (Field (field_attrs n g es) (flat_map tree_fields kids)).
Proof.
  intros H1 H2. pose proof (tree_read get _ stack H1 H2 [] [] eq_refl) as E. cbn [tree_ref tree_fields parse_each] in E.
  destruct (parseField stack get n g); cbn [rmap app] in E; try discriminate. injection E as ->. reflexivity.
Qed.

(* ---------------- the form ---------------- *)
Lemma xfa_read es d : dictionary form_keys es d -> form_ok es -> contains (bs "/XFA") d = match value_at es (bs "XFA") with Some _ => true | None => false end.
Proof.
  intros (Hd & He & before & gap & after & -> & Hg & Hb & Ha) Hf.
  destruct (value_at es (bs "XFA")) as [v|] eqn:E.
  - unfold value_at in E. destruct (List.find _ es) as [e|] eqn:F; [|discriminate]. apply List.find_some in F. destruct F as [I K]. apply bytes_eqb_eq in K.
    apply in_split in I. destruct I as (l1 & l2 & ->). rewrite flat_map_app. cbn [flat_map]. unfold entry_text at 2. rewrite K.
    unfold contains. destruct (index (bs "/XFA") _) eqn:X; [reflexivity|]. exfalso.
    assert (C : contains (bs "/XFA") (before ++ bs "<<" ++ (flat_map entry_text l1 ++ (eBefore e ++ bs "/" ++ bs "XFA" ++ eGap e ++ val_text (eVal e)) ++ flat_map entry_text l2) ++ gap ++ bs ">>" ++ after) = false)
      by (unfold contains; rewrite X; reflexivity).
    rewrite contains_false in C.
    specialize (C (length (before ++ bs "<<" ++ flat_map entry_text l1 ++ eBefore e))).
    assert (S : before ++ bs "<<" ++ (flat_map entry_text l1 ++ (eBefore e ++ bs "/" ++ bs "XFA" ++ eGap e ++ val_text (eVal e)) ++ flat_map entry_text l2) ++ gap ++ bs ">>" ++ after =
       (before ++ bs "<<" ++ flat_map entry_text l1 ++ eBefore e) ++ bs "/XFA" ++ (eGap e ++ val_text (eVal e)) ++ flat_map entry_text l2 ++ gap ++ bs ">>" ++ after).
    { change (bs "/XFA") with (bs "/" ++ bs "XFA"). rewrite <- !app_assoc. reflexivity. }
    rewrite S in C. specialize (C ltac:(rewrite (app_length _ (bs "/XFA" ++ _)); lia)). rewrite skipn_app_exact, prefixb_app in C. discriminate C.
  - assert (Q : forall a r, silent (bs "/XFA") a r -> contains (bs "/XFA") (a ++ r) = contains (bs "/XFA") r).
    { clear. induction a as [|b a IH]; intros r H; [reflexivity|]. cbn [app]. pose proof (H 0%nat ltac:(cbn; lia)) as H0. cbn [skipn app] in H0.
      specialize (IH r ltac:(intros j Hj; exact (H (S j) ltac:(cbn [length]; lia)))). unfold contains in *. cbn [index]. rewrite H0.
      destruct (index (bs "/XFA") (a ++ r)), (index (bs "/XFA") r); (discriminate || reflexivity). }
    rewrite Q by (change (bs "<<" ++ flat_map entry_text es ++ gap ++ bs ">>" ++ after) with ("<"%byte :: "<"%byte :: flat_map entry_text es ++ gap ++ bs ">>" ++ after);
      apply (free_silent form_keys (bs "XFA")); [right; left; reflexivity|reflexivity|exact Hb|reflexivity]).
    rewrite Q by (apply silent_nostart, nostartb_ok; reflexivity).
    assert (B : brk (gap ++ bs ">>" ++ after)).
    { destruct gap as [|c gap]; [right; right; reflexivity|]. left. unfold blank in Hg. cbn [forallb] in Hg. apply andb_true_iff in Hg. apply Hg. }
    assert (T : contains (bs "/XFA") (gap ++ bs ">>" ++ after) = false).
    { rewrite Q by (apply silent_nostart, blank_noslash, Hg). rewrite Q by (apply silent_nostart, nostartb_ok; reflexivity). exact (Ha (bs "XFA") (or_intror (or_introl eq_refl))). }
    revert E Hf. clear Hd. induction He as [|e es He' He IH]; intros E Hf; [exact T|].
    cbn [flat_map]. rewrite <- app_assoc. unfold value_at in E. cbn [List.find] in E.
    destruct (bytes_eqb (eKey e) (bs "XFA")) eqn:K; [discriminate|].
    rewrite Q; [apply IH; [exact E|intros e' I; apply Hf; right; exact I]|].
    destruct He' as (H1 & H2 & H3 & H4 & H5). pose proof (entries_brk form_keys es _ He B) as B'.
    destruct (Hf e (or_introl eq_refl)) as [Hk Hn]. destruct Hk as [Hk|Hk]; [rewrite Hk in K; discriminate|].
    assert (P : forall w r, forallb regular w = true -> prefixb (bs "XFA") w = false -> stop r -> silent (bs "/XFA") (bs "/" ++ w) r).
    { clear. intros w r Hw Hp Hs j Hj. destruct j as [|j].
      - cbn [skipn]. change ((bs "/" ++ w) ++ r) with ("/"%byte :: w ++ r). change (bs "/XFA") with ("/"%byte :: bs "XFA"). cbn [prefixb].
        destruct (prefixb (bs "XFA") (w ++ r)) eqn:X; [|apply andb_false_r].
        destruct (word_split (bs "XFA") w r Hw Hs eq_refl X) as [->|(c & w' & -> & _)]; [discriminate|]. rewrite prefixb_app in Hp. discriminate.
      - change (skipn (S j) ((bs "/" ++ w) ++ r)) with (skipn j (w ++ r)). apply (regular_noslash w (bs "XFA") Hw). rewrite app_length in Hj. cbn in Hj. lia. }
    unfold entry_text. apply silent_app; [apply silent_nostart, blank_noslash, H1|]. rewrite app_assoc. apply silent_app.
    + apply P; [exact H2|exact Hk|]. rewrite <- app_assoc. apply (apart_stop form_keys); assumption.
    + apply silent_app; [apply silent_nostart, blank_noslash, H3|].
      assert (D : (exists w, eVal e = VName w) \/ forall w, eVal e <> VName w) by (destruct (eVal e); eauto; right; discriminate).
      destruct D as [[w D]|D].
      * rewrite D in *. destruct H5 as (_ & H5 & _). cbn [val_text]. apply P; [revert H5; apply class_impl, word_regular|exact (Hn w eq_refl)|apply brk_stop, B'].
      * apply (value_silent form_keys (bs "XFA")); [right; left; reflexivity|reflexivity|exact H5|exact D|exact B'].
Qed.
Lemma form_read get stack es ts d : a_form get es ts d -> (forall t, In t ts -> (tree_height t <= stack)%nat) ->
  parseAcroFormDict stack get d = Ok (mkForm (flat_map tree_fields ts) (match value_at es (bs "XFA") with Some _ => true | None => false end)).
Proof.
  intros (Hd & Hf & Hv & Ht) Hh. unfold parseAcroFormDict.
  change (bs "/Fields") with (bs "/" ++ bs "Fields").
  rewrite (read_arr form_keys es d Hd (bs "Fields")); [|left; reflexivity|reflexivity|discriminate].
  rewrite Hv. cbn [s_arr].
  assert (V : val_ok form_keys (VRefs (map tree_ref ts))).
  { unfold value_at in Hv. destruct (List.find _ es) as [e|] eqn:E; [|discriminate]. apply List.find_some in E. destruct E as [I _].
    destruct Hd as (_ & F & _). rewrite Forall_forall in F. cbn [option_map] in Hv. injection Hv as Hv. rewrite <- Hv. apply (F e I). }
  rewrite references_read by exact V. rewrite trees_read.
  - cbn [rmap]. rewrite (xfa_read es d Hd Hf). reflexivity.
  - rewrite Forall_forall in *. intros t I. apply tree_read; [exact (Ht t I)|exact (Hh t I)].
Qed.
Lemma file_read get stack es ts d before n g r : object_number n -> object_number g -> contains (bs "/AcroForm") before = false ->
  get n = Ok d -> a_form get es ts d -> (forall t, In t ts -> (tree_height t <= stack)%nat) ->
  parseAcroFormFromBytes stack get (before ++ bs "/AcroForm " ++ ref_text (n, g) ++ r) =
  Ok (mkForm (flat_map tree_fields ts) (match value_at es (bs "XFA") with Some _ => true | None => false end)).
Proof.
  intros Hn Hg Hb Hget Ha Hh. unfold parseAcroFormFromBytes.
  assert (M : m_acroform (bs "/AcroForm " ++ ref_text (n, g) ++ r) = Some (decZ n, r)).
  { unfold m_acroform, ref_text. cbn [fst snd]. change (bs "/AcroForm ") with (bs "/AcroForm" ++ bs " "). rewrite <- !app_assoc, lit_app. cbn [obind].
    pose proof (proj1 Hn) as P1. pose proof (proj1 Hg) as P2.
    change (bs " " ++ decZ n ++ bs " " ++ decZ g ++ bs " R" ++ r) with (" "%byte :: decZ n ++ bs " " ++ decZ g ++ bs " R" ++ r).
    rewrite ws1_space by (apply digits_hd; [exact P1|exact digit_not_ws]). cbn [obind].
    rewrite digits1_app; [|apply decZ_nonnil, P1|apply decZ_digits, P1|reflexivity]. cbn [obind].
    change (bs " " ++ decZ g ++ bs " R" ++ r) with (" "%byte :: decZ g ++ bs " R" ++ r).
    rewrite ws1_space by (apply digits_hd; [exact P2|exact digit_not_ws]). cbn [obind].
    rewrite digits1_app; [|apply decZ_nonnil, P2|apply decZ_digits, P2|reflexivity]. cbn [obind].
    change (bs " R" ++ r) with (" "%byte :: bs "R" ++ r). rewrite ws1_space by reflexivity. cbn [obind]. rewrite lit_app. reflexivity. }
  assert (S : search m_acroform (before ++ bs "/AcroForm " ++ ref_text (n, g) ++ r) = Some (decZ n, r)).
  { rewrite (find_silent m_acroform (bs "/AcroForm")).
    - apply search_hit. exact M.
    - intros s H. unfold m_acroform. apply lit_none in H. rewrite H. reflexivity.
    - change (bs "/AcroForm " ++ ref_text (n, g) ++ r) with ("/"%byte :: bs "AcroForm " ++ ref_text (n, g) ++ r).
      apply silent_sep; [exact Hb|]. vm_compute. intuition discriminate. }
  rewrite S. rewrite ReadProofs.atoi_decZ by exact Hn. rewrite Hget. cbn [rbind]. apply (form_read get stack es ts d Ha Hh).
Qed.
