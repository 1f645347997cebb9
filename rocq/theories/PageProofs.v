(** Proofs for pages and bookmarks. *)
From Verif Require Import Util Scan PageModel PageSpec TextSpec WriterProofs ParseProofs MetaProofs ManipProofs.
Local Open Scope Z_scope.

(* ---------------------------------------------------------------- *)
(** Formatting *)

Lemma not_ref (s : bytes) b : beqb b "R" = false -> suffixb (bs " R") (s ++ [b]) = false.
Proof.
  intros H. destruct (suffixb (bs " R") (s ++ [b])) eqn:E; [|reflexivity].
  apply suffix_R in E. destruct E as [u E].
  change (bs " R") with (bs " " ++ [("R"%byte : byte)]) in E. rewrite app_assoc in E. apply app_inj_tail in E. destruct E as [_ E].
  subst b. discriminate H.
Qed.
Lemma fmt_ref n : formatValue (VStr (ref n)) = ref n.
Proof.
  cbn [formatValue]. unfold ref. replace (decZ n ++ bs " 0 R") with ((decZ n ++ bs " 0") ++ bs " R").
  - rewrite suffixb_app, orb_true_r. reflexivity.
  - rewrite <- app_assoc. reflexivity.
Qed.
Lemma fmt_paren s : formatValue (VStr (bs "(" ++ s ++ bs ")")) = bs "((" ++ s ++ bs "))".
Proof.
  cbn [formatValue].
  replace (suffixb (bs " R") (bs "(" ++ s ++ bs ")")) with false.
  - replace (prefixb (bs "/") (bs "(" ++ s ++ bs ")")) with false by reflexivity. cbn [orb].
    change (bs "((") with (bs "(" ++ bs "("). change (bs "))") with (bs ")" ++ bs ")").
    rewrite <- !app_assoc. reflexivity.
  - symmetry. rewrite app_assoc. apply not_ref; reflexivity.
Qed.
Lemma fmt_dest n : formatValue (VStr (bs "[" ++ ref n ++ bs " /XYZ 0 792 null]")) =
  bs "([" ++ ref n ++ bs " /XYZ 0 792 null])".
Proof.
  cbn [formatValue].
  replace (suffixb (bs " R") (bs "[" ++ ref n ++ bs " /XYZ 0 792 null]")) with false.
  - replace (prefixb (bs "/") (bs "[" ++ ref n ++ bs " /XYZ 0 792 null]")) with false by reflexivity. cbn [orb].
    change (bs "([") with (bs "(" ++ bs "["). change (bs " /XYZ 0 792 null])") with (bs " /XYZ 0 792 null]" ++ bs ")").
    rewrite <- !app_assoc. reflexivity.
  - symmetry. change (bs " /XYZ 0 792 null]") with (bs " /XYZ 0 792 null" ++ bs "]"). rewrite !app_assoc.
    apply not_ref; reflexivity.
Qed.
Lemma fmt_string s : formatValue (VStr s) = written_string s.
Proof. reflexivity. Qed.

(** The text of an item, from its parts. *)
Definition pair_text (k : bytes) (v : bytes) : bytes := k ++ bs " " ++ v ++ bs " ".
Definition item_parts (action count dest first last parent prev : option bytes) (title : bytes) : list (bytes * bytes) :=
  [(bs "/Title", title)] ++
  match dest with Some d => [(bs "/Dest", d)] | None => [] end ++
  match action with Some d => [(bs "/A", d)] | None => [] end ++
  match parent with Some d => [(bs "/Parent", d)] | None => [] end ++
  match prev with Some d => [(bs "/Prev", d)] | None => [] end ++
  match first with Some f => match last, count with Some l, Some c => [(bs "/First", f); (bs "/Last", l); (bs "/Count", c)] | _, _ => [] end | None => [] end.
Definition kids_parts (action count dest first last parent prev : option bytes) (title : bytes) : bytes :=
  bs "<<" ++ if_some action (pair_text (bs "/A")) ++ if_some count (pair_text (bs "/Count")) ++
  if_some dest (pair_text (bs "/Dest")) ++ if_some first (pair_text (bs "/First")) ++ if_some last (pair_text (bs "/Last")) ++
  if_some parent (pair_text (bs "/Parent")) ++ if_some prev (pair_text (bs "/Prev")) ++
  pair_text (bs "/Title") title ++ bs ">>".
Definition sorted_parts (action count dest first last parent prev : option bytes) (title : bytes) : list (bytes * bytes) :=
  match action with Some d => [(bs "/A", d)] | None => [] end ++
  match count with Some d => [(bs "/Count", d)] | None => [] end ++
  match dest with Some d => [(bs "/Dest", d)] | None => [] end ++
  match first with Some d => [(bs "/First", d)] | None => [] end ++
  match last with Some d => [(bs "/Last", d)] | None => [] end ++
  match parent with Some d => [(bs "/Parent", d)] | None => [] end ++
  match prev with Some d => [(bs "/Prev", d)] | None => [] end ++
  [(bs "/Title", title)].
Lemma sort_parts action dest parent prev title (kids : option (bytes * bytes * bytes)) :
  let c := option_map (fun k => snd k) kids in let f := option_map (fun k => fst (fst k)) kids in
  let l := option_map (fun k => snd (fst k)) kids in
  sortK (item_parts action c dest f l parent prev title) = sorted_parts action c dest f l parent prev title.
Proof. destruct kids as [[[f l] c]|], action, dest, parent, prev; reflexivity. Qed.
Lemma entry_text k v : prefixb (bs "/") k = true -> slash_key k ++ bs " " ++ v ++ bs " " = pair_text k v.
Proof. intros H. unfold slash_key. rewrite H. reflexivity. Qed.
Lemma format_parts action dest parent prev title (kids : option (bytes * bytes * bytes)) :
  let c := option_map (fun k => snd k) kids in let f := option_map (fun k => fst (fst k)) kids in
  let l := option_map (fun k => snd (fst k)) kids in
  format_pairs (item_parts action c dest f l parent prev title) = kids_parts action c dest f l parent prev title.
Proof.
  intros c f l. unfold format_pairs. unfold c, f, l. rewrite sort_parts. unfold sorted_parts, kids_parts.
  rewrite !flat_map_app.
  assert (E : forall k (o : option bytes), prefixb (bs "/") k = true ->
    flat_map (fun kv => slash_key (fst kv) ++ bs " " ++ snd kv ++ bs " ") match o with Some d => [(k, d)] | None => [] end =
    if_some o (pair_text k)).
  { intros k [d|] H; [|reflexivity]. cbn [flat_map fst snd if_some]. rewrite app_nil_r. apply entry_text, H. }
  rewrite !E by reflexivity. cbn [flat_map fst snd]. rewrite app_nil_r, entry_text by reflexivity.
  rewrite <- !app_assoc. reflexivity.
Qed.

Definition dest_part (pages : zmap Z) (page : Z) (dest : bytes) : option bytes :=
  if 0 <? page then option_map (fun n => bs "([" ++ ref n ++ bs " /XYZ 0 792 null])") (mget page pages)
  else match dest with [] => None | _ => Some (written_string dest) end.
Lemma dest_part_ok pages page dest : if_some (dest_part pages page dest) (pair_text (bs "/Dest")) = dest_entry pages page dest.
Proof.
  unfold dest_part, dest_entry. destruct (0 <? page).
  - destruct (mget page pages) as [n|]; [|reflexivity]. cbn [option_map if_some]. unfold pair_text.
    change (bs "/Dest ([") with (bs "/Dest" ++ bs " " ++ bs "([").
    change (bs " /XYZ 0 792 null]) ") with (bs " /XYZ 0 792 null])" ++ bs " ").
    rewrite <- !app_assoc. reflexivity.
  - destruct dest; [reflexivity|]. cbn [if_some]. unfold pair_text.
    change (bs "/Dest ") with (bs "/Dest" ++ bs " "). rewrite <- !app_assoc. reflexivity.
Qed.
(** What the writer stores for an item. *)
Lemma item_stored pages title page dest action parent prev (kids : option (Z * Z * Z)) :
  formatDictionary (item_dict title (dest_of pages page dest) action parent prev kids) =
  kids_parts (option_map ref action) (option_map (fun k => decZ (snd k)) kids) (dest_part pages page dest)
    (option_map (fun k => ref (fst (fst k))) kids) (option_map (fun k => ref (snd (fst k))) kids)
    (if 0 <? parent then Some (ref parent) else None) (option_map ref prev) (bs "((" ++ escapePDFString title ++ bs "))").
Proof.
  set (ks := option_map (fun k => (ref (fst (fst k)), ref (snd (fst k)), decZ (snd k))) kids).
  pose proof (format_parts (option_map ref action) (dest_part pages page dest) (if 0 <? parent then Some (ref parent) else None)
    (option_map ref prev) (bs "((" ++ escapePDFString title ++ bs "))") ks) as E. cbn zeta in E.
  replace (option_map (fun k => snd k) ks) with (option_map (fun k => decZ (snd k)) kids) in E
    by (subst ks; destruct kids as [[[? ?] ?]|]; reflexivity).
  replace (option_map (fun k => fst (fst k)) ks) with (option_map (fun k => ref (fst (fst k))) kids) in E
    by (subst ks; destruct kids as [[[? ?] ?]|]; reflexivity).
  replace (option_map (fun k => snd (fst k)) ks) with (option_map (fun k => ref (snd (fst k))) kids) in E
    by (subst ks; destruct kids as [[[? ?] ?]|]; reflexivity).
  rewrite <- E. unfold formatDictionary. f_equal. unfold item_dict. rewrite !map_app.
  unfold item_parts. f_equal; [cbn [map fst snd]; rewrite fmt_paren; reflexivity|].
  f_equal.
  { unfold dest_of, dest_part. destruct (0 <? page).
    - destruct (mget page pages) as [n|]; [|reflexivity]. cbn [option_map].
      change (bs "[" ++ ref n ++ bs " /XYZ 0 792 null]") with ("["%byte :: ref n ++ bs " /XYZ 0 792 null]") at 1.
      cbn [map fst snd]. pose proof (fmt_dest n) as F. cbn [formatValue] in F. cbn [formatValue].
      change ("["%byte :: ref n ++ bs " /XYZ 0 792 null]") with (bs "[" ++ ref n ++ bs " /XYZ 0 792 null]").
      rewrite F. reflexivity.
    - destruct dest; reflexivity. }
  f_equal; [destruct action as [a|]; [cbn [map fst snd option_map]; rewrite fmt_ref|]; reflexivity|].
  f_equal; [destruct (0 <? parent); [cbn [map fst snd option_map]; rewrite fmt_ref|]; reflexivity|].
  f_equal; [destruct prev as [a|]; [cbn [map fst snd option_map]; rewrite fmt_ref|]; reflexivity|].
  destruct kids as [[[f l] c]|]; [|reflexivity].
  cbn [map fst snd option_map]. rewrite !fmt_ref. reflexivity.
Qed.

(* ---------------------------------------------------------------- *)
(** Bookmarks *)

Section bookmark_induction.
  Variable P : bookmark -> Prop.
  Hypothesis step : forall t pg d u l, Forall P l -> P (Bookmark t pg d u l).
  Fixpoint bookmark_ind' (b : bookmark) : P b :=
    match b with
    | Bookmark t pg d u l =>
        step t pg d u l ((fix all (l : list bookmark) : Forall P l :=
          match l with [] => Forall_nil P | b :: l' => Forall_cons b (bookmark_ind' b) (all l') end) l)
    end.
End bookmark_induction.

Lemma create_item_eq pages parent prev t pg d u l w :
  create_item pages parent prev (Bookmark t pg d u l) w =
  let (action, w) := add_action u w in
  let (n, w) := reserve w in
  match create_items pages n l None None 0 w with
  | (first, last, count, w) =>
      let kids := match first, last with Some f, Some l => Some (f, l, count) | _, _ => None end in
      let w := set_objects w (mset n
        (mkObj (Some (formatDictionary (item_dict t (dest_of pages pg d) action parent prev kids))) None None)
        (objects w)) in
      let w := match prev with Some p => add_next p n w | None => w end in
      (n, count, w)
  end.
Proof.
  cbn [create_item]. destruct (add_action u w) as [action w1]. destruct (reserve w1) as [n w2].
  match goal with |- match ?f l None None 0 w2 with _ => _ end = _ => set (items := f) end.
  assert (E : forall l first prev count w, items l first prev count w = create_items pages n l first prev count w).
  { intros l0. induction l0 as [|b l0 IH]; intros first prev0 count w0; [reflexivity|].
    cbn [create_items]. unfold items at 1. cbn fix match beta.
    destruct (create_item pages n prev0 b w0) as [[m c] w3]. apply IH. }
  rewrite E. reflexivity.
Qed.

Scheme item_min := Minimality for item_ok Sort Prop
  with siblings_min := Minimality for siblings_ok Sort Prop.
Combined Scheme outline_min from item_min, siblings_min.

Lemma wget_same n w w' : mget n (objects w') = mget n (objects w) -> WGetObject n w' = WGetObject n w.
Proof. intros H. unfold WGetObject. rewrite H. reflexivity. Qed.
Lemma action_frame w w' u a : (forall m, a = Some m -> mget m (objects w') = mget m (objects w)) ->
  action_ok w u a -> action_ok w' u a.
Proof.
  intros H. unfold action_ok. destruct u, a; try tauto. rewrite (wget_same _ w w'); [tauto|]. apply H. reflexivity.
Qed.
Lemma outline_frame w pages w' :
  (forall parent prev next b p, item_ok w pages parent prev next b p ->
     (forall m, In m (place_nums p) -> mget m (objects w') = mget m (objects w)) ->
     item_ok w' pages parent prev next b p) /\
  (forall parent prev l ps, siblings_ok w pages parent prev l ps ->
     (forall m, In m (flat_map place_nums ps) -> mget m (objects w') = mget m (objects w)) ->
     siblings_ok w' pages parent prev l ps).
Proof.
  apply outline_min.
  - intros parent prev next t pg d u l n a ps b p Hw Ha _ IH H.
    constructor.
    + rewrite (wget_same _ w w'); [exact Hw|]. apply H. cbn. apply in_or_app. right. left. reflexivity.
    + apply (action_frame w); [|exact Ha]. intros m ->. apply H. left. reflexivity.
    + apply IH. intros m Hm. apply H. cbn. apply in_or_app. right. right. exact Hm.
  - intros. constructor.
  - intros parent prev b l p ps _ IH1 _ IH2 H. constructor.
    + apply IH1. intros m Hm. apply H. cbn. apply in_or_app. left. exact Hm.
    + apply IH2. intros m Hm. apply H. cbn. apply in_or_app. right. exact Hm.
Qed.

(** The text before the closing brackets, and adding /Next. *)
Lemma item_text_next pages parent prev b p n :
  addDictEntry (item_text pages parent prev None b p) (bs "/Next") (ref n) = item_text pages parent prev (Some n) b p.
Proof.
  destruct b as [t pg d u l], p as [m a ps]. cbn [item_text if_some].
  match goal with |- addDictEntry ?t _ _ = _ => remember t as T eqn:ET end.
  assert (H : exists x, T = x ++ bs ">>" /\
    (forall y, x ++ y = bs "<<" ++ if_some a (ref_entry (bs "/A")) ++ count_entry l ++ dest_entry pages pg d ++
      if_some (first_num ps) (ref_entry (bs "/First")) ++ if_some (last_num ps) (ref_entry (bs "/Last")) ++
      if_some parent (ref_entry (bs "/Parent")) ++ if_some prev (ref_entry (bs "/Prev")) ++
      bs "/Title ((" ++ escapePDFString t ++ bs ")) " ++ y)).
  { exists (bs "<<" ++ if_some a (ref_entry (bs "/A")) ++ count_entry l ++ dest_entry pages pg d ++
      if_some (first_num ps) (ref_entry (bs "/First")) ++ if_some (last_num ps) (ref_entry (bs "/Last")) ++
      if_some parent (ref_entry (bs "/Parent")) ++ if_some prev (ref_entry (bs "/Prev")) ++
      bs "/Title ((" ++ escapePDFString t ++ bs ")) "). split.
    - rewrite ET. cbn [app]. rewrite <- !app_assoc. reflexivity.
    - intros y. rewrite <- !app_assoc. reflexivity. }
  destruct H as [x [-> H]]. unfold addDictEntry.
  pose proof (last_index_at (bs ">>") x []) as L. rewrite !app_nil_r in L. rewrite L.
  - rewrite firstn_app_all, skipn_app_all. rewrite H. unfold ref_entry. rewrite <- !app_assoc. reflexivity.
  - intros j H1 H2. cbn in H2. destruct j as [|[|[|j]]]; try lia; reflexivity.
Qed.

(** Everything but the objects and the next number. *)
Definition same_rest (w w' : writer) : Prop := w' = set_next (set_objects w (objects w')) (nextObjNum w').
Lemma same_rest_refl w : same_rest w w.
Proof. destruct w. reflexivity. Qed.
Lemma same_rest_trans a b c : same_rest a b -> same_rest b c -> same_rest a c.
Proof. unfold same_rest. intros H1 H2. rewrite H2, H1. destruct a. reflexivity. Qed.

Definition par (n : Z) : option Z := if 0 <? n then Some n else None.
Definition stored_item (w : writer) (n : Z) (t : bytes) : Prop := mget n (objects w) = Some (mkObj (Some t) None None).
Definition prev_ok (prev : option Z) (w : writer) : Prop :=
  match prev with None => True | Some q => q < nextObjNum w /\ exists t, stored_item w q t end.
Definition next_added (prev : option Z) (n : Z) (w w' : writer) : Prop :=
  forall q t, prev = Some q -> stored_item w q t -> stored_item w' q (addDictEntry t (bs "/Next") (ref n)).
Definition frame (prev : option Z) (w w' : writer) : Prop :=
  forall m, ~ (nextObjNum w <= m < nextObjNum w') -> prev <> Some m -> mget m (objects w') = mget m (objects w).

Definition item_made (pages : zmap Z) (b : bookmark) : Prop := forall parent prev w n c w',
  0 < nextObjNum w -> prev_ok prev w -> create_item pages parent prev b w = (n, c, w') ->
  exists p, place_num p = n /\ c = bookmarks_below b /\
    item_ok w' pages (par parent) prev None b p /\
    stored_item w' n (item_text pages (par parent) prev None b p) /\
    Forall (fun m => nextObjNum w <= m < nextObjNum w') (place_nums p) /\ NoDup (place_nums p) /\
    nextObjNum w < nextObjNum w' /\ frame prev w w' /\ next_added prev n w w' /\ same_rest w w'.
Definition items_made (pages : zmap Z) (l : list bookmark) : Prop := forall parent first prev count w first' last' count' w',
  0 < nextObjNum w -> prev_ok prev w -> create_items pages parent l first prev count w = (first', last', count', w') ->
  exists ps, length ps = length l /\ siblings_ok w' pages (par parent) prev l ps /\
    first' = match first with Some f => Some f | None => first_num ps end /\
    last' = match last_num ps with Some x => Some x | None => prev end /\
    count' = count + bookmarks_in l /\
    Forall (fun m => nextObjNum w <= m < nextObjNum w') (flat_map place_nums ps) /\ NoDup (flat_map place_nums ps) /\
    nextObjNum w <= nextObjNum w' /\ frame prev w w' /\
    match first_num ps with Some n => next_added prev n w w' | None => w' = w end /\ same_rest w w'.

Lemma last_num_cons p ps : last_num (p :: ps) = match last_num ps with Some x => Some x | None => Some (place_num p) end.
Proof.
  unfold last_num. cbn [length]. replace (S (length ps) - 1)%nat with (length ps) by lia.
  destruct ps as [|q ps]; [reflexivity|]. cbn [length nth_error]. replace (S (length ps) - 1)%nat with (length ps) by lia.
  destruct (nth_error (q :: ps) (length ps)) eqn:E; [reflexivity|].
  apply nth_error_None in E. cbn in E. lia.
Qed.
Lemma place_num_in p : In (place_num p) (place_nums p).
Proof. destruct p as [n a ps]. cbn. apply in_or_app. right. left. reflexivity. Qed.
Lemma nodup_join {A} (x y : list A) : NoDup x -> NoDup y -> (forall m, In m x -> ~ In m y) -> NoDup (x ++ y).
Proof.
  induction x as [|a x IH]; intros Hx Hy H; [exact Hy|]. inversion Hx; subst. cbn. constructor.
  - intros Hi. apply in_app_or in Hi. destruct Hi as [Hi|Hi]; [contradiction|]. apply (H a); [left; reflexivity|exact Hi].
  - apply IH; auto. intros m Hm. apply H. right. exact Hm.
Qed.

(** An item keeps its place when its text gets a /Next and the rest stays. *)
Lemma item_renext w w' pages parent prev next b p : item_ok w pages parent prev None b p -> NoDup (place_nums p) ->
  (forall m, In m (place_nums p) -> m <> place_num p -> mget m (objects w') = mget m (objects w)) ->
  stored_item w' (place_num p) (item_text pages parent prev next b p) ->
  item_ok w' pages parent prev next b p.
Proof.
  intros H ND F S. inversion H as [pa pr ne t pg d u l n a ps b0 p0 Hw Ha Hs E1 E2 E3 E4 E5]. subst.
  unfold b0, p0 in *. cbn [place_num place_nums] in *.
  assert (N : forall m, a = Some m -> m <> n).
  { intros m -> ->. cbn in ND. inversion ND as [|x y Hx Hy]. apply Hx. left. reflexivity. }
  assert (K : forall m, In m (flat_map place_nums ps) -> m <> n).
  { intros m Hm ->. apply NoDup_remove_2 in ND. apply ND. apply in_or_app. right. exact Hm. }
  constructor.
  - unfold WGetObject. rewrite S. reflexivity.
  - apply (action_frame w); [|exact Ha]. intros m ->. apply F; [left; reflexivity|]. apply N. reflexivity.
  - apply (proj2 (outline_frame w pages w')); [exact Hs|]. intros m Hm. apply F; [|apply K, Hm].
    apply in_or_app. right. right. exact Hm.
Qed.

Lemma items_from pages l : Forall (item_made pages) l -> items_made pages l.
Proof.
  induction l as [|b l IH]; intros Hl parent first prev count w first' last' count' w' W PO E.
  - cbn in E. injection E as <- <- <- <-. exists []. split; [reflexivity|]. split; [constructor|]. split; [destruct first; reflexivity|]. split; [reflexivity|].
    split; [cbn; lia|]. split; [constructor|]. split; [constructor|]. split; [lia|].
    split; [intros m _ _; reflexivity|]. split; [reflexivity|apply same_rest_refl].
  - inversion Hl as [|x y Hb Hl']; subst. specialize (IH Hl'). cbn [create_items] in E.
    destruct (create_item pages parent prev b w) as [[n c] w1] eqn:E1.
    destruct (Hb parent prev w n c w1 W PO E1) as [p [Hn [Hc [Hi [Hst [Hr [Hnd [Hlt [Hf [Ha Hsr]]]]]]]]]].
    assert (W1 : 0 < nextObjNum w1) by lia.
    assert (PN : nextObjNum w <= n < nextObjNum w1).
    { rewrite Forall_forall in Hr. rewrite <- Hn. apply Hr, place_num_in. }
    assert (PO1 : prev_ok (Some n) w1) by (cbn; split; [lia|eexists; exact Hst]).
    destruct (IH parent _ (Some n) (count + 1 + c) w1 _ _ _ _ W1 PO1 E)
      as [ps [HL [Hs [Hf1 [Hl1 [Hc1 [Hr1 [Hnd1 [Hle [Hf2 [Ha2 Hsr2]]]]]]]]]]].
    exists (p :: ps). subst n.
    assert (IN : forall m, In m (place_nums p) -> m <> place_num p -> mget m (objects w') = mget m (objects w1)).
    { intros m Hm Hne. apply Hf2; [|congruence]. rewrite Forall_forall in Hr. specialize (Hr m Hm). cbn beta in Hr. lia. }
    split; [cbn; lia|]. split.
    { constructor; [|exact Hs].
      apply (item_renext w1); [exact Hi|exact Hnd|exact IN|].
      destruct ps as [|q ps].
      - cbn in Ha2. subst w'. exact Hst.
      - cbn [first_num nth_error option_map] in *. rewrite <- item_text_next. apply (Ha2 _ _ eq_refl), Hst. }
    split; [rewrite Hf1; destruct first; reflexivity|].
    split; [rewrite last_num_cons, Hl1; destruct (last_num ps); reflexivity|].
    split; [cbn [bookmarks_in fold_right]; fold (bookmarks_in l); subst c; lia|].
    split.
    { cbn [flat_map]. apply Forall_app. split.
      - eapply Forall_impl; [|exact Hr]. cbn beta. intros. lia.
      - eapply Forall_impl; [|exact Hr1]. cbn beta. intros. lia. }
    split.
    { cbn [flat_map]. apply nodup_join; [exact Hnd|exact Hnd1|].
      intros m H1 H2. rewrite Forall_forall in Hr, Hr1. specialize (Hr m H1). specialize (Hr1 m H2). cbn beta in *. lia. }
    split; [lia|]. split.
    { intros m Hm Hp. rewrite Hf2.
      - apply Hf; [lia|exact Hp].
      - lia.
      - intros Heq. injection Heq as Heq. subst m. lia. }
    split.
    { cbn [first_num nth_error option_map]. intros q t Hq Ht. unfold stored_item in *. rewrite Hf2.
      - apply (Ha q t Hq Ht).
      - subst prev. cbn in PO. lia.
      - intros Heq. injection Heq as Heq. subst prev. cbn in PO. lia. }
    exact (same_rest_trans _ _ _ Hsr Hsr2).
Qed.

Lemma item_text_parts pages parent prev t pg d u l n action ps :
  length ps = length l ->
  kids_parts (option_map ref action)
    (option_map (fun k : Z * Z * Z => decZ (snd k)) (match first_num ps, last_num ps with Some f, Some x => Some (f, x, bookmarks_in l) | _, _ => None end))
    (dest_part pages pg d)
    (option_map (fun k : Z * Z * Z => ref (fst (fst k))) (match first_num ps, last_num ps with Some f, Some x => Some (f, x, bookmarks_in l) | _, _ => None end))
    (option_map (fun k : Z * Z * Z => ref (snd (fst k))) (match first_num ps, last_num ps with Some f, Some x => Some (f, x, bookmarks_in l) | _, _ => None end))
    (option_map ref parent) (option_map ref prev) (bs "((" ++ escapePDFString t ++ bs "))") =
  item_text pages parent prev None (Bookmark t pg d u l) (Placed n action ps).
Proof.
  intros HL. unfold kids_parts, item_text. rewrite dest_part_ok.
  assert (R : forall (o : option Z) k, if_some (option_map ref o) (pair_text k) = if_some o (ref_entry k)) by (intros [z|] k; reflexivity).
  rewrite !R.
  assert (T : pair_text (bs "/Title") (bs "((" ++ escapePDFString t ++ bs "))") ++ bs ">>" =
    bs "/Title ((" ++ escapePDFString t ++ bs ")) " ++ if_some (@None Z) (ref_entry (bs "/Next")) ++ bs ">>").
  { unfold pair_text. cbn [if_some app]. change (bs "/Title ((") with (bs "/Title" ++ bs " " ++ bs "((").
    change (bs ")) ") with (bs "))" ++ bs " "). rewrite <- !app_assoc. reflexivity. }
  rewrite T. f_equal. f_equal.
  destruct l as [|b l], ps as [|p ps]; try discriminate HL.
  - reflexivity.
  - cbn [first_num nth_error option_map]. rewrite last_num_cons.
    destruct (last_num ps); cbn [option_map if_some fst snd count_entry]; unfold pair_text at 1;
    change (bs "/Count ") with (bs "/Count" ++ bs " "); rewrite <- !app_assoc; reflexivity.
Qed.

Lemma add_action_spec u w a w' : add_action u w = (a, w') ->
  nextObjNum w <= nextObjNum w' /\ same_rest w w' /\
  action_ok w' u a /\ match a with None => w' = w | Some m => m = nextObjNum w /\ nextObjNum w' = nextObjNum w + 1 end /\
  (forall m, m <> nextObjNum w -> mget m (objects w') = mget m (objects w)).
Proof.
  destruct u as [|x u].
  - cbn. intros H. injection H as <- <-. split; [lia|]. split; [apply same_rest_refl|]. split; [exact I|]. split; [reflexivity|]. intros; reflexivity.
  - cbn [add_action AddObject]. intros H. injection H as <- <-. cbn [nextObjNum set_next set_objects objects].
    split; [lia|]. split; [reflexivity|]. split.
    { cbn [action_ok]. unfold WGetObject. cbn [objects set_next set_objects]. rewrite mget_mset, Z.eqb_refl. cbn [oContent oStream oDict]. f_equal.
      remember (escapePDFString (x :: u)) as E.
      change ("("%byte :: E ++ bs ")") with (bs "(" ++ E ++ bs ")").
      unfold formatDictionary, format_pairs. rewrite !map_cons. cbn [fst snd]. rewrite fmt_paren.
      change (sortK _) with [(bs "/S", bs "/URI"); (bs "/Type", bs "/Action"); (bs "/URI", bs "((" ++ E ++ bs "))")].
      cbn [flat_map fst snd].
      change (slash_key (bs "/S")) with (bs "/S"). change (slash_key (bs "/Type")) with (bs "/Type").
      change (slash_key (bs "/URI")) with (bs "/URI").
      change (bs "<</S /URI /Type /Action /URI ((") with (bs "<<" ++ bs "/S" ++ bs " " ++ bs "/URI" ++ bs " " ++ bs "/Type" ++ bs " " ++ bs "/Action" ++ bs " " ++ bs "/URI" ++ bs " " ++ bs "((").
      change (bs ")) >>") with (bs "))" ++ bs " " ++ bs ">>"). rewrite <- !app_assoc. reflexivity. }
    split; [split; reflexivity|].
    intros m Hm. rewrite mget_mset. destruct (m =? nextObjNum w) eqn:E; [lia|reflexivity].
Qed.

Lemma item_made_all pages b : item_made pages b.
Proof.
  induction b as [t pg d u l Hl] using bookmark_ind'. apply items_from in Hl.
  intros parent prev w n c w' W PO E. rewrite create_item_eq in E.
  destruct (add_action u w) as [a w1] eqn:EA. apply add_action_spec in EA. destruct EA as [A1 [A2 [A3 [A4 A5]]]].
  cbn [reserve] in E.
  remember (set_next w1 (nextObjNum w1 + 1)) as w2 eqn:E2.
  assert (N2 : nextObjNum w2 = nextObjNum w1 + 1) by (subst w2; reflexivity).
  assert (O2 : objects w2 = objects w1) by (subst w2; reflexivity).
  assert (S2 : same_rest w1 w2) by (subst w2; destruct w1; reflexivity).
  destruct (create_items pages (nextObjNum w1) l None None 0 w2) as [[[first last] count] w3] eqn:E3.
  cbn zeta in E.
  destruct (Hl (nextObjNum w1) None None 0 w2 _ _ _ _ ltac:(lia) I E3) as [ps [HL [Hs [Hf1 [Hl1 [Hc1 [Hr1 [Hnd1 [Hle [Hf2 [Ha2 Hsr2]]]]]]]]]]].
  assert (F3 : forall m, m <= nextObjNum w1 -> mget m (objects w3) = mget m (objects w1)).
  { intros m Hm. rewrite <- O2. apply Hf2; [lia|discriminate]. }
  exists (Placed (nextObjNum w1) a ps).
  assert (HF : first = first_num ps) by exact Hf1.
  assert (HLa : last = last_num ps) by (rewrite Hl1; destruct (last_num ps); reflexivity).
  clear Hl1 Hf1. subst first last count. rewrite item_stored in E. rewrite ?Z.add_0_l in *.
  replace (if 0 <? parent then Some (ref parent) else None) with (option_map ref (par parent)) in E
    by (unfold par; destruct (0 <? parent); reflexivity).
  rewrite (item_text_parts pages (par parent) prev t pg d u l (nextObjNum w1) a ps HL) in E.
  remember (item_text pages (par parent) prev None (Bookmark t pg d u l) (Placed (nextObjNum w1) a ps)) as T eqn:ET.
  remember (set_objects w3 (mset (nextObjNum w1) (mkObj (Some T) None None) (objects w3))) as w4 eqn:E4.
  assert (N4 : nextObjNum w4 = nextObjNum w3) by (subst w4; reflexivity).
  assert (O4 : forall m, mget m (objects w4) = if m =? nextObjNum w1 then Some (mkObj (Some T) None None) else mget m (objects w3)).
  { intros m. subst w4. cbn [objects set_objects]. apply mget_mset. }
  assert (S4 : same_rest w3 w4) by (subst w4; destruct w3; reflexivity).
  assert (X : nextObjNum w' = nextObjNum w4 /\ same_rest w4 w' /\ n = nextObjNum w1 /\ c = bookmarks_in l /\
    (forall m, prev <> Some m -> mget m (objects w') = mget m (objects w4)) /\
    (forall q x, prev = Some q -> stored_item w4 q x -> stored_item w' q (addDictEntry x (bs "/Next") (ref n)))).
  { destruct prev as [q|].
    - unfold add_next in E. destruct PO as [PO1 [x PO2]].
      assert (Q : mget q (objects w4) = Some (mkObj (Some x) None None)).
      { rewrite O4. replace (q =? nextObjNum w1) with false by (symmetry; apply Z.eqb_neq; lia).
        rewrite F3 by lia. rewrite A5 by lia. exact PO2. }
      rewrite Q in E. cbn [oContent oStream oDict] in E. injection E as <- <- <-.
      cbn [nextObjNum set_objects objects].
      split; [reflexivity|]. split; [destruct w4; reflexivity|]. split; [reflexivity|]. split; [reflexivity|]. split.
      + intros m Hm. rewrite mget_mset. destruct (m =? q) eqn:Emq; [|reflexivity]. apply Z.eqb_eq in Emq. congruence.
      + intros q' x' Hq Hx. injection Hq as <-. unfold stored_item in *. rewrite Q in Hx. injection Hx as <-.
        cbn [objects set_objects]. rewrite mget_mset, Z.eqb_refl. reflexivity.
    - injection E as <- <- <-. split; [reflexivity|]. split; [apply same_rest_refl|]. split; [reflexivity|]. split; [reflexivity|].
      split; [reflexivity|]. intros q x Hq. discriminate Hq. }
  clear E. destruct X as [X1 [X2 [X3 [X4 [X5 X6]]]]].
  assert (PN : forall m, prev = Some m -> m < nextObjNum w) by (intros m ->; exact (proj1 PO)).
  assert (ST : stored_item w' n T).
  { unfold stored_item. rewrite X5.
    - rewrite O4, X3, Z.eqb_refl. reflexivity.
    - intros Hp. apply PN in Hp. lia. }
  assert (AR : forall m, a = Some m -> m = nextObjNum w /\ nextObjNum w1 = nextObjNum w + 1).
  { intros m ->. exact A4. }
  assert (K : forall m, In m (flat_map place_nums ps) -> mget m (objects w') = mget m (objects w3)).
  { intros m Hm. rewrite Forall_forall in Hr1. specialize (Hr1 m Hm). cbn beta in Hr1. rewrite X5, O4.
    - replace (m =? nextObjNum w1) with false by (symmetry; apply Z.eqb_neq; lia). reflexivity.
    - intros Hp. apply PN in Hp. lia. }
  split; [symmetry; exact X3|]. split; [exact X4|]. split.
  { constructor.
    - rewrite <- X3. unfold WGetObject. rewrite ST. subst T. reflexivity.
    - apply (action_frame w1); [|exact A3]. intros m Hm. apply AR in Hm. rewrite X5, O4.
      + replace (m =? nextObjNum w1) with false by (symmetry; apply Z.eqb_neq; lia). apply F3. lia.
      + intros Hp. apply PN in Hp. lia.
    - apply (proj2 (outline_frame w3 pages w')); [|exact K].
      replace (Some (nextObjNum w1)) with (par (nextObjNum w1)); [exact Hs|].
      unfold par. replace (0 <? nextObjNum w1) with true by (symmetry; apply Z.ltb_lt; lia). reflexivity. }
  split; [exact ST|]. split.
  { cbn [place_nums]. apply Forall_app. split.
    - destruct a as [m|]; constructor; [|constructor]. destruct (AR m eq_refl). lia.
    - constructor; [lia|]. eapply Forall_impl; [|exact Hr1]. cbn beta. intros. lia. }
  split.
  { cbn [place_nums]. assert (ND : NoDup (nextObjNum w1 :: flat_map place_nums ps)).
    { constructor; [|exact Hnd1]. intros Hi. rewrite Forall_forall in Hr1. specialize (Hr1 _ Hi). cbn beta in Hr1. lia. }
    destruct a as [m|]; [|exact ND]. cbn [app]. constructor; [|exact ND].
    destruct (AR m eq_refl). intros [Hi|Hi]; [lia|]. rewrite Forall_forall in Hr1. specialize (Hr1 _ Hi). cbn beta in Hr1. lia. }
  split; [lia|]. split.
  { intros m Hm Hp. rewrite X5 by exact Hp. rewrite O4.
    replace (m =? nextObjNum w1) with false by (symmetry; apply Z.eqb_neq; lia).
    rewrite Hf2; [|lia|discriminate]. rewrite O2. apply A5. lia. }
  split.
  { intros q x Hq Hx. apply X6; [exact Hq|]. unfold stored_item in *. specialize (PN q Hq). rewrite O4.
    replace (q =? nextObjNum w1) with false by (symmetry; apply Z.eqb_neq; lia).
    rewrite F3 by lia. rewrite A5 by lia. exact Hx. }
  exact (same_rest_trans _ _ _ (same_rest_trans _ _ _ (same_rest_trans _ _ _ (same_rest_trans _ _ _ A2 S2) Hsr2) S4) X2).
Qed.

(** SetBookmarks on the writer. *)
Lemma outlines_format f l c : formatDictionary
  [(bs "/Type", VStr (bs "/Outlines")); (bs "/First", VStr (ref f)); (bs "/Last", VStr (ref l)); (bs "/Count", VInt c)] =
  outlines_text c f l.
Proof.
  unfold formatDictionary, format_pairs. rewrite !map_cons. cbn [fst snd map]. rewrite !fmt_ref.
  change (formatValue (VStr (bs "/Outlines"))) with (bs "/Outlines"). change (formatValue (VInt c)) with (decZ c).
  remember (ref f) as F. remember (ref l) as L. remember (decZ c) as C.
  change (sortK _) with [(bs "/Count", C); (bs "/First", F); (bs "/Last", L); (bs "/Type", bs "/Outlines")].
  cbn [flat_map fst snd]. unfold outlines_text. subst.
  change (slash_key (bs "/Count")) with (bs "/Count"). change (slash_key (bs "/Type")) with (bs "/Type").
  change (slash_key (bs "/First")) with (bs "/First"). change (slash_key (bs "/Last")) with (bs "/Last").
  change (bs "<</Count ") with (bs "<<" ++ bs "/Count" ++ bs " ").
  change (bs " /First ") with (bs " " ++ bs "/First" ++ bs " ").
  change (bs " /Last ") with (bs " " ++ bs "/Last" ++ bs " ").
  change (bs " /Type /Outlines >>") with (bs " " ++ bs "/Type" ++ bs " " ++ bs "/Outlines" ++ bs " " ++ bs ">>").
  rewrite <- !app_assoc. reflexivity.
Qed.
Lemma set_bookmarks_ok l pages w : l <> [] -> 0 < nextObjNum w ->
  let (n, w') := WSetBookmarks l pages w in
  exists ps f t,
    siblings_ok w' pages None None l ps /\ first_num ps = Some f /\ last_num ps = Some t /\
    WGetObject n w' = Ok (outlines_text (bookmarks_in l) f t) /\ outlinesRef w' = Some n /\
    NoDup (n :: flat_map place_nums ps) /\
    Forall (fun m => nextObjNum w <= m < nextObjNum w') (n :: flat_map place_nums ps) /\
    (forall m, m < nextObjNum w \/ nextObjNum w' <= m -> mget m (objects w') = mget m (objects w)) /\
    dicts w' = dicts w /\ rootRef w' = rootRef w /\ infoRef w' = infoRef w /\ encryptRef w' = encryptRef w.
Proof.
  intros Hl W. unfold WSetBookmarks. destruct l as [|b l]; [congruence|].
  destruct (create_items pages 0 (b :: l) None None 0 w) as [[[first last] count] w1] eqn:E.
  assert (M : items_made pages (b :: l)) by (apply items_from, Forall_forall; intros; apply item_made_all).
  destruct (M 0 None None 0 w _ _ _ _ W I E) as [ps [HL [Hs [Hf1 [Hl1 [Hc1 [Hr1 [Hnd1 [Hle [Hf2 [Ha2 Hsr2]]]]]]]]]]].
  cbn [AddObject]. destruct ps as [|p ps]; [discriminate HL|].
  cbn [first_num nth_error option_map] in Hf1. subst first.
  rewrite last_num_cons in Hl1.
  exists (p :: ps), (place_num p), (match last_num ps with Some x => x | None => place_num p end).
  assert (HLL : last = Some (match last_num ps with Some x => x | None => place_num p end)) by (rewrite Hl1; destruct (last_num ps); reflexivity).
  rewrite HLL. subst count.
  change (0 + bookmarks_in (b :: l)) with (bookmarks_in (b :: l)).
  rewrite outlines_format.
  remember (outlines_text _ _ _) as T.
  cbn [set_outlines set_next set_objects nextObjNum objects outlinesRef dicts rootRef infoRef encryptRef].
  assert (O : forall m, mget m (mset (nextObjNum w1) (mkObj (Some T) None None) (objects w1)) =
    if m =? nextObjNum w1 then Some (mkObj (Some T) None None) else mget m (objects w1)) by (intros; apply mget_mset).
  assert (R : forall m, In m (flat_map place_nums (p :: ps)) -> nextObjNum w <= m < nextObjNum w1).
  { rewrite Forall_forall in Hr1. exact Hr1. }
  split. { apply (proj2 (outline_frame w1 pages _)); [exact Hs|]. intros m Hm. apply R in Hm. cbn [objects set_outlines set_next set_objects]. rewrite O.
    replace (m =? nextObjNum w1) with false by (symmetry; apply Z.eqb_neq; lia). reflexivity. }
  split; [reflexivity|]. split; [rewrite last_num_cons; destruct (last_num ps); reflexivity|].
  split. { unfold WGetObject. cbn [objects set_outlines set_next set_objects]. rewrite O, Z.eqb_refl. reflexivity. }
  split; [reflexivity|]. split.
  { constructor; [|exact Hnd1]. intros Hi. apply R in Hi. lia. }
  split. { constructor; [lia|]. apply Forall_forall. intros m Hm. apply R in Hm. lia. }
  split. { intros m Hm. rewrite O. replace (m =? nextObjNum w1) with false by (symmetry; apply Z.eqb_neq; lia).
    apply Hf2; [lia|discriminate]. }
  unfold same_rest in Hsr2. rewrite Hsr2. repeat split.
Qed.
