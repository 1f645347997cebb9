(** Proofs about resources, full pages and the output directory. *)
From Verif Require Import Scan MarksModel MarksSpec ManipSpec ManipProofs ManipProofs3 XPagesProofs XPagesSpec XPagesProofs MarksProofs MarksProofs3 MarksProofs4 PageModel PageSpec PageProofs3.
From Coq Require Import Lia ZArith.
Local Open Scope Z_scope.

(* -------------------- the first resource of each name -------------------- *)
Lemma kset_in {A} k (v : A) m k' : In k' (map fst (kset k v m)) -> k' = k \/ In k' (map fst m).
Proof.
  induction m as [|[k0 v0] m IH]; cbn [kset map fst In].
  - intros [H|[]]; auto.
  - destruct (bytes_eqb k k0) eqn:E; cbn [map fst In].
    + intros [H|H]; auto.
    + intros [H|H]; [auto|]. destruct (IH H); auto.
Qed.
Lemma fold_first {A} (l : list (bytes * A)) : forall acc, NoDup (map fst acc) ->
  NoDup (map fst (fold_left add_first l acc)) /\
  forall k, kget k (fold_left add_first l acc) = match kget k acc with Some v => Some v | None => first_value k l end.
Proof.
  induction l as [|[k0 v0] l IH]; intros acc H; cbn [fold_left first_value].
  - split; [exact H|]. intros k. destruct (kget k acc); reflexivity.
  - assert (N : NoDup (map fst (add_first acc (k0, v0)))).
    { unfold add_first. cbn [fst snd]. destruct (kget k0 acc); [exact H|]. apply kset_nodup, H. }
    destruct (IH _ N) as [I1 I2]. split; [exact I1|]. intros k. rewrite I2. unfold add_first. cbn [fst snd].
    destruct (kget k0 acc) eqn:E.
    + destruct (kget k acc) eqn:E1; [reflexivity|]. destruct (bytes_eqb k k0) eqn:E2; [|reflexivity].
      apply bytes_eqb_eq in E2. congruence.
    + rewrite kget_kset. destruct (bytes_eqb k k0) eqn:E2; [|reflexivity].
      apply bytes_eqb_eq in E2. subst k. rewrite E. reflexivity.
Qed.
Lemma collect_kept {A} (f : MarksModel.resources -> list (bytes * A)) pages : kept (of_pages f pages) (collect f pages).
Proof.
  unfold collect, of_pages. destruct (fold_first (flat_map (fun p => match fpResources p with Some r => f r | None => [] end) pages) [] (NoDup_nil _)) as [H1 H2].
  split; [exact H1|]. intros k. rewrite H2. reflexivity.
Qed.

(* -------------------- full pages -------------------- *)
Section full.
Context (inflate : bytes -> option bytes) (parse_float : bytes -> option float) (to_int : float -> Z) (get : Z -> result bytes).
Lemma try_get_noerr n : try_get get n <> Err.
Proof. unfold try_get. destruct (get n); discriminate. Qed.
Lemma rbind_noerr {A B} (r : result A) (f : A -> result B) : r <> Err -> (forall a, f a <> Err) -> rbind r f <> Err.
Proof. intros H1 H2. destruct r; cbn [rbind]; [apply H2|congruence|discriminate]. Qed.
Lemma rmap_noerr {A B} (r : result A) (f : A -> B) : r <> Err -> rmap f r <> Err.
Proof. intros H. destruct r; cbn [rmap]; congruence. Qed.
Lemma entries_noerr {A} (info : Z -> result (option A)) name l : (forall n, info n <> Err) -> forall acc, read_entries info name l acc <> Err.
Proof.
  intros H. induction l as [|[k d] l IH]; intros acc; cbn [read_entries]; [discriminate|]. apply rbind_noerr; [apply H|intros; apply IH].
Qed.
Lemma fontinfo_noerr n : extractFontInfo get n <> Err.
Proof.
  unfold extractFontInfo. apply rbind_noerr; [apply try_get_noerr|]. intros [t|]; [|discriminate].
  destruct (x_value t (bs "/FontDescriptor")) as [|c v0]; [discriminate|]. destruct (parse_ref _); [|discriminate].
  apply rmap_noerr, try_get_noerr.
Qed.
Lemma resources_noerr r : extractResources parse_float to_int get r <> Err.
Proof.
  unfold extractResources. apply rbind_noerr; [apply entries_noerr, fontinfo_noerr|]. intros fonts. apply rmap_noerr, entries_noerr.
  intros n. unfold extractXObjectInfo. apply rmap_noerr, try_get_noerr.
Qed.
Lemma inner_noerr s : inner s <> Err.
Proof. unfold inner. destruct (flen s <? 2); discriminate. Qed.
Lemma annot_noerr n page : extractAnnotation parse_float get n page <> Err.
Proof.
  unfold extractAnnotation. apply rbind_noerr; [apply try_get_noerr|]. intros [t|]; [|discriminate].
  destruct (x_value t (bs "/Subtype")) as [|c v0]; [discriminate|]. apply rmap_noerr.
  destruct (bytes_eqb _ (bs "link")); [|discriminate]. unfold link_uri.
  destruct (x_value t (bs "/URI")) as [|c1 v1]; [discriminate|]. destruct (prefixb _ _); [apply rmap_noerr, inner_noerr|].
  destruct (parse_ref _); [|discriminate]. apply rbind_noerr; [apply try_get_noerr|]. intros [u|]; [|discriminate].
  destruct (x_value u (bs "/URI")); [discriminate|apply rmap_noerr, inner_noerr].
Qed.
Lemma annots_noerr page refs : read_annots parse_float get page refs <> Err.
Proof.
  induction refs as [|r refs IH]; cbn [read_annots]; [discriminate|]. destruct (parse_ref r); [|exact IH].
  apply rbind_noerr; [apply annot_noerr|]. intros a. apply rmap_noerr, IH.
Qed.
Lemma has_resources_noerr page : page_has_resources get page <> Err.
Proof.
  unfold page_has_resources. destruct (x_value page (bs "/Resources")); [discriminate|]. destruct (parse_ref _); [apply try_get_noerr|discriminate].
Qed.
(** equal, unless the first panics *)
Definition agree {A B} (f : A -> B) (r : result A) (s : result B) : Prop := r = Panic \/ rmap f r = s.
Lemma page_agree obj page : agree fpPage (extractFullPage inflate parse_float to_int get obj page) (extractPage inflate parse_float get page).
Proof.
  unfold extractFullPage. pose proof (has_resources_noerr page) as H1. destruct (page_has_resources get page) as [res| |]; cbn [rbind]; [|congruence|left; reflexivity].
  assert (H2 : match res with None => Ok None | Some r => rmap Some (extractResources parse_float to_int get r) end <> Err)
    by (destruct res; [apply rmap_noerr, resources_noerr|discriminate]).
  destruct (match res with None => Ok None | Some r => rmap Some (extractResources parse_float to_int get r) end) as [rs| |]; cbn [rbind]; [|congruence|left; reflexivity].
  assert (H3 : match x_value page (bs "/Annots") with [] => Ok [] | _ :: _ => extractAnnotations parse_float get (x_value page (bs "/Annots")) obj end <> Err)
    by (destruct (x_value page (bs "/Annots")); [discriminate|apply annots_noerr]).
  destruct (extractPage inflate parse_float get page) as [p| |]; cbn [rbind]; [|right; reflexivity|left; reflexivity].
  destruct (x_value page (bs "/Annots")) as [|c v0]; [right; reflexivity|].
  destruct (extractAnnotations parse_float get (c :: v0) obj); cbn [rmap]; [right; reflexivity|congruence|left; reflexivity].
Qed.
Lemma kids_agree (go : Z -> result (list fpage)) (go' : Z -> result (list xpage)) refs :
  (forall n, agree (map fpPage) (go n) (go' n)) -> agree (map fpPage) (kid_fpages go refs) (kid_pages go' refs).
Proof.
  intros H. induction refs as [|r refs IH]; cbn [kid_fpages kid_pages]; [right; reflexivity|].
  destruct (parse_ref r) as [n|]; [|exact IH]. destruct (H n) as [E|E]; [rewrite E; left; reflexivity|].
  destruct (go n) as [l| |]; cbn [rmap] in E; rewrite <- E; [|exact IH|left; reflexivity].
  destruct IH as [IH|IH]; [rewrite IH; left; reflexivity|]. rewrite <- IH.
  destruct (kid_fpages go refs); cbn [rmap]; [right; cbn [rmap]; rewrite map_app; reflexivity|right; reflexivity|left; reflexivity].
Qed.
Lemma tree_agree stack : forall n, agree (map fpPage) (full_tree inflate parse_float to_int get stack n) (extractPagesFromTree inflate parse_float get stack n).
Proof.
  induction stack as [|k IH]; intros n; cbn [full_tree extractPagesFromTree]; [left; reflexivity|].
  destruct (get n) as [t| |]; cbn [rbind]; [|right; reflexivity|left; reflexivity].
  destruct (is_page t); [|apply kids_agree, IH].
  destruct (page_agree n t) as [E|E]; [rewrite E; left; reflexivity|]. rewrite <- E.
  destruct (extractFullPage inflate parse_float to_int get n t); cbn [rmap]; [right; reflexivity|right; reflexivity|left; reflexivity].
Qed.
Lemma numbered_map l : forall i, map fpPage (full_numbered i l) = numbered i (map fpPage l).
Proof. induction l as [|p l IH]; intros i; [reflexivity|]. cbn [full_numbered map numbered fpPage]. rewrite IH. reflexivity. Qed.
Lemma pages_agree stack root : ExtractFullPages inflate parse_float to_int get stack root = Panic \/
  rmap (map fpPage) (ExtractFullPages inflate parse_float to_int get stack root) = XExtractPages inflate parse_float get stack root.
Proof.
  change (agree (map fpPage) (ExtractFullPages inflate parse_float to_int get stack root) (XExtractPages inflate parse_float get stack root)).
  unfold ExtractFullPages, XExtractPages. destruct root as [|c root0]; [right; reflexivity|].
  destruct (parseObjectRef (c :: root0)) as [n| |]; cbn [rbind]; [|right; reflexivity|left; reflexivity].
  destruct (get n) as [cat| |]; cbn [rbind]; [|right; reflexivity|left; reflexivity].
  destruct (x_value cat (bs "/Pages")) as [|c1 r0]; [right; reflexivity|].
  destruct (parseObjectRef (c1 :: r0)) as [m| |]; cbn [rbind]; [|right; reflexivity|left; reflexivity].
  destruct (tree_agree stack m) as [E|E]; [rewrite E; left; reflexivity|]. rewrite <- E.
  destruct (full_tree inflate parse_float to_int get stack m); cbn [rmap]; [right; cbn [rmap]; rewrite numbered_map; reflexivity|right; reflexivity|left; reflexivity].
Qed.
(** What ExtractContent returns is made of the pages and the bookmarks. *)
Lemma content_parts stack iorder forder root c : ExtractContent inflate parse_float to_int get stack iorder forder root = Ok c ->
  ExtractFullPages inflate parse_float to_int get stack root = Ok (cPages c) /\
  cAnnots c = flat_map fpAnnots (cPages c) /\
  cImages c = map snd (iorder (collect xrImages (cPages c))) /\ cFonts c = map snd (forder (collect xrFonts (cPages c))) /\
  (ExtractBookmarks get stack root = Ok (cBookmarks c) \/ (ExtractBookmarks get stack root = Err /\ cBookmarks c = [])).
Proof.
  unfold ExtractContent. destruct (ExtractFullPages inflate parse_float to_int get stack root) as [pages| |]; cbn [rbind]; try discriminate.
  destruct (ExtractBookmarks get stack root) as [marks| |]; cbn [or_empty rmap]; try discriminate; intros H; injection H as <-; cbn [cPages cAnnots cImages cFonts cBookmarks]; auto 10.
Qed.
End full.

(* -------------------- the directory -------------------- *)
Lemma digits_split a b x y : forallb is_digit a = true -> forallb is_digit b = true -> starts_with is_digit x = false -> starts_with is_digit y = false ->
  a ++ x = b ++ y -> a = b /\ x = y.
Proof.
  revert b. induction a as [|c a IH]; intros b Ha Hb Hx Hy H; destruct b as [|d b]; cbn [app] in H.
  - auto.
  - exfalso. cbn [forallb] in Hb. apply andb_true_iff in Hb. rewrite H in Hx. cbn [starts_with] in Hx. destruct Hb; congruence.
  - exfalso. cbn [forallb] in Ha. apply andb_true_iff in Ha. rewrite <- H in Hy. cbn [starts_with] in Hy. destruct Ha; congruence.
  - cbn [forallb] in Ha, Hb. apply andb_true_iff in Ha, Hb. destruct Ha as [A1 A2], Hb as [B1 B2]. injection H as -> H. destruct (IH b A2 B2 Hx Hy H) as [-> ->]. auto.
Qed.
Lemma extension_dot f : starts_with is_digit (extension f) = false.
Proof. unfold extension. repeat destruct (bytes_eqb f _); reflexivity. Qed.
Lemma file_name_inj i j f g : file_name i f = file_name j g -> i = j.
Proof.
  unfold file_name. intros H. apply app_inv_head in H.
  destruct (digits_split _ _ _ _ (dec_pad_digits 3 _) (dec_pad_digits 3 _) (extension_dot f) (extension_dot g) H) as [E _].
  apply (f_equal num) in E. rewrite !num_dec_pad in E. lia.
Qed.
Lemma saved_spec writable l : forall i e, In e (save_images writable i l) ->
  exists k x, nth_error l k = Some x /\ fst (snd e) = file_name (i + k) (xiFormat x) /\ writable (fst (snd e)) = true /\ xiData x <> [] /\
    e = (mkIF (xiID x) (fst (snd e)) (xiFormat x) (xiWidth x) (xiHeight x) (xiSpace x) (xiFilter x) (flen (xiData x)), (fst (snd e), xiData x)).
Proof.
  induction l as [|x l IH]; intros i e H; cbn [save_images] in H; [contradiction|]. apply in_app_iff in H. destruct H as [H|H].
  - destruct ((0 <? flen (xiData x)) && writable (file_name i (xiFormat x))) eqn:E; [|contradiction]. destruct H as [H|[]]. subst e.
    apply andb_true_iff in E. destruct E as [E1 E2]. exists 0%nat, x. cbn [fst snd]. rewrite Nat.add_0_r.
    split; [reflexivity|]. split; [reflexivity|]. split; [exact E2|]. split; [|reflexivity].
    intros X. rewrite X in E1. discriminate E1.
  - destruct (IH (S i) e H) as (k & y & H1 & H2 & H3 & H4 & H5). exists (S k), y. split; [exact H1|]. split; [rewrite H2; f_equal; lia|]. auto.
Qed.
Lemma saved_all writable l : forall i k x, nth_error l k = Some x -> xiData x <> [] -> writable (file_name (i + k) (xiFormat x)) = true ->
  In (file_name (i + k) (xiFormat x), xiData x) (map snd (save_images writable i l)).
Proof.
  induction l as [|y l IH]; intros i k x H Hd Hw; [destruct k; discriminate|]. cbn [save_images]. rewrite map_app. apply in_app_iff. destruct k as [|k].
  - left. injection H as ->. rewrite Nat.add_0_r in *. rewrite Hw. replace (0 <? flen (xiData x)) with true.
    + cbn [andb map snd]. left. reflexivity.
    + symmetry. apply Z.ltb_lt. unfold flen. destruct (xiData x); [congruence|cbn [length]; lia].
  - right. replace (i + S k)%nat with (S i + k)%nat in * by lia. apply IH; assumption.
Qed.
Lemma saved_distinct writable l : forall i, NoDup (map (fun e => fst (snd e)) (save_images writable i l)).
Proof.
  induction l as [|x l IH]; intros i; cbn [save_images]; [constructor|]. rewrite map_app.
  destruct ((0 <? flen (xiData x)) && writable (file_name i (xiFormat x))); cbn [map app]; [|apply IH].
  constructor; [|apply IH]. cbn [fst snd]. intros H. apply in_map_iff in H. destruct H as (e & E & H).
  destruct (saved_spec writable l (S i) e H) as (k & y & _ & E2 & _). rewrite E2 in E. apply file_name_inj in E. lia.
Qed.
Lemma directory_files writable doc images : let o := to_directory writable doc images in
  NoDup (map fst (oFiles o)) /\ map ifName (oRefs o) = map fst (oFiles o) /\
  Forall2 (fun r f => ifName r = fst f /\ ifSize r = flen (snd f) /\
    exists k x, nth_error images k = Some x /\ fst f = file_name k (xiFormat x) /\ snd f = xiData x /\ ifID r = xiID x /\ ifFormat r = xiFormat x /\
      ifWidth r = xiWidth x /\ ifHeight r = xiHeight x /\ ifSpace r = xiSpace x /\ ifFilter r = xiFilter x) (oRefs o) (oFiles o) /\
  (forall k x, nth_error images k = Some x -> xiData x <> [] -> writable (file_name k (xiFormat x)) = true -> In (file_name k (xiFormat x), xiData x) (oFiles o)) /\
  (forall f, In f (oFiles o) -> writable (fst f) = true /\ snd f <> []).
Proof.
  intros o. unfold o, to_directory. cbn [oFiles oRefs]. clear o.
  pose proof (saved_spec writable images 0) as S. split; [rewrite map_map; apply saved_distinct|].
  split; [rewrite !map_map; apply map_ext_in; intros e He; destruct (S e He) as (k & x & _ & _ & _ & _ & E); rewrite E; reflexivity|].
  split; [|split].
  - induction (save_images writable 0 images) as [|e l IH]; [constructor|]. cbn [map]. constructor; [|apply IH; intros; apply S; right; assumption].
    destruct (S e (or_introl eq_refl)) as (k & x & H1 & H2 & _ & _ & E). rewrite E at 1 2 3. cbn [fst snd ifName ifSize].
    split; [reflexivity|]. split; [rewrite E; reflexivity|]. exists k, x. rewrite E at 2 3 4 5 6 7 8. cbn [fst snd ifID ifFormat ifWidth ifHeight ifSpace ifFilter]. auto 12.
  - intros k x H1 H2 H3. apply (saved_all writable images 0 k x H1 H2 H3).
  - intros f Hf. apply in_map_iff in Hf. destruct Hf as (e & <- & He). destruct (S e He) as (k & x & _ & _ & H3 & H4 & E). split; [exact H3|]. rewrite E. exact H4.
Qed.

(* -------------------- the annotations of a page, the samples of a picture -------------------- *)
Lemma page_annots inflate parse_float to_int get obj page a v b l fp : page = a ++ bs "/Annots" ++ v ++ b -> ref_array l v -> l <> [] ->
  contains (bs "/Annots") a = false -> contains (bs "/Annots") b = false ->
  (forall n, In n l -> get n = Err \/ exists t, get n = Ok t /\ annot_object t) ->
  extractFullPage inflate parse_float to_int get obj page = Ok fp ->
  Forall2 (fun n x => exists t, get n = Ok t /\ annot_says parse_float n obj t x) (filter (fun n => is_ok (get n)) l) (fpAnnots fp).
Proof.
  intros E Hv Hl Ha Hb Hall H.
  destruct (annots_read parse_float get l v obj Hv Hl Hall) as (as_ & R & F).
  assert (V : x_value page (bs "/Annots") = v).
  { destruct Hv as (s & -> & Hr). destruct (ref_list_flat _ _ Hr) as [[_ H1] H2]. rewrite E.
    replace (a ++ bs "/Annots" ++ ("["%byte :: s ++ ["]"%byte]) ++ b) with (a ++ bs "/Annots" ++ "["%byte :: s ++ "]"%byte :: b)
      by (cbn [app]; rewrite <- app_assoc; reflexivity).
    rewrite x_array; [|exact (key_lit (bs "Annots") eq_refl)|split; assumption|exact H1|exact H2].
    destruct s as [|c s]; [|reflexivity]. rewrite (ref_list_nil _ Hr) in Hl. congruence. }
  unfold extractFullPage in H. rewrite V in H. destruct (page_has_resources get page) as [res| |]; cbn [rbind] in H; try discriminate H.
  destruct (match res with None => Ok None | Some r => rmap Some (extractResources parse_float to_int get r) end) as [rs| |]; cbn [rbind] in H; try discriminate H.
  destruct (extractPage inflate parse_float get page) as [p| |]; cbn [rbind] in H; try discriminate H.
  assert (Hv2 : v <> []) by (destruct Hv as (s & -> & _); discriminate).
  destruct v as [|c v0]; [congruence|]. rewrite R in H. cbn [rmap] in H. injection H as <-. exact F.
Qed.
Lemma picture_back inflate deflate get p w n w' : (0 < imWidth p)%nat -> (0 < imHeight p)%nat -> Z.of_nat (imWidth p) < 2 ^ 63 -> Z.of_nat (imHeight p) < 2 ^ 63 ->
  AddImage deflate p w = (n, w') -> 0 <= nextObjNum w -> (forall x, deflate x <> [] /\ inflate (deflate x) = Some x) ->
  reads_stored get w' -> (forall t, get n = Ok t -> flen t < 2 ^ 63) ->
  exists data, extractImageData inflate get n =
      Ok (mkXI (bs "/Im" ++ decZ n) (bs "png") (Z.of_nat (imWidth p)) (Z.of_nat (imHeight p)) (space_of_picture p) 8 (bs "/FlateDecode") data) /\
    length data = (imWidth p * imHeight p * channels p)%nat /\
    forall x y i, (x < imWidth p)%nat -> (y < imHeight p)%nat -> (i < channels p)%nat ->
      sample data (imWidth p) (channels p) x y i = Some (if imGray p then imLuma p x y else high_byte (component (imColor p x y) i)).
Proof.
  intros W H W1 H1 E Hn Hd Hg Hb. exists (pixel_data p). split; [|split; [apply pixel_length|apply pixel_sample]].
  eapply picture_read_back; try eassumption; apply Hd.
Qed.
From Coq Require Import Permutation.
Lemma content_of inflate parse_float to_int get stack iorder forder root c :
  (forall l, Permutation (iorder l) l) -> (forall l, Permutation (forder l) l) ->
  ExtractContent inflate parse_float to_int get stack iorder forder root = Ok c ->
  XExtractPages inflate parse_float get stack root = Ok (map fpPage (cPages c)) /\
  cAnnots c = flat_map fpAnnots (cPages c) /\
  (exists im, kept (of_pages xrImages (cPages c)) im /\ Permutation (cImages c) (map snd im)) /\
  (exists fo, kept (of_pages xrFonts (cPages c)) fo /\ Permutation (cFonts c) (map snd fo)) /\
  (ExtractBookmarks get stack root = Ok (cBookmarks c) \/ (ExtractBookmarks get stack root = Err /\ cBookmarks c = [])).
Proof.
  intros Hi Hf H. destruct (content_parts _ _ _ _ _ _ _ _ _ H) as (H1 & H2 & H3 & H4 & H5).
  destruct (pages_agree inflate parse_float to_int get stack root) as [E|E]; [congruence|]. rewrite H1 in E.
  split; [rewrite <- E; reflexivity|]. split; [exact H2|].
  split; [exists (collect xrImages (cPages c)); split; [apply collect_kept|rewrite H3; apply Permutation_map, Hi]|].
  split; [exists (collect xrFonts (cPages c)); split; [apply collect_kept|rewrite H4; apply Permutation_map, Hf]|exact H5].
Qed.
Lemma chars_sum (l : list text_element) : fold_right Z.add 0 (map (fun t => flen (teText t)) l) = flen (flat_map teText l).
Proof. induction l as [|t l IH]; [reflexivity|]. cbn [map fold_right flat_map]. rewrite IH. unfold flen. rewrite app_length. lia. Qed.
Lemma directory_summary writable doc images : let s := oSummary (to_directory writable doc images) in
  suPages s = Z.of_nat (length (cPages doc)) /\ suImages s = Z.of_nat (length images) /\
  suChars s = flen (flat_map (fun p => flat_map teText (xpTexts (fpPage p))) (cPages doc)) /\
  (suText s = true <-> exists p, In p (cPages doc) /\ xpTexts (fpPage p) <> []) /\
  (suHasImages s = true <-> images <> []) /\ (suBookmarks s = true <-> cBookmarks doc <> []) /\
  (suScanned s = true <-> suHasImages s = true /\ suText s = false /\ cPages doc <> []).
Proof.
  cbv zeta. unfold to_directory. cbn [oSummary suPages suImages suChars suText suHasImages suBookmarks suScanned].
  assert (L : forall A (l : list A), (0 <? length l)%nat = true <-> l <> []).
  { intros A l. rewrite Nat.ltb_lt. destruct l; cbn [length]; split; intros; try lia; try congruence; discriminate. }
  split; [reflexivity|]. split; [reflexivity|]. split; [|split; [|split; [apply L|split; [apply L|]]]].
  - induction (cPages doc) as [|p l IH]; [reflexivity|]. cbn [map fold_right flat_map]. rewrite IH, chars_sum. unfold flen. rewrite app_length. lia.
  - rewrite existsb_exists. split; intros (p & Hp & H); exists p; (split; [exact Hp|]).
    + destruct (xpTexts (fpPage p)); [discriminate H|discriminate].
    + destruct (xpTexts (fpPage p)); [congruence|reflexivity].
  - rewrite !andb_true_iff, negb_true_iff, !L. tauto.
Qed.
