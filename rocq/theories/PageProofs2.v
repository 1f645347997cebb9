(** Proofs for documents built page by page. *)
From Verif Require Import Util Scan PageModel PageSpec TextSpec WriterProofs ParseProofs MetaProofs ManipProofs PageProofs.
Local Open Scope Z_scope.

Lemma Forall2_impl {A B} (P Q : A -> B -> Prop) l m : (forall a b, P a b -> Q a b) -> Forall2 P l m -> Forall2 Q l m.
Proof. intros H. induction 1; constructor; auto. Qed.
Lemma fresh_above h a (d : dict) : mget a h = Some d -> a < fresh h.
Proof.
  induction h as [|[k v] h IH]; intros H; [discriminate H|].
  cbn [fresh fold_right fst]. fold (fresh h). cbn [mget] in H. destruct (a =? k) eqn:E.
  - apply Z.eqb_eq in E. subst. lia.
  - specialize (IH H). lia.
Qed.
Lemma add_stream_spec deflate d data cmp w : let (n, w') := add_stream deflate d data cmp w in
  n = nextObjNum w /\ nextObjNum w' = n + 1 /\
  (forall m, m <> n -> mget m (objects w') = mget m (objects w)) /\
  (forall a x, mget a (dicts w) = Some x -> mget a (dicts w') = Some x) /\
  (exists a, mget n (objects w') = Some (mkObj None (fst (stream_data deflate data cmp)) (Some a)) /\
     mget a (dicts w') = Some (stream_dict d (fst (stream_data deflate data cmp)) (snd (stream_data deflate data cmp)))) /\
  useXRefStream w' = useXRefStream w /\ useObjectStream w' = useObjectStream w /\ encryptRef w' = encryptRef w /\
  outlinesRef w' = outlinesRef w.
Proof.
  unfold add_stream, AddStreamObject. cbn [dicts set_dicts]. rewrite mget_mset, Z.eqb_refl.
  destruct (stream_data deflate data cmp) as [sd c] eqn:E. cbn [nextObjNum set_dicts set_next set_objects objects dicts fst snd useXRefStream useObjectStream encryptRef outlinesRef].
  split; [reflexivity|]. split; [reflexivity|]. split.
  { intros m Hm. rewrite mget_mset. destruct (m =? nextObjNum w) eqn:F; [lia|reflexivity]. }
  split.
  { intros a x H. rewrite !mget_mset. destruct (a =? fresh (dicts w)) eqn:F; [|exact H].
    apply fresh_above in H. lia. }
  split; [|repeat split].
  exists (fresh (dicts w)). rewrite !mget_mset, !Z.eqb_refl. split; reflexivity.
Qed.

(** A page, with room below the next number and above the page tree. *)
Definition page_at (deflate : bytes -> bytes) (w : writer) (parent : Z) (pb : page_builder) (n : Z) : Prop :=
  parent < n < nextObjNum w /\ exists c fonts images,
    parent < c < nextObjNum w /\
    Permutation fonts (pbFonts pb) /\ Permutation images (pbImages pb) /\
    text_object w n (page_text parent c (pbWidth pb) (pbHeight pb) fonts images) /\
    content_object deflate w c (pbContent pb).
Lemma extends_refl w : extends w w.
Proof. split; [lia|]. split; auto. Qed.
Lemma extends_trans a b c : extends a b -> extends b c -> extends a c.
Proof.
  intros [A1 [A2 A3]] [B1 [B2 B3]]. split; [lia|]. split; [|auto].
  intros m Hm. rewrite B2 by lia. apply A2, Hm.
Qed.
Lemma page_extends deflate w w' parent pb n : extends w w' -> page_at deflate w parent pb n -> page_at deflate w' parent pb n.
Proof.
  intros [E1 [E2 E3]] [R [c [fo [im [Rc [Pf [Pi [Hg Hc]]]]]]]]. split; [lia|]. exists c, fo, im.
  split; [lia|]. split; [exact Pf|]. split; [exact Pi|]. split.
  - unfold text_object. rewrite E2 by lia. exact Hg.
  - destruct Hc as [a Hc]. exists a. destruct (pbContent pb); destruct Hc as [H1 H2]; split; auto;
    rewrite E2 by lia; exact H1.
Qed.
Lemma add_object_extends c w : extends w (snd (AddObject c w)).
Proof.
  cbn [AddObject snd]. split; [cbn; lia|]. cbn [objects dicts set_next set_objects]. split; [|auto]. intros m Hm. rewrite mget_mset. destruct (m =? nextObjNum w) eqn:E; [lia|reflexivity].
Qed.
Lemma add_stream_extends deflate d data cmp w : extends w (snd (add_stream deflate d data cmp w)).
Proof.
  pose proof (add_stream_spec deflate d data cmp w) as H. destruct (add_stream deflate d data cmp w) as [n w']. cbn [snd].
  destruct H as [H1 [H2 [H3 [H4 _]]]]. split; [lia|]. split; [|exact H4]. intros m Hm. apply H3. lia.
Qed.
Lemma bookmarks_extend l pages w : 0 < nextObjNum w -> extends w (snd (WSetBookmarks l pages w)).
Proof.
  intros W. destruct l as [|b l]; [apply extends_refl|].
  pose proof (set_bookmarks_ok (b :: l) pages w ltac:(discriminate) W) as H.
  destruct (WSetBookmarks (b :: l) pages w) as [n w']. cbn [snd].
  destruct H as [ps [f [t [_ [_ [_ [_ [_ [_ [R [F [D _]]]]]]]]]]]].
  inversion R as [|? ? Rn _]; subst. split; [lia|]. split; [intros m Hm; apply F; lia|]. rewrite D. auto.
Qed.

Lemma group_same key l : resource_group key l = group_of key l.
Proof. unfold resource_group, group_of. destruct l; [reflexivity|]. reflexivity. Qed.
Lemma page_dict_text ord parent c pb : page_dict ord parent c pb =
  page_text parent c (pbWidth pb) (pbHeight pb) (ord (pbFonts pb)) (ord (pbImages pb)).
Proof.
  unfold page_dict, page_text, resources, ref. rewrite !group_same.
  change (bs " 0 R/MediaBox[0 0 ") with (bs " 0 R" ++ bs "/MediaBox[0 0 ").
  change (bs " 0 R/Resources<<") with (bs " 0 R" ++ bs "/Resources" ++ bs "<<").
  change (bs ">>>>") with (bs ">>" ++ bs ">>"). rewrite <- !app_assoc. reflexivity.
Qed.
Lemma build_spec deflate ord parent pb w : is_map_order ord -> 0 < parent < nextObjNum w ->
  let (n, w') := Build deflate ord parent pb w in
  n = nextObjNum w + 1 /\ extends w w' /\ page_at deflate w' parent pb n.
Proof.
  intros O P. unfold Build.
  pose proof (add_stream_spec deflate [] (buffer (pbContent pb)) true w) as H.
  pose proof (add_stream_extends deflate [] (buffer (pbContent pb)) true w) as X.
  destruct (add_stream deflate [] (buffer (pbContent pb)) true w) as [c w1]. cbn [snd] in X.
  destruct H as [H1 [H2 [H3 [H4 [[a [H5 H6]] _]]]]].
  pose proof (add_object_extends (Some (page_dict ord parent c pb)) w1) as Y.
  unfold AddObject in *. cbn [snd] in Y. remember (set_next _ _) as w2 eqn:E2.
  split; [lia|]. split; [exact (extends_trans _ _ _ X Y)|].
  assert (N : nextObjNum w2 = nextObjNum w1 + 1) by (subst w2; reflexivity).
  split; [lia|]. exists c, (ord (pbFonts pb)), (ord (pbImages pb)).
  split; [lia|]. split; [apply O|]. split; [apply O|]. split.
  - unfold text_object. rewrite E2. cbn [objects set_next set_objects]. rewrite mget_mset, Z.eqb_refl.
    rewrite page_dict_text. reflexivity.
  - exists a. destruct Y as [_ [Y2 Y3]]. apply Y3 in H6. rewrite <- (Y2 c) in H5 by lia.
    unfold buffer in *. destruct (pbContent pb); cbn [stream_data fst snd] in H5, H6; (split; [exact H5|exact H6]).
Qed.

(** The invariant of a session. *)
Definition session_ok (deflate : bytes -> bytes) (s : session) : Prop :=
  let b := ssBuilder s in let w := sbWriter b in
  0 < nextObjNum w /\
  match ssDone s with
  | [] => sbPagesNum b = 0 /\ sbPages b = []
  | _ => 0 < sbPagesNum b < nextObjNum w /\ Forall2 (page_at deflate w (sbPagesNum b)) (ssDone s) (sbPages b) /\
         NoDup (sbPagesNum b :: sbPages b)
  end.
Lemma session_writer deflate s w' opens : session_ok deflate s -> extends (sbWriter (ssBuilder s)) w' ->
  session_ok deflate (mkSession (with_writer w' (ssBuilder s)) opens (ssDone s)).
Proof.
  intros [W H] E. split.
  - cbn. destruct E as [E1 _]. lia.
  - cbn [ssDone ssBuilder with_writer sbWriter sbPages sbPagesNum]. destruct (ssDone s) as [|x l]; [exact H|].
    destruct H as [H1 [H2 H3]]. split; [destruct E as [E1 _]; lia|]. split; [|exact H3].
    eapply Forall2_impl; [|exact H2]. intros a b. apply page_extends, E.
Qed.
Lemma same_session deflate s opens : session_ok deflate s ->
  session_ok deflate (mkSession (ssBuilder s) opens (ssDone s)).
Proof.
  intros H. replace (ssBuilder s) with (with_writer (sbWriter (ssBuilder s)) (ssBuilder s)).
  - apply session_writer; [exact H|apply extends_refl].
  - destruct (ssBuilder s). reflexivity.
Qed.
Lemma forall2_bounds deflate w p l ns : Forall2 (page_at deflate w p) l ns -> Forall (fun n => p < n < nextObjNum w) ns.
Proof. induction 1 as [|a b l ns H _ IH]; constructor; [exact (proj1 H)|exact IH]. Qed.
Lemma nodup_snoc (l : list Z) x : NoDup l -> ~ In x l -> NoDup (l ++ [x]).
Proof.
  intros H N. apply nodup_join; [exact H|constructor; [intros []|constructor]|].
  intros m Hm [->|[]]. contradiction.
Qed.
Lemma finalize_ok deflate ord s pb : is_map_order ord -> session_ok deflate s ->
  session_ok deflate (mkSession (FinalizePage deflate ord pb (ssBuilder s)) (ssOpen s) (ssDone s ++ [pb])).
Proof.
  intros O [W H]. unfold FinalizePage.
  set (b := ssBuilder s) in *. set (w := sbWriter b) in *.
  destruct (if sbPagesNum b =? 0 then reserve w else (sbPagesNum b, w)) as [p w1] eqn:E.
  assert (X : 0 < p < nextObjNum w1 /\ extends w w1 /\ Forall2 (page_at deflate w p) (ssDone s) (sbPages b) /\ NoDup (p :: sbPages b)).
  { destruct (ssDone s) as [|x l].
    - destruct H as [H1 H2]. rewrite H1 in E. cbn [Z.eqb] in E. unfold reserve in E. injection E as <- <-.
      cbn [nextObjNum set_next]. split; [lia|]. rewrite H2. split; [|split; [constructor|constructor; [intros []|constructor]]].
      split; [cbn; lia|]. split; auto.
    - destruct H as [H1 [H2 H3]]. replace (sbPagesNum b =? 0) with false in E by (symmetry; apply Z.eqb_neq; lia).
      injection E as <- <-. split; [exact H1|]. split; [apply extends_refl|]. split; assumption. }
  destruct X as [X1 [X2 [X3 X4]]].
  pose proof (build_spec deflate ord p pb w1 O X1) as B. destruct (Build deflate ord p pb w1) as [n w2].
  destruct B as [B1 [B2 B3]].
  split. { cbn. destruct X2, B2. lia. }
  cbn [ssDone ssBuilder sbWriter sbPages sbPagesNum].
  assert (G : 0 < p < nextObjNum w2 /\ Forall2 (page_at deflate w2 p) (ssDone s ++ [pb]) (sbPages b ++ [n]) /\
    NoDup (p :: sbPages b ++ [n])).
  { split; [destruct B2; lia|]. split.
    - apply Forall2_app; [|constructor; [exact B3|constructor]].
      eapply Forall2_impl; [|exact X3]. intros x y. apply page_extends. exact (extends_trans _ _ _ X2 B2).
    - change (p :: sbPages b ++ [n]) with ((p :: sbPages b) ++ [n]). apply nodup_snoc; [exact X4|].
      intros [Hi|Hi]; [lia|]. apply forall2_bounds in X3. rewrite Forall_forall in X3. specialize (X3 _ Hi). cbn beta in X3.
      destruct X2. lia. }
  destruct (ssDone s ++ [pb]) eqn:Ed; [destruct (ssDone s); discriminate Ed|]. exact G.
Qed.
Lemma do_bcall_ok deflate ord c s : is_map_order ord -> session_ok deflate s -> session_ok deflate (do_bcall deflate ord c s).
Proof.
  intros O H. destruct c as [wd ht|i n|i n k|i n k|i t|i|t|d data cmp|l]; cbn [do_bcall].
  - apply same_session, H.
  - destruct (nth_error (ssOpen s) i) as [pb|]; [|exact H].
    unfold AddStandardFont. destruct (existsb _ _).
    + apply session_writer; [exact H|apply extends_refl].
    + cbn [AddObject]. apply session_writer; [exact H|]. apply (add_object_extends (Some (font_dict n))).
  - destruct (nth_error (ssOpen s) i) as [pb|]; [|exact H]. apply session_writer; [exact H|apply extends_refl].
  - destruct (nth_error (ssOpen s) i) as [pb|]; [|exact H]. apply session_writer; [exact H|apply extends_refl].
  - destruct (nth_error (ssOpen s) i) as [pb|]; [|exact H]. apply session_writer; [exact H|apply extends_refl].
  - destruct (nth_error (ssOpen s) i) as [pb|]; [|exact H]. apply finalize_ok; assumption.
  - apply session_writer; [exact H|apply add_object_extends].
  - apply session_writer; [exact H|apply add_stream_extends].
  - apply (session_writer deflate s _ (ssOpen s) H). apply bookmarks_extend. exact (proj1 H).
Qed.
Lemma do_bcalls_ok deflate ord cs : is_map_order ord -> session_ok deflate (do_bcalls deflate ord cs).
Proof.
  intros O. unfold do_bcalls.
  assert (G : forall cs s, session_ok deflate s -> session_ok deflate (fold_left (fun s c => do_bcall deflate ord c s) cs s)).
  { intros l. induction l as [|c l IH]; intros s H; [exact H|]. cbn [fold_left]. apply IH, do_bcall_ok; assumption. }
  apply G. split; [cbn; lia|]. split; reflexivity.
Qed.

Lemma kids_same pages : pages_dict pages = kids_text pages.
Proof.
  unfold pages_dict, kids_text. do 2 f_equal.
  induction pages as [|n l IH]; [reflexivity|]. cbn [flat_map]. rewrite IH. unfold ref.
  change (bs " 0 R ") with (bs " 0 R" ++ bs " "). rewrite <- !app_assoc. reflexivity.
Qed.
Lemma document_ok deflate ord cs s : is_map_order ord -> do_bcalls deflate ord cs = s -> ssDone s <> [] ->
  let b := finish (ssBuilder s) in let w := sbWriter b in
  exists root tree pages,
    rootRef w = Some root /\
    text_object w root (bs "<</Type/Catalog/Pages " ++ decZ tree ++ bs " 0 R>>") /\
    text_object w tree (kids_text pages) /\
    Forall2 (page_object deflate w tree) (ssDone s) pages /\
    NoDup (root :: tree :: pages) /\ Forall (fun n => 0 < n < nextObjNum w) (root :: tree :: pages).
Proof.
  intros O <- D. pose proof (do_bcalls_ok deflate ord cs O) as H. set (s := do_bcalls deflate ord cs) in *.
  destruct H as [W H]. destruct (ssDone s) as [|x l] eqn:Ed; [congruence|]. rewrite <- Ed in *. clear Ed x l.
  destruct H as [H1 [H2 H3]]. unfold finish. set (b := ssBuilder s) in *. set (w := sbWriter b) in *.
  cbn [AddObject]. unfold SetObject.
  replace (nextObjNum w <=? sbPagesNum b) with false by (symmetry; apply Z.leb_gt; lia).
  cbn zeta. cbn [sbWriter].
  set (w1 := set_objects w (mset (sbPagesNum b) (mkObj (Some (pages_dict (sbPages b))) None None) (objects w))).
  assert (ND := forall2_bounds _ _ _ _ _ H2).
  exists (nextObjNum w), (sbPagesNum b), (sbPages b).
  assert (OB : forall m w2, objects w2 = mset (nextObjNum w) (mkObj (Some (catalog_dict (sbPagesNum b))) None None) (objects w1) ->
    mget m (objects w2) = if m =? nextObjNum w then Some (mkObj (Some (catalog_dict (sbPagesNum b))) None None)
      else if m =? sbPagesNum b then Some (mkObj (Some (pages_dict (sbPages b))) None None) else mget m (objects w)).
  { intros m w2 ->. rewrite mget_mset. destruct (m =? nextObjNum w); [reflexivity|]. unfold w1. cbn [objects set_objects].
    apply mget_mset. }
  match goal with |- rootRef ?W = _ /\ _ => remember W as w2 eqn:E2 end.
  assert (OB2 : objects w2 = mset (nextObjNum w) (mkObj (Some (catalog_dict (sbPagesNum b))) None None) (objects w1)).
  { subst w2. cbn. reflexivity. }
  assert (DD : dicts w2 = dicts w) by (subst w2; reflexivity).
  assert (NN : nextObjNum w2 = nextObjNum w + 1) by (subst w2; reflexivity).
  split; [subst w2; reflexivity|]. split.
  { unfold text_object. rewrite (OB _ _ OB2), Z.eqb_refl. unfold catalog_dict, ref.
    change (bs " 0 R>>") with (bs " 0 R" ++ bs ">>"). rewrite <- !app_assoc. reflexivity. }
  split.
  { unfold text_object. rewrite (OB _ _ OB2). replace (sbPagesNum b =? nextObjNum w) with false by (symmetry; apply Z.eqb_neq; lia).
    rewrite Z.eqb_refl. rewrite kids_same. reflexivity. }
  split.
  { eapply Forall2_impl; [|exact H2]. intros pb n [R [c [fo [im [Rc [Pf [Pi [Hg Hc]]]]]]]].
    assert (S : forall m, sbPagesNum b < m < nextObjNum w -> mget m (objects w2) = mget m (objects w)).
    { intros m Hm. rewrite (OB _ _ OB2). replace (m =? nextObjNum w) with false by (symmetry; apply Z.eqb_neq; lia).
      replace (m =? sbPagesNum b) with false by (symmetry; apply Z.eqb_neq; lia). reflexivity. }
    exists c, fo, im. split; [exact Pf|]. split; [exact Pi|]. split.
    - unfold text_object. rewrite S by exact R. exact Hg.
    - split; [lia|]. unfold content_object in *. rewrite (S c Rc), DD. exact Hc. }
  split.
  { constructor; [|exact H3]. intros [Hi|Hi]; [lia|]. rewrite Forall_forall in ND. specialize (ND _ Hi). cbn beta in ND. lia. }
  constructor; [lia|]. constructor; [lia|]. eapply Forall_impl; [|exact ND]. cbn beta. intros. lia.
Qed.
