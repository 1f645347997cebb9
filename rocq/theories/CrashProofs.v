(** Proofs about exhausting the stack. *)
From Verif Require Import Util MarksModel XPagesModel ParseModel FormsModel ManipModel CrashSpec.
From Verif Require XfaModel.
From Coq Require Import Relations.Relation_Operators Relations.Operators_Properties.
Local Open Scope Z_scope.

(* ---------------- walks ---------------- *)
Section walks.
Context {A : Type} (step : A -> A -> Prop).
Lemma walk_less k j a : (j <= k)%nat -> walk step k a -> walk step j a.
Proof.
  intros H W. revert j H. induction W as [a|k a b Hs W IH]; intros j H.
  - replace j with 0%nat by lia. constructor.
  - destruct j as [|j]; [constructor|]. apply (walk_on _ _ _ b Hs). apply IH. lia.
Qed.
Lemma walk_back a b : clos_refl_trans A step a b -> forall k, walk step k b -> walk step k a.
Proof.
  intros H. apply clos_rt_rt1n in H. induction H as [a|a b c Hs _ IH]; intros k W; [exact W|].
  apply (walk_less (S k)); [lia|]. apply (walk_on _ _ _ b Hs). apply IH. exact W.
Qed.
Lemma circular_walk a : circular step a -> forall k, walk step k a.
Proof.
  intros (b & H & L) k. apply (walk_back a b H). clear H a.
  induction k as [|k IH]; [constructor|]. apply clos_trans_t1n in L. inversion L as [c Hs|c d Hs Hr]; subst.
  - apply (walk_on _ _ _ b Hs IH).
  - apply (walk_on _ _ _ c Hs). apply (walk_back c b); [|exact IH].
    apply clos_rt1n_rt. clear - Hr. induction Hr as [x y H|x y z H _ IH]; [apply (Relation_Operators.rt1n_trans _ _ _ y); [exact H|constructor]|].
    apply (Relation_Operators.rt1n_trans _ _ _ y); [exact H|exact IH].
Qed.
Lemma ranked_walk rank a k : ranked step rank -> (rank a < k)%nat -> ~ walk step k a.
Proof.
  intros R H W. revert H. induction W as [a|k a b Hs W IH]; intros H; [lia|]. apply IH. specialize (R _ _ Hs). lia.
Qed.
End walks.

(* ---------------- results ---------------- *)
Lemma rbind_panic {A B} (r : result A) (f : A -> result B) : rbind r f = Panic <-> r = Panic \/ exists a, r = Ok a /\ f a = Panic.
Proof.
  destruct r as [a| |]; cbn; split.
  - intros H. right. exists a. split; [reflexivity|exact H].
  - intros [H|(b & H & Hf)]; [discriminate|]. injection H as ->. exact Hf.
  - discriminate.
  - intros [H|(b & H & _)]; discriminate.
  - intros _. left. reflexivity.
  - reflexivity.
Qed.
Lemma rmap_panic {A B} (f : A -> B) (r : result A) : rmap f r = Panic <-> r = Panic.
Proof. destruct r; cbn; split; intros H; (discriminate || reflexivity). Qed.

(* ---------------- manipulator ---------------- *)
Section manip.
Context (get : Z -> result bytes) (Hget : forall n, get n <> Panic).
Lemma follow_panic go refs : follow_kids go refs = Panic <-> exists r n, In r refs /\ parseObjectRef r = Ok n /\ go n = Panic.
Proof.
  induction refs as [|r refs IH]; cbn [follow_kids].
  - split; [discriminate|intros (r & n & [] & _)].
  - assert (X : (exists r' n, In r' refs /\ parseObjectRef r' = Ok n /\ go n = Panic) -> exists r' n, In r' (r :: refs) /\ parseObjectRef r' = Ok n /\ go n = Panic).
    { intros (r' & n & Hi & H). exists r', n. split; [right; exact Hi|exact H]. }
    assert (Y : (forall n, parseObjectRef r = Ok n -> go n <> Panic) -> (exists r' n, In r' (r :: refs) /\ parseObjectRef r' = Ok n /\ go n = Panic) -> exists r' n, In r' refs /\ parseObjectRef r' = Ok n /\ go n = Panic).
    { intros N (r' & n & [<-|Hi] & H1 & H2); [destruct (N n H1 H2)|exists r', n; repeat split; assumption]. }
    destruct (parseObjectRef r) as [n| |] eqn:E.
    + destruct (go n) as [l| |] eqn:G.
      * rewrite rmap_panic, IH. split; [exact X|apply Y]. intros n' H. injection H as <-. congruence.
      * rewrite IH. split; [exact X|apply Y]. intros n' H. injection H as <-. congruence.
      * split; [|reflexivity]. intros _. exists r, n. split; [left; reflexivity|]. split; assumption.
    + rewrite IH. split; [exact X|apply Y]. intros n' H. discriminate.
    + rewrite IH. split; [exact X|apply Y]. intros n' H. discriminate.
Qed.
Lemma bytes_eqb_neq a b : bytes_eqb a b = false <-> a <> b.
Proof. rewrite <- Bool.not_true_iff_false, bytes_eqb_eq. reflexivity. Qed.
Lemma no_refs : parseObjectRefArray [] = [].
Proof. reflexivity. Qed.
Lemma pages_panic stack n : extractPageObjectNumbers stack get n = Panic <-> walk (page_kid get) stack n.
Proof.
  revert n. induction stack as [|k IH]; intros n; cbn [extractPageObjectNumbers]; [split; [constructor|reflexivity]|].
  rewrite rbind_panic. split.
  - intros [H|(t & Ht & H)]; [destruct (Hget _ H)|].
    destruct (bytes_eqb (extractDictValue t (bs "/Type")) (bs "/Page")) eqn:Ey; [discriminate|].
    assert (follow_kids (extractPageObjectNumbers k get) (parseObjectRefArray (extractDictValue t (bs "/Kids"))) = Panic) as Hp.
    { destruct (extractDictValue t (bs "/Kids")); [discriminate H|exact H]. }
    apply follow_panic in Hp as (r & m & Hi & Hr & Hm). apply IH in Hm.
    apply (walk_on _ _ _ m); [|exact Hm]. exists t, r. split; [exact Ht|]. split; [apply bytes_eqb_neq; exact Ey|]. split; assumption.
  - intros W. inversion W as [|k' a m (t & r & Ht & Hy & Hi & Hr) Hm]; subst. right. exists t. split; [exact Ht|].
    apply bytes_eqb_neq in Hy. rewrite Hy.
    assert (follow_kids (extractPageObjectNumbers k get) (parseObjectRefArray (extractDictValue t (bs "/Kids"))) = Panic) as Hp.
    { apply follow_panic. exists r, m. split; [exact Hi|]. split; [exact Hr|]. apply IH. exact Hm. }
    destruct (extractDictValue t (bs "/Kids")); [rewrite no_refs in Hi; destruct Hi|exact Hp].
Qed.
Lemma parent_panic stack target n : findParentRec stack get target n = Panic -> walk (page_kid get) stack n.
Proof.
  revert n. induction stack as [|k IH]; intros n; cbn [findParentRec]; [constructor|].
  rewrite rbind_panic. intros [H|(t & Ht & H)]; [destruct (Hget _ H)|].
  destruct (bytes_eqb (extractDictValue t (bs "/Type")) (bs "/Page")) eqn:Ey; [discriminate|].
  assert (exists refs, find_in_kids get (findParentRec k get target) n target refs = Panic /\
    incl refs (parseObjectRefArray (extractDictValue t (bs "/Kids")))) as (refs & Hp & Hincl).
  { destruct (extractDictValue t (bs "/Kids")); [discriminate H|]. eexists. split; [exact H|apply incl_refl]. }
  clear H. induction refs as [|r refs IHr]; cbn [find_in_kids] in Hp; [discriminate|].
  assert (incl refs (parseObjectRefArray (extractDictValue t (bs "/Kids")))) as Hi' by (intros x Hx; apply Hincl; right; exact Hx).
  destruct (parseObjectRef r) as [m| |] eqn:Er; [|exact (IHr Hp Hi')|exact (IHr Hp Hi')].
  destruct (m =? target); [discriminate|]. destruct (get m) as [t'| |] eqn:Em; [|exact (IHr Hp Hi')|destruct (Hget _ Em)].
  destruct (bytes_eqb (extractDictValue t' (bs "/Type")) (bs "/Pages")); [|exact (IHr Hp Hi')].
  destruct (findParentRec k get target m) as [p| |] eqn:Eg; [discriminate|exact (IHr Hp Hi')|].
  apply (walk_on _ _ _ m); [|apply IH; exact Eg]. exists t, r. split; [exact Ht|]. split; [apply bytes_eqb_neq; exact Ey|].
  split; [apply Hincl; left; reflexivity|exact Er].
Qed.
End manip.

Section source.
Context (s : source) (Hget : forall n, sGet s n <> Panic).
Lemma ref_no_panic r : parseObjectRef r <> Panic.
Proof. unfold parseObjectRef. destruct (fields is_space r) as [|p l]; [discriminate|]. destruct (atoi p); discriminate. Qed.
Lemma root_no_panic : pages_root s <> Panic.
Proof.
  unfold pages_root. destruct (sRoot s); [discriminate|]. intros H.
  apply rbind_panic in H as [H|(n & _ & H)]; [exact (ref_no_panic _ H)|].
  apply rbind_panic in H as [H|(t & _ & H)]; [exact (Hget _ H)|]. destruct (extractDictValue t (bs "/Pages")); [discriminate|exact (ref_no_panic _ H)].
Qed.
Lemma root_ok root : pages_root s = Ok root <->
  exists cat t, parseObjectRef (sRoot s) = Ok cat /\ sGet s cat = Ok t /\ parseObjectRef (extractDictValue t (bs "/Pages")) = Ok root.
Proof.
  unfold pages_root. split.
  - destruct (sRoot s) as [|b l] eqn:E; [discriminate|]. intros H.
    destruct (parseObjectRef (b :: l)) as [cat| |] eqn:Ec; cbn [rbind] in H; [|discriminate H|discriminate H].
    destruct (sGet s cat) as [t| |] eqn:Et; cbn [rbind] in H; [|discriminate H|discriminate H].
    exists cat, t. split; [reflexivity|]. split; [exact Et|]. destruct (extractDictValue t (bs "/Pages")); [discriminate H|exact H].
  - intros (cat & t & Hc & Ht & Hr). destruct (sRoot s) as [|b l] eqn:E; [discriminate Hc|].
    rewrite Hc. cbn [rbind]. rewrite Ht. cbn [rbind]. destruct (extractDictValue t (bs "/Pages")); [discriminate Hr|exact Hr].
Qed.
Lemma all_pages_panic stack : getAllPageObjectNumbers stack s = Panic <-> pages_deep stack s.
Proof.
  unfold getAllPageObjectNumbers, pages_deep. rewrite rbind_panic. split.
  - intros [H|(root & Hr & H)]; [destruct (root_no_panic H)|]. apply root_ok in Hr as (cat & t & H1 & H2 & H3).
    apply pages_panic in H; [|exact Hget]. exists cat, t, root. repeat split; assumption.
  - intros (cat & t & root & H1 & H2 & H3 & W). right. exists root. split; [apply root_ok; exists cat, t; repeat split; assumption|].
    apply pages_panic; assumption.
Qed.
Lemma page_number_panic stack page : getPageObjectNumber stack s page = Panic <-> pages_deep stack s.
Proof.
  unfold getPageObjectNumber. rewrite rbind_panic, all_pages_panic. split; [|intros H; left; exact H].
  intros [H|(l & _ & H)]; [exact H|]. exfalso.
  destruct ((page <? 1) || (Z.of_nat (length l) <? page)) eqn:E; [discriminate|]. apply Bool.orb_false_iff in E as (E1 & E2).
  apply Z.ltb_ge in E1, E2. destruct (nth_error l (Z.to_nat (page - 1))) eqn:En; [discriminate|]. apply nth_error_None in En. lia.
Qed.
Lemma copy_ok l : exists m, copy_objects (sGet s) l = Ok m.
Proof.
  induction l as [|n l (m & IH)]; [eexists; reflexivity|]. cbn [copy_objects]. destruct (sGet s n) eqn:E; [|exists m; exact IH|destruct (Hget _ E)].
  rewrite IH. eexists. reflexivity.
Qed.
Lemma manip_ok : exists m, NewPDFManipulator s = Ok m /\ mSrc m = s.
Proof. unfold NewPDFManipulator. destruct (copy_ok (sObjs s)) as (m & ->). eexists. split; reflexivity. Qed.
Lemma parent_object_panic stack n : findParentPagesObject stack s n = Panic -> pages_deep stack s.
Proof.
  unfold findParentPagesObject. rewrite rbind_panic. intros [H|(root & Hr & H)]; [destruct (root_no_panic H)|].
  apply root_ok in Hr as (cat & t & H1 & H2 & H3). apply parent_panic in H; [|exact Hget]. exists cat, t, root. repeat split; assumption.
Qed.
Lemma copy_pages_fine objs o ns w : copy_pages objs o ns w <> Panic.
Proof.
  revert w. induction ns as [|n ns IH]; intros w; [discriminate|]. cbn [copy_pages]. destruct (mget n objs); [apply IH|discriminate].
Qed.
Lemma extract_panic stack pages : ExtractPages stack s pages = Panic <-> pages <> [] /\ pages_deep stack s.
Proof.
  unfold ExtractPages. destruct pages as [|p0 pages]; [split; [discriminate|intros (H & _); congruence]|].
  destruct manip_ok as (m & -> & _). cbn [rbind]. rewrite rbind_panic, all_pages_panic. split.
  - intros [H|(l & _ & H)]; [split; [discriminate|exact H]|]. exfalso.
    destruct (existsb _ _); [discriminate|]. unfold AddObject in H. apply rbind_panic in H as [H|(w & _ & H)]; [|discriminate].
    exact (copy_pages_fine _ _ _ _ H).
  - intros (_ & H). left. exact H.
Qed.
Lemma result_map_panic {A B} (f : A -> result B) l : result_map f l = Panic -> exists a, In a l /\ f a = Panic.
Proof.
  induction l as [|a l IH]; [discriminate|]. cbn [result_map]. rewrite rbind_panic. intros [H|(b & _ & H)].
  - exists a. split; [left; reflexivity|exact H].
  - apply rmap_panic in H. destruct (IH H) as (x & Hx & Hp). exists x. split; [right; exact Hx|exact Hp].
Qed.
Lemma split_panic stack ranges : SplitPDF stack s ranges = Panic <-> ranges <> [] /\ pages_deep stack s.
Proof.
  unfold SplitPDF. destruct ranges as [|r0 ranges]; [split; [discriminate|intros (H & _); congruence]|].
  destruct manip_ok as (m & -> & _). cbn [rbind]. rewrite rbind_panic, all_pages_panic. split.
  - intros [H|(l & _ & H)]; [split; [discriminate|exact H]|]. split; [discriminate|].
    destruct (Z.of_nat (length l) =? 0); [discriminate|]. destruct (existsb _ _); [discriminate|].
    apply result_map_panic in H as (r & _ & H). apply extract_panic in H as (_ & H). exact H.
  - intros (_ & H). left. exact H.
Qed.
Lemma split_count_panic stack per : SplitPDFByPageCount stack s per = Panic <-> 1 <= per /\ pages_deep stack s.
Proof.
  unfold SplitPDFByPageCount. destruct (per <? 1) eqn:E; [apply Z.ltb_lt in E; split; [discriminate|lia]|]. apply Z.ltb_ge in E.
  destruct manip_ok as (m & -> & _). cbn [rbind]. rewrite rbind_panic, all_pages_panic. split.
  - intros [H|(l & _ & H)]; (split; [exact E|]); [exact H|].
    destruct (Z.of_nat (length l) =? 0); [discriminate|]. apply split_panic in H as (_ & H). exact H.
  - intros (_ & H). left. exact H.
Qed.
End source.

Section calls.
Context (m : manip) (Hget : forall n, sGet (mSrc m) n <> Panic).
Lemma rotate_panic stack page angle : RotatePage stack page angle m = Panic <-> In angle [90; 180; 270] /\ pages_deep stack (mSrc m).
Proof.
  unfold RotatePage. destruct (negb ((angle =? 90) || (angle =? 180) || (angle =? 270))) eqn:E.
  - split; [discriminate|]. intros ([<-|[<-|[<-|[]]]] & _); discriminate.
  - rewrite rbind_panic, page_number_panic by exact Hget. split.
    + intros [H|(n & _ & H)]; [split; [|exact H]|destruct (mget n (mObjects m)); discriminate].
      apply Bool.negb_false_iff in E. rewrite !Bool.orb_true_iff, !Z.eqb_eq in E. destruct E as [[->| ->]| ->]; cbn; tauto.
    + intros (_ & H). left. exact H.
Qed.
Lemma delete_panic stack page : DeletePage stack page m = Panic <-> pages_deep stack (mSrc m).
Proof.
  unfold DeletePage. rewrite rbind_panic, page_number_panic by exact Hget. split; [|intros H; left; exact H].
  intros [H|(n & _ & H)]; [exact H|]. apply rbind_panic in H as [H|(p & _ & H)]; [exact (parent_object_panic _ Hget _ _ H)|].
  exfalso. destruct (mget p (mObjects m)) as [t|]; [|discriminate]. destruct (extractDictValue t (bs "/Kids")) as [|b l]; [discriminate|].
  cbv zeta in H. destruct (parseObjectRefArray (b :: l)); [discriminate|]. destruct (Nat.eqb _ _); [discriminate|]. destruct (Nat.eqb _ _); discriminate.
Qed.
Lemma insert_panic stack page n content : InsertPage stack page n content m = Panic <-> pages_deep stack (mSrc m).
Proof.
  unfold InsertPage. rewrite rbind_panic, all_pages_panic by exact Hget. split; [|intros H; left; exact H].
  intros [H|(l & _ & H)]; [exact H|]. exfalso. destruct ((page <? 0) || _); [discriminate|].
  apply rbind_panic in H as [H|(p & _ & H)]; [exact (root_no_panic _ Hget H)|].
  destruct (mget p (mObjects m)) as [t|]; [|discriminate]. destruct (extractDictValue t (bs "/Kids")); discriminate.
Qed.
End calls.
Lemma run_until_panic {A} (op : A -> manip -> result manip) (P : Prop) (s : source)
  (Hop : forall a m, mSrc m = s -> op a m = Panic -> P) (Hs : forall a m m', mSrc m = s -> op a m = Ok m' -> mSrc m' = s) l :
  forall m, mSrc m = s -> fst (run_until op l m) = Panic -> P.
Proof.
  induction l as [|a l IH]; intros m Hm H; [discriminate|]. cbn [run_until] in H. destruct (op a m) as [m'| |] eqn:E; [|discriminate|].
  - apply (IH m' (Hs a m m' Hm E) H).
  - exact (Hop a m Hm E).
Qed.
Lemma rotate_src stack page angle m m' : RotatePage stack page angle m = Ok m' -> mSrc m' = mSrc m.
Proof.
  unfold RotatePage. destruct (negb _); [discriminate|]. destruct (getPageObjectNumber stack (mSrc m) page) as [n| |]; cbn [rbind]; [|discriminate|discriminate].
  destruct (mget n (mObjects m)); [|discriminate]. intros H. injection H as <-. reflexivity.
Qed.
Lemma delete_src stack page m m' : DeletePage stack page m = Ok m' -> mSrc m' = mSrc m.
Proof.
  unfold DeletePage. destruct (getPageObjectNumber stack (mSrc m) page) as [n| |]; cbn [rbind]; [|discriminate|discriminate].
  destruct (findParentPagesObject stack (mSrc m) n) as [p| |]; cbn [rbind]; [|discriminate|discriminate].
  destruct (mget p (mObjects m)) as [t|]; [|discriminate]. destruct (extractDictValue t (bs "/Kids")) as [|b l]; [discriminate|].
  cbv zeta. destruct (parseObjectRefArray (b :: l)); [discriminate|]. destruct (Nat.eqb _ _); [discriminate|]. destruct (Nat.eqb _ _); [discriminate|].
  intros H. injection H as <-. reflexivity.
Qed.
Lemma rotate_all_panic stack angle m : (forall n, sGet (mSrc m) n <> Panic) -> fst (RotateAllPages stack angle m) = Panic <-> pages_deep stack (mSrc m).
Proof.
  intros Hget. unfold RotateAllPages. destruct (getAllPageObjectNumbers stack (mSrc m)) as [l| |] eqn:E; cbn [fst].
  - split.
    + intros H. refine (run_until_panic _ _ (mSrc m) _ _ _ m eq_refl H).
      * intros a m' Hm Hp. apply rotate_panic in Hp as (_ & Hp); [rewrite Hm in Hp; exact Hp|]. rewrite Hm. exact Hget.
      * intros a m' m'' Hm Hp. rewrite (rotate_src _ _ _ _ _ Hp). exact Hm.
    + intros H. rewrite (proj2 (all_pages_panic _ Hget _) H) in E. discriminate.
  - split; [discriminate|]. intros H. rewrite (proj2 (all_pages_panic _ Hget _) H) in E. discriminate.
  - split; [|reflexivity]. intros _. apply all_pages_panic; assumption.
Qed.
Lemma delete_all_panic stack pages m : (forall n, sGet (mSrc m) n <> Panic) -> fst (DeletePages stack pages m) = Panic <-> pages <> [] /\ pages_deep stack (mSrc m).
Proof.
  intros Hget. unfold DeletePages. split.
  - intros H. split; [intros ->; discriminate H|]. refine (run_until_panic _ _ (mSrc m) _ _ _ m eq_refl H).
    + intros a m' Hm Hp. apply delete_panic in Hp; [rewrite Hm in Hp; exact Hp|]. rewrite Hm. exact Hget.
    + intros a m' m'' Hm Hp. rewrite (delete_src _ _ _ _ Hp). exact Hm.
  - intros (Hp & Hd). destruct (rev pages) as [|p l] eqn:E.
    + apply (f_equal (@rev Z)) in E. rewrite rev_involutive in E. destruct (Hp E).
    + cbn [run_until]. rewrite (proj2 (delete_panic m Hget stack p) Hd). reflexivity.
Qed.
Lemma merge_objects_ok s pages l : (forall n, sGet s n <> Panic) -> forall map next w acc,
  exists r, merge_objects (sGet s) pages l map next w acc = Ok r.
Proof.
  intros Hs. induction l as [|n l IHl]; intros map next w acc; cbn [merge_objects]; [eauto|].
  destruct (sGet s n) eqn:E; [apply IHl|apply IHl|destruct (Hs n E)].
Qed.
Lemma merge_panic stack docs : (forall s n, In s docs -> sGet s n <> Panic) ->
  (MergePDFs stack docs = Panic <->
   exists before s after, docs = before ++ s :: after /\ Forall (pages_listed stack) before /\ pages_deep stack s).
Proof.
  intros Hget.
  assert (G : forall next w acc, merge_docs stack docs next w acc = Panic <->
    exists before s after, docs = before ++ s :: after /\ Forall (pages_listed stack) before /\ pages_deep stack s).
  { induction docs as [|s docs IH]; intros next w acc.
    { split; [discriminate|]. intros (before & s & after & E & _). destruct before; discriminate. }
    assert (Hs : forall n, sGet s n <> Panic) by (intros n; apply Hget; left; reflexivity).
    assert (Hd : forall s' n, In s' docs -> sGet s' n <> Panic) by (intros s' n Hi; apply Hget; right; exact Hi).
    specialize (IH Hd). cbn [merge_docs]. rewrite rbind_panic. split.
    - intros [H|(pages & Hp & H)].
      + exists [], s, docs. split; [reflexivity|]. split; [constructor|]. apply all_pages_panic; assumption.
      + apply rbind_panic in H as [H|(((next', w'), acc') & _ & H)].
        * destruct (merge_objects_ok s pages (sObjs s) Hs [] next w acc) as [r Hr]. congruence.
        * apply IH in H as (before & s' & after & -> & F & D). exists (s :: before), s', after. split; [reflexivity|]. split; [|exact D].
          constructor; [exists pages; exact Hp|exact F].
    - intros (before & s' & after & E & F & D). destruct before as [|b before]; cbn [app] in E; injection E as E1 E2.
      + subst s'. left. apply all_pages_panic; assumption.
      + subst b. inversion F as [|x y (pages & Hp) F']; subst. right. exists pages. split; [exact Hp|]. apply rbind_panic. right.
        destruct (merge_objects_ok s pages (sObjs s) Hs [] next w acc) as [((next', w'), acc') Hr].
        exists ((next', w'), acc'). split; [exact Hr|]. apply IH. exists before, s', after. auto. }
  unfold MergePDFs. destruct docs as [|d docs].
  { split; [discriminate|]. intros (before & s & after & E & _). destruct before; discriminate. }
  rewrite rbind_panic, G. split.
  - intros [H|(((n, w), acc) & _ & H)]; [exact H|discriminate].
  - intros H. left. exact H.
Qed.

(* ---------------- other recursive readers ---------------- *)
Section readers.
Context (get : Z -> result bytes) (Hget : forall n, get n <> Panic).
Lemma try_ok n : exists o, try_get get n = Ok o.
Proof. unfold try_get. destruct (get n) eqn:E; [eexists; reflexivity|eexists; reflexivity|destruct (Hget _ E)]. Qed.
Lemma action_ok t : exists u, action_uri get t = Ok u.
Proof.
  unfold action_uri. destruct (x_value t (bs "/A")) as [|b l]; [eexists; reflexivity|]. destruct (parse_ref (b :: l)) as [n|]; [|eexists; reflexivity].
  destruct (try_ok n) as (o & ->). eexists. reflexivity.
Qed.
Lemma or_empty_panic {A} (r : result (list A)) : or_empty r = Panic <-> r = Panic.
Proof. destruct r; cbn; split; intros H; (discriminate || reflexivity). Qed.
Lemma or_empty_not_err {A} (r : result (list A)) : or_empty r <> Err.
Proof. destruct r; discriminate. Qed.
Lemma marks_panic stack r : read_marks get stack r = Panic <-> walk (next_item get) stack r.
Proof.
  revert r. induction stack as [|k IH]; intros r; cbn [read_marks]; [split; [constructor|reflexivity]|].
  assert (X : forall f, match f with [] => Ok [] | b :: l => or_empty (read_marks get k (b :: l)) end = Panic <-> f <> [] /\ walk (next_item get) k f).
  { intros f. destruct f as [|b f]; [split; [discriminate|intros (H & _); congruence]|]. rewrite or_empty_panic, IH. split; [intros H; split; [discriminate|exact H]|intros (_ & H); exact H]. }
  assert (Xe : forall f, match f with [] => Ok [] | b :: l => or_empty (read_marks get k (b :: l)) end <> Err).
  { intros f. destruct f; [discriminate|apply or_empty_not_err]. }
  assert (U : forall t, exists u, match x_value t (bs "/Dest") with [] => action_uri get t | _ => Ok [] end = Ok u).
  { intros t. destruct (x_value t (bs "/Dest")); [apply action_ok|eexists; reflexivity]. }
  split.
  - rewrite rbind_panic. intros [H|(n & Hn & H)]; [destruct (ref_no_panic _ H)|].
    apply rbind_panic in H as [H|(t & Ht & H)]; [destruct (Hget _ H)|]. cbv zeta in H. destruct (U t) as (u & Hu). rewrite Hu in H. cbn [rbind] in H.
    apply rbind_panic in H as [H|(ks & _ & H)].
    + apply X in H as (Hne & W). apply (walk_on _ _ _ (x_value t (bs "/First"))); [|exact W].
      exists n, t, (bs "/First"). repeat split; try assumption. left. reflexivity.
    + apply rmap_panic in H. apply X in H as (Hne & W). apply (walk_on _ _ _ (x_value t (bs "/Next"))); [|exact W].
      exists n, t, (bs "/Next"). repeat split; try assumption. right. reflexivity.
  - intros W. inversion W as [|k' a r' (n & t & key & Hn & Ht & Hk & Er & Hne) Hm]; subst. rewrite Hn. cbn [rbind]. rewrite Ht. cbn [rbind]. cbv zeta.
    destruct (U t) as (u & ->). cbn [rbind]. destruct Hk as [->| ->].
    + rewrite (proj2 (X _) (conj Hne Hm)). reflexivity.
    + match goal with |- rbind ?x _ = _ => destruct x as [ks| |] eqn:E end; cbn [rbind]; [|destruct (Xe _ E)|reflexivity].
      rewrite (proj2 (X _) (conj Hne Hm)). reflexivity.
Qed.
Lemma key_ok key r : exists o, read_key get key r = Ok o.
Proof.
  unfold read_key. destruct r as [|b r]; [eexists; reflexivity|]. destruct (parse_ref (b :: r)) as [n|]; [|eexists; reflexivity].
  destruct (try_ok n) as (o & ->). eexists. reflexivity.
Qed.
Lemma read_key_some key r v : read_key get key r = Ok (Some v) <->
  exists n t, parseObjectRef r = Ok n /\ get n = Ok t /\ x_value t key = v /\ v <> [].
Proof.
  unfold read_key. split.
  - destruct r as [|b r]; [discriminate|]. unfold parse_ref. destruct (parseObjectRef (b :: r)) as [n| |] eqn:E; [|discriminate|discriminate].
    unfold try_get. destruct (get n) as [t| |] eqn:Et; [|discriminate|discriminate]. cbn [rmap]. intros H.
    exists n, t. split; [reflexivity|]. split; [exact Et|]. destruct (x_value t key) as [|b' v'] eqn:Ev; [discriminate|]. injection H as <-. split; [reflexivity|discriminate].
  - intros (n & t & Hn & Ht & Hv & Hne). destruct r as [|b r]; [discriminate Hn|]. unfold parse_ref. rewrite Hn. unfold try_get. rewrite Ht. cbn [rmap].
    rewrite Hv. destruct v; [congruence|reflexivity].
Qed.
Lemma bookmarks_panic stack root : ExtractBookmarks get stack root = Panic <->
  exists c cat o out f, parseObjectRef root = Ok c /\ get c = Ok cat /\ parseObjectRef (x_value cat (bs "/Outlines")) = Ok o /\ get o = Ok out /\
    x_value out (bs "/First") = f /\ f <> [] /\ walk (next_item get) stack f.
Proof.
  unfold ExtractBookmarks. split.
  - rewrite rbind_panic. intros [H|(a & Ha & H)]; [destruct (key_ok (bs "/Outlines") root) as (x & Ex); congruence|].
    destruct a as [v|]; [|discriminate]. apply read_key_some in Ha as (c & cat & H1 & H2 & H3 & H4).
    apply rbind_panic in H as [H|(a & Ha & H)]; [destruct (key_ok (bs "/First") v) as (x & Ex); congruence|].
    destruct a as [f|]; [|discriminate]. apply read_key_some in Ha as (o & out & H5 & H6 & H7 & H8).
    apply (proj1 (or_empty_panic _)) in H. apply marks_panic in H. rewrite <- H3 in H5.
    exists c, cat, o, out, f. repeat split; assumption.
  - intros (c & cat & o & out & f & H1 & H2 & H3 & H4 & H5 & H6 & W).
    rewrite (proj2 (read_key_some (bs "/Outlines") root (x_value cat (bs "/Outlines")))).
    + cbn [rbind]. rewrite (proj2 (read_key_some (bs "/First") _ f)); [|exists o, out; repeat split; assumption]. cbn [rbind].
      rewrite (proj2 (marks_panic stack f) W). reflexivity.
    + exists c, cat. repeat split; try assumption. intros E. rewrite E in H3. discriminate.
Qed.

Lemma each_panic go refs : parse_each go refs = Panic <-> exists n g, In (n, g) refs /\ go n g = Panic.
Proof.
  induction refs as [|(n, g) refs IH]; cbn [parse_each]; [split; [discriminate|intros (n & g & [] & _)]|].
  assert (X : (exists n' g', In (n', g') refs /\ go n' g' = Panic) -> exists n' g', In (n', g') ((n, g) :: refs) /\ go n' g' = Panic).
  { intros (n' & g' & Hi & H). exists n', g'. split; [right; exact Hi|exact H]. }
  assert (Y : go n g <> Panic -> (exists n' g', In (n', g') ((n, g) :: refs) /\ go n' g' = Panic) -> exists n' g', In (n', g') refs /\ go n' g' = Panic).
  { intros N (n' & g' & [E|Hi] & H); [injection E as -> ->; contradiction|exists n', g'; split; assumption]. }
  destruct (go n g) as [f| |] eqn:E.
  - rewrite rmap_panic, IH. split; [exact X|apply Y; discriminate].
  - rewrite IH. split; [exact X|apply Y; discriminate].
  - split; [|reflexivity]. intros _. exists n, g. split; [left; reflexivity|exact E].
Qed.
Lemma field_panic stack n g : parseField stack get n g = Panic <-> walk (field_kid get) stack n.
Proof.
  revert n g. induction stack as [|k IH]; intros n g; cbn [parseField]; [split; [constructor|reflexivity]|].
  rewrite rbind_panic. split.
  - intros [H|(t & Ht & H)]; [destruct (Hget _ H)|]. apply rmap_panic, each_panic in H as (m & g' & Hi & H). apply IH in H.
    apply (walk_on _ _ _ m); [exists t, g'; split; assumption|exact H].
  - intros W. inversion W as [|k' a m (t & g' & Ht & Hi) Hm]; subst. right. exists t. split; [exact Ht|]. apply rmap_panic, each_panic.
    exists m, g'. split; [exact Hi|]. apply IH. exact Hm.
Qed.
Lemma form_dict_panic stack d : parseAcroFormDict stack get d = Panic <->
  exists t n g, search (m_arr (bs "/Fields")) d = Some t /\ In (n, g) (refs_of t) /\ walk (field_kid get) stack n.
Proof.
  unfold parseAcroFormDict. split.
  - destruct (search (m_arr (bs "/Fields")) d) as [t|]; [|discriminate]. rewrite rmap_panic, each_panic. intros (n & g & Hi & H).
    apply field_panic in H. exists t, n, g. repeat split; assumption.
  - intros (t & n & g & -> & Hi & W). apply rmap_panic, each_panic. exists n, g. split; [exact Hi|]. apply field_panic. exact W.
Qed.

(* ---------------- content ---------------- *)
Context (inflate : bytes -> option bytes) (parse_float : bytes -> option float).
Lemma stream_ok n : exists d, extractStreamData inflate get n = Ok d.
Proof. unfold extractStreamData. destruct (try_ok n) as (o & ->). eexists. reflexivity. Qed.
Lemma encoding_ok font d : exists d', base_encoding get font d = Ok d'.
Proof.
  unfold base_encoding. destruct (x_value font (bs "/Encoding")) as [|b l]; [eexists; reflexivity|]. destruct (prefixb _ _); [eexists; reflexivity|].
  destruct (parse_ref (b :: l)) as [n|]; [|eexists; reflexivity]. destruct (try_ok n) as (o & ->). eexists. reflexivity.
Qed.
Lemma decoder_ok n : exists o, extractFontDecoder inflate get n = Ok o.
Proof.
  unfold extractFontDecoder. destruct (try_ok n) as (o & ->). cbn [rbind]. destruct o as [font|]; [|eexists; reflexivity].
  destruct (encoding_ok font NewFontDecoder) as (d & ->). cbn [rbind]. cbv zeta.
  destruct (x_value font (bs "/ToUnicode")) as [|b l]; [eexists; reflexivity|]. destruct (parse_ref (b :: l)) as [m|]; [|eexists; reflexivity].
  destruct (stream_ok m) as (t & ->). eexists. reflexivity.
Qed.
Lemma decoders_ok l acc : exists r, font_decoders inflate get l acc = Ok r.
Proof.
  revert acc. induction l as [|(n, d) l IH]; intros acc; [eexists; reflexivity|]. cbn [font_decoders].
  destruct (decoder_ok (match atoi d with Some z => z | None => 0 end)) as (o & ->). cbn [rbind]. apply IH.
Qed.
Lemma contents_ok decs refs : exists r, read_contents inflate parse_float get decs refs = Ok r.
Proof.
  induction refs as [|r refs (x & IH)]; [eexists; reflexivity|]. cbn [read_contents]. rewrite IH.
  destruct (parse_ref r) as [n|]; [destruct (try_ok n) as (o & ->)|]; eexists; reflexivity.
Qed.
Lemma page_ok t : exists p, extractPage inflate parse_float get t = Ok p.
Proof.
  unfold extractPage. cbv zeta. assert (exists r, page_resources get t = Ok r) as (r & ->).
  { unfold page_resources. destruct (x_value t (bs "/Resources")) as [|b l]; [eexists; reflexivity|]. destruct (parse_ref (b :: l)) as [n|]; [|eexists; reflexivity].
    destruct (try_ok n) as (o & ->). eexists. reflexivity. }
  cbn [rbind]. assert (exists d, match r with [] => Ok None | _ => rmap Some (extractFontDecoders inflate get r) end = Ok d) as (d & ->).
  { destruct r; [eexists; reflexivity|]. unfold extractFontDecoders. match goal with |- context [font_decoders _ _ ?l ?a] => destruct (decoders_ok l a) as (x & ->) end. eexists. reflexivity. }
  cbn [rbind]. destruct (contents_ok d (content_refs t)) as (c & ->). eexists. reflexivity.
Qed.
Lemma kid_pages_panic go refs : kid_pages go refs = Panic <-> exists r n, In r refs /\ parseObjectRef r = Ok n /\ go n = Panic.
Proof.
  induction refs as [|r refs IH]; cbn [kid_pages].
  - split; [discriminate|intros (r & n & [] & _)].
  - assert (X : (exists r' n, In r' refs /\ parseObjectRef r' = Ok n /\ go n = Panic) -> exists r' n, In r' (r :: refs) /\ parseObjectRef r' = Ok n /\ go n = Panic).
    { intros (r' & n & Hi & H). exists r', n. split; [right; exact Hi|exact H]. }
    assert (Y : (forall n, parseObjectRef r = Ok n -> go n <> Panic) -> (exists r' n, In r' (r :: refs) /\ parseObjectRef r' = Ok n /\ go n = Panic) -> exists r' n, In r' refs /\ parseObjectRef r' = Ok n /\ go n = Panic).
    { intros N (r' & n & [<-|Hi] & H1 & H2); [destruct (N n H1 H2)|exists r', n; repeat split; assumption]. }
    unfold parse_ref. destruct (parseObjectRef r) as [n| |] eqn:E.
    + destruct (go n) as [l| |] eqn:G.
      * rewrite rmap_panic, IH. split; [exact X|apply Y]. intros n' H. injection H as <-. congruence.
      * rewrite IH. split; [exact X|apply Y]. intros n' H. injection H as <-. congruence.
      * split; [|reflexivity]. intros _. exists r, n. split; [left; reflexivity|]. split; assumption.
    + rewrite IH. split; [exact X|apply Y]. intros n' H. discriminate.
    + rewrite IH. split; [exact X|apply Y]. intros n' H. discriminate.
Qed.
Lemma tree_panic stack n : extractPagesFromTree inflate parse_float get stack n = Panic <-> walk (content_kid get) stack n.
Proof.
  revert n. induction stack as [|k IH]; intros n; cbn [extractPagesFromTree]; [split; [constructor|reflexivity]|].
  rewrite rbind_panic. split.
  - intros [H|(t & Ht & H)]; [destruct (Hget _ H)|]. destruct (is_page t) eqn:Ey; [destruct (page_ok t) as (p & Ep); rewrite Ep in H; discriminate|].
    apply kid_pages_panic in H as (r & m & Hi & Hr & Hm). apply IH in Hm. apply (walk_on _ _ _ m); [|exact Hm]. exists t, r. repeat split; assumption.
  - intros W. inversion W as [|k' a m (t & r & Ht & Hy & Hi & Hr) Hm]; subst. right. exists t. split; [exact Ht|]. rewrite Hy.
    apply kid_pages_panic. exists r, m. split; [exact Hi|]. split; [exact Hr|]. apply IH. exact Hm.
Qed.
Lemma content_panic stack root : XExtractPages inflate parse_float get stack root = Panic <->
  exists c cat n, parseObjectRef root = Ok c /\ get c = Ok cat /\ parseObjectRef (x_value cat (bs "/Pages")) = Ok n /\ walk (content_kid get) stack n.
Proof.
  unfold XExtractPages. split.
  - destruct root as [|b root]; [discriminate|]. rewrite rbind_panic. intros [H|(c & Hc & H)]; [destruct (ref_no_panic _ H)|].
    apply rbind_panic in H as [H|(cat & Ht & H)]; [destruct (Hget _ H)|]. destruct (x_value cat (bs "/Pages")) as [|b' l] eqn:Ex; [discriminate|].
    apply rbind_panic in H as [H|(n & Hn & H)]; [destruct (ref_no_panic _ H)|]. apply rmap_panic, tree_panic in H.
    exists c, cat, n. split; [exact Hc|]. split; [exact Ht|]. rewrite Ex. split; assumption.
  - intros (c & cat & n & H1 & H2 & H3 & W). destruct root as [|b root]; [discriminate H1|]. rewrite H1. cbn [rbind]. rewrite H2. cbn [rbind].
    destruct (x_value cat (bs "/Pages")) as [|b' l]; [discriminate H3|]. rewrite H3. cbn [rbind]. apply rmap_panic, tree_panic. exact W.
Qed.
End readers.
Lemma form_panic stack inflate crypt dec f :
  Open inflate crypt f <> Panic -> (forall n, GetObject inflate dec f n <> Panic) ->
  (ParseAcroForm stack inflate crypt dec f = Panic <->
   (exists p, Open inflate crypt f = Ok p) /\
   exists digits rest form d t n g, search m_acroform f = Some (digits, rest) /\ atoi digits = Some form /\
     GetObject inflate dec f form = Ok d /\ search (m_arr (bs "/Fields")) d = Some t /\ In (n, g) (refs_of t) /\
     walk (field_kid (GetObject inflate dec f)) stack n).
Proof.
  intros Ho Hg. unfold ParseAcroForm. rewrite rbind_panic. split.
  - intros [H|(p & Hp & H)]; [destruct (Ho H)|]. split; [exists p; exact Hp|]. unfold parseAcroFormFromBytes in H.
    destruct (search m_acroform f) as [(d, r)|]; [|discriminate]. destruct (atoi d) as [n|] eqn:En; [|discriminate].
    apply rbind_panic in H as [H|(t & Ht & H)]; [destruct (Hg _ H)|]. apply form_dict_panic in H as (a & m & g & H1 & H2 & H3); [|exact Hg].
    exists d, r, n, t, a, m, g. repeat split; assumption.
  - intros ((p & Hp) & d & r & n & t & a & m & g & H0 & H1 & H2 & H3 & H4 & H5). right. exists p. split; [exact Hp|].
    unfold parseAcroFormFromBytes. rewrite H0, H1. apply rbind_panic. right. exists t. split; [exact H2|].
    apply form_dict_panic; [exact Hg|]. exists a, m, g. repeat split; assumption.
Qed.
(** A circle crashes whatever else the document does. *)
Lemma each_panic_any (go : Z -> Z -> result field) refs n g : In (n, g) refs -> go n g = Panic -> parse_each go refs = Panic.
Proof.
  induction refs as [|(n', g') refs IH]; intros Hi H; [destruct Hi|]. cbn [parse_each]. destruct Hi as [E|Hi].
  - injection E as -> ->. rewrite H. reflexivity.
  - destruct (go n' g'); [|apply IH; assumption|reflexivity]. rewrite (IH Hi H). reflexivity.
Qed.
Lemma field_walk get stack n : walk (field_kid get) stack n -> forall g, parseField stack get n g = Panic.
Proof.
  revert n. induction stack as [|k IH]; intros n W g; [reflexivity|]. cbn [parseField].
  inversion W as [|k' a m (t & g' & Ht & Hi) Hm]; subst. rewrite Ht. cbn [rbind].
  rewrite (each_panic_any _ _ m g' Hi (IH m Hm g')). reflexivity.
Qed.
Lemma form_circle inflate crypt dec f p digits rest form d t n g :
  Open inflate crypt f = Ok p ->
  search m_acroform f = Some (digits, rest) -> atoi digits = Some form ->
  GetObject inflate dec f form = Ok d -> search (m_arr (bs "/Fields")) d = Some t -> In (n, g) (refs_of t) ->
  circular (field_kid (GetObject inflate dec f)) n -> forall stack, ParseAcroForm stack inflate crypt dec f = Panic.
Proof.
  intros H0 H1 H2 H3 H4 H5 C stack. unfold ParseAcroForm. rewrite H0. cbn [rbind]. unfold parseAcroFormFromBytes.
  rewrite H1, H2, H3. cbn [rbind]. unfold parseAcroFormDict. rewrite H4.
  rewrite (each_panic_any _ _ n g H5 (field_walk _ stack n (circular_walk _ n C stack) g)). reflexivity.
Qed.
Lemma rank_fine s stack rank : ranked (page_kid (sGet s)) rank ->
  (forall cat t root, parseObjectRef (sRoot s) = Ok cat -> sGet s cat = Ok t -> parseObjectRef (extractDictValue t (bs "/Pages")) = Ok root -> (rank root < stack)%nat) ->
  ~ pages_deep stack s.
Proof. intros R H (cat & t & root & H1 & H2 & H3 & W). exact (ranked_walk _ rank root stack R (H _ _ _ H1 H2 H3) W). Qed.
Lemma circle_deep s cat t root : parseObjectRef (sRoot s) = Ok cat -> sGet s cat = Ok t -> parseObjectRef (extractDictValue t (bs "/Pages")) = Ok root ->
  circular (page_kid (sGet s)) root -> forall stack, pages_deep stack s.
Proof. intros H1 H2 H3 C stack. exists cat, t, root. repeat split; try assumption. apply circular_walk. exact C. Qed.
Lemma marks_circle get stack root c cat o out f : (forall n, get n <> Panic) ->
  parseObjectRef root = Ok c -> get c = Ok cat -> parseObjectRef (x_value cat (bs "/Outlines")) = Ok o -> get o = Ok out ->
  x_value out (bs "/First") = f -> f <> [] -> circular (next_item get) f -> ExtractBookmarks get stack root = Panic.
Proof.
  intros Hg H1 H2 H3 H4 H5 H6 C. apply bookmarks_panic; [exact Hg|]. exists c, cat, o, out, f. repeat split; try assumption. apply circular_walk. exact C.
Qed.

(* ---------------- XFA ---------------- *)
Lemma nth_skipn_here (o : bytes) i j : nth_error o (i + j) = nth_error (skipn i o) j.
Proof. revert o. induction i as [|i IH]; intros [|b o]; cbn [skipn Nat.add nth_error]; [reflexivity|reflexivity|destruct j; reflexivity|apply IH]. Qed.
Lemma eol_here o i : skip_one_eol o i = (i + line_end (skipn i o))%nat.
Proof.
  unfold skip_one_eol.
  assert (N : forall j, nth_error o (i + j) = nth_error (skipn i o) j) by (intros j; apply nth_skipn_here).
  pose proof (N 0%nat) as N0. pose proof (N 1%nat) as N1. rewrite Nat.add_0_r in N0. rewrite N0.
  destruct (skipn i o) as [|a [|b l]]; cbn [nth_error] in *.
  - rewrite N0. cbn [line_end]. lia.
  - cbn [line_end]. destruct (beqb a x0d) eqn:Ea; cbn [orb].
    + replace (S i) with (i + 1)%nat by lia. rewrite N1. reflexivity.
    + rewrite N0. destruct (beqb a x0a); lia.
  - cbn [line_end]. destruct (beqb a x0d) eqn:Ea.
    + replace (S i) with (i + 1)%nat by lia. rewrite N1. destruct (beqb b x0a); lia.
    + rewrite N0. destruct (beqb a x0a); lia.
Qed.
Lemma stream_data_panic zl fl o : XfaModel.extractStreamDataFromObject zl fl o = Panic <-> huge_length o.
Proof.
  unfold XfaModel.extractStreamDataFromObject, huge_length. destruct (index (bs "stream") o) as [st|] eqn:E.
  2:{ split; [destruct (index (bs "<<") o); discriminate|]. intros (st & d & H & _). discriminate H. }
  unfold contains. cbv zeta. destruct (index (bs "endstream") (skipn st o)) as [e|] eqn:Ee.
  2:{ split; [discriminate|]. intros (st' & d & H & H2 & _). injection H as <-. rewrite Ee in H2. discriminate H2. }
  rewrite rbind_panic, eol_here. change (Z.of_N int64_max) with (2 ^ 63 - 1). split.
  - intros [H|(data & _ & H)].
    + destruct (value_of (find (m_key (bs "/Length")) (firstn st o))) as [d|] eqn:Ed; [|discriminate].
      destruct (_ <? _) eqn:El in H; [|destruct (_ <=? _) in H; discriminate].
      exists st, d. rewrite Ee. repeat split; try assumption. apply Z.ltb_lt in El. lia.
    + destruct (match index _ (firstn st o) with Some _ => _ | None => _ end); [|discriminate]. destruct (XfaModel.inflated zl fl data); discriminate.
  - intros (st' & d & H & H2 & H3 & H4). injection H as <-. left. rewrite H3.
    rewrite (proj2 (Z.ltb_lt _ _)) by lia. reflexivity.
Qed.
Lemma load_panic zl fl get sf l : (forall n, get n <> Panic) -> (forall n, sf n <> Panic) ->
  forall acc, XfaModel.load_streams zl fl get sf l acc = Panic <->
    exists name d n o, In (name, d) l /\ atoi d = Some n /\ object_text get sf n o /\ huge_length o.
Proof.
  intros Hg Hs. induction l as [|(name, d) l IH]; intros acc.
  { split; [discriminate|]. intros (? & ? & ? & ? & [] & _). }
  cbn [XfaModel.load_streams].
  assert (P : forall n, atoi d = Some n -> (rbind (match get n with Ok o => Ok o | Panic => Panic | Err => sf n end) (XfaModel.extractStreamDataFromObject zl fl) = Panic
     <-> exists o, object_text get sf n o /\ huge_length o)).
  { intros n _. unfold object_text. rewrite rbind_panic. split.
    - intros [H|(o & H1 & H2)].
      + destruct (get n) eqn:G; [discriminate|destruct (Hs _ H)|destruct (Hg _ G)].
      + apply stream_data_panic in H2. exists o. split; [|exact H2]. destruct (get n) eqn:G; [left; exact H1|right; split; [reflexivity|exact H1]|discriminate].
    - intros (o & [H|(H & H')] & H2); right; exists o; rewrite H; (split; [|apply stream_data_panic; exact H2]); [reflexivity|exact H']. }
  assert (R : forall Q : Prop, (Q <-> exists name d n o, In (name, d) l /\ atoi d = Some n /\ object_text get sf n o /\ huge_length o) ->
    ((exists n o, atoi d = Some n /\ object_text get sf n o /\ huge_length o) \/ Q <->
    exists name' d' n o, In (name', d') ((name, d) :: l) /\ atoi d' = Some n /\ object_text get sf n o /\ huge_length o)).
  { intros Q HQ. rewrite HQ. split.
    - intros [(n & o & A & B & C)|(nm & d' & n & o & I & A)]; [exists name, d, n, o; split; [left; reflexivity|repeat split; assumption]|].
      exists nm, d', n, o. split; [right; exact I|exact A].
    - intros (nm & d' & n & o & [I|I] & A).
      + injection I as -> ->. left. exists n, o. exact A.
      + right. exists nm, d', n, o. split; assumption. }
  destruct (atoi d) as [n|] eqn:En.
  - cbv zeta. rewrite <- (R _ (IH acc)). specialize (P n eq_refl).
    destruct (rbind _ _) as [data| |] eqn:E.
    + destruct (XfaModel.DecompressStream zl fl data) as (x, c). rewrite IH, <- (IH acc). split; [intros H; right; exact H|].
      intros [(n' & o & A & B)|H]; [|exact H]. injection A as <-. discriminate (proj2 P (ex_intro _ o B)).
    + split; [intros H; right; exact H|].
      intros [(n' & o & A & B)|H]; [|exact H]. injection A as <-. discriminate (proj2 P (ex_intro _ o B)).
    + split; [intros _|reflexivity]. left. destruct (proj1 P eq_refl) as (o & H). exists n, o. split; [reflexivity|exact H].
  - rewrite <- (R _ (IH acc)). split; [intros H; right; exact H|]. intros [(n & o & A & _)|H]; [discriminate A|exact H].
Qed.
Lemma array_fine get ff f : (forall n, get n <> Panic) -> (forall n, ff n <> Panic) -> XfaModel.xfa_array get ff f <> Panic.
Proof.
  intros Hg Hf H. revert H. unfold XfaModel.xfa_array.
  assert (I : match find XfaModel.m_xfa_open f with
    | Some (_, r) => match XfaModel.array_end (XfaModel.array_limit - 1) 1 r with Some e => Ok (firstn e r) | None => Err end
    | None => Err end <> Panic).
  { destruct (find XfaModel.m_xfa_open f) as [(i, r)|]; [|discriminate]. destruct (XfaModel.array_end _ _ _); discriminate. }
  assert (C : forall c, XfaModel.findXFAArrayContent c <> Panic).
  { intros c. unfold XfaModel.findXFAArrayContent. destruct (XfaModel.xfa_pos c); [|discriminate]. destruct (index _ _); [|discriminate]. cbv zeta.
    destruct (XfaModel.array_end _ _ _); discriminate. }
  destruct (value_of (find XfaModel.m_acroform f)) as [d|].
  - destruct (atoi d) as [n|]; [|discriminate]. destruct (0 <? n).
    + rewrite rbind_panic. intros [H|(o & _ & H)]; [|exact (C _ H)]. destruct (get n) eqn:G; [discriminate|exact (Hf _ H)|exact (Hg _ G)].
    + exact I.
  - destruct (found _); [exact I|discriminate].
Qed.
Lemma xfa_panic zl fl get ff sf f : (forall n, get n <> Panic) -> (forall n, ff n <> Panic) -> (forall n, sf n <> Panic) ->
  (XfaModel.ExtractAllXFAStreams zl fl get ff sf f = Panic <->
   exists a name d n o, XfaModel.xfa_array get ff f = Ok a /\ In (name, d) (XfaModel.xfa_entries a) /\ atoi d = Some n /\ object_text get sf n o /\ huge_length o).
Proof.
  intros Hg Hf Hs. unfold XfaModel.ExtractAllXFAStreams. rewrite rbind_panic. split.
  - intros [H|(a & Ha & H)]; [destruct (array_fine _ _ _ Hg Hf H)|].
    assert (L : XfaModel.load_streams zl fl get sf (XfaModel.xfa_entries a) [] = Panic)
      by (destruct (XfaModel.xfa_entries a); [discriminate|exact H]).
    apply (load_panic _ _ _ _ _ Hg Hs) in L as (name & d & n & o & L). exists a, name, d, n, o. split; [exact Ha|exact L].
  - intros (a & name & d & n & o & Ha & I & L). right. exists a. split; [exact Ha|].
    assert (Q : XfaModel.load_streams zl fl get sf (XfaModel.xfa_entries a) [] = Panic).
    { apply (load_panic _ _ _ _ _ Hg Hs). exists name, d, n, o. split; assumption. }
    destruct (XfaModel.xfa_entries a); [destruct I|exact Q].
Qed.
