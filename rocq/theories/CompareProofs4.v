(** Proofs about keyed comparison and whole documents. *)
From Verif Require Import MetaProofs CompareModel CompareSpec CompareProofs CompareProofs2 CompareProofs3.
Local Open Scope Z_scope.

(* ---------------------------------------------------------------- *)
(** Keyed comparison *)
Lemma has_key_in {A} (key : A -> bytes) l k : has_key key l k = true <-> In k (map key l).
Proof.
  unfold has_key. rewrite existsb_exists, in_map_iff. split; intros (a & H1 & H2); exists a.
  - apply bytes_eqb_eq in H2. auto.
  - split; [exact H2|]. apply bytes_eqb_eq. auto.
Qed.
Lemma kset_new {A} k (v : A) m : ~ In k (map fst m) -> kset k v m = m ++ [(k, v)].
Proof.
  induction m as [|[k' v'] m IH]; intros H; [reflexivity|]. cbn [kset]. cbn [map fst In] in H.
  destruct (bytes_eqb k k') eqn:E; [apply bytes_eqb_eq in E; subst; tauto|]. cbn [app]. f_equal. apply IH. tauto.
Qed.
Lemma fold_kset {A} (key : A -> bytes) l : forall m, NoDup (map fst m ++ map key l) ->
  fold_left (fun m a => kset (key a) a m) l m = m ++ map (fun a => (key a, a)) l.
Proof.
  induction l as [|a l IH]; intros m H; cbn [fold_left map]; [rewrite app_nil_r; reflexivity|].
  cbn [map] in H. rewrite kset_new.
  - rewrite IH; [rewrite <- app_assoc; reflexivity|]. rewrite map_app. cbn [map fst]. rewrite <- app_assoc. exact H.
  - intros Hi. apply NoDup_remove_2 in H. apply H. rewrite in_app_iff. auto.
Qed.
Lemma kdel_filter {A} k (m : list (bytes * A)) : NoDup (map fst m) -> kdel k m = List.filter (fun kv => negb (bytes_eqb k (fst kv))) m.
Proof.
  induction m as [|[k' v] m IH]; intros H; [reflexivity|]. cbn [map fst] in H. apply NoDup_cons_iff in H. destruct H as [H1 H2].
  cbn [kdel List.filter fst]. destruct (bytes_eqb k k') eqn:E; cbn [negb]; [|f_equal; auto].
  apply bytes_eqb_eq in E. subst k'. clear IH. induction m as [|[k2 v2] m IH]; [reflexivity|]. cbn [List.filter fst map In] in *.
  apply NoDup_cons_iff in H2. destruct (bytes_eqb k k2) eqn:E; [apply bytes_eqb_eq in E; subst; tauto|]. cbn [negb]. f_equal. apply IH; tauto.
Qed.
Lemma nodup_filter {A} (f : bytes * A -> bool) m : NoDup (map fst m) -> NoDup (map fst (List.filter f m)).
Proof.
  induction m as [|[k v] m IH]; intros H; [constructor|]. cbn [map fst] in H. apply NoDup_cons_iff in H. destruct H as [H1 H2].
  cbn [List.filter]. destruct (f (k, v)); [|auto]. cbn [map fst]. constructor; [|auto].
  intros Hi. apply H1. apply in_map_iff in Hi. destruct Hi as (x & E & Hi). apply filter_In in Hi. apply in_map_iff. exists x. tauto.
Qed.
Lemma filter_filter2 {A} (f g : A -> bool) l : List.filter f (List.filter g l) = List.filter (fun x => g x && f x) l.
Proof. induction l as [|x l IH]; [reflexivity|]. cbn. destruct (g x); cbn; [destruct (f x)|]; congruence. Qed.
Lemma take_keys_spec {A} (key : A -> bytes) l : forall m, NoDup (map fst m) -> NoDup (map key l) ->
  take_keys key m l =
  (List.filter (fun a => match kget (key a) m with None => true | Some _ => false end) l,
   List.filter (fun kv => negb (has_key key l (fst kv))) m).
Proof.
  induction l as [|a l IH]; intros m Hm Hl; cbn [take_keys].
  - f_equal. cbn [has_key existsb negb]. induction m as [|x m IH2]; [reflexivity|]. cbn. f_equal. apply IH2. cbn in Hm. apply NoDup_cons_iff in Hm. tauto.
  - cbn [map] in Hl. apply NoDup_cons_iff in Hl. destruct Hl as [H1 H2]. cbn [List.filter].
    destruct (kget (key a) m) as [v|] eqn:G.
    + rewrite (kdel_filter _ _ Hm), IH by auto using nodup_filter. f_equal.
      * apply filter_ext_in. intros b Hb. rewrite <- (kdel_filter _ _ Hm).
        assert (E : kget (key b) (kdel (key a) m) = kget (key b) m).
        { assert (Hn : key b <> key a). { intros E. apply H1. rewrite <- E. apply in_map, Hb. }
          clear - Hn. induction m as [|[k v] m IH]; [reflexivity|]. cbn [kdel]. destruct (bytes_eqb (key a) k) eqn:E.
          - apply bytes_eqb_eq in E. subst k. cbn [kget]. apply bytes_eqb_neq in Hn. rewrite Hn. reflexivity.
          - cbn [kget]. rewrite IH. reflexivity. }
        rewrite E. reflexivity.
      * rewrite filter_filter2. apply filter_ext. intros [k x]. cbn [fst has_key existsb]. fold (has_key key l k).
        destruct (bytes_eqb k (key a)) eqn:E.
        -- apply bytes_eqb_eq in E. subst. rewrite bytes_eqb_refl. reflexivity.
        -- cbn [orb]. destruct (bytes_eqb (key a) k) eqn:E2; [apply bytes_eqb_eq in E2; subst; rewrite bytes_eqb_refl in E; discriminate|]. reflexivity.
    + rewrite IH by assumption. f_equal. apply filter_ext_in. intros [k x] Hi. cbn [fst has_key existsb]. fold (has_key key l k).
      destruct (bytes_eqb k (key a)) eqn:E; [|reflexivity]. exfalso. apply bytes_eqb_eq in E. subst k. apply kget_none in G. apply G.
      apply in_map_iff. exists (key a, x). auto.
Qed.

(** With distinct keys: exactly the elements whose key the other list lacks. *)
Lemma keyed_ok {A} (key : A -> bytes) l1 l2 : NoDup (map key l1) -> NoDup (map key l2) ->
  keyed_out (compareKeyed key l1 l2) =
    (List.filter (fun a => negb (has_key key l1 (key a))) l2, List.filter (fun a => negb (has_key key l2 (key a))) l1) /\
  (compareKeyed key l1 l2 = None <-> forall k, In k (map key l1) <-> In k (map key l2)).
Proof.
  intros H1 H2. unfold compareKeyed. rewrite fold_kset by exact H1. cbn [app].
  assert (Hm : NoDup (map fst (map (fun a => (key a, a)) l1))) by (rewrite map_map; exact H1).
  rewrite take_keys_spec by assumption.
  assert (E1 : List.filter (fun a => match kget (key a) (map (fun a0 => (key a0, a0)) l1) with None => true | Some _ => false end) l2 =
    List.filter (fun a => negb (has_key key l1 (key a))) l2).
  { apply filter_ext. intros a. destruct (has_key key l1 (key a)) eqn:E.
    - apply has_key_in in E. destruct (kget (key a) _) eqn:G; [reflexivity|]. apply kget_none in G. rewrite map_map in G. contradiction.
    - destruct (kget (key a) _) as [v|] eqn:G; [|reflexivity]. apply kget_In in G. apply in_map_iff in G. destruct G as (x & [= E2 <-] & Hx).
      assert (has_key key l1 (key a) = true) by (apply has_key_in; rewrite <- E2; apply in_map, Hx). congruence. }
  assert (E2 : map snd (List.filter (fun kv => negb (has_key key l2 (fst kv))) (map (fun a => (key a, a)) l1)) =
    List.filter (fun a => negb (has_key key l2 (key a))) l1).
  { clear. induction l1 as [|a l IH]; [reflexivity|]. cbn. destruct (negb _); cbn; congruence. }
  rewrite E1, E2. clear E1 E2.
  set (f1 := List.filter (fun a => negb (has_key key l1 (key a))) l2). set (f2 := List.filter (fun a => negb (has_key key l2 (key a))) l1).
  split; [destruct f1, f2; reflexivity|]. split.
  - intros Hn. assert (f1 = [] /\ f2 = []) as [F1 F2] by (destruct f1, f2; try discriminate; auto).
    intros k. rewrite <- !has_key_in. split; intros Hk; apply has_key_in in Hk; apply in_map_iff in Hk; destruct Hk as (a & <- & Ha).
    + destruct (has_key key l2 (key a)) eqn:E; [reflexivity|]. assert (In a f2) by (apply filter_In; rewrite E; auto). rewrite F2 in H. destruct H.
    + destruct (has_key key l1 (key a)) eqn:E; [reflexivity|]. assert (In a f1) by (apply filter_In; rewrite E; auto). rewrite F1 in H. destruct H.
  - intros He.
    assert (F1 : f1 = []).
    { destruct f1 as [|a l] eqn:F; [reflexivity|]. assert (Hi : In a f1) by (rewrite F; left; reflexivity). apply filter_In in Hi. destruct Hi as [Hi Hn].
      apply (in_map key) in Hi. apply He, has_key_in in Hi. rewrite Hi in Hn. discriminate. }
    assert (F2 : f2 = []).
    { destruct f2 as [|a l] eqn:F; [reflexivity|]. assert (Hi : In a f2) by (rewrite F; left; reflexivity). apply filter_In in Hi. destruct Hi as [Hi Hn].
      apply (in_map key) in Hi. apply He, has_key_in in Hi. rewrite Hi in Hn. discriminate. }
    rewrite F1, F2. reflexivity.
Qed.
Lemma keyed_self {A} (key : A -> bytes) l : NoDup (map key l) -> compareKeyed key l l = None.
Proof. intros H. apply (proj2 (keyed_ok key l l H H)). reflexivity. Qed.

(* ---------------------------------------------------------------- *)
(** Floats against themselves *)
Lemma fsub_self x : finite x = true -> exists s, fsub x x = S754_zero s.
Proof.
  unfold fsub. destruct x as [s| |  |s m e]; cbn [finite]; try discriminate; intros _.
  - destruct s; cbn; eexists; reflexivity.
  - unfold SFsub. rewrite Z.sub_diag. eexists. reflexivity.
Qed.
Lemma fabs_zero s : fabs (S754_zero s) = S754_zero s.
Proof. reflexivity. Qed.
Lemma near_self x tol : finite x = true -> flt fzero tol = true -> flt (fabs (fsub x x)) tol = true.
Proof. intros Hf Ht. destruct (fsub_self x Hf) as [s ->]. rewrite fabs_zero. unfold flt, SFltb, fzero in *. destruct tol; exact Ht. Qed.
Lemma feq_self x : finite x = true -> feq x x = true.
Proof.
  unfold feq, SFeqb. destruct x as [s| | |s m e]; cbn [finite]; try discriminate; intros _; [reflexivity|].
  cbn [SFcompare]. rewrite Z.compare_refl, Pos.compare_cont_refl. destruct s; reflexivity.
Qed.

Lemma text_self o l : flt fzero (oTolerance o) = true -> Forall finite_elem l -> compareText o l l = Ok None.
Proof.
  intros Ht Hf. unfold compareText. rewrite phase_self0.
  - rewrite phase_all. assert (E : (if oDetectMoves o then phase (move_pred o) (map (fun b : elem => (b, true)) l) (map (fun b => (b, true)) l)
      else (map (fun b => (b, true)) l, map (fun b => (b, true)) l, [])) = (map (fun b => (b, true)) l, map (fun b => (b, true)) l, [])).
    { destruct (oDetectMoves o); [apply phase_all|reflexivity]. }
    rewrite E, unmatched_all. cbn [app]. unfold applySensitivityFilter. destruct (oSensitivity o); reflexivity.
  - intros fl a i Ha. rewrite Forall_forall in Hf. destruct (Hf a Ha) as (H1 & H2 & H3). unfold exact_pred, same_place, same_font, positionsMatch.
    rewrite !bytes_eqb_refl, !near_self by (assumption || reflexivity). reflexivity.
Qed.

(* ---------------------------------------------------------------- *)
(** Images of a page against themselves *)
Lemma imagesEqual_refl i : imagesEqual i i = true.
Proof. unfold imagesEqual. rewrite !Z.eqb_refl, !bytes_eqb_refl. destruct (imData i); reflexivity. Qed.
Lemma last_image_in l i : last_image l = Some i -> exists n, In (n, i) l.
Proof.
  unfold last_image. destruct (rev l) as [|[n j] r] eqn:E; [discriminate|]. intros [= ->]. exists n.
  apply in_rev. rewrite E. left. reflexivity.
Qed.
Lemma imagesMap_get all it id i : kget id (imagesMap all it) = Some i ->
  exists last n img, last_image it = Some last /\ id = bs "/" ++ n /\ In (n, img) it /\ i = stored_image all last n img.
Proof.
  unfold imagesMap. destruct (last_image it) as [last|]; [|discriminate]. intros H. apply kget_In in H. apply in_map_iff in H.
  destruct H as ([n img] & [= <- <-] & Hi). exists last, n, img. auto.
Qed.
Lemma images_self all it1 it2 l id i j : Permutation it1 l -> Permutation it2 l -> NoDup (map fst l) ->
  (forall a b, In a l -> In b l -> imagesEqual (snd a) (snd b) = true) ->
  kget id (imagesMap all it1) = Some i -> kget id (imagesMap all it2) = Some j -> imagesEqual i j = true.
Proof.
  intros P1 P2 Hn He H1 H2. apply imagesMap_get in H1, H2.
  destruct H1 as (last1 & n1 & g1 & L1 & -> & I1 & ->). destruct H2 as (last2 & n2 & g2 & L2 & En & I2 & ->).
  injection En as <-. apply (Permutation_in _ P1) in I1. apply (Permutation_in _ P2) in I2.
  pose proof (proj2 (kget_in _ _ _ Hn) I1) as G1. pose proof (proj2 (kget_in _ _ _ Hn) I2) as G2. rewrite G1 in G2. injection G2 as <-.
  apply last_image_in in L1, L2. destruct L1 as [m1 L1], L2 as [m2 L2]. apply (Permutation_in _ P1) in L1. apply (Permutation_in _ P2) in L2.
  pose proof (He _ _ L1 L2) as Hl. cbn [snd] in Hl. unfold stored_image.
  destruct (imData g1); [|exact Hl]. destruct all as [a|]; [|exact Hl]. destruct (List.find _ a); [apply imagesEqual_refl|exact Hl].
Qed.
Lemma compareImages_self m1 m2 l : Forall (fun r => finite (irX r) = true /\ finite (irY r) = true) l ->
  (forall id i j, kget id m1 = Some i -> kget id m2 = Some j -> imagesEqual i j = true) -> compareImages m1 m2 l l = None.
Proof.
  intros Hf Hm. unfold compareImages. rewrite phase_self0.
  - rewrite phase_all, unmatched_all. assert (E : List.filter (ref_changed m1 m2) (map (fun a => (a, a)) l) = []).
    { induction l as [|a l IH]; [reflexivity|]. cbn [map List.filter]. unfold ref_changed at 1. cbn [fst snd]. inversion Hf; subst.
      destruct (kget (irID a) m1) as [i|] eqn:G1; [|auto]. destruct (kget (irID a) m2) as [j|] eqn:G2; [|auto].
      rewrite (Hm _ _ _ G1 G2). auto. }
    rewrite E. reflexivity.
  - intros fl a i Ha. rewrite Forall_forall in Hf. destruct (Hf a Ha) as (H1 & H2). unfold ref_pred, positionsMatch.
    rewrite bytes_eqb_refl, !near_self by (assumption || reflexivity). reflexivity.
Qed.

Lemma page_self fmt1 all iter1 iter2 o n p :
  (forall l, Permutation (iter1 n l) l) -> (forall l, Permutation (iter2 n l) l) ->
  flt fzero (oTolerance o) = true -> plain_page fmt1 p -> compareSinglePage fmt1 all all iter1 iter2 o n p p = Ok [].
Proof.
  intros I1 I2 Ht (W & H & T & G & A & R & M). unfold compareSinglePage. rewrite text_self by assumption.
  rewrite !feq_self, Z.eqb_refl by assumption. rewrite !keyed_self by assumption. cbn [app andb map opt_list].
  rewrite compareImages_self; [rewrite Nat.eqb_refl; reflexivity|exact R|].
  intros id i j. unfold page_images. destruct (pResources p) as [l|] eqn:E; [|discriminate]. destruct (M l eq_refl) as [M1 M2].
  apply (images_self all (iter1 n l) (iter2 n l) l); auto.
Qed.
Lemma pages_self fmt1 all iter1 iter2 o l :
  (forall n l, Permutation (iter1 n l) l) -> (forall n l, Permutation (iter2 n l) l) ->
  flt fzero (oTolerance o) = true -> Forall (plain_page fmt1) l -> forall n, comparePages fmt1 all all iter1 iter2 o n l l = Ok [].
Proof.
  intros I1 I2 Ht. induction l as [|p l IH]; intros Hf n; [reflexivity|]. inversion Hf as [|x y Hp Hl]; subst. cbn [comparePages].
  rewrite page_self by auto. rewrite IH by exact Hl. reflexivity.
Qed.
Lemma metadata_self o m : compareMetadata o m m = None.
Proof.
  unfold compareMetadata. destruct (oIgnoreMetadata o); [reflexivity|]. destruct m as [m|]; [|reflexivity].
  rewrite !bytes_eqb_refl, Z.eqb_refl, Bool.eqb_reflx. destruct (oIgnoreProducer o), (oIgnoreDates o); reflexivity.
Qed.
Lemma forms_self f : NoDup (map fst (fValues f)) -> compareForms (Some f) (Some f) = None.
Proof. intros H. apply (proj2 (proj2 (proj2 (proj2 (proj2 (forms_ok f f eq_refl H H)))))). reflexivity. Qed.

Lemma docs_self {B} (deq : list B -> list B -> bool) fmt1 all iter1 iter2 o d :
  (forall l, deq l l = true) -> (forall n l, Permutation (iter1 n l) l) -> (forall n l, Permutation (iter2 n l) l) ->
  flt fzero (oTolerance o) = true -> Forall (plain_page fmt1) (dPages d) ->
  (forall f, dForm d = Some f -> NoDup (map fst (fValues f))) ->
  exists c, compareDocs deq fmt1 all all iter1 iter2 o d d = Ok c /\ cIdentical c = true /\ nothing_reported c.
Proof.
  intros Hd I1 I2 Ht Hp Hf. unfold compareDocs. rewrite metadata_self, Nat.eqb_refl, pages_self by assumption.
  rewrite Nat.eqb_refl, Hd.
  assert (E : compareForms (dForm d) (dForm d) = None).
  { destruct (dForm d) as [f|]; [apply forms_self; auto|reflexivity]. }
  rewrite E. eexists. split; [reflexivity|]. split; [reflexivity|]. repeat split.
Qed.

(* ---------------------------------------------------------------- *)
(** Identical says whether anything was reported. *)
Lemma extra_nonempty d n l x : In x (extra_pages d n l) -> snd x <> [].
Proof. revert n. induction l as [|p l IH]; intros n; cbn; [intros []|]. intros [<-|H]; [discriminate|eauto]. Qed.
Lemma pages_nonempty fmt1 all1 all2 iter1 iter2 o l1 : forall l2 n pd, comparePages fmt1 all1 all2 iter1 iter2 o n l1 l2 = Ok pd ->
  forall x, In x pd -> snd x <> [].
Proof.
  induction l1 as [|p l1 IH]; intros [|q l2] n pd; cbn [comparePages]; try (intros [= <-]; first [apply extra_nonempty | intros x [<-|Hx]; [discriminate|eapply extra_nonempty, Hx] | intros x []]).
  destruct (comparePages _ _ _ _ _ _ (S n) l1 l2) as [pd'| |] eqn:E2;
    destruct (compareSinglePage _ _ _ _ _ _ _ _ _) as [[|e d]| |] eqn:E1; try discriminate.
  - intros [= <-]. eapply IH; eassumption.
  - intros [= <-] x [<-|Hx]; [discriminate|]. eapply IH; eassumption.
Qed.
Lemma sum_zero (pd : list (nat * list pdiff)) : (forall x, In x pd -> snd x <> []) ->
  0 <= fold_right Z.add 0 (map (fun p => Z.of_nat (length (snd p))) pd) /\
  (fold_right Z.add 0 (map (fun p => Z.of_nat (length (snd p))) pd) = 0 -> pd = []).
Proof.
  induction pd as [|[n d] pd IH]; intros H; [cbn; split; [lia|reflexivity]|]. cbn [map fold_right snd].
  destruct IH as [H1 _]. { intros x Hx. apply H. right. exact Hx. }
  assert (Hd : d <> []) by (apply (H (n, d)); left; reflexivity). destruct d; [congruence|]. cbn [length]. split; lia.
Qed.
Lemma identical_ok {B} (deq : list B -> list B -> bool) fmt1 all1 all2 iter1 iter2 o d1 d2 c :
  compareDocs deq fmt1 all1 all2 iter1 iter2 o d1 d2 = Ok c ->
  (cIdentical c = true <-> nothing_reported c) /\ (cTotal c = 0 <-> nothing_reported c) /\ 0 <= cTotal c.
Proof.
  unfold compareDocs. destruct (comparePages _ _ _ _ _ _ _ _ _) as [pd| |] eqn:E; try discriminate.
  pose proof (sum_zero pd (pages_nonempty _ _ _ _ _ _ _ _ _ _ E)) as [S1 S2]. cbv zeta.
  intros [= <-]. unfold nothing_reported. cbn [cIdentical cTotal cMeta cPageCount cPages cMarks cForm].
  assert (S3 : pd = [] -> fold_right Z.add 0 (map (fun p : nat * list pdiff => Z.of_nat (length (snd p))) pd) = 0) by (intros ->; reflexivity).
  set (s := fold_right Z.add 0 _) in *. clearbody s.
  set (md := compareMetadata _ _ _). set (sd := negb _). set (bd := orb _ _). set (fd := match compareForms _ _ with Some _ => _ | None => None end).
  clearbody md sd bd fd. rewrite Z.eqb_eq.
  assert (K : (if match md with Some _ => true | None => false end then 1 else 0) + (if sd then 1 else 0) + s + (if bd then 1 else 0) +
    (if match fd with Some _ => true | None => false end then 1 else 0) = 0 <-> md = None /\ sd = false /\ pd = [] /\ bd = false /\ fd = None).
  { split.
    - intros K. destruct md, sd, bd, fd; cbn in K; try lia. repeat split. apply S2. lia.
    - intros (-> & -> & Ep & -> & ->). rewrite (S3 Ep). reflexivity. }
  split; [exact K|]. split; [exact K|]. destruct md, sd, bd, fd; lia.
Qed.

(* ---------------------------------------------------------------- *)
(** Metadata *)
Lemma in_when b f g : In g (when b f) <-> b = true /\ g = f.
Proof. unfold when. destruct b; cbn; intuition congruence. Qed.
Lemma metadata_ok o a b f : oIgnoreMetadata o = false ->
  (In f (meta_out (compareMetadata o (Some a) (Some b))) <-> mignored o f = false /\ mvalue a f <> mvalue b f).
Proof.
  intros Ho. unfold compareMetadata. rewrite Ho.
  assert (E : forall d : list mfield, meta_out (match d with [] => None | _ => Some d end) = d) by (intros [|]; reflexivity).
  cbv zeta. rewrite E. clear E.
  rewrite !in_app_iff, !in_when.
  assert (Hb : forall x y : bytes, negb (bytes_eqb x y) = true <-> x <> y).
  { intros x y. rewrite negb_true_iff. apply bytes_eqb_neq. }
  assert (Hz : forall x y : Z, negb (x =? y) = true <-> x <> y).
  { intros x y. rewrite negb_true_iff. apply Z.eqb_neq. }
  assert (He : forall x y : bool, negb (Bool.eqb x y) = true <-> x <> y).
  { intros x y. rewrite negb_true_iff. apply Bool.eqb_false_iff. }
  rewrite !andb_true_iff, !Hb, Hz, He, !negb_true_iff.
  destruct f; cbn [mignored mvalue]; intuition congruence.
Qed.

(* ---------------------------------------------------------------- *)
(** Which pages are reported *)
Definition page_entry {X} (i : nat) (d : X) (pd : list (nat * X)) : Prop := In (S i, d) pd.
Lemma extra_in d l : forall n k x, In (k, x) (extra_pages d n l) <-> x = [d] /\ (n < k <= n + length l)%nat.
Proof.
  induction l as [|p l IH]; intros n k x; cbn [extra_pages length In]; [split; [intros []|lia]|]. rewrite IH. split.
  - intros [[= <- <-]|[-> H]]; split; try reflexivity; lia.
  - intros [-> H]. destruct (Nat.eq_dec k (S n)) as [->|]; [left; reflexivity|right; split; [reflexivity|lia]].
Qed.
Lemma extra_sorted d l : forall n, StronglySorted lt (map fst (extra_pages d n l)).
Proof.
  induction l as [|p l IH]; intros n; cbn [extra_pages map fst]; constructor; [apply IH|]. apply Forall_forall. intros k Hk.
  apply in_map_iff in Hk. destruct Hk as ([k' x] & <- & Hk). apply extra_in in Hk. cbn [fst]. lia.
Qed.
Lemma nth_error_nil {A} i : nth_error (@nil A) i = None.
Proof. destruct i; reflexivity. Qed.
Lemma pages_ok fmt1 all1 all2 iter1 iter2 o l1 : forall l2 n pd, comparePages fmt1 all1 all2 iter1 iter2 o n l1 l2 = Ok pd ->
  StronglySorted lt (map fst pd) /\
  forall k d, In (k, d) pd <->
    exists i, k = S (n + i) /\
      match nth_error l1 i, nth_error l2 i with
      | Some p, Some q => compareSinglePage fmt1 all1 all2 iter1 iter2 o (n + i) p q = Ok d /\ d <> []
      | Some _, None => d = [DPageRemoved]
      | None, Some _ => d = [DPageAdded]
      | None, None => False
      end.
Proof.
  assert (X : forall (e : pdiff) (n : nat) (l : list page) (k : nat) (d : list pdiff),
    (d = [e] /\ (n < k <= n + length l)%nat) <-> exists i, k = S (n + i) /\ match nth_error l i with Some _ => d = [e] | None => False end).
  { intros e n l k d. split.
    - intros [-> H]. exists (k - S n)%nat. split; [lia|]. destruct (nth_error l (k - S n)) eqn:E; [reflexivity|].
      apply nth_error_None in E. lia.
    - intros (i & -> & H). destruct (nth_error l i) eqn:E; [|destruct H]. split; [exact H|].
      assert (i < length l)%nat by (apply nth_error_Some; congruence). lia. }
  induction l1 as [|p l1 IH]; intros [|q l2] n pd; intros Hc.
  - injection Hc as <-. split; [constructor|]. intros k d. split; [intros []|].
    intros (i & E & H). rewrite nth_error_nil in H. destruct H.
  - change (Ok (extra_pages DPageAdded n (q :: l2)) = Ok pd) in Hc. assert (Ep : pd = extra_pages DPageAdded n (q :: l2)) by congruence. clear Hc. subst pd. split; [apply extra_sorted|]. intros k d. rewrite extra_in, X.
    split; intros (i & E & H); exists i; (split; [exact E|]); repeat match goal with |- context [nth_error [] ?i] => rewrite (nth_error_nil i) | H : context [nth_error [] ?i] |- _ => rewrite (nth_error_nil i) in H end; exact H.
  - change (Ok (extra_pages DPageRemoved n (p :: l1)) = Ok pd) in Hc. assert (Ep : pd = extra_pages DPageRemoved n (p :: l1)) by congruence. clear Hc. subst pd. split; [apply extra_sorted|]. intros k d. rewrite extra_in, X.
    split; intros (i & E & H); exists i; (split; [exact E|]); repeat match goal with |- context [nth_error [] ?i] => rewrite (nth_error_nil i) | H : context [nth_error [] ?i] |- _ => rewrite (nth_error_nil i) in H end; destruct (nth_error (p :: l1) i); exact H.
  - cbn [comparePages] in Hc. destruct (comparePages _ _ _ _ _ _ (S n) l1 l2) as [pd'| |] eqn:E2;
    destruct (compareSinglePage _ _ _ _ _ _ _ _ _) as [d0| |] eqn:E1; try (destruct d0; discriminate); try discriminate.
    specialize (IH l2 (S n) pd' E2). destruct IH as [IS IH].
    assert (K : forall (k : nat) (d : list pdiff), In (k, d) pd' -> (S n < k)%nat).
    { intros k d Hk. apply IH in Hk. destruct Hk as (i & -> & _). lia. }
    assert (R : forall k d, (exists i, k = S (n + i) /\
      match nth_error (p :: l1) i, nth_error (q :: l2) i with
      | Some p, Some q => compareSinglePage fmt1 all1 all2 iter1 iter2 o (n + i) p q = Ok d /\ d <> []
      | Some _, None => d = [DPageRemoved] | None, Some _ => d = [DPageAdded] | None, None => False end) <->
      (k = S n /\ d = d0 /\ d <> []) \/ In (k, d) pd').
    { intros k d. rewrite IH. split.
      - intros ([|i] & -> & H).
        + left. cbn [nth_error] in H. rewrite Nat.add_0_r in H |- *. rewrite E1 in H. destruct H as [[= ->] H]. auto.
        + right. exists i. cbn [nth_error] in H. rewrite Nat.add_succ_r in *. split; [reflexivity|exact H].
      - intros [(-> & -> & H)|(i & -> & H)].
        + exists 0%nat. rewrite Nat.add_0_r. cbn [nth_error]. auto.
        + exists (S i). rewrite Nat.add_succ_r. cbn [nth_error]. split; [reflexivity|exact H]. }
    destruct d0 as [|e d0]; injection Hc as <-.
    + split; [exact IS|]. intros k d. rewrite R. split; [auto|]. intros [(_ & -> & H)|H]; [congruence|exact H].
    + split.
      * cbn [map fst]. constructor; [exact IS|]. apply Forall_forall. intros k Hk. apply in_map_iff in Hk. destruct Hk as ([k' d] & <- & Hk).
        apply K in Hk. cbn [fst]. lia.
      * intros k d. rewrite R. cbn [In]. split.
        -- intros [[= <- <-]|H]; [left; repeat split; discriminate|auto].
        -- intros [(-> & -> & _)|H]; auto.
Qed.
