(** Proofs about page manipulation: whole-document rotation, splitting,
    extraction and rebuilding. *)
From Verif Require Import Util Scan WriterModel ParseModel ReadProofs ManipModel ManipSpec ManipProofs ManipProofs2.
Local Open Scope Z_scope.

(* -------------------- rotating every page -------------------- *)

Lemma run_until_map {A B} (f : B -> A) (op : A -> manip -> result manip) l m :
  run_until op (map f l) m = run_until (fun b => op (f b)) l m.
Proof.
  revert m. induction l as [|b l IH]; intros m; [reflexivity|]. cbn [map run_until].
  destruct (op (f b) m); auto.
Qed.

Lemma turned_all_aux pages n angle : forall before rest, pages = before ++ rest -> NoDup pages ->
  turned pages n (map (fun p => (p, angle)) (map Z.of_nat (seq (S (length before)) (length rest))))
  = if existsb (Z.eqb n) rest then angle else 0.
Proof.
  intros before rest. revert before. induction rest as [|k rest IH]; intros before E Hd; [reflexivity|].
  cbn [length seq map turned fold_right existsb fst snd].
  fold (turned pages n (map (fun p => (p, angle)) (map Z.of_nat (seq (S (S (length before))) (length rest))))).
  replace (S (S (length before))) with (S (length (before ++ [k]))) by (rewrite app_length; cbn [length]; lia).
  rewrite IH; [|rewrite <- app_assoc; exact E|exact Hd].
  replace (Z.to_nat (Z.of_nat (S (length before)) - 1)) with (length before) by lia.
  assert (Ek : nth (length before) pages 0 = k).
  { rewrite E, app_nth2 by lia. rewrite Nat.sub_diag. reflexivity. }
  rewrite Ek. rewrite (Z.eqb_sym n k). destruct (Z.eqb_spec k n) as [->|Hk]; cbn [orb]; [|lia].
  assert (Hn : existsb (Z.eqb n) rest = false).
  { destruct (existsb (Z.eqb n) rest) eqn:X; [|reflexivity]. apply existsb_exists in X. destruct X as (z & Hz & Ez).
    apply Z.eqb_eq in Ez. subst z. exfalso. rewrite E in Hd. apply NoDup_remove_2 in Hd. apply Hd. apply in_or_app. right. exact Hz. }
  rewrite Hn. lia.
Qed.
Lemma turned_all pages n angle : NoDup pages -> In n pages ->
  turned pages n (map (fun p => (p, angle)) (page_numbers (length pages))) = angle.
Proof.
  intros Hd Hn. unfold page_numbers.
  pose proof (turned_all_aux pages n angle [] pages eq_refl Hd) as H. cbn [length] in H. rewrite H.
  replace (existsb (Z.eqb n) pages) with true; [reflexivity|]. symmetry. apply existsb_exists. exists n.
  split; [exact Hn|apply Z.eqb_refl].
Qed.
Lemma touched_all pages n angle : In n pages ->
  touched pages n (map (fun p => (p, angle)) (page_numbers (length pages))) = true.
Proof.
  intros Hn. apply In_nth with (d := 0) in Hn. destruct Hn as (i & Hi & E). apply existsb_exists.
  exists (Z.of_nat (S i), angle). cbn [fst snd]. split.
  - apply in_map_iff. exists (Z.of_nat (S i)). split; [reflexivity|]. unfold page_numbers. apply in_map_iff.
    exists (S i). split; [reflexivity|]. apply in_seq. lia.
  - replace (Z.to_nat (Z.of_nat (S i) - 1)) with i by lia. rewrite E. apply Z.eqb_refl.
Qed.

Lemma rotate_all stack pages m angle (A B : Z -> bytes) (R : Z -> Z) :
  getAllPageObjectNumbers stack (mSrc m) = Ok pages -> NoDup pages -> In angle [90; 180; 270] ->
  (forall n, In n pages -> rotation_frame (A n) (B n) /\ - 2 ^ 63 <= R n < 2 ^ 63 - 360 /\
     exists t, mget n (mObjects m) = Some t /\ rotation_is t (A n) (B n) (R n)) ->
  exists m', RotateAllPages stack angle m = (Ok tt, m') /\
    (forall n, In n pages -> exists t', mget n (mObjects m') = Some t' /\ rotation_is t' (A n) (B n) ((R n + angle) mod 360)) /\
    (forall n, ~ In n pages -> mget n (mObjects m') = mget n (mObjects m)).
Proof.
  intros Hp Hd Ha Hinv.
  destruct (rotation_history stack pages m (map (fun p => (p, angle)) (page_numbers (length pages))) A B R Hp Hinv)
    as (m' & E & _ & G & O).
  { apply Forall_forall. intros op Hop. apply in_map_iff in Hop. destruct Hop as (p & <- & Hin).
    unfold page_numbers in Hin. apply in_map_iff in Hin. destruct Hin as (i & <- & Hi). apply in_seq in Hi.
    split; cbn [fst snd]; [lia|exact Ha]. }
  exists m'. split; [|split].
  - unfold RotateAllPages. rewrite Hp. rewrite run_until_map in E. exact E.
  - intros n Hn. destruct (G n Hn) as (t' & T1 & T2). exists t'. split; [exact T1|].
    rewrite turned_all, touched_all in T2 by assumption. exact T2.
  - exact O.
Qed.

(** A page without /Rotate gets one. *)
Lemma rotate_absent stack pages page angle m n x y :
  getAllPageObjectNumbers stack (mSrc m) = Ok pages ->
  1 <= page <= Z.of_nat (length pages) -> nth (Z.to_nat (page - 1)) pages 0 = n ->
  In angle [90; 180; 270] -> mget n (mObjects m) = Some (x ++ bs ">>" ++ y) ->
  contains (bs "/Rotate") (x ++ bs ">>" ++ y) = false -> contains (bs ">>") (">"%byte :: y) = false ->
  exists m', RotatePage stack page angle m = Ok m' /\ mSrc m' = mSrc m /\
    mget n (mObjects m') = Some (x ++ bs "/Rotate " ++ decZ angle ++ bs " " ++ bs ">>" ++ y) /\
    forall k, k <> n -> mget k (mObjects m') = mget k (mObjects m).
Proof.
  intros Hp Hr Hn Ha Ht Hc Hy. unfold RotatePage, getPageObjectNumber.
  assert (Hg : new_rotation 0 angle = angle) by (destruct Ha as [<-|[<-|[<-|[]]]]; reflexivity).
  apply angle_ok_in in Ha. fold (angle_ok angle). rewrite Ha. cbn [negb]. rewrite Hp. cbn [rbind].
  destruct (Z.ltb_spec page 1); [lia|]. destruct (Z.ltb_spec (Z.of_nat (length pages)) page); [lia|]. cbn [orb].
  rewrite (nth_error_nth' pages 0) by lia. rewrite Hn. cbn [rbind]. rewrite Ht.
  eexists. split; [reflexivity|]. cbn [mSrc mObjects]. repeat split.
  - rewrite mget_mset_eq. rewrite extract_absent by exact Hc. cbn [current_int]. rewrite Hg.
    rewrite set_absent by assumption. reflexivity.
  - intros k Hk. apply mget_mset_neq, Hk.
Qed.

(* -------------------- splitting -------------------- *)

Lemma existsb_bad total ranges : existsb (bad_range total) ranges = false <->
  Forall (fun r => 1 <= fst r <= snd r /\ snd r <= total) ranges.
Proof.
  induction ranges as [|r ranges IH]; cbn [existsb]; [split; [constructor|reflexivity]|].
  rewrite orb_false_iff, IH. split.
  - intros [H1 H2]. constructor; [|exact H2]. unfold bad_range in H1. lia.
  - intros H. inversion H; subst. split; [|assumption]. unfold bad_range. lia.
Qed.
Lemma split_ok stack s m all ranges out : NewPDFManipulator s = Ok m -> getAllPageObjectNumbers stack s = Ok all ->
  SplitPDF stack s ranges = Ok out <->
  ranges <> [] /\ Forall (fun r => 1 <= fst r <= snd r /\ snd r <= Z.of_nat (length all)) ranges /\
  Forall2 (fun r w => ExtractPages stack s (range_pages r) = Ok w) ranges out.
Proof.
  intros Hm Ha. unfold SplitPDF. rewrite Hm, Ha. cbn [rbind]. destruct ranges as [|r0 ranges].
  { split; [discriminate|]. intros (H & _). contradiction. }
  remember (r0 :: ranges) as rs eqn:Ers.
  assert (Hne : rs <> []) by (subst; discriminate).
  destruct (Z.eqb_spec (Z.of_nat (length all)) 0) as [Z0|Z0].
  - split; [discriminate|]. intros (_ & H & _). subst rs. inversion H as [|? ? H1 _]; subst. lia.
  - destruct (existsb (bad_range (Z.of_nat (length all))) rs) eqn:E.
    + split; [discriminate|]. intros (_ & H & _). apply existsb_bad in H. congruence.
    + apply existsb_bad in E. rewrite result_map_ok. tauto.
Qed.
Lemma split_by_count stack s m all per out : NewPDFManipulator s = Ok m -> getAllPageObjectNumbers stack s = Ok all ->
  SplitPDFByPageCount stack s per = Ok out ->
  1 <= per /\ 1 <= Z.of_nat (length all) /\
  Forall2 (fun r w => ExtractPages stack s (range_pages r) = Ok w) (page_ranges (Z.of_nat (length all)) per) out.
Proof.
  intros Hm Ha. unfold SplitPDFByPageCount. destruct (Z.ltb_spec per 1) as [H|H]; [discriminate|].
  rewrite Hm, Ha. cbn [rbind]. destruct (Z.eqb_spec (Z.of_nat (length all)) 0) as [Z0|Z0]; [discriminate|].
  intros E. apply (split_ok stack s m all) in E; [|assumption|assumption]. destruct E as (_ & _ & E). split; [lia|]. split; [lia|exact E].
Qed.

(* -------------------- extraction -------------------- *)

Lemma copy_objects_get get l m : copy_objects get l = Ok m -> forall n,
  mget n m = if existsb (Z.eqb n) l then match get n with Ok t => Some t | _ => None end else None.
Proof.
  revert m. induction l as [|k l IH]; intros m H n; cbn [copy_objects] in H.
  - assert (m = []) by congruence. subst m. reflexivity.
  - cbn [existsb]. destruct (Z.eqb_spec n k) as [->|Hn]; cbn [orb].
    + destruct (get k) as [t| |] eqn:E; [| |discriminate].
      * destruct (copy_objects get l) as [m0| |]; try discriminate. cbn [rmap] in H. assert (m = mset k t m0) by congruence. subst m.
        apply mget_mset_eq.
      * rewrite (IH m H k), E. destruct (existsb (Z.eqb k) l); reflexivity.
    + destruct (get k) as [t| |] eqn:E; [| |discriminate].
      * destruct (copy_objects get l) as [m0| |] eqn:E0; try discriminate. cbn [rmap] in H. assert (m = mset k t m0) by congruence. subst m.
        rewrite mget_mset_neq by exact Hn. apply IH. reflexivity.
      * apply IH. exact H.
Qed.
Lemma manip_objects s m : NewPDFManipulator s = Ok m -> mSrc m = s /\
  forall n, mget n (mObjects m) = if existsb (Z.eqb n) (sObjs s) then match sGet s n with Ok t => Some t | _ => None end else None.
Proof.
  unfold NewPDFManipulator. destruct (copy_objects (sGet s) (sObjs s)) as [mp| |] eqn:E; cbn [rmap]; intros H; try discriminate.
  assert (m = mkManip s mp) by congruence. subst m. split; [reflexivity|]. apply copy_objects_get, E.
Qed.
Lemma manip_get s m n t : NewPDFManipulator s = Ok m -> In n (sObjs s) -> sGet s n = Ok t -> mget n (mObjects m) = Some t.
Proof.
  intros H Hn Hg. destruct (manip_objects s m H) as [_ G]. rewrite G, Hg.
  replace (existsb (Z.eqb n) (sObjs s)) with true; [reflexivity|]. symmetry. apply existsb_exists. exists n.
  split; [exact Hn|apply Z.eqb_refl].
Qed.

Lemma set_object_get n c w k : mget k (objects (SetObject n (Some c) w)) =
  if k =? n then Some (mkObj (Some c) None None) else mget k (objects w).
Proof.
  unfold SetObject. destruct (nextObjNum w <=? n); unfold set_next, set_objects; cbn [objects]; rewrite mget_mset; reflexivity.
Qed.
Lemma set_object_next n c w : nextObjNum (SetObject n c w) = Z.max (nextObjNum w) (n + 1).
Proof. unfold SetObject. destruct (Z.leb_spec (nextObjNum w) n); unfold set_next, set_objects; cbn [nextObjNum]; lia. Qed.

Definition text_obj (t : bytes) : obj := mkObj (Some t) None None.

Lemma copy_pages_ok objs po nums : (forall n, In n nums -> exists t, mget n objs = Some t) -> forall w,
  exists w', copy_pages objs po nums w = Ok w' /\
    (forall k, mget k (objects w') =
       if existsb (Z.eqb k) nums then option_map (fun t => text_obj (setDictValue t (bs "/Parent") (ref po))) (mget k objs)
       else mget k (objects w)) /\
    nextObjNum w <= nextObjNum w' /\ (forall n, In n nums -> n < nextObjNum w') /\
    (forall B, nextObjNum w <= B -> (forall n, In n nums -> n < B) -> nextObjNum w' <= B).
Proof.
  induction nums as [|n nums IH]; intros Hn w.
  - exists w. cbn [copy_pages existsb]. repeat split; auto; try lia. intros n [].
  - destruct (Hn n (or_introl eq_refl)) as (t & Ht). cbn [copy_pages]. rewrite Ht.
    destruct (IH (fun k Hk => Hn k (or_intror Hk))
                (SetObject n (Some (setDictValue t (bs "/Parent") (ref po))) (SetObject n (Some t) w))) as (w' & E & G & N1 & N2 & N3).
    exists w'. split; [exact E|]. rewrite !set_object_next in N1, N3. split; [|split; [lia|split]].
    + intros k. rewrite G. cbn [existsb]. destruct (Z.eqb_spec k n) as [->|Hk]; cbn [orb].
      * rewrite Ht. cbn [option_map]. destruct (existsb (Z.eqb n) nums); [reflexivity|].
        rewrite set_object_get, Z.eqb_refl. reflexivity.
      * destruct (existsb (Z.eqb k) nums); [reflexivity|]. rewrite !set_object_get.
        destruct (Z.eqb_spec k n); [contradiction|reflexivity].
    + intros k [<-|Hk]; [lia|apply N2, Hk].
    + intros B H1 H2. apply N3; [pose proof (H2 n (or_introl eq_refl)); lia|intros k Hk; apply H2; right; exact Hk].
Qed.

Lemma extract_pages stack s m all pages :
  NewPDFManipulator s = Ok m -> getAllPageObjectNumbers stack s = Ok all -> pages <> [] ->
  Forall (fun p => 1 <= p <= Z.of_nat (length all)) pages ->
  (forall n, In n all -> exists t, mget n (mObjects m) = Some t) -> ~ In 1 all ->
  let nums := map (fun p => nth (Z.to_nat (p - 1)) all 0) pages in
  exists w cat, ExtractPages stack s pages = Ok w /\ rootRef w = Some cat /\ 1 < cat /\ ~ In cat nums /\
    (forall B, 2 <= B -> (forall n, In n nums -> n < B) -> cat <= B) /\
    forall k, mget k (objects w) =
      if k =? cat then Some (text_obj (catalog_dict 1))
      else if k =? 1 then Some (text_obj (pages_dict nums))
      else if existsb (Z.eqb k) nums then option_map (fun t => text_obj (setDictValue t (bs "/Parent") (ref 1))) (mget k (mObjects m))
      else None.
Proof.
  intros Hm Ha Hne Hr Hall H1 nums. unfold ExtractPages. destruct pages as [|p0 pages]; [contradiction|].
  remember (p0 :: pages) as ps eqn:Eps. rewrite Hm, Ha. cbn [rbind].
  assert (Hb : existsb (fun p => (p <? 1) || (Z.of_nat (length all) <? p)) ps = false).
  { clear - Hr. induction Hr as [|p l Hp _ IH]; [reflexivity|]. cbn [existsb]. rewrite IH, orb_false_r. lia. }
  rewrite Hb. fold nums.
  change (AddObject (Some []) NewPDFWriter) with (1, set_next (set_objects NewPDFWriter (mset 1 (text_obj []) (objects NewPDFWriter))) (1 + 1)).
  cbn iota beta. remember (set_next (set_objects NewPDFWriter (mset 1 (text_obj []) (objects NewPDFWriter))) (1 + 1)) as w0 eqn:Ew0.
  assert (Hin : forall n, In n nums -> In n all).
  { intros n Hn. unfold nums in Hn. apply in_map_iff in Hn. destruct Hn as (p & <- & Hp). rewrite Forall_forall in Hr.
    specialize (Hr p Hp). apply nth_In. lia. }
  destruct (copy_pages_ok (mObjects m) 1 nums (fun n Hn => Hall n (Hin n Hn)) w0) as (w1 & E & G & N1 & N2 & N3).
  rewrite E. cbn [rbind]. assert (Hn0 : nextObjNum w0 = 2) by (subst w0; reflexivity).
  unfold AddObject. rewrite set_object_next. eexists. exists (Z.max (nextObjNum w1) (1 + 1)).
  split; [reflexivity|]. split; [reflexivity|]. split; [lia|]. split.
  { intros H. specialize (N2 _ H). lia. }
  split.
  { intros B H2 H3. specialize (N3 B). rewrite Hn0 in N3. specialize (N3 H2 H3). lia. }
  intros k. cbn [objects SetRoot set_next set_objects]. rewrite mget_mset. destruct (Z.eqb_spec k (Z.max (nextObjNum w1) (1 + 1))) as [->|Hk].
  - reflexivity.
  - rewrite set_object_get. destruct (Z.eqb_spec k 1) as [->|Hk1]; [reflexivity|]. rewrite G.
    destruct (existsb (Z.eqb k) nums); [reflexivity|]. subst w0. cbn [objects set_next set_objects NewPDFWriter].
    rewrite mget_mset_neq by exact Hk1. reflexivity.
Qed.

(** Setting a reference as the value of a key that has a number or a
    reference: the entry is added before the end of the dictionary. *)
Lemma set_ref_again a key w v b n : key_name key -> sole key a b -> gap w -> plain_word v -> word_ends b -> 0 <= n ->
  setDictValue (a ++ key ++ w ++ v ++ b) key (ref n) = insert_entry (a ++ key ++ w ++ v ++ b) key (ref n).
Proof.
  intros Hk [Ha Hb] Hw Hv He Hn. pose proof (plain_word_word _ Hv) as Hv1. unfold setDictValue. rewrite extract_spaced by assumption.
  assert (Hv0 : v <> []) by apply Hv. destruct v as [|v0 v]; [contradiction|]. remember (v0 :: v) as vv eqn:Ev.
  rewrite (find_before _ key _ _ (needs_spaced key) (key_name_nonnil _ Hk) Ha (stopper_key _ _ _ Hk Hk)).
  rewrite (find_at0 _ _ _ (spaced_fires key w vv b Hw Hv1 He)). cbn [found].
  replace (replace_all (fun s => option_map snd (m_spaced key s)) (key ++ bs " " ++ ref n) (a ++ key ++ w ++ vv ++ b) 0)
    with (a ++ (key ++ bs " " ++ ref n) ++ b).
  2:{ replace (a ++ key ++ w ++ vv ++ b) with (a ++ (key ++ w ++ vv) ++ b) by (rewrite <- !app_assoc; reflexivity).
      rewrite (replace_one (m_spaced key) key); [reflexivity|apply needs_spaced|apply key_name_nonnil, Hk|exact Ha| | | |exact Hb].
      - rewrite <- !app_assoc. apply stopper_key; exact Hk.
      - destruct Hk as (k & -> & _). discriminate.
      - rewrite <- !app_assoc. rewrite spaced_fires by assumption. reflexivity. }
  assert (Hx : bytes_eqb (extractDictValue (a ++ (key ++ bs " " ++ ref n) ++ b) key) (ref n) = false).
  { unfold ref. replace (a ++ (key ++ bs " " ++ decZ n ++ bs " 0 R") ++ b) with (a ++ key ++ bs " " ++ decZ n ++ bs " 0 R" ++ b)
      by (rewrite <- !app_assoc; reflexivity).
    rewrite extract_spaced by (assumption || apply space_gap || apply word_decZ || reflexivity).
    destruct (bytes_eqb (decZ n) (decZ n ++ bs " 0 R")) eqn:E; [|reflexivity]. apply bytes_eqb_eq in E.
    apply (f_equal (@length byte)) in E. rewrite app_length in E. change (length (bs " 0 R")) with 4%nat in E. lia. }
  rewrite Hx.
  assert (Hc : contains key (tl key ++ w ++ vv ++ b) = false).
  { apply contains_after; [exact Hk| |apply tail_no_slash, Hk]. apply contains_after; [exact Hk| |apply gap_slash, Hw].
    apply contains_after; [exact Hk|exact Hb|apply plain_word_slash, Hv]. }
  rewrite (find_only_at (m_named key) key _ (w ++ vv ++ b));
    [|apply needs_named|exact Hk|exact Ha|apply gap_not_named, Hw|exact Hc].
  cbn [found]. unfold replace_array. rewrite index_sole by assumption. cbn [obind]. rewrite skip_sole.
  rewrite blank_skip_array; [reflexivity|apply Hw|exact Hv1].
Qed.

Lemma insert_last x y key value : contains (bs ">>") (">"%byte :: y) = false ->
  insert_entry (x ++ bs ">>" ++ y) key value = x ++ key ++ bs " " ++ value ++ bs " " ++ bs ">>" ++ y.
Proof.
  intros Hy. unfold insert_entry. rewrite last_index_at.
  - rewrite firstn_app_all, skipn_app_all. reflexivity.
  - intros j H1 H2. destruct j as [|j]; [lia|].
    change (bs ">>" ++ y) with (">"%byte :: ">"%byte :: y). cbn [skipn].
    rewrite contains_false in Hy. apply Hy. change (bs ">>" ++ y) with (">"%byte :: ">"%byte :: y) in H2.
    cbn [length] in H2 |- *. lia.
Qed.

Lemma page_new_parent t x y n : 0 <= n -> page_object t x y -> setDictValue t (bs "/Parent") (ref n) = with_parent x y n.
Proof.
  intros Hn (Et & Hy & _ & _ & [Hp|(a & w & v & b & Ea & Hs & Hw & Hv & Hb)]); unfold with_parent.
  - subst t. rewrite set_absent by assumption. reflexivity.
  - rewrite Ea. rewrite set_ref_again by (assumption || apply key_Parent). rewrite <- Ea, Et.
    rewrite insert_last by exact Hy. reflexivity.
Qed.

Lemma last_app {A} (a b : list A) c d : a ++ [c] = b ++ d -> d = [] \/ exists d', d = d' ++ [c] /\ a = b ++ d'.
Proof.
  intros H. destruct (rev d) as [|z r] eqn:E.
  - left. rewrite <- (rev_involutive d), E. reflexivity.
  - right. assert (Ed : d = rev r ++ [z]) by (rewrite <- (rev_involutive d), E; reflexivity).
    rewrite Ed, app_assoc in H. apply app_inj_tail in H. destruct H as [-> ->]. exists (rev r). split; [exact Ed|reflexivity].
Qed.

Lemma contains_app_stop key a r : key_name key -> contains key a = false -> stopper key r -> contains key r = false ->
  contains key (a ++ r) = false.
Proof.
  intros Hk Ha Hs Hr. apply contains_false. intros i Hi. destruct (Nat.lt_ge_cases i (length a)) as [H|H].
  - apply before_key; [apply key_name_nonnil, Hk|exact Ha|exact Hs|exact H].
  - rewrite skipn_app_r by exact H. rewrite contains_false in Hr. apply Hr. rewrite app_length in Hi. lia.
Qed.

Lemma type_kept x y n : 0 <= n -> contains (bs "/Type") y = false -> has_value (x ++ bs "/") (bs "/Type") (bs "/Page") ->
  page_text (with_parent x y n).
Proof.
  intros Hn Hy H. unfold page_text, with_parent.
  assert (Hc : contains (bs "/Type") (bs "/Parent " ++ ref n ++ bs " >>" ++ y) = false).
  { unfold ref. change (bs "/Parent ") with ("/"%byte :: bs "Parent ").
    assert (H0 : contains (bs "/Type") (bs "Parent " ++ (decZ n ++ bs " 0 R") ++ bs " >>" ++ y) = false).
    { apply contains_after; [apply key_Type| |cbn; intuition discriminate].
      rewrite <- app_assoc. apply contains_after; [apply key_Type| |apply plain_word_slash, plain_word_decZ].
      apply contains_after; [apply key_Type| |cbn; intuition discriminate].
      apply contains_after; [apply key_Type|exact Hy|cbn; intuition discriminate]. }
    apply contains_false. intros [|i] Hi; [reflexivity|]. cbn [app skipn]. rewrite contains_false in H0. apply H0.
    cbn [app length] in Hi. lia. }
  inversion H as [a w b E Ha Hw Hv Hb|a m b E Em Hs Hm Hb Ep|a w b E Ha Hw Hv].
  - replace (a ++ bs "/Type" ++ w ++ bs "/Page" ++ b) with ((a ++ bs "/Type" ++ w ++ bs "/Page") ++ b) in E by (rewrite <- !app_assoc; reflexivity).
    change (bs "/") with ["/"%byte] in E.
    destruct (last_app _ _ _ _ E) as [->|(b' & -> & ->)].
    + rewrite app_nil_r in E. exfalso.
      replace (a ++ bs "/Type" ++ w ++ bs "/Page") with ((a ++ bs "/Type" ++ w ++ bs "/Pag") ++ ["e"%byte]) in E by (rewrite <- !app_assoc; reflexivity).
      apply app_inj_tail in E. destruct E as [_ E]. discriminate.
    + apply (hv_word _ _ _ a w (b' ++ bs "/Parent " ++ ref n ++ bs " >>" ++ y)); auto.
      * rewrite <- !app_assoc. reflexivity.
      * unfold word_ends in Hb |- *. destruct b' as [|c b']; [discriminate Hb|exact Hb].
  - assert (m = bs "Page") by (injection Em as <-; reflexivity). subst m.
    replace (a ++ bs "/Type" ++ bs "/Page" ++ b) with ((a ++ bs "/Type" ++ bs "/Page") ++ b) in E by (rewrite <- !app_assoc; reflexivity).
    change (bs "/") with ["/"%byte] in E.
    destruct (last_app _ _ _ _ E) as [->|(b' & -> & ->)].
    + rewrite app_nil_r in E. exfalso.
      replace (a ++ bs "/Type" ++ bs "/Page") with ((a ++ bs "/Type" ++ bs "/Pag") ++ ["e"%byte]) in E by (rewrite <- !app_assoc; reflexivity).
      apply app_inj_tail in E. destruct E as [_ E]. discriminate.
    + apply (hv_name _ _ _ a (bs "Page") (b' ++ bs "/Parent " ++ ref n ++ bs " >>" ++ y)); auto.
      * rewrite <- !app_assoc. reflexivity.
      * destruct Hs as [Hs1 Hs2]. split; [exact Hs1|]. apply contains_app_stop; [apply key_Type| |apply stopper_slash, key_Type|exact Hc].
        destruct (contains (bs "/Type") b') eqn:X; [|reflexivity]. rewrite <- (contains_firstn _ (length b') _ Hs2). rewrite firstn_app_all. symmetry. exact X.
      * unfold name_ends in Hb |- *. destruct b' as [|c b']; [reflexivity|exact Hb].
  - destruct Hv as (z & Ez & _). discriminate.
Qed.

Lemma new_kids_refs l : Forall (fun n => 0 <= n < 2 ^ 63) l -> ref_array l (new_kids l).
Proof.
  intros H. unfold new_kids. exists (join (bs " ") (map (fun n => ref n ++ bs " ") l)). split; [reflexivity|].
  assert (G : forall pre, forallb space_byte pre = true -> ref_list l (pre ++ join (bs " ") (map (fun n => ref n ++ bs " ") l))).
  { induction H as [|n l Hn _ IH]; intros pre Hp.
    - constructor. rewrite app_nil_r. exact Hp.
    - assert (E : exists pre', forallb space_byte pre' = true /\
        join (bs " ") (map (fun n => ref n ++ bs " ") (n :: l)) =
        decZ n ++ bs " " ++ bs "0" ++ bs " " ++ bs "R" ++ pre' ++ join (bs " ") (map (fun n => ref n ++ bs " ") l)).
      { destruct l as [|n2 l].
        - exists (bs " "). split; [reflexivity|]. cbn [map join]. unfold ref. rewrite <- !app_assoc. reflexivity.
        - exists (bs "  "). split; [reflexivity|]. change (map (fun n => ref n ++ bs " ") (n :: n2 :: l)) with
            ((ref n ++ bs " ") :: map (fun n => ref n ++ bs " ") (n2 :: l)).
          remember (map (fun n => ref n ++ bs " ") (n2 :: l)) as r. assert (r <> []) by (subst; discriminate).
          destruct r as [|r0 r]; [contradiction|]. cbn [join]. unfold ref. rewrite <- !app_assoc. reflexivity. }
      destruct E as (pre' & Hp' & E). rewrite E.
      apply (rl_cons n l pre (bs " ") (bs "0") (bs " ")); auto; try apply space_gap; try discriminate. }
  specialize (G [] eq_refl). exact G.
Qed.
Lemma ref_list_flat l s : ref_list l s -> no_brackets s /\ ~ In "/"%byte s.
Proof.
  induction 1 as [s Hs|n l pre w1 g w2 rest Hp Hn Hw1 Hg1 Hg2 Hw2 _ [IH1 IH2]].
  - repeat split; intros Hi; rewrite forallb_forall in Hs; specialize (Hs _ Hi); discriminate.
  - assert (P : forall c, In c (pre ++ decZ n ++ w1 ++ g ++ w2 ++ bs "R") -> c <> "["%byte /\ c <> "]"%byte /\ c <> "/"%byte).
    { intros c Hc. rewrite !in_app_iff in Hc.
      assert (Sp : forall w, forallb space_byte w = true -> In c w -> c <> "["%byte /\ c <> "]"%byte /\ c <> "/"%byte).
      { intros w Hw Hi. rewrite forallb_forall in Hw. specialize (Hw _ Hi). repeat split; intros ->; discriminate. }
      assert (Di : forall w, forallb is_digit w = true -> In c w -> c <> "["%byte /\ c <> "]"%byte /\ c <> "/"%byte).
      { intros w Hw Hi. rewrite forallb_forall in Hw. specialize (Hw _ Hi). repeat split; intros ->; discriminate. }
      destruct Hc as [H|[H|[H|[H|[H|[H|[]]]]]]].
      - apply (Sp pre); assumption.
      - apply (Di (decZ n)); [rewrite decZ_nonneg by lia; apply dec_digits|exact H].
      - apply (Sp w1); [apply Hw1|exact H].
      - apply (Di g); assumption.
      - apply (Sp w2); [apply Hw2|exact H].
      - subst c. repeat split; discriminate. }
    replace (pre ++ decZ n ++ w1 ++ g ++ w2 ++ bs "R" ++ rest) with ((pre ++ decZ n ++ w1 ++ g ++ w2 ++ bs "R") ++ rest)
      by (rewrite <- !app_assoc; reflexivity).
    destruct IH1 as [I1 I2]. repeat split; intros Hi; apply in_app_iff in Hi; destruct Hi as [Hi|Hi]; try contradiction;
      apply P in Hi; destruct Hi as (? & ? & ?); congruence.
Qed.
Lemma ref_array_flat l v : ref_array l v -> flat_array v.
Proof. intros (s & -> & H). destruct (ref_list_flat _ _ H) as [[H1 H2] _]. exists s. auto. Qed.
Lemma ref_array_slash l v : ref_array l v -> ~ In "/"%byte v.
Proof.
  intros (s & -> & H). destruct (ref_list_flat _ _ H) as [_ H1]. intros [E|Hi]; [discriminate|].
  apply in_app_iff in Hi. destruct Hi as [Hi|[E|[]]]; [contradiction|discriminate].
Qed.

Lemma contains_other k k' r : key_name k -> key_name k' -> prefixb k (k' ++ r) = false -> contains k r = false ->
  contains k (k' ++ r) = false.
Proof.
  intros Hk Hk' Hp Hr. pose proof (tail_no_slash _ Hk') as Hs. destruct Hk' as (x & -> & Hx). cbn [tl] in Hs.
  assert (H0 : contains k (x ++ r) = false) by (apply contains_after; assumption).
  apply contains_false. intros [|i] Hi; [exact Hp|]. cbn [app skipn]. rewrite contains_false in H0. apply H0.
  cbn [app length] in Hi. lia.
Qed.

Lemma pages_dict_node l : Forall (fun n => 0 <= n < 2 ^ 63) l -> node_text (pages_dict l) l.
Proof.
  intros H. pose proof (new_kids_refs l H) as Hr. pose proof (ref_array_slash _ _ Hr) as Hs.
  unfold pages_dict. split.
  - apply (hv_name _ _ _ (bs "<<") (bs "Pages") (bs "/Kids" ++ new_kids l ++ bs "/Count " ++ decZ (Z.of_nat (length l)) ++ bs ">>")).
    + reflexivity.
    + reflexivity.
    + split; [reflexivity|]. apply contains_other; [apply key_Type|apply key_Kids|reflexivity|].
      apply contains_after; [apply key_Type| |exact Hs].
      change (bs "/Count ") with (bs "/Count" ++ bs " "). rewrite <- app_assoc.
      apply contains_other; [apply key_Type|apply key_Count|reflexivity|].
      apply contains_after; [apply key_Type| |cbn; intuition discriminate].
      apply contains_after; [apply key_Type|reflexivity|apply plain_word_slash, plain_word_decZ].
    + split; [discriminate|reflexivity].
    + reflexivity.
    + reflexivity.
  - exists (new_kids l). split; [|exact Hr].
    apply (hv_array _ _ _ (bs "<</Type/Pages") [] (bs "/Count " ++ decZ (Z.of_nat (length l)) ++ bs ">>")).
    + reflexivity.
    + reflexivity.
    + reflexivity.
    + apply (ref_array_flat l), Hr.
Qed.
Lemma catalog_pages n : 0 <= n -> has_value (catalog_dict n) (bs "/Pages") (decZ n).
Proof.
  intros Hn. apply (hv_word _ _ _ (bs "<</Type/Catalog") (bs " ") (bs " 0 R>>")).
  - unfold catalog_dict, ref. rewrite <- !app_assoc. reflexivity.
  - reflexivity.
  - apply space_gap.
  - apply word_decZ.
  - reflexivity.
Qed.

Lemma extracted_tree stack s m all pages (X Y : Z -> bytes) :
  NewPDFManipulator s = Ok m -> getAllPageObjectNumbers stack s = Ok all -> pages <> [] ->
  Forall (fun p => 1 <= p <= Z.of_nat (length all)) pages ->
  (forall n, In n all -> 1 < n < 2 ^ 63 - 1 /\ exists t, mget n (mObjects m) = Some t /\ page_object t (X n) (Y n)) ->
  let nums := map (fun p => nth (Z.to_nat (p - 1)) all 0) pages in
  exists w cat, ExtractPages stack s pages = Ok w /\ rootRef w = Some cat /\ 1 < cat /\ ~ In cat nums /\
    has_page_tree (written w) (PNode 1 (map PPage nums)) /\
    (forall n, In n nums -> WGetObject n w = Ok (with_parent (X n) (Y n) 1)) /\
    (forall k, mget k (objects w) <> None -> k = 1 \/ k = cat \/ In k nums).
Proof.
  intros Hm Ha Hne Hr Hall nums.
  destruct (extract_pages stack s m all pages Hm Ha Hne Hr) as (w & cat & E & Er & Hc & Hnc & Hb & G).
  { intros n Hn. destruct (Hall n Hn) as (_ & t & Ht & _). eauto. }
  { intros H1. destruct (Hall 1 H1) as (B & _). lia. }
  fold nums in Hnc, Hb, G.
  assert (Hin : forall n, In n nums -> In n all).
  { intros n Hn. unfold nums in Hn. apply in_map_iff in Hn. destruct Hn as (p & <- & Hp). rewrite Forall_forall in Hr.
    specialize (Hr p Hp). apply nth_In. lia. }
  assert (Hpg : forall n, In n nums -> WGetObject n w = Ok (with_parent (X n) (Y n) 1)).
  { intros n Hn. destruct (Hall n (Hin n Hn)) as (B & t & Ht & Hp). unfold WGetObject. rewrite G.
    destruct (Z.eqb_spec n cat); [subst; contradiction|]. destruct (Z.eqb_spec n 1); [lia|].
    replace (existsb (Z.eqb n) nums) with true
      by (symmetry; apply existsb_exists; exists n; split; [exact Hn|apply Z.eqb_refl]).
    rewrite Ht. cbn [option_map text_obj oContent]. rewrite (page_new_parent t (X n) (Y n)) by (lia || exact Hp). reflexivity. }
  exists w, cat. split; [exact E|]. split; [exact Er|]. split; [exact Hc|]. split; [exact Hnc|]. split; [|split; [exact Hpg|]].
  - assert (Hcat : cat < 2 ^ 63).
    { specialize (Hb (2 ^ 63 - 1)). assert (cat <= 2 ^ 63 - 1); [|lia]. apply Hb; [lia|]. intros n Hn.
      destruct (Hall n (Hin n Hn)) as (B & _). lia. }
    exists cat, (catalog_dict 1). split; [lia|]. split; [cbn [pnum]; lia|]. split.
    { exists (bs "0 R"). cbn [sRoot written]. rewrite Er. reflexivity. }
    split.
    { cbn [sGet written]. unfold WGetObject. rewrite G, Z.eqb_refl. reflexivity. }
    split; [apply (catalog_pages 1); lia|]. cbn [forms_tree]. split.
    + exists (pages_dict nums). split.
      * cbn [sGet written]. unfold WGetObject. rewrite G. destruct (Z.eqb_spec 1 cat); [lia|]. rewrite Z.eqb_refl. reflexivity.
      * rewrite map_map. cbn [pnum]. rewrite map_id. apply pages_dict_node. apply Forall_forall. intros n Hn.
        destruct (Hall n (Hin n Hn)) as (B & _). lia.
    + apply forms_kids. apply Forall_forall. intros k Hk. apply in_map_iff in Hk. destruct Hk as (n & <- & Hn).
      cbn [forms_tree]. exists (with_parent (X n) (Y n) 1). split; [cbn [sGet written]; apply Hpg, Hn|].
      destruct (Hall n (Hin n Hn)) as (_ & t & _ & (_ & _ & Hy & Ht & _)). apply type_kept; [lia|exact Hy|exact Ht].
  - intros k Hk. rewrite G in Hk. destruct (Z.eqb_spec k cat); [auto|]. destruct (Z.eqb_spec k 1); [auto|].
    destruct (existsb (Z.eqb k) nums) eqn:X1; [|contradiction]. apply existsb_exists in X1. destruct X1 as (z & Hz & Ez).
    apply Z.eqb_eq in Ez. subst z. auto.
Qed.

(* -------------------- rebuilding -------------------- *)

Lemma set_all_get m w k : mget k (objects (set_all m w)) =
  match mget k m with Some t => Some (text_obj t) | None => mget k (objects w) end.
Proof.
  induction m as [|[n t] m IH]; [reflexivity|]. cbn [set_all fold_right fst snd]. rewrite set_object_get.
  cbn [mget]. destruct (Z.eqb_spec k n) as [->|H].
  - rewrite ?Z.eqb_refl. reflexivity.
  - destruct (Z.eqb_spec n k); [congruence|]. exact IH.
Qed.
Lemma with_ref_objects r f w : (forall n w, objects (f n w) = objects w) -> objects (with_ref r f w) = objects w.
Proof. intros H. unfold with_ref. destruct r; [reflexivity|]. destruct (parseObjectRef _); auto. Qed.
Lemma with_ref_root r f w : (forall n w, rootRef (f n w) = rootRef w) -> rootRef (with_ref r f w) = rootRef w.
Proof. intros H. unfold with_ref. destruct r; [reflexivity|]. destruct (parseObjectRef _); auto. Qed.
Lemma rebuild_objects m k : WGetObject k (Rebuild m) = match mget k (mObjects m) with Some t => Ok t | None => Err end.
Proof.
  unfold Rebuild, WGetObject. rewrite !with_ref_objects by reflexivity. rewrite set_all_get.
  destruct (mget k (mObjects m)); reflexivity.
Qed.
Lemma rebuild_root m root w r : 0 <= root < 2 ^ 63 -> gap w -> sRoot (mSrc m) = decZ root ++ w ++ r ->
  rootRef (Rebuild m) = Some root.
Proof.
  intros Hr Hw E. unfold Rebuild. rewrite !with_ref_root by reflexivity.
  set (w0 := set_all (mObjects m) NewPDFWriter). unfold with_ref. destruct (sRoot (mSrc m)) as [|c x] eqn:Es.
  - pose proof (decZ_nonnil root). destruct (decZ root); [contradiction|discriminate].
  - rewrite E, parse_ref by assumption. reflexivity.
Qed.
