(** Proofs about page manipulation: merging. *)
From Verif Require Import Util Scan WriterModel ParseModel ReadProofs ManipModel ManipSpec ManipProofs ManipProofs2 ManipProofs3 ManipProofs4 ManipProofs5.
Local Open Scope Z_scope.

Lemma drop_ws_gap s r : ws1 s = Some r -> exists w, gap w /\ s = w ++ r.
Proof.
  destruct s as [|c s]; [discriminate|]. cbn [ws1]. destruct (is_ws c) eqn:E; [|discriminate]. intros H. injection H as <-.
  exists (c :: take_while is_ws s). split.
  - split; [discriminate|]. cbn [forallb]. rewrite space_is_ws, E. cbn [andb].
    rewrite (forallb_ext space_byte is_ws) by apply space_is_ws. apply take_while_all.
  - cbn [app]. rewrite take_drop_while. reflexivity.
Qed.
Lemma digits1_some s d r : digits1 s = Some (d, r) -> s = d ++ r /\ d <> [] /\ forallb is_digit d = true.
Proof.
  unfold digits1. destruct (take_while is_digit s) as [|c t] eqn:E; [discriminate|]. intros H. injection H as <- <-.
  split; [rewrite <- E; symmetry; apply take_drop_while|]. split; [discriminate|]. rewrite <- E. apply take_while_all.
Qed.
Lemma reference_here s : ~ ref_here s -> m_reference s = None.
Proof.
  intros H. destruct (m_reference s) as [[n r]|] eqn:E; [|reflexivity]. exfalso. apply H. unfold m_reference in E.
  destruct (digits1 s) as [[d r1]|] eqn:E1; [|discriminate]. cbn [obind] in E.
  destruct (ws1 r1) as [r2|] eqn:E2; [|discriminate]. cbn [obind] in E.
  destruct (digits1 r2) as [[g r3]|] eqn:E3; [|discriminate]. cbn [obind] in E.
  destruct (ws1 r3) as [r4|] eqn:E4; [|discriminate]. cbn [obind] in E.
  destruct (lit (bs "R") r4) as [r5|] eqn:E5; [|discriminate]. cbn [obind] in E.
  apply digits1_some in E1, E3. apply drop_ws_gap in E2, E4. apply lit_some in E5.
  destruct E1 as (-> & D1 & D2), E3 as (-> & G1 & G2), E2 as (w1 & W1 & ->), E4 as (w2 & W2 & ->). subst r4.
  exists d, w1, g, w2, r5. repeat split; auto; try apply W1; try apply W2.
Qed.

Lemma replace_refs_before f a r : (forall j, (j < length a)%nat -> m_reference (skipn j (a ++ r)) = None) ->
  replace_refs f (a ++ r) 0 = a ++ replace_refs f r 0.
Proof.
  induction a as [|c a IH]; intros H; [reflexivity|]. pose proof (H 0%nat ltac:(cbn [length]; lia)) as H0. cbn [app skipn] in H0.
  cbn [app replace_refs]. rewrite H0. f_equal. apply IH. intros j Hj. apply (H (S j)). cbn [length]. lia.
Qed.
Lemma replace_refs_skip f a r : replace_refs f (a ++ r) (length a) = replace_refs f r 0.
Proof. induction a as [|c a IH]; [reflexivity|]. exact IH. Qed.
Lemma replace_refs_here f a r n : a <> [] -> m_reference (a ++ r) = Some (n, r) -> replace_refs f (a ++ r) 0 = f n a ++ replace_refs f r 0.
Proof.
  intros Ha H. destruct a as [|c a]; [contradiction|]. cbn [app replace_refs]. cbn [app] in H. rewrite H.
  replace (length (c :: a ++ r) - length r)%nat with (length (c :: a)) by (cbn [length]; rewrite app_length; lia).
  change (c :: a ++ r) with ((c :: a) ++ r). rewrite firstn_app_all. f_equal.
  replace (length (c :: a) - 1)%nat with (length a) by (cbn [length]; lia). apply replace_refs_skip.
Qed.

Lemma update_shown l map0 : separated l ->
  updateObjectReferences (shown l) map0 = shown (map (retarget (fun n => mget n map0)) l).
Proof.
  unfold updateObjectReferences. induction l as [|p l IH]; intros Hs; [reflexivity|].
  destruct p as [b|n w1 g w2]; cbn [separated] in Hs.
  - destruct Hs as [H1 H2]. cbn [shown flat_map show map retarget]. fold (shown l).
    rewrite replace_refs_before; [rewrite IH by exact H2; reflexivity|]. intros j Hj. apply reference_here, H1, Hj.
  - destruct Hs as (Hn & Hw1 & Hg & Hg2 & Hw2 & Hs). cbn [shown flat_map show map]. fold (shown l).
    rewrite (replace_refs_here _ (decZ n ++ w1 ++ g ++ w2 ++ bs "R") (shown l) (decZ n)).
    + rewrite IH by exact Hs. cbn [retarget]. rewrite atoi_decZ by exact Hn. destruct (mget n map0) as [k|]; cbn [show]; [|reflexivity].
      reflexivity.
    + pose proof (decZ_nonnil n). destruct (decZ n); [contradiction|discriminate].
    + rewrite <- !app_assoc. apply ref_fires; auto; lia.
Qed.

(** The map of the objects numbered so far. *)
Lemma place_app base a b n : place base (a ++ b) n =
  match place base a n with Some k => Some k | None => place (base + Z.of_nat (length a)) b n end.
Proof.
  revert base. induction a as [|k a IH]; intros base; cbn [app place length].
  - rewrite Z.add_0_r. reflexivity.
  - destruct (n =? k); [reflexivity|]. rewrite IH. replace (base + 1 + Z.of_nat (length a)) with (base + Z.of_nat (S (length a))) by lia. reflexivity.
Qed.
Lemma upto_app a n b : ~ In n a -> upto n (a ++ n :: b) = a ++ [n].
Proof.
  induction a as [|k a IH]; intros H; cbn [app upto].
  - rewrite Z.eqb_refl. reflexivity.
  - destruct (Z.eqb_spec n k) as [->|_]; [exfalso; apply H; left; reflexivity|]. rewrite IH; [reflexivity|]. intros Hi. apply H. right. exact Hi.
Qed.
Lemma place_none base l n : ~ In n l -> place base l n = None.
Proof.
  revert base. induction l as [|k l IH]; intros base H; [reflexivity|]. cbn [place].
  destruct (Z.eqb_spec n k) as [->|_]; [exfalso; apply H; left; reflexivity|]. apply IH. intros Hi. apply H. right. exact Hi.
Qed.
Lemma place_range base l n k : place base l n = Some k -> base <= k < base + Z.of_nat (length l) /\ In n l.
Proof.
  revert base. induction l as [|z l IH]; intros base H; [discriminate|]. cbn [place length] in *.
  destruct (Z.eqb_spec n z) as [->|_].
  - injection H as <-. split; [lia|left; reflexivity].
  - destruct (IH _ H). split; [lia|right; assumption].
Qed.
Lemma place_some base l n : In n l -> exists k, place base l n = Some k.
Proof.
  revert base. induction l as [|z l IH]; intros base H; [destruct H|]. cbn [place].
  destruct (Z.eqb_spec n z) as [->|Hn]; [eauto|]. destruct H as [->|H]; [contradiction|]. apply IH, H.
Qed.
Lemma place_inj base l a b k : place base l a = Some k -> place base l b = Some k -> a = b.
Proof.
  revert base. induction l as [|z l IH]; intros base Ha Hb; [discriminate|]. cbn [place] in *.
  destruct (Z.eqb_spec a z) as [->|Hz], (Z.eqb_spec b z) as [->|Hz']; [reflexivity| | |eapply IH; eassumption].
  - injection Ha as <-. apply place_range in Hb. lia.
  - injection Hb as <-. apply place_range in Ha. lia.
Qed.

Lemma retarget_ext (f g : Z -> option Z) l : (forall n, In n (targets l) -> f n = g n) -> map (retarget f) l = map (retarget g) l.
Proof.
  induction l as [|p l IH]; intros H; [reflexivity|]. cbn [map]. f_equal.
  - destruct p as [b|n w1 g0 w2]; [reflexivity|]. cbn [retarget]. rewrite H by (left; reflexivity). reflexivity.
  - apply IH. intros n Hn. apply H. cbn [targets flat_map]. apply in_or_app. right. exact Hn.
Qed.

Lemma merge_objects_ok get pages base (C : Z -> list piece) : forall l before map0 next w acc,
  NoDup (before ++ l) -> (forall n, mget n map0 = place base before n) -> next = base + Z.of_nat (length before) ->
  (forall n, In n l -> get n = Ok (shown (C n)) /\ separated (C n)) ->
  exists w', merge_objects get pages l map0 next w acc =
      Ok (next + Z.of_nat (length l), w',
          acc ++ flat_map (fun n => if existsb (Z.eqb n) pages then match place base (before ++ l) n with Some k => [k] | None => [] end else []) l) /\
    (forall k, (k < next \/ next + Z.of_nat (length l) <= k) -> mget k (objects w') = mget k (objects w)) /\
    (forall n k, In n l -> place base (before ++ l) n = Some k ->
       mget k (objects w') = Some (text_obj (shown (map (retarget (place base (upto n (before ++ l)))) (C n))))).
Proof.
  induction l as [|n l IH]; intros before map0 next w acc Hd Hmap Hnext Hget.
  - exists w. cbn [merge_objects flat_map length]. rewrite app_nil_r, Z.add_0_r. repeat split; auto. intros n k [].
  - destruct (Hget n (or_introl eq_refl)) as [Hg Hsep]. cbn [merge_objects]. rewrite Hg.
    assert (Hnb : ~ In n before).
    { intros Hi. apply NoDup_remove_2 in Hd. apply Hd. apply in_or_app. left. exact Hi. }
    assert (Hpl : forall q, mget q (mset n next map0) = place base (before ++ [n]) q).
    { intros q. rewrite mget_mset, place_app. cbn [place]. destruct (Z.eqb_spec q n) as [->|Hq].
      - rewrite place_none by exact Hnb. rewrite Hnext. reflexivity.
      - rewrite Hmap. destruct (place base before q); reflexivity. }
    assert (Hself : place base (before ++ n :: l) n = Some next).
    { rewrite place_app, place_none by exact Hnb. cbn [place]. rewrite Z.eqb_refl. congruence. }
    assert (Eapp : before ++ n :: l = (before ++ [n]) ++ l) by (rewrite <- app_assoc; reflexivity).
    specialize (IH (before ++ [n]) (mset n next map0) (next + 1)
      (SetObject next (Some (updateObjectReferences (shown (C n)) (mset n next map0))) w)
      (if existsb (Z.eqb n) pages then acc ++ [next] else acc)). rewrite <- Eapp in IH.
    destruct IH as (w' & E & O & G); [exact Hd|exact Hpl|rewrite app_length; cbn [length]; lia| |].
    { intros q Hq. apply Hget. right. exact Hq. }
    exists w'. split; [|split].
    + rewrite E. cbn [flat_map length]. rewrite Hself. replace (next + 1 + Z.of_nat (length l)) with (next + Z.of_nat (S (length l))) by lia.
      destruct (existsb (Z.eqb n) pages); [rewrite <- app_assoc|]; reflexivity.
    + intros k Hk. rewrite O by (cbn [length] in Hk; lia). rewrite set_object_get. destruct (Z.eqb_spec k next); [cbn [length] in Hk; lia|reflexivity].
    + intros q k [<-|Hq] Hk.
      * assert (k = next) by congruence. subst k. rewrite O by lia. rewrite set_object_get, Z.eqb_refl. unfold text_obj. do 2 f_equal.
        rewrite update_shown by exact Hsep. rewrite upto_app by exact Hnb. f_equal. f_equal. apply retarget_ext. intros z _. apply Hpl.
      * apply G; assumption.
Qed.

Lemma bases_ge base docs b s : In (b, s) (bases base docs) -> base <= b /\ b + Z.of_nat (length (sObjs s)) <= base + total docs.
Proof.
  revert base. induction docs as [|s0 docs IH]; intros base H; [destruct H|]. cbn [bases total fold_right] in *. fold (total docs) in *.
  assert (0 <= total docs). { clear. induction docs; cbn [total fold_right]; [lia|]. fold (total docs). lia. }
  destruct H as [E|H]; [assert (b = base /\ s = s0) as [-> ->] by (split; congruence); lia|].
  destruct (IH _ H). lia.
Qed.
Lemma total_pos docs : 0 <= total docs.
Proof. induction docs; cbn [total fold_right]; [lia|]. fold (total docs). lia. Qed.

Lemma merge_docs_ok stack P C : forall docs base w acc, Forall (readable stack P C) docs ->
  exists w', merge_docs stack docs base w acc =
      Ok (base + total docs, w', acc ++ flat_map (fun bs => page_places (fst bs) (sObjs (snd bs)) (P (snd bs))) (bases base docs)) /\
    (forall k, (k < base \/ base + total docs <= k) -> mget k (objects w') = mget k (objects w)) /\
    (forall b s n k, In (b, s) (bases base docs) -> In n (sObjs s) -> place b (sObjs s) n = Some k ->
       mget k (objects w') = Some (text_obj (shown (map (retarget (place b (upto n (sObjs s)))) (C s n))))).
Proof.
  induction docs as [|s docs IH]; intros base w acc Hr.
  - exists w. cbn [merge_docs total fold_right bases flat_map]. rewrite app_nil_r, Z.add_0_r. repeat split; auto. intros b s n k [].
  - inversion Hr as [|? ? (Hd & Hp & Hg) Hr']; subst. cbn [merge_docs]. rewrite Hp. cbn [rbind].
    destruct (merge_objects_ok (sGet s) (P s) base (C s) (sObjs s) [] [] base w acc) as (w1 & E1 & O1 & G1); auto.
    { cbn [length]. lia. }
    rewrite E1. cbn [rbind app]. cbn [app] in G1.
    match goal with |- context [merge_docs stack docs ?b w1 ?a] => destruct (IH b w1 a Hr') as (w' & E2 & O2 & G2) end.
    exists w'. cbn [bases total fold_right flat_map fst snd]. fold (total docs). rewrite E2. split; [|split].
    + rewrite app_assoc. unfold page_places at 2. rewrite Z.add_assoc. reflexivity.
    + intros k Hk. pose proof (total_pos docs). rewrite O2 by lia. apply O1. lia.
    + intros b s' n k [E|H] Hn Hk.
      * assert (b = base /\ s' = s) as [-> ->] by (split; congruence). rewrite O2; [apply G1; assumption|].
        apply place_range in Hk. lia.
      * apply G2; assumption.
Qed.

Lemma merge_pdfs stack P C docs : docs <> [] -> Forall (readable stack P C) docs ->
  let kids := flat_map (fun bs => page_places (fst bs) (sObjs (snd bs)) (P (snd bs))) (bases 1 docs) in
  exists w, MergePDFs stack docs = Ok w /\
    rootRef w = Some (total docs + 2) /\
    WGetObject (total docs + 2) w = Ok (catalog_dict (total docs + 1)) /\
    WGetObject (total docs + 1) w = Ok (pages_dict kids) /\
    (forall b s n k, In (b, s) (bases 1 docs) -> In n (sObjs s) -> place b (sObjs s) n = Some k ->
       WGetObject k w = Ok (shown (map (retarget (place b (upto n (sObjs s)))) (C s n)))).
Proof.
  intros Hne Hr kids. unfold MergePDFs. destruct docs as [|s0 docs0]; [contradiction|]. remember (s0 :: docs0) as docs eqn:Ed.
  destruct (merge_docs_ok stack P C docs 1 NewPDFWriter [] Hr) as (w' & E & O & G). rewrite E. cbn [rbind]. fold kids. cbn [app].
  eexists. split; [reflexivity|]. pose proof (total_pos docs) as Tp. split; [|split; [|split]].
  - cbn [rootRef SetRoot]. f_equal. lia.
  - unfold WGetObject. cbn [objects SetRoot]. rewrite !set_object_get. replace (total docs + 2) with (1 + total docs + 1) by lia.
    rewrite Z.eqb_refl. cbn [oContent]. do 2 f_equal. lia.
  - unfold WGetObject. cbn [objects SetRoot]. rewrite !set_object_get. replace (total docs + 1) with (1 + total docs) by lia.
    destruct (Z.eqb_spec (1 + total docs) (1 + total docs + 1)); [lia|]. rewrite Z.eqb_refl. reflexivity.
  - intros b s n k Hb Hn Hk. unfold WGetObject. cbn [objects SetRoot]. rewrite !set_object_get.
    pose proof (bases_ge 1 docs b s Hb) as B. pose proof (place_range _ _ _ _ Hk) as R.
    destruct (Z.eqb_spec k (1 + total docs + 1)); [lia|]. destruct (Z.eqb_spec k (1 + total docs)); [lia|].
    rewrite (G b s n k Hb Hn Hk). reflexivity.
Qed.

(** All references of object [n] go to objects that come no later. *)
Lemma merged_backward b l n C : (forall q, In q (targets C) -> In q l -> In q (upto n l)) ->
  map (retarget (place b (upto n l))) C = map (retarget (place b l)) C.
Proof.
  intros H. apply retarget_ext. intros q Hq.
  assert (E : exists r, l = upto n l ++ r).
  { clear. induction l as [|k l [r IH]]; [exists []; reflexivity|]. cbn [upto]. destruct (n =? k); [exists l; reflexivity|].
    exists r. cbn [app]. rewrite <- IH. reflexivity. }
  destruct E as [r E]. rewrite E at 2. rewrite place_app. destruct (place b (upto n l) q) as [k|] eqn:E1; [reflexivity|].
  destruct (in_dec Z.eq_dec q (upto n l)) as [Hi|Hi].
  - destruct (place_some b _ _ Hi) as [k Ek]. congruence.
  - rewrite place_none; [reflexivity|]. intros Hr. apply Hi, H; [exact Hq|]. rewrite E. apply in_or_app. right. exact Hr.
Qed.
(** The pages keep their order when the objects are listed in page order. *)
Lemma page_places_order b objs pages : NoDup objs -> NoDup pages -> filter (fun n => existsb (Z.eqb n) pages) objs = pages ->
  map Some (page_places b objs pages) = map (place b objs) pages.
Proof.
  intros Hd Hp E. unfold page_places. transitivity (map (place b objs) (filter (fun n => existsb (Z.eqb n) pages) objs)); [|rewrite E; reflexivity]. assert (G : forall l, incl l objs ->
    map Some (flat_map (fun n => if existsb (Z.eqb n) pages then match place b objs n with Some k => [k] | None => [] end else []) l)
    = map (place b objs) (filter (fun n => existsb (Z.eqb n) pages) l)).
  { induction l as [|n l IH]; intros Hi; [reflexivity|]. cbn [flat_map filter]. rewrite map_app, IH by (intros x Hx; apply Hi; right; exact Hx).
    destruct (existsb (Z.eqb n) pages); [|reflexivity]. destruct (place_some b objs n) as [k Ek]; [apply Hi; left; reflexivity|].
    cbn [map]. rewrite Ek. reflexivity. }
  apply G. intros x Hx. exact Hx.
Qed.
Lemma places_distinct docs b s n k b' s' n' : In (b, s) (bases 1 docs) -> In (b', s') (bases 1 docs) ->
  place b (sObjs s) n = Some k -> place b' (sObjs s') n' = Some k -> b = b' /\ n = n'.
Proof.
  generalize 1. intros base H1 H2 P1 P2.
  pose proof (place_range _ _ _ _ P1) as [R1 _]. pose proof (place_range _ _ _ _ P2) as [R2 _].
  revert base H1 H2. induction docs as [|s0 docs IH]; intros base H1 H2; [destruct H1|]. cbn [bases] in H1, H2.
  destruct H1 as [E1|H1], H2 as [E2|H2].
  - assert (b = base /\ s = s0 /\ b' = base /\ s' = s0) as (-> & -> & -> & ->) by (repeat split; congruence). split; [reflexivity|eapply place_inj; eassumption].
  - assert (b = base /\ s = s0) as [-> ->] by (split; congruence). apply bases_ge in H2. lia.
  - assert (b' = base /\ s' = s0) as [-> ->] by (split; congruence). apply bases_ge in H1. lia.
  - apply (IH _ H1 H2).
Qed.

(* -------------------- dictionary edits -------------------- *)

Lemma set_get_word key a w v b new : key_name key -> sole key a b -> gap w -> word v -> word_ends b -> word new ->
  extractDictValue (setDictValue (a ++ key ++ w ++ v ++ b) key new) key = new.
Proof.
  intros Hk Hs Hw Hv Hb Hn. rewrite set_spaced by assumption. apply extract_spaced; auto using space_gap. apply Hs.
Qed.
Lemma set_get_name key a v b new : key_name key -> sole key a b -> name_word v -> name_ends b -> prefixb key ("/"%byte :: v) = false ->
  name_word new -> prefixb key ("/"%byte :: new) = false ->
  extractDictValue (setDictValue (a ++ key ++ "/"%byte :: v ++ b) key ("/"%byte :: new)) key = "/"%byte :: new.
Proof.
  intros Hk Hs Hv Hb Hp Hn Hp'. rewrite set_named by assumption. unfold trim_prefix.
  change (prefixb (bs "/") ("/"%byte :: new)) with true. cbn iota. change (length (bs "/")) with 1%nat. cbn [skipn].
  change (bs "/" ++ new ++ b) with ("/"%byte :: new ++ b). apply extract_named; assumption.
Qed.
Lemma set_get_array key a v b new : key_name key -> contains key a = false -> contains key (v ++ b) = false -> flat_array v -> flat_array new ->
  extractDictValue (setDictValue (a ++ key ++ v ++ b) key new) key = new.
Proof.
  intros Hk Ha Hb Hv Hn. rewrite set_array by assumption. apply (extract_array a key [] new (bs " " ++ b)); auto.
Qed.
Lemma set_get_absent x y key new : key_name key -> contains key (x ++ bs ">>" ++ y) = false -> contains (bs ">>") (">"%byte :: y) = false -> word new ->
  extractDictValue (setDictValue (x ++ bs ">>" ++ y) key new) key = new.
Proof.
  intros Hk Hc Hy Hn. rewrite set_absent by assumption. apply extract_spaced; auto using space_gap; [|reflexivity].
  rewrite <- (contains_firstn _ (length x) _ Hc), firstn_app_all. reflexivity.
Qed.

(* -------------------- the merged document -------------------- *)

Lemma page_places_in b s P k : In k (page_places b (sObjs s) P) -> exists n, In n P /\ In n (sObjs s) /\ place b (sObjs s) n = Some k.
Proof.
  unfold page_places. intros H. apply in_flat_map in H. destruct H as (n & Hn & H).
  destruct (existsb (Z.eqb n) P) eqn:E; [|destruct H]. apply existsb_exists in E. destruct E as (z & Hz & Ez). apply Z.eqb_eq in Ez. subst z.
  destruct (place b (sObjs s) n) as [k0|] eqn:Ek; [|destruct H]. destruct H as [->|[]]. eauto.
Qed.
Lemma bases_in base docs b s : In (b, s) (bases base docs) -> In s docs.
Proof. revert base. induction docs as [|s0 docs IH]; intros base H; [destruct H|]. destruct H as [H|H]; [left; congruence|right; eauto]. Qed.
Lemma merged_tree stack P C docs : docs <> [] -> Forall (readable stack P C) docs -> Forall (pages_known P C) docs -> total docs + 2 < 2 ^ 63 ->
  let kids := flat_map (fun bs => page_places (fst bs) (sObjs (snd bs)) (P (snd bs))) (bases 1 docs) in
  exists w, MergePDFs stack docs = Ok w /\ has_page_tree (written w) (PNode (total docs + 1) (map PPage kids)).
Proof.
  intros Hne Hr Hp Ht kids. destruct (merge_pdfs stack P C docs Hne Hr) as (w & E & Er & Ec & Ep & G). fold kids in Ep.
  pose proof (total_pos docs) as T0.
  assert (K : forall k, In k kids -> 0 <= k < 2 ^ 63 /\ exists x, WGetObject k w = Ok x /\ page_text x).
  { intros k Hk. unfold kids in Hk. apply in_flat_map in Hk. destruct Hk as ((b & s) & Hb & Hk). cbn [fst snd] in Hk.
    apply page_places_in in Hk. destruct Hk as (n & Hn & Ho & Hpl). pose proof (place_range _ _ _ _ Hpl) as [R _].
    pose proof (bases_ge 1 docs b s Hb) as R2. split; [lia|]. eexists. split; [apply (G b s n k Hb Ho Hpl)|].
    rewrite Forall_forall in Hp. apply (Hp s (bases_in _ _ _ _ Hb) n Hn). }
  exists w. split; [exact E|]. exists (total docs + 2), (catalog_dict (total docs + 1)). split; [lia|]. split; [cbn [pnum]; lia|]. split.
  { exists (bs "0 R"). cbn [sRoot written]. rewrite Er. reflexivity. }
  split; [exact Ec|]. split; [apply (catalog_pages (total docs + 1)); lia|]. cbn [forms_tree]. split.
  - exists (pages_dict kids). split; [exact Ep|]. rewrite map_map. cbn [pnum]. rewrite map_id. apply pages_dict_node.
    apply Forall_forall. intros k Hk. apply (K k Hk).
  - apply forms_kids. apply Forall_forall. intros k Hk. apply in_map_iff in Hk. destruct Hk as (n & <- & Hn).
    cbn [forms_tree]. apply (K n Hn).
Qed.
Lemma merge_backward stack P C docs : docs <> [] -> Forall (readable stack P C) docs -> Forall (backward C) docs ->
  exists w, MergePDFs stack docs = Ok w /\
    forall b s n k, In (b, s) (bases 1 docs) -> In n (sObjs s) -> place b (sObjs s) n = Some k ->
       WGetObject k w = Ok (shown (map (retarget (place b (sObjs s))) (C s n))).
Proof.
  intros Hne Hr Hb. destruct (merge_pdfs stack P C docs Hne Hr) as (w & E & _ & _ & _ & G). exists w. split; [exact E|].
  intros b s n k Hi Hn Hk. rewrite (G b s n k Hi Hn Hk). rewrite Forall_forall in Hb. specialize (Hb s (bases_in _ _ _ _ Hi)).
  rewrite merged_backward; [reflexivity|]. intros q Hq Hqi. apply (Hb n q Hn Hq Hqi).
Qed.
Lemma merged_pages stack P C docs k : docs <> [] -> Forall (readable stack P C) docs -> Forall (pages_known P C) docs ->
  Forall (listed_in_order P) docs -> total docs + 2 < 2 ^ 63 -> (2 <= k)%nat ->
  exists w l, MergePDFs stack docs = Ok w /\ getAllPageObjectNumbers k (written w) = Ok l /\
    map Some l = flat_map (fun bs => map (place (fst bs) (sObjs (snd bs))) (P (snd bs))) (bases 1 docs).
Proof.
  intros Hne Hr Hp Ho Ht Hk. destruct (merged_tree stack P C docs Hne Hr Hp Ht) as (w & E & T).
  eexists w, _. split; [exact E|]. split.
  - rewrite (source_pages _ _ k T); [|etransitivity; [apply flat_height|exact Hk]]. cbn [page_list]. rewrite flat_pages. reflexivity.
  - assert (G : forall l, (forall x, In x l -> In (snd x) docs) ->
      map Some (flat_map (fun bs => page_places (fst bs) (sObjs (snd bs)) (P (snd bs))) l)
      = flat_map (fun bs => map (place (fst bs) (sObjs (snd bs))) (P (snd bs))) l).
    { induction l as [|[b s] l IH]; intros H; [reflexivity|]. cbn [flat_map fst snd]. rewrite map_app, IH by (intros x Hx; apply H; right; exact Hx).
      rewrite Forall_forall in Ho, Hr. specialize (H (b, s) (or_introl eq_refl)). cbn [snd] in H. destruct (Ho s H) as [N F]. destruct (Hr s H) as [N2 _].
      rewrite page_places_order by assumption. reflexivity. }
    apply G. intros [b s] Hx. apply (bases_in _ _ _ _ Hx).
Qed.
