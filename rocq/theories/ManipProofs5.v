(** Proofs about page manipulation: deletion and insertion histories. *)
From Verif Require Import Util Scan WriterModel ParseModel ReadProofs ManipModel ManipSpec ManipProofs ManipProofs2 ManipProofs3 ManipProofs4.
Local Open Scope Z_scope.

Definition keep_refs (n : Z) (rs : list bytes) : list bytes := filter (fun r => negb (found (find (m_page_ref n) r))) rs.
Lemma keep_texts n l rs : 0 <= n -> ref_texts l rs -> (forall k, In k l -> ends_like k n -> k = n) ->
  ref_texts (filter (fun k => negb (k =? n)) l) (keep_refs n rs).
Proof.
  intros Hn. induction 1 as [|k l w1 g w2 rs Hk Hw1 Hg Hg2 Hw2 _ IH]; intros He; [constructor|].
  cbn [filter keep_refs]. fold (keep_refs n rs).
  assert (IH' := IH (fun z Hz => He z (or_intror Hz))).
  destruct (Z.eqb_spec k n) as [->|Hkn]; cbn [negb].
  - replace (found (find (m_page_ref n) (decZ n ++ w1 ++ g ++ w2 ++ bs "R"))) with true; [exact IH'|].
    symmetry. apply page_ref_hits; auto; try lia. exists []. reflexivity.
  - replace (found (find (m_page_ref n) (decZ k ++ w1 ++ g ++ w2 ++ bs "R"))) with false; [constructor; assumption|].
    symmetry. destruct (found (find (m_page_ref n) (decZ k ++ w1 ++ g ++ w2 ++ bs "R"))) eqn:E; [|reflexivity]. exfalso. apply Hkn.
    apply He; [left; reflexivity|]. apply page_ref_hits in E; auto; lia.
Qed.
Lemma ref_texts_length l rs : ref_texts l rs -> length l = length rs.
Proof. induction 1; cbn [length]; congruence. Qed.
Lemma ref_texts_range l rs : ref_texts l rs -> forall n, In n l -> 0 <= n < 2 ^ 63.
Proof. induction 1 as [|k l w1 g w2 rs Hk _ _ _ _ _ IH]; intros n [->|Hn] || intros n []; auto. Qed.
Lemma ref_array_range l v : ref_array l v -> forall n, In n l -> 0 <= n < 2 ^ 63.
Proof. intros H. eapply ref_texts_range, parse_ref_array, H. Qed.

(** Editing a node: the new list of kids and the new count. *)
Lemma node_edit sh t l c l' rs' : good_shape sh -> node_is sh t l c -> 0 <= c -> ref_texts l' rs' -> Z.of_nat (length l') < 2 ^ 63 ->
  node_is sh (set_count (setDictValue t (bs "/Kids") (kids_array rs')) (Z.of_nat (length rs'))) l' (Z.of_nat (length l')) /\
  node_is sh (adjust_count (set_count (setDictValue t (bs "/Kids") (kids_array rs')) (Z.of_nat (length rs'))) (-1)) l'
     (Z.max 0 (Z.of_nat (length l') - 1)).
Proof.
  intros Hs (arr & g & w & Ha & Hg & Hw & ->) Hc Hr Hl.
  pose proof (kids_array_refs _ _ Hr) as Hk. rewrite <- (ref_texts_length _ _ Hr).
  assert (Hcs : ~ In "/"%byte (w ++ decZ c)).
  { rewrite in_app_iff. intros [Hi|Hi]; [apply (gap_slash w Hw Hi)|apply (plain_word_slash _ (plain_word_decZ c) Hi)]. }
  rewrite (node_set_kids sh arr g l) by assumption.
  assert (Hv : ~ In "/"%byte (kids_array rs' ++ bs " " ++ g)).
  { rewrite !in_app_iff. intros [Hi|[Hi|Hi]].
    - apply (ref_array_slash _ _ Hk Hi).
    - destruct Hi as [Hi|[]]; discriminate.
    - rewrite forallb_forall in Hg. specialize (Hg _ Hi). discriminate. }
  rewrite node_set_count by assumption.
  assert (Hg' : forallb space_byte (bs " " ++ g) = true) by exact Hg. split.
  - exists (kids_array rs'), (bs " " ++ g), (bs " "). repeat split; auto using space_gap; discriminate.
  - rewrite node_adjust by (try assumption; try apply space_gap; unfold int64; lia).
    exists (kids_array rs'), (bs " " ++ g), (bs " "). repeat split; auto using space_gap; discriminate.
Qed.

Lemma node_extract sh t l c : good_shape sh -> node_is sh t l c ->
  exists z arr, extractDictValue t (bs "/Kids") = z :: arr /\ ref_texts l (parseObjectRefArray (z :: arr)).
Proof.
  intros Hs Hn. destruct (node_is_text sh t l c Hs Hn) as [_ (v & Hv & Ha)].
  rewrite (has_value_extract _ _ _ key_Kids Hv). destruct v as [|z v]; [destruct Ha as (x & Hx & _); discriminate|].
  exists z, v. split; [reflexivity|]. apply parse_ref_array, Ha.
Qed.

Lemma filter_length_le {A} (f : A -> bool) l : (length (filter f l) <= length l)%nat.
Proof. induction l as [|a l IH]; [reflexivity|]. cbn [filter]. destruct (f a); cbn [length]; lia. Qed.
Lemma filter_all_len {A} (f : A -> bool) l : length (filter f l) = length l -> forall x, In x l -> f x = true.
Proof.
  induction l as [|a l IH]; intros H x Hx; [destruct Hx|]. cbn [filter] in H. destruct (f a) eqn:E.
  - cbn [length] in H. destruct Hx as [<-|Hx]; [exact E|]. apply IH; [lia|exact Hx].
  - exfalso. cbn [length] in H. pose proof (filter_length_le f l). lia.
Qed.

Lemma delete_step stack m pages p n par t sh l c :
  getAllPageObjectNumbers stack (mSrc m) = Ok pages -> 1 <= p <= Z.of_nat (length pages) -> nth (Z.to_nat (p - 1)) pages 0 = n ->
  findParentPagesObject stack (mSrc m) n = Ok par ->
  mget par (mObjects m) = Some t -> good_shape sh -> node_is sh t l c -> 0 <= c -> Z.of_nat (length l) < 2 ^ 63 ->
  0 <= n -> In n l -> (forall k, In k l -> ends_like k n -> k = n) -> filter (fun k => negb (k =? n)) l <> [] ->
  exists t', DeletePage stack p m = Ok (mkManip (mSrc m) (mset par t' (mObjects m))) /\
    node_is sh t' (filter (fun k => negb (k =? n)) l) (Z.max 0 (Z.of_nat (length (filter (fun k => negb (k =? n)) l)) - 1)).
Proof.
  intros Hp Hr Hn Hpar Ht Hs Hnode Hc Hlen Hn0 Hin Hends Hne.
  destruct (node_extract sh t l c Hs Hnode) as (z & arr & Ex & Htx).
  pose proof (keep_texts n l _ Hn0 Htx Hends) as Hkeep. remember (filter (fun k => negb (k =? n)) l) as l' eqn:El'.
  assert (Hl' : (length l' < length l)%nat).
  { pose proof (filter_length_le (fun k => negb (k =? n)) l) as H. rewrite <- El' in H.
    destruct (Nat.eq_dec (length l') (length l)) as [E|E]; [|lia]. exfalso. subst l'.
    pose proof (filter_all_len _ _ E n Hin) as H'. cbn beta in H'. rewrite Z.eqb_refl in H'. discriminate. }
  unfold DeletePage, getPageObjectNumber. rewrite Hp. cbn [rbind].
  destruct (Z.ltb_spec p 1); [lia|]. destruct (Z.ltb_spec (Z.of_nat (length pages)) p); [lia|]. cbn [orb].
  rewrite (nth_error_nth' pages 0) by lia. rewrite Hn. cbn [rbind]. rewrite Hpar. cbn [rbind]. rewrite Ht, Ex. cbn zeta.
  fold (keep_refs n (parseObjectRefArray (z :: arr))). remember (parseObjectRefArray (z :: arr)) as rs eqn:Ers.
  destruct (node_edit sh t l c l' (keep_refs n rs) Hs Hnode Hc Hkeep) as [_ N]; [lia|].
  rewrite <- (ref_texts_length _ _ Hkeep), <- (ref_texts_length _ _ Htx) in *.
  destruct rs as [|r0 rs]; [inversion Htx; subst l; destruct Hin|].
  destruct (Nat.eqb_spec (length l') (length l)); [lia|].
  destruct (Nat.eqb_spec (length l') 0) as [E0|E0]; [destruct l'; [contradiction|discriminate]|].
  eexists. split; [reflexivity|exact N].
Qed.

(* -------------------- histories of deletions -------------------- *)

Lemma left_cons n d kids : map pnum (left (n :: d) kids) =
  map pnum (filter (fun k => negb (gone [n] k)) (left d kids)).
Proof.
  unfold left. induction kids as [|k kids IH]; [reflexivity|]. cbn [filter].
  assert (E : gone (n :: d) k = gone [n] k || gone d k).
  { destruct k; [|reflexivity]. cbn [gone existsb]. rewrite orb_false_r. reflexivity. }
  rewrite E. destruct (gone d k) eqn:E1; cbn [negb].
  - rewrite orb_true_r. cbn [negb]. exact IH.
  - rewrite orb_false_r. cbn [filter]. destruct (gone [n] k); cbn [negb map]; [exact IH|]. rewrite IH. reflexivity.
Qed.
Lemma gone_filter n kids : (forall k, In k kids -> pnum k = n -> k = PPage n) ->
  map pnum (filter (fun k => negb (gone [n] k)) kids) = filter (fun k => negb (k =? n)) (map pnum kids).
Proof.
  induction kids as [|k kids IH]; intros H; [reflexivity|]. cbn [filter map].
  rewrite <- IH by (intros z Hz; apply H; right; exact Hz).
  destruct (Z.eqb_spec (pnum k) n) as [E|E]; cbn [negb].
  - rewrite (H k (or_introl eq_refl) E). cbn [gone existsb]. rewrite Z.eqb_refl. reflexivity.
  - destruct k as [q|q qk]; cbn [gone existsb pnum] in *; [|reflexivity].
    destruct (Z.eqb_spec q n); [contradiction|]. reflexivity.
Qed.
Lemma left_in d kids k : In k (left d kids) <-> In k kids /\ gone d k = false.
Proof. unfold left. rewrite filter_In. rewrite negb_true_iff. reflexivity. Qed.

Lemma nodes_unique t : NoDup (all_nums t) -> forall k kids kids', In (k, kids) (nodes t) -> In (k, kids') (nodes t) -> kids = kids'.
Proof.
  induction t as [n|n ks IH] using ptree_ind'; intros Hd k kids kids' H1 H2; [destruct H1|].
  cbn [all_nums] in Hd. inversion Hd as [|? ? Hn Hd']; subst.
  assert (Hsub : forall kk, In (k, kk) (flat_map nodes ks) -> k <> n).
  { intros kk H ->. apply in_flat_map in H. destruct H as (z & Hz & H). apply Hn. apply in_flat_map. exists z. split; [exact Hz|].
    apply (nodes_in z n kk H). }
  cbn [nodes] in H1, H2. destruct H1 as [E1|H1], H2 as [E2|H2]; try congruence.
  - exfalso. apply (Hsub _ H2). congruence.
  - exfalso. apply (Hsub _ H1). congruence.
  - clear Hn Hd Hsub. induction ks as [|z ks IHk]; [destruct H1|]. inversion IH as [|? ? I1 I2]; subst.
    destruct (nodup_flat _ _ _ Hd') as (D1 & D2 & D3). cbn [flat_map] in H1, H2. rewrite in_app_iff in H1, H2.
    destruct H1 as [H1|H1], H2 as [H2|H2].
    + apply (I1 D1 k); assumption.
    + exfalso. apply in_flat_map in H2. destruct H2 as (y & Hy & H2). apply (D3 k); [apply (nodes_in z k kids H1)|].
      apply in_flat_map. exists y. split; [exact Hy|apply (nodes_in y k kids' H2)].
    + exfalso. apply in_flat_map in H1. destruct H1 as (y & Hy & H1). apply (D3 k); [apply (nodes_in z k kids' H2)|].
      apply in_flat_map. exists y. split; [exact Hy|apply (nodes_in y k kids H1)].
    + apply IHk; assumption.
Qed.
(** A page belongs to one node. *)
Lemma page_node t n : In n (page_list t) -> t = PPage n \/ exists k kids, In (k, kids) (nodes t) /\ In (PPage n) kids.
Proof.
  induction t as [m|m ks IH] using ptree_ind'; intros H.
  - left. destruct H as [->|[]]. reflexivity.
  - right. cbn [page_list] in H. apply in_flat_map in H. destruct H as (z & Hz & H). rewrite Forall_forall in IH.
    destruct (IH z Hz H) as [->|(k & kids & H1 & H2)].
    + exists m, ks. split; [left; reflexivity|exact Hz].
    + exists k, kids. split; [right; apply in_flat_map; eauto|exact H2].
Qed.
Lemma page_in_all t n : In n (page_list t) -> In n (all_nums t).
Proof.
  induction t as [m|m ks IH] using ptree_ind'; intros H; [exact H|]. cbn [page_list all_nums] in *. right.
  apply in_flat_map in H. destruct H as (z & Hz & H). rewrite Forall_forall in IH. apply in_flat_map. exists z. split; [exact Hz|apply IH; assumption].
Qed.
Lemma kids_nodup t k kids : NoDup (all_nums t) -> In (k, kids) (nodes t) -> NoDup (all_nums (PNode k kids)).
Proof.
  induction t as [m|m ks IH] using ptree_ind'; intros Hd H; [destruct H|]. cbn [nodes] in H. destruct H as [E|H].
  - assert (m = k) by congruence. assert (ks = kids) by congruence. subst. exact Hd.
  - apply in_flat_map in H. destruct H as (z & Hz & H). rewrite Forall_forall in IH. apply IH with (x := z); auto.
    cbn [all_nums] in Hd. inversion Hd as [|? ? _ Hd']; subst. clear - Hd' Hz. induction ks as [|y ks IH]; [destruct Hz|].
    destruct (nodup_flat _ _ _ Hd') as (D1 & D2 & _). destruct Hz as [->|Hz]; [exact D1|auto].
Qed.
Lemma kid_unique k kids z n : NoDup (all_nums (PNode k kids)) -> In (PPage n) kids -> In z kids -> pnum z = n -> z = PPage n.
Proof.
  cbn [all_nums]. intros Hd Hn Hz E. inversion Hd as [|? ? _ Hd']; subst. clear Hd. induction kids as [|y kids IH]; [destruct Hz|].
  destruct (nodup_flat _ _ _ Hd') as (D1 & D2 & D3). destruct Hz as [->|Hz], Hn as [En|Hn]; auto.
  - exfalso. apply (D3 (pnum z) (pnum_in z)). apply in_flat_map. exists (PPage (pnum z)). split; [exact Hn|left; reflexivity].
  - exfalso. subst y. apply (D3 (pnum z)); [left; reflexivity|]. apply in_flat_map. exists z. split; [exact Hz|apply pnum_in].
Qed.
Lemma page_not_nodekey t n k kids : NoDup (all_nums t) -> In n (page_list t) -> In (k, kids) (nodes t) -> n <> k.
Proof.
  induction t as [m|m ks IH] using ptree_ind'; intros Hd Hn Hk ->; [destruct Hk|].
  cbn [all_nums page_list nodes] in *. inversion Hd as [|? ? Hm Hd']; subst.
  apply in_flat_map in Hn. destruct Hn as (z & Hz & Hn). destruct Hk as [E|Hk].
  - assert (m = k) by congruence. subst m. apply Hm. apply in_flat_map. exists z. split; [exact Hz|apply page_in_all, Hn].
  - apply in_flat_map in Hk. destruct Hk as (y & Hy & Hk). clear Hm Hd. induction ks as [|x ks IHk]; [destruct Hz|].
    inversion IH as [|? ? I1 I2]; subst. destruct (nodup_flat _ _ _ Hd') as (D1 & D2 & D3).
    pose proof (page_in_all _ _ Hn) as P1. pose proof (proj1 (nodes_in y k kids Hk)) as P2.
    destruct Hz as [->|Hz], Hy as [->|Hy].
    + apply (I1 D1 Hn Hk). reflexivity.
    + apply (D3 k P1). apply in_flat_map. eauto.
    + apply (D3 k P2). apply in_flat_map. eauto.
    + apply IHk; assumption.
Qed.

(** The state after the pages [d] have been deleted. *)
Record deleted (s : source) (t : ptree) (sh : Z -> shape) (m0 : manip) (d : list Z) (m : manip) : Prop := {
  del_src : mSrc m = s;
  del_nodes : forall k kids, In (k, kids) (nodes t) -> exists x c, mget k (mObjects m) = Some x /\
    node_is (sh k) x (map pnum (left d kids)) c /\ 0 <= c /\
    (map pnum (left d kids) <> map pnum kids -> c = Z.max 0 (Z.of_nat (length (left d kids)) - 1));
  del_other : forall k, ~ In k (map fst (nodes t)) -> mget k (mObjects m) = mget k (mObjects m0)
}.

Lemma left_all_in d kids : incl (left d kids) kids.
Proof. intros k H. apply left_in in H. apply H. Qed.

Lemma delete_one s t sh m0 d m stack p n : regular_doc s t sh -> (height t <= stack)%nat ->
  deleted s t sh m0 d m -> 1 <= p <= Z.of_nat (length (page_list t)) -> nth (Z.to_nat (p - 1)) (page_list t) 0 = n ->
  ~ In n d -> (exists r ks, t = PNode r ks) ->
  (forall k kids, In (k, kids) (nodes t) -> left (n :: d) kids <> [] /\ (In (PPage n) kids -> forall q, In q (map pnum kids) -> ends_like q n -> q = n)) ->
  exists m', DeletePage stack p m = Ok m' /\ deleted s t sh m0 (n :: d) m'.
Proof.
  intros Hreg Hh Hd Hp Hn Hnd Hroot Hc. destruct Hreg as (Htree & Hnodup & Hincl & Hlen & Hcat & Hshape).
  assert (Hpn : In n (page_list t)) by (subst n; apply nth_In; lia).
  destruct (page_node t n Hpn) as [E|(par & pk & Hpar & Hleaf)]; [destruct Hroot as (r & ks & Er); congruence|].
  pose proof (source_pages s t stack Htree Hh) as Hpages.
  assert (Hfp : findParentPagesObject stack (mSrc m) n = Ok par).
  { rewrite (del_src _ _ _ _ _ _ Hd). unfold findParentPagesObject. rewrite (root_of_tree s t Htree). cbn [rbind].
    destruct Htree as (? & ? & _ & _ & _ & _ & _ & Hf). eapply parent_found; [eassumption|eassumption|exact Hf|exact Hnodup|exact Hh]. }
  destruct (del_nodes _ _ _ _ _ _ Hd par pk Hpar) as (x & c & Hx & Hnode & Hc0 & _).
  destruct (Hshape par pk Hpar) as (Hgs & x0 & c00 & Hx0 & Hnode0 & _).
  assert (Hn0 : 0 <= n). { destruct Hnode0 as (arr & _ & _ & Ha & _). apply (ref_array_range _ _ Ha n).
    apply in_map_iff. exists (PPage n). split; [reflexivity|exact Hleaf]. }
  pose proof (kids_nodup t par pk Hnodup Hpar) as Hkd.
  assert (Efilter : filter (fun k => negb (k =? n)) (map pnum (left d pk)) = map pnum (left (n :: d) pk)).
  { rewrite left_cons. symmetry. apply gone_filter. intros z Hz Ez. apply left_all_in in Hz. apply (kid_unique par pk z n); assumption. }
  assert (Hkl : Z.of_nat (length (map pnum (left d pk))) < 2 ^ 63).
  { rewrite map_length. unfold left. pose proof (filter_length_le (fun k => negb (gone d k)) pk) as L1.
    assert (L2 : (length pk <= length (all_nums t))%nat).
    { rewrite <- (map_length pnum pk). apply NoDup_incl_length.
      - clear - Hkd. cbn [all_nums] in Hkd. inversion Hkd as [|? ? _ H]; subst. clear Hkd. induction pk as [|z pk IH]; [constructor|].
        destruct (nodup_flat _ _ _ H) as (D1 & D2 & D3). cbn [map]. constructor; [|apply IH, D2].
        intros Hi. apply in_map_iff in Hi. destruct Hi as (y & Ey & Hy). apply (D3 (pnum z) (pnum_in z)).
        rewrite <- Ey. apply in_flat_map. exists y. split; [exact Hy|apply pnum_in].
      - intros q Hq. apply in_map_iff in Hq. destruct Hq as (z & <- & Hz). apply tl_in.
        apply (proj2 (nodes_in t par pk Hpar) z Hz). apply pnum_in. }
    lia. }
  destruct (delete_step stack m (page_list t) p n par x (sh par) (map pnum (left d pk)) c) as (t' & Ed & Nd); auto.
  { rewrite (del_src _ _ _ _ _ _ Hd). exact Hpages. }
  { apply in_map_iff. exists (PPage n). split; [reflexivity|]. apply left_in. split; [exact Hleaf|]. cbn [gone].
    destruct (existsb (Z.eqb n) d) eqn:E; [|reflexivity]. apply existsb_exists in E. destruct E as (q & Hq & E). apply Z.eqb_eq in E.
    subst q. contradiction. }
  { intros k Hk He. apply in_map_iff in Hk. destruct Hk as (z & <- & Hz). apply left_all_in in Hz.
    apply (proj2 (Hc par pk Hpar) Hleaf); [apply in_map; exact Hz|exact He]. }
  { rewrite Efilter. intros E. apply map_eq_nil in E. apply (proj1 (Hc par pk Hpar)). exact E. }
  rewrite Efilter in Nd. eexists. split; [exact Ed|]. constructor; cbn [mSrc mObjects].
  - apply (del_src _ _ _ _ _ _ Hd).
  - intros k kids Hk. destruct (Z.eq_dec k par) as [->|Hkp].
    + assert (kids = pk) by exact (nodes_unique t Hnodup par kids pk Hk Hpar). subst kids. rewrite mget_mset_eq.
      exists t', (Z.max 0 (Z.of_nat (length (map pnum (left (n :: d) pk))) - 1)). repeat split; auto; [lia|].
      intros _. rewrite map_length. reflexivity.
    + rewrite mget_mset_neq by exact Hkp.
      assert (El : map pnum (left (n :: d) kids) = map pnum (left d kids)).
      { rewrite left_cons. f_equal. assert (Hno : ~ In (PPage n) kids).
        { intros Hi. assert (Ok k = Ok par); [|congruence]. rewrite <- Hfp. rewrite (del_src _ _ _ _ _ _ Hd).
          unfold findParentPagesObject. rewrite (root_of_tree s t Htree). cbn [rbind].
          destruct Htree as (? & ? & _ & _ & _ & _ & _ & Hf). symmetry. eapply parent_found; [eassumption|eassumption|exact Hf|exact Hnodup|exact Hh]. }
        assert (G : forall l, incl l kids -> filter (fun k0 => negb (gone [n] k0)) l = l).
        { induction l as [|z l IH]; intros Hi; [reflexivity|]. cbn [filter]. rewrite IH by (intros q Hq; apply Hi; right; exact Hq).
          destruct z as [q|q qk]; cbn [gone existsb]; [|reflexivity]. rewrite orb_false_r.
          destruct (Z.eqb_spec q n) as [->|_]; [|reflexivity]. exfalso. apply Hno, Hi. left. reflexivity. }
        apply G, left_all_in. }
      destruct (del_nodes _ _ _ _ _ _ Hd k kids Hk) as (y & cy & Hy & Ny & Cy & Dy). exists y, cy. rewrite El.
      replace (length (left (n :: d) kids)) with (length (left d kids)); [auto|].
      rewrite <- (map_length pnum), <- El, map_length. reflexivity.
  - intros k Hk. rewrite mget_mset_neq; [apply (del_other _ _ _ _ _ _ Hd), Hk|]. intros ->. apply Hk.
    apply in_map_iff. exists (par, pk). split; [reflexivity|exact Hpar].
Qed.

Lemma left_anti d d' kids : incl d d' -> left d' kids <> [] -> left d kids <> [].
Proof.
  intros H Hn E. destruct (left d' kids) as [|k r] eqn:El; [contradiction|].
  assert (Hk : In k (left d' kids)) by (rewrite El; left; reflexivity). apply left_in in Hk. destruct Hk as [H1 H2].
  assert (In k (left d kids)); [|rewrite E in *; contradiction]. apply left_in. split; [exact H1|].
  destruct k as [q|q qk]; [|reflexivity]. cbn [gone] in *. destruct (existsb (Z.eqb q) d) eqn:X; [|reflexivity].
  rewrite <- H2. symmetry. apply existsb_exists in X. destruct X as (z & Hz & Ez). apply existsb_exists. exists z. auto.
Qed.

Lemma delete_many s t sh m0 stack : regular_doc s t sh -> (height t <= stack)%nat -> (exists r ks, t = PNode r ks) ->
  forall l d m, deleted s t sh m0 d m ->
  Forall (fun p => 1 <= p <= Z.of_nat (length (page_list t))) l ->
  let num p := nth (Z.to_nat (p - 1)) (page_list t) 0 in
  NoDup (map num l) -> (forall n, In n (map num l) -> ~ In n d) ->
  (forall k kids, In (k, kids) (nodes t) -> left (rev (map num l) ++ d) kids <> []) ->
  (forall k kids n, In (k, kids) (nodes t) -> In n (map num l) -> In (PPage n) kids ->
     forall q, In q (map pnum kids) -> ends_like q n -> q = n) ->
  exists m', run_until (DeletePage stack) l m = (Ok tt, m') /\ deleted s t sh m0 (rev (map num l) ++ d) m'.
Proof.
  intros Hreg Hh Hroot l. induction l as [|p l IH]; intros d m Hd Hv num Hnd Hdis Hleft Hends.
  - exists m. split; [reflexivity|exact Hd].
  - inversion Hv as [|? ? V1 V2]; subst. cbn [map] in Hnd. inversion Hnd as [|? ? N1 N2]; subst.
    cbn [map rev] in Hleft. rewrite <- app_assoc in Hleft. change ([num p] ++ d) with (num p :: d) in Hleft.
    destruct (delete_one s t sh m0 d m stack p (num p)) as (m1 & E1 & D1); auto.
    { apply Hdis. left. reflexivity. }
    { intros k kids Hk. split.
      - apply (left_anti _ (rev (map num l) ++ num p :: d)); [|apply (Hleft k kids Hk)]. intros z Hz. apply in_or_app. right. exact Hz.
      - intros Hi. apply (Hends k kids (num p) Hk); [left; reflexivity|exact Hi]. }
    destruct (IH (num p :: d) m1 D1 V2) as (m' & E2 & D2).
    + exact N2.
    + intros n Hn [<-|Hi]; [contradiction|]. apply (Hdis n); [right; exact Hn|exact Hi].
    + exact Hleft.
    + intros k kids n Hk Hn. apply (Hends k kids n Hk). right. exact Hn.
    + exists m'. split; [cbn [run_until]; rewrite E1; exact E2|]. cbn [map rev]. rewrite <- app_assoc. exact D2.
Qed.

Fixpoint prune (d : list Z) (t : ptree) : ptree :=
  match t with
  | PPage n => PPage n
  | PNode n kids => PNode n (flat_map (fun k => if gone d k then [] else [prune d k]) kids)
  end.
Lemma prune_num d t : pnum (prune d t) = pnum t.
Proof. destruct t; reflexivity. Qed.
Lemma prune_kids d kids : map pnum (flat_map (fun k => if gone d k then [] else [prune d k]) kids) = map pnum (left d kids).
Proof.
  induction kids as [|k kids IH]; [reflexivity|]. cbn [flat_map left filter]. fold (left d kids). rewrite map_app, IH.
  destruct (gone d k); cbn [negb map app]; [reflexivity|]. rewrite prune_num. reflexivity.
Qed.
Lemma except_app d a b : except d (a ++ b) = except d a ++ except d b.
Proof. apply filter_app. Qed.
Lemma prune_pages d t : gone d t = false -> page_list (prune d t) = except d (page_list t).
Proof.
  induction t as [n|n kids IH] using ptree_ind'; intros Hg.
  - cbn [gone] in Hg. cbn [prune page_list except filter]. rewrite Hg. reflexivity.
  - cbn [prune page_list]. clear Hg. induction kids as [|k kids IHk]; [reflexivity|]. inversion IH as [|? ? I1 I2]; subst.
    cbn [flat_map]. rewrite except_app, flat_map_app, (IHk I2). f_equal. destruct (gone d k) eqn:E.
    + destruct k as [q|q qk]; [|discriminate]. cbn [gone] in E. cbn [flat_map page_list except filter]. rewrite E. reflexivity.
    + cbn [flat_map]. rewrite app_nil_r. apply I1, eq_refl.
Qed.
Lemma prune_height d t : (height (prune d t) <= height t)%nat.
Proof.
  induction t as [n|n kids IH] using ptree_ind'; [reflexivity|]. cbn [prune height]. apply le_n_S.
  induction kids as [|k kids IHk]; [reflexivity|]. inversion IH as [|? ? I1 I2]; subst. specialize (IHk I2).
  cbn [flat_map fold_right]. destruct (gone d k); cbn [app fold_right]; lia.
Qed.
Lemma prune_forms get d t : (forall n, In n (page_list t) -> exists x, get n = Ok x /\ page_text x) ->
  (forall k kids, In (k, kids) (nodes t) -> exists x, get k = Ok x /\ node_text x (map pnum (left d kids))) ->
  forms_tree get (prune d t).
Proof.
  induction t as [n|n kids IH] using ptree_ind'; intros Hp Hn.
  - cbn [prune forms_tree]. apply Hp. left. reflexivity.
  - cbn [prune forms_tree]. split.
    + rewrite prune_kids. apply Hn. left. reflexivity.
    + apply forms_kids. apply Forall_forall. intros z Hz. apply in_flat_map in Hz. destruct Hz as (k & Hk & Hz).
      destruct (gone d k); [destruct Hz|]. destruct Hz as [<-|[]]. rewrite Forall_forall in IH. apply IH; [exact Hk| |].
      * intros q Hq. apply Hp. cbn [page_list]. apply in_flat_map. eauto.
      * intros q qk Hq. apply Hn. cbn [nodes]. right. apply in_flat_map. eauto.
Qed.
Lemma tree_page_texts get t : forms_tree get t -> forall n, In n (page_list t) -> exists x, get n = Ok x /\ page_text x.
Proof.
  induction t as [m|m kids IH] using ptree_ind'; intros Hf n Hn.
  - destruct Hn as [<-|[]]. exact Hf.
  - cbn [forms_tree] in Hf. destruct Hf as [_ Hk]. apply forms_kids in Hk. cbn [page_list] in Hn. apply in_flat_map in Hn.
    destruct Hn as (k & H1 & H2). rewrite Forall_forall in IH, Hk. apply (IH k); auto.
Qed.

Lemma left_nil kids : left [] kids = kids.
Proof. unfold left. induction kids as [|[n|n ks] kids IH]; [reflexivity| |]; cbn [filter gone existsb negb]; rewrite IH; reflexivity. Qed.

Lemma deleted_start s t sh m : regular_doc s t sh -> NewPDFManipulator s = Ok m -> deleted s t sh m [] m.
Proof.
  intros (Htree & Hnodup & Hincl & Hlen & Hcat & Hshape) Hm. constructor.
  - apply (manip_objects s m Hm).
  - intros k kids Hk. destruct (Hshape k kids Hk) as (_ & x & c & Hx & Hn & Hc). exists x, c. rewrite left_nil. repeat split; auto; [|congruence].
    apply (manip_get s); auto. apply Hincl. apply (nodes_in t k kids Hk).
  - reflexivity.
Qed.

Lemma deleted_pages s t sh m d m' stack : regular_doc s t sh -> NewPDFManipulator s = Ok m -> (height t <= stack)%nat ->
  (exists r ks, t = PNode r ks) -> deleted s t sh m d m' ->
  getAllPageObjectNumbers stack (current m') = Ok (except d (page_list t)).
Proof.
  intros Hreg Hm Hh (r0 & ks0 & Et) Hd. pose proof Hreg as (Htree & Hnodup & Hincl & Hlen & Hcat & Hshape).
  pose proof Htree as (root & x & Hr & Hn & (g & Eg) & Hx & Hv & Hf).
  assert (Hroot : parseObjectRef (sRoot s) = Ok root) by (rewrite Eg; apply parse_ref; [exact Hr|apply space_gap]).
  destruct (Hcat root Hroot) as [Hc1 Hc2].
  assert (Hkeys : forall k, In k (map fst (nodes t)) -> In k (all_nums t)).
  { intros k Hk. apply in_map_iff in Hk. destruct Hk as ([k' kk] & <- & Hk). apply (nodes_in t k' kk Hk). }
  rewrite <- prune_pages by (rewrite Et; reflexivity). apply source_pages; [|pose proof (prune_height d t); lia].
  exists root, x. rewrite prune_num. split; [exact Hr|]. split; [exact Hn|]. split.
  { exists g. cbn [sRoot current]. rewrite (del_src _ _ _ _ _ _ Hd). exact Eg. }
  split.
  { cbn [sGet current]. rewrite (del_other _ _ _ _ _ _ Hd) by (intros H; apply Hc2, Hkeys, H).
    rewrite (manip_get s m root x); auto. }
  split; [exact Hv|]. apply prune_forms.
  - intros n Hp. destruct (tree_page_texts _ _ Hf n Hp) as (y & Hy & Py). exists y. split; [|exact Py]. cbn [sGet current].
    rewrite (del_other _ _ _ _ _ _ Hd).
    + rewrite (manip_get s m n y); auto. apply Hincl, page_in_all, Hp.
    + intros H. apply in_map_iff in H. destruct H as ([k kk] & Ek & Hk). cbn [fst] in Ek. apply (page_not_nodekey t n k kk); auto.
  - intros k kids Hk. destruct (del_nodes _ _ _ _ _ _ Hd k kids Hk) as (y & c & Hy & Ny & _). exists y. cbn [sGet current]. rewrite Hy.
    split; [reflexivity|]. eapply node_is_text; [|exact Ny]. apply (Hshape k kids Hk).
Qed.

Lemma delete_pages s t sh m stack pages : regular_doc s t sh -> NewPDFManipulator s = Ok m -> (height t <= stack)%nat ->
  (exists r ks, t = PNode r ks) ->
  Forall (fun p => 1 <= p <= Z.of_nat (length (page_list t))) pages ->
  let d := map (fun p => nth (Z.to_nat (p - 1)) (page_list t) 0) pages in
  NoDup d -> (forall k kids, In (k, kids) (nodes t) -> left d kids <> []) ->
  (forall k kids n, In (k, kids) (nodes t) -> In n d -> In (PPage n) kids -> forall q, In q (map pnum kids) -> ends_like q n -> q = n) ->
  exists m', DeletePages stack pages m = (Ok tt, m') /\
    getAllPageObjectNumbers stack (current m') = Ok (except d (page_list t)) /\
    (forall k, ~ In k (map fst (nodes t)) -> mget k (mObjects m') = mget k (mObjects m)) /\
    (forall k kids, In (k, kids) (nodes t) -> exists x c, mget k (mObjects m') = Some x /\
       node_is (sh k) x (map pnum (left d kids)) c /\
       (map pnum (left d kids) <> map pnum kids -> c = Z.max 0 (Z.of_nat (length (left d kids)) - 1))).
Proof.
  intros Hreg Hm Hh Hroot Hv d Hnd Hleft Hends.
  destruct (delete_many s t sh m stack Hreg Hh Hroot (rev pages) [] m (deleted_start s t sh m Hreg Hm)) as (m' & E & D).
  - apply Forall_rev, Hv.
  - rewrite map_rev. apply NoDup_rev, Hnd.
  - intros n _ [].
  - intros k kids Hk. rewrite map_rev, rev_involutive, app_nil_r. apply (Hleft k kids Hk).
  - intros k kids n Hk Hn. apply (Hends k kids n Hk). rewrite map_rev in Hn. apply in_rev in Hn. exact Hn.
  - rewrite map_rev, rev_involutive, app_nil_r in D. fold d in D. exists m'. split; [exact E|]. split; [|split].
    + eapply deleted_pages; eassumption.
    + apply (del_other _ _ _ _ _ _ D).
    + intros k kids Hk. destruct (del_nodes _ _ _ _ _ _ D k kids Hk) as (y & c & H1 & H2 & _ & H3). eauto.
Qed.

(* -------------------- insertion -------------------- *)

Lemma ref_texts_app l rs l' rs' : ref_texts l rs -> ref_texts l' rs' -> ref_texts (l ++ l') (rs ++ rs').
Proof. induction 1; intros H'; [exact H'|]. cbn [app]. constructor; auto. Qed.
Lemma ref_texts_firstn l rs i : ref_texts l rs -> ref_texts (firstn i l) (firstn i rs).
Proof. intros H. revert i. induction H; intros [|i]; cbn [firstn]; constructor; auto. Qed.
Lemma ref_texts_skipn l rs i : ref_texts l rs -> ref_texts (skipn i l) (skipn i rs).
Proof. intros H. revert i. induction H as [|n l w1 g w2 rs A B C D E F IH]; intros [|i]; cbn [skipn]; try (constructor; auto; fail); auto. Qed.
Lemma ref_text n : 0 <= n < 2 ^ 63 -> ref_texts [n] [ref n].
Proof.
  intros H. change (ref n) with (decZ n ++ bs " " ++ bs "0" ++ bs " " ++ bs "R").
  constructor; auto using space_gap; try discriminate. constructor.
Qed.
Lemma insert_texts page n l rs : 0 <= n < 2 ^ 63 -> ref_texts l rs -> ref_texts (insert_at page n l) (insert_kid page (ref n) rs).
Proof.
  intros Hn H. unfold insert_at, insert_kid. rewrite (ref_texts_length _ _ H). destruct ((page =? 0) || _).
  - apply ref_texts_app; [exact H|apply ref_text, Hn].
  - apply ref_texts_app; [apply ref_texts_firstn, H|]. change (ref n :: skipn (Z.to_nat (page - 1)) rs) with ([ref n] ++ skipn (Z.to_nat (page - 1)) rs).
    apply ref_texts_app; [apply ref_text, Hn|apply ref_texts_skipn, H].
Qed.
Lemma insert_at_in page n l k : In k (insert_at page n l) <-> k = n \/ In k l.
Proof.
  unfold insert_at. destruct ((page =? 0) || _).
  - rewrite in_app_iff. cbn [In]. intuition.
  - rewrite !in_app_iff. cbn [In]. rewrite <- (firstn_skipn (Z.to_nat (page - 1)) l) at 3. rewrite in_app_iff. intuition.
Qed.
Lemma insert_at_length page n l : length (insert_at page n l) = S (length l).
Proof.
  unfold insert_at. destruct ((page =? 0) || _).
  - rewrite app_length. cbn [length]. lia.
  - rewrite !app_length. cbn [length]. rewrite firstn_length, skipn_length. lia.
Qed.

Lemma insert_page stack m sh r l all page n content : flat_doc m sh r l ->
  getAllPageObjectNumbers stack (mSrc m) = Ok all -> 0 <= page <= Z.of_nat (length all) + 1 ->
  0 <= n < 2 ^ 63 -> page_text content -> ~ In n l -> n <> r -> parseObjectRef (sRoot (mSrc m)) <> Ok n ->
  parseObjectRef (sRoot (mSrc m)) <> Ok r -> Z.of_nat (length l) + 1 < 2 ^ 63 - 1 ->
  exists m', InsertPage stack page n content m = Ok m' /\ mSrc m' = mSrc m /\
    mget n (mObjects m') = Some content /\
    (exists t, mget r (mObjects m') = Some t /\ node_is sh t (insert_at page n l) (Z.of_nat (length l) + 1)) /\
    (forall k, k <> n -> k <> r -> mget k (mObjects m') = mget k (mObjects m)) /\
    flat_doc m' sh r (insert_at page n l).
Proof.
  intros (Hs & Hrl & Hlen & Hroot & Htree & t & c & Ht & Hnode & Hc) Hall Hp Hn Hct Hnl Hnr Hcn Hcr Hlen2.
  destruct (node_extract sh t l c Hs Hnode) as (z & arr & Ex & Htx).
  pose proof (insert_texts page n l _ Hn Htx) as Htx'.
  destruct (node_edit sh t l c _ _ Hs Hnode Hc Htx') as [N _]; [rewrite insert_at_length; lia|].
  rewrite insert_at_length in N. replace (Z.of_nat (S (length l))) with (Z.of_nat (length l) + 1) in N by lia.
  unfold InsertPage. rewrite Hall. cbn [rbind].
  destruct (Z.ltb_spec page 0); [lia|]. destruct (Z.ltb_spec (Z.of_nat (length all) + 1) page); [lia|]. cbn [orb].
  rewrite Hroot. cbn [rbind]. rewrite Ht, Ex. cbn zeta.
  remember (set_count (setDictValue t (bs "/Kids") (kids_array (insert_kid page (ref n) (parseObjectRefArray (z :: arr)))))
              (Z.of_nat (length (insert_kid page (ref n) (parseObjectRefArray (z :: arr)))))) as t' eqn:Et'.
  assert (Gn : mget n (mset r t' (mset n content (mObjects m))) = Some content).
  { rewrite mget_mset_neq by exact Hnr. apply mget_mset_eq. }
  assert (Go : forall k, k <> n -> k <> r -> mget k (mset r t' (mset n content (mObjects m))) = mget k (mObjects m)).
  { intros k H1 H2. rewrite !mget_mset_neq by assumption. reflexivity. }
  eexists. split; [reflexivity|]. cbn [mSrc mObjects]. split; [reflexivity|]. split; [exact Gn|]. split.
  { exists t'. split; [apply mget_mset_eq|exact N]. }
  split; [exact Go|].
  split; [exact Hs|]. split; [rewrite insert_at_in; intuition congruence|]. split; [rewrite insert_at_length; lia|].
  split; [exact Hroot|]. split.
  2:{ exists t', (Z.of_nat (length l) + 1). split; [apply mget_mset_eq|]. split; [exact N|lia]. }
  destruct Htree as (root & x & Hr & Hn' & (g & Eg) & Hx & Hv & Hf). cbn [sRoot current mSrc] in *.
  assert (Hpr : parseObjectRef (sRoot (mSrc m)) = Ok root) by (rewrite Eg; apply parse_ref; [exact Hr|apply space_gap]).
  assert (root <> n) by (intros ->; contradiction). assert (root <> r) by (intros ->; contradiction).
  exists root, x. split; [exact Hr|]. split; [exact Hn'|]. split; [exists g; exact Eg|]. split.
  { cbn [sGet current mObjects mSrc] in *. rewrite Go by assumption. exact Hx. }
  split; [exact Hv|]. cbn [forms_tree]. split.
  - exists t'. split; [cbn [sGet current mObjects]; rewrite mget_mset_eq; reflexivity|].
    rewrite map_map. cbn [pnum]. rewrite map_id. eapply node_is_text; [exact Hs|exact N].
  - apply forms_kids. apply Forall_forall. intros k Hk. apply in_map_iff in Hk. destruct Hk as (q & <- & Hq). cbn [forms_tree].
    apply insert_at_in in Hq. cbn [sGet current mObjects]. destruct Hq as [->|Hq].
    + exists content. rewrite Gn. auto.
    + assert (q <> n) by congruence. assert (q <> r) by congruence. rewrite Go by assumption.
      destruct (tree_page_texts _ _ Hf q) as (y & Hy & Py); [|exists y; split; [exact Hy|exact Py]].
      cbn [page_list]. apply in_flat_map. exists (PPage q). split; [apply in_map; exact Hq|left; reflexivity].
Qed.
Lemma flat_pages l : flat_map page_list (map PPage l) = l.
Proof. induction l as [|n l IH]; [reflexivity|]. cbn [map flat_map page_list app]. rewrite IH. reflexivity. Qed.
Lemma flat_height r l : (height (PNode r (map PPage l)) <= 2)%nat.
Proof. cbn [height]. apply le_n_S. induction l as [|n l IH]; cbn [map fold_right height]; lia. Qed.
Lemma flat_doc_pages m sh r l stack : flat_doc m sh r l -> (2 <= stack)%nat -> getAllPageObjectNumbers stack (current m) = Ok l.
Proof.
  intros (_ & _ & _ & _ & Ht & _) Hs. rewrite (source_pages _ _ stack Ht).
  - cbn [page_list]. rewrite flat_pages. reflexivity.
  - pose proof (flat_height r l). lia.
Qed.
