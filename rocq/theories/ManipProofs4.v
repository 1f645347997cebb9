(** Proofs about page manipulation: deleting and inserting pages. *)
From Verif Require Import Util Scan WriterModel ParseModel ReadProofs ManipModel ManipSpec ManipProofs ManipProofs2 ManipProofs3.
Local Open Scope Z_scope.

Ltac free :=
  match goal with
  | |- key_name _ => first [apply key_Kids|apply key_Count|apply key_Type]
  | |- contains _ (bs _) = false => reflexivity
  | |- contains _ [] = false => reflexivity
  | |- contains ?k (bs ?x ++ _) = false => apply contains_other; [free|free|reflexivity|free]
  | H : contains ?k ?x = false |- contains ?k ?x = false => exact H
  | H : contains ?k ?x = false |- contains ?k (?x ++ bs ?y ++ ?r) = false =>
      apply contains_app_stop; [free|exact H|apply stopper_key; free|free]
  | H : ~ In "/"%byte ?x |- contains ?k (?x ++ _) = false => apply contains_after; [free|free|exact H]
  end.

Lemma node_set_kids sh arr g l count new : good_shape sh -> ref_array l arr -> forallb space_byte g = true -> ~ In "/"%byte count ->
  setDictValue (node_at sh (arr ++ g) count) (bs "/Kids") new = node_at sh (new ++ bs " " ++ g) count.
Proof.
  intros (_ & Hk & _ & _ & _) Ha Hg Hc. destruct (Hk (bs "/Kids") (or_introl eq_refl)) as (H1 & H2 & H3).
  pose proof (ref_array_slash _ _ Ha) as Hs. pose proof (ref_array_flat _ _ Ha) as Hf.
  assert (Hgs : ~ In "/"%byte g) by (intros Hi; rewrite forallb_forall in Hg; specialize (Hg _ Hi); discriminate).
  unfold node_at. destruct (kids_first sh).
  - replace (s_pre sh ++ bs "/Kids" ++ (arr ++ g) ++ s_mid sh ++ bs "/Count" ++ count ++ s_post sh)
      with (s_pre sh ++ bs "/Kids" ++ arr ++ (g ++ s_mid sh ++ bs "/Count" ++ count ++ s_post sh)) by (rewrite <- !app_assoc; reflexivity).
    rewrite set_array; [rewrite <- !app_assoc; reflexivity|apply key_Kids|exact H1| |exact Hf]. free.
  - replace (s_pre sh ++ bs "/Count" ++ count ++ s_mid sh ++ bs "/Kids" ++ (arr ++ g) ++ s_post sh)
      with ((s_pre sh ++ bs "/Count" ++ count ++ s_mid sh) ++ bs "/Kids" ++ arr ++ (g ++ s_post sh)) by (rewrite <- !app_assoc; reflexivity).
    rewrite set_array; [rewrite <- !app_assoc; reflexivity|apply key_Kids| | |exact Hf]; free.
Qed.

Definition key_rest (key s : bytes) : option (bytes * bytes) := option_map (fun r => ([], r)) (m_key_rest key s).
Lemma key_rest_snd key s : option_map snd (key_rest key s) = m_key_rest key s.
Proof. unfold key_rest. destruct (m_key_rest key s); reflexivity. Qed.
Lemma needs_key_rest key : needs (key_rest key) key.
Proof. intros s H. unfold key_rest, m_key_rest. unfold lit. rewrite H. reflexivity. Qed.
Lemma replace_all_ext (f g : bytes -> option bytes) repl s k : (forall x, f x = g x) -> replace_all f repl s k = replace_all g repl s k.
Proof.
  intros H. revert k. induction s as [|c s IH]; intros k; [reflexivity|]. cbn [replace_all].
  destruct k; [|apply IH]. rewrite H. destruct (g (c :: s)); rewrite IH; reflexivity.
Qed.

Lemma count_fires w c b : gap w -> 0 <= c -> word_ends b -> m_key_rest (bs "/Count") (bs "/Count" ++ w ++ decZ c ++ b) = Some b.
Proof.
  intros Hw Hc Hb. unfold m_key_rest. rewrite (lit_app (bs "/Count")). cbn [obind].
  rewrite ws1_gap; [|exact Hw|apply word_not_ws, word_decZ]. cbn [obind].
  rewrite decZ_nonneg by exact Hc. rewrite digits1_app; [reflexivity|apply dec_nonnil|apply dec_digits|].
  unfold word_ends in Hb. destruct b as [|z b]; [exact I|]. cbn [starts_with] in Hb. destruct z; try reflexivity; discriminate Hb.
Qed.

Lemma set_count_at a w c b n : sole (bs "/Count") a b -> gap w -> 0 <= c -> word_ends b ->
  set_count (a ++ bs "/Count" ++ w ++ decZ c ++ b) n = a ++ bs "/Count " ++ decZ n ++ b.
Proof.
  intros [Ha Hb] Hw Hc He. unfold set_count.
  rewrite (replace_all_ext _ (fun s => option_map snd (key_rest (bs "/Count") s))) by (intros x; rewrite key_rest_snd; reflexivity).
  replace (a ++ bs "/Count" ++ w ++ decZ c ++ b) with (a ++ (bs "/Count" ++ w ++ decZ c) ++ b) by (rewrite <- !app_assoc; reflexivity).
  rewrite (replace_one _ (bs "/Count")); [rewrite <- !app_assoc; reflexivity|apply needs_key_rest|discriminate|exact Ha| | | |exact Hb].
  - rewrite <- !app_assoc. apply stopper_key; apply key_Count.
  - discriminate.
  - rewrite key_rest_snd. rewrite <- ?app_assoc. apply count_fires; assumption.
Qed.

(** Where the count stands in a node. *)
Lemma node_count_split sh v count : exists a b, node_at sh v count = a ++ bs "/Count" ++ count ++ b /\
  (good_shape sh -> ~ In "/"%byte v -> sole (bs "/Count") a b /\ word_ends b) /\
  forall count', node_at sh v count' = a ++ bs "/Count" ++ count' ++ b.
Proof.
  unfold node_at. destruct (kids_first sh) eqn:E.
  - exists (s_pre sh ++ bs "/Kids" ++ v ++ s_mid sh), (s_post sh). split; [rewrite <- ?app_assoc; reflexivity|]. split.
    + intros (_ & Hk & _ & _ & He) Hv. destruct (Hk (bs "/Count") (or_intror (or_introl eq_refl))) as (H1 & H2 & H3).
      rewrite E in He. split; [split|exact He]; free.
    + intros count'. rewrite <- ?app_assoc. reflexivity.
  - exists (s_pre sh), (s_mid sh ++ bs "/Kids" ++ v ++ s_post sh). split; [rewrite <- ?app_assoc; reflexivity|]. split.
    + intros (_ & Hk & _ & _ & He) Hv. destruct (Hk (bs "/Count") (or_intror (or_introl eq_refl))) as (H1 & H2 & H3).
      rewrite E in He. split; [split; free|]. unfold word_ends in He |- *. destruct (s_mid sh); [discriminate He|exact He].
    + intros count'. rewrite <- ?app_assoc. reflexivity.
Qed.

Lemma node_set_count sh v w c n : good_shape sh -> ~ In "/"%byte v -> gap w -> 0 <= c ->
  set_count (node_at sh v (w ++ decZ c)) n = node_at sh v (bs " " ++ decZ n).
Proof.
  intros Hs Hv Hw Hc. destruct (node_count_split sh v (w ++ decZ c)) as (a & b & E & H & E').
  destruct (H Hs Hv) as [H1 H2]. rewrite E. rewrite <- app_assoc. rewrite set_count_at by assumption.
  rewrite E'. reflexivity.
Qed.
Lemma node_adjust sh v w c d : good_shape sh -> ~ In "/"%byte v -> gap w -> int64 c ->
  adjust_count (node_at sh v (w ++ decZ c)) d = node_at sh v (bs " " ++ decZ (Z.max 0 (c + d))).
Proof.
  intros Hs Hv Hw Hc. destruct (node_count_split sh v (w ++ decZ c)) as (a & b & E & H & E').
  destruct (H Hs Hv) as [H1 H2]. unfold adjust_count. rewrite E. rewrite <- app_assoc.
  rewrite extract_spaced by (try apply key_Count; try apply word_decZ; try apply H1; assumption).
  rewrite current_decZ by exact Hc.
  rewrite set_spaced by (try apply key_Count; try apply word_decZ; assumption).
  rewrite E'. rewrite <- ?app_assoc. reflexivity.
Qed.

Lemma has_value_slash x r key v : key_name key -> has_value (x ++ bs "/") key v -> ~ In "/"%byte (tl v) -> starts_with (beqb "/") v = true -> (1 < length v)%nat ->
  contains key ("/"%byte :: r) = false -> has_value (x ++ "/"%byte :: r) key v.
Proof.
  intros Hk H Hv0 Hv1 Hv2 Hc.
  assert (Hend : forall p b, x ++ ["/"%byte] = p ++ v ++ b -> b = [] -> False).
  { intros p b E ->. rewrite app_nil_r in E. apply last_app in E. destruct E as [->|(v' & Ev & _)]; [cbn in Hv2; lia|].
    subst v. destruct v' as [|c v']; [cbn in Hv2; lia|]. apply Hv0. cbn [app tl]. apply in_or_app. right. left. reflexivity. }
  change (bs "/") with ["/"%byte] in H.
  inversion H as [a w b E Ha Hw Hv Hb|a m b E Em Hs Hm Hb Ep|a w b E Ha Hw Hv].
  - replace (a ++ key ++ w ++ v ++ b) with ((a ++ key ++ w) ++ v ++ b) in E by (rewrite <- ?app_assoc; reflexivity).
    pose proof (Hend _ _ E) as Hb0. rewrite app_assoc in E. destruct (last_app _ _ _ _ E) as [->|(b' & -> & ->)]; [exfalso; auto|].
    apply (hv_word _ _ _ a w (b' ++ "/"%byte :: r)); auto.
    + rewrite <- ?app_assoc. reflexivity.
    + unfold word_ends in Hb |- *. destruct b' as [|c b']; [discriminate Hb|exact Hb].
  - replace (a ++ key ++ v ++ b) with ((a ++ key) ++ v ++ b) in E by (rewrite <- !app_assoc; reflexivity).
    pose proof (Hend _ _ E) as Hb0. rewrite app_assoc in E. destruct (last_app _ _ _ _ E) as [->|(b' & -> & ->)]; [exfalso; auto|].
    apply (hv_name _ _ _ a m (b' ++ "/"%byte :: r)); auto.
    + rewrite <- !app_assoc. reflexivity.
    + destruct Hs as [Hs1 Hs2]. split; [exact Hs1|]. apply contains_app_stop; [exact Hk| |apply stopper_slash, Hk|exact Hc].
      destruct (contains key b') eqn:X; [|reflexivity]. rewrite <- (contains_firstn _ (length b') _ Hs2). rewrite firstn_app_all. symmetry. exact X.
    + unfold name_ends in Hb |- *. destruct b' as [|c b']; [reflexivity|exact Hb].
  - destruct Hv as (z & Ez & _). subst v. discriminate Hv1.
Qed.

Lemma node_is_text sh t l c : good_shape sh -> node_is sh t l c -> node_text t l.
Proof.
  intros Hg (arr & g & w & Ha & Hsp & Hw & ->). pose proof (ref_array_slash _ _ Ha) as Hs. pose proof (ref_array_flat _ _ Ha) as Hf.
  assert (Hgs : ~ In "/"%byte g) by (intros Hi; rewrite forallb_forall in Hsp; specialize (Hsp _ Hi); discriminate).
  assert (Hv : ~ In "/"%byte (arr ++ g)) by (rewrite in_app_iff; tauto).
  assert (Hc : ~ In "/"%byte (w ++ decZ c)).
  { rewrite in_app_iff. intros [Hi|Hi]; [apply (gap_slash w); assumption|apply (plain_word_slash _ (plain_word_decZ c) Hi)]. }
  pose proof Hg as (Ht & Hk & Hm & Hp & _). destruct (Hk (bs "/Kids") (or_introl eq_refl)) as (H1 & H2 & H3). split.
  - unfold node_at. destruct (kids_first sh).
    + change (bs "/Kids" ++ (arr ++ g) ++ s_mid sh ++ bs "/Count" ++ (w ++ decZ c) ++ s_post sh) with
        ("/"%byte :: bs "Kids" ++ (arr ++ g) ++ s_mid sh ++ bs "/Count" ++ (w ++ decZ c) ++ s_post sh).
      apply has_value_slash; [apply key_Type|exact Ht|cbn; intuition discriminate|reflexivity|cbn; lia|].
      change (contains (bs "/Type") (bs "/Kids" ++ (arr ++ g) ++ s_mid sh ++ bs "/Count" ++ (w ++ decZ c) ++ s_post sh) = false). free.
    + change (bs "/Count" ++ (w ++ decZ c) ++ s_mid sh ++ bs "/Kids" ++ (arr ++ g) ++ s_post sh) with
        ("/"%byte :: bs "Count" ++ (w ++ decZ c) ++ s_mid sh ++ bs "/Kids" ++ (arr ++ g) ++ s_post sh).
      apply has_value_slash; [apply key_Type|exact Ht|cbn; intuition discriminate|reflexivity|cbn; lia|].
      change (contains (bs "/Type") (bs "/Count" ++ (w ++ decZ c) ++ s_mid sh ++ bs "/Kids" ++ (arr ++ g) ++ s_post sh) = false). free.
  - exists arr. split; [|exact Ha]. unfold node_at. destruct (kids_first sh).
    + apply (hv_array _ _ _ (s_pre sh) [] (g ++ s_mid sh ++ bs "/Count" ++ (w ++ decZ c) ++ s_post sh)); auto.
      rewrite <- !app_assoc. reflexivity.
    + apply (hv_array _ _ _ (s_pre sh ++ bs "/Count" ++ (w ++ decZ c) ++ s_mid sh) [] (g ++ s_post sh)); auto.
      * rewrite <- !app_assoc. reflexivity.
      * free.
Qed.

(** References again as an array. *)
Lemma kids_array_refs l rs : ref_texts l rs -> ref_array l (kids_array rs).
Proof.
  intros H. unfold kids_array. exists (join (bs " ") rs ++ bs " "). split; [rewrite <- app_assoc; reflexivity|].
  assert (G : forall pre, forallb space_byte pre = true -> ref_list l (pre ++ join (bs " ") rs ++ bs " ")).
  { induction H as [|n l w1 g w2 rs Hn Hw1 Hg Hg2 Hw2 H IH]; intros pre Hp.
    - constructor. cbn [join app]. rewrite forallb_app, Hp. reflexivity.
    - destruct rs as [|r rs].
      + cbn [join]. rewrite <- !app_assoc. apply rl_cons; auto. inversion H; subst. constructor. reflexivity.
      + change (join (bs " ") ((decZ n ++ w1 ++ g ++ w2 ++ bs "R") :: r :: rs)) with
          ((decZ n ++ w1 ++ g ++ w2 ++ bs "R") ++ bs " " ++ join (bs " ") (r :: rs)).
        rewrite <- !app_assoc. apply rl_cons; [exact Hp|exact Hn|exact Hw1|exact Hg|exact Hg2|exact Hw2|]. apply (IH (bs " ")). reflexivity. }
  apply (G [] eq_refl).
Qed.

Lemma digits_then (y r : bytes) : forallb is_digit y = true -> match r with [] => True | c :: _ => is_digit c = false end ->
  take_while is_digit (y ++ r) = y /\ drop_while is_digit (y ++ r) = r.
Proof. intros H1 H2. split; [apply take_while_app|apply drop_while_app]; assumption. Qed.

(** Which references the deletion of page object [n] removes. *)
Lemma page_ref_parts n s : 0 <= n -> m_page_ref n s = Some tt ->
  take_while is_digit s = decZ n /\ exists r, ws1 (drop_while is_digit s) = Some r /\ starts_with is_digit r = true.
Proof.
  intros Hn H. unfold m_page_ref in H. destruct (lit (decZ n) s) as [r|] eqn:E; [|discriminate]. cbn [obind] in H.
  apply lit_some in E. subst s. destruct (ws1 r) as [r2|] eqn:E; [|discriminate]. cbn [obind] in H.
  rewrite decZ_nonneg by exact Hn.
  assert (Hr : match r with [] => True | c :: _ => is_digit c = false end).
  { destruct r as [|c r]; [exact I|]. cbn [ws1] in E. destruct (is_ws c) eqn:W; [|discriminate]. clear - W. destruct c; try reflexivity; discriminate W. }
  destruct (digits_then (dec (Z.to_N n)) r) as [T1 T2]; [apply dec_digits|exact Hr|].
  rewrite T1, T2. split; [reflexivity|]. exists r2. split; [exact E|].
  unfold digits1 in H. destruct r2 as [|c r2]; [discriminate|]. cbn [take_while] in H. cbn [starts_with].
  destruct (is_digit c); [reflexivity|discriminate].
Qed.
Lemma gap_no_digit w r : gap w -> match w ++ r with [] => True | c :: _ => is_digit c = false end.
Proof.
  intros [H1 H2]. destruct w as [|c w]; [contradiction|]. cbn [app]. cbn [forallb] in H2. apply andb_prop in H2. destruct H2 as [H2 _].
  clear - H2. destruct c; try reflexivity; discriminate H2.
Qed.
Lemma forallb_skipn {A} (f : A -> bool) i l : forallb f l = true -> forallb f (skipn i l) = true.
Proof. revert i. induction l as [|a l IH]; intros [|i] H; auto. cbn [forallb skipn] in *. apply andb_prop in H. apply IH, H. Qed.
Lemma skipn_app_l {A} i (a b : list A) : (i < length a)%nat -> skipn i (a ++ b) = skipn i a ++ b.
Proof. intros H. rewrite skipn_app. replace (i - length a)%nat with 0%nat by lia. reflexivity. Qed.

Lemma no_digit_no_hit n s : 0 <= n -> starts_with is_digit s = false -> m_page_ref n s = None.
Proof.
  intros Hn Hs. destruct (m_page_ref n s) as [[]|] eqn:E; [|reflexivity]. apply page_ref_parts in E; [|exact Hn]. destruct E as [E _].
  pose proof (decZ_nonnil n). destruct s as [|c s]; [cbn in E; congruence|]. cbn [starts_with] in Hs. cbn [take_while] in E. rewrite Hs in E. congruence.
Qed.
Lemma space_no_start w r i : forallb space_byte w = true -> (i < length w)%nat -> starts_with is_digit (skipn i (w ++ r)) = false.
Proof.
  intros Hw Hi. rewrite skipn_app_l by exact Hi. pose proof (forallb_skipn _ i _ Hw) as H.
  destruct (skipn i w) as [|c x] eqn:E.
  - apply (f_equal (@length byte)) in E. rewrite skipn_length in E. cbn in E. lia.
  - cbn [app starts_with]. cbn [forallb] in H. apply andb_prop in H. destruct H as [H _]. clear - H. destruct c; try reflexivity; discriminate H.
Qed.

Lemma page_ref_hits n k w1 g w2 : 0 <= n -> 0 <= k -> gap w1 -> g <> [] -> forallb is_digit g = true -> gap w2 ->
  found (find (m_page_ref n) (decZ k ++ w1 ++ g ++ w2 ++ bs "R")) = true <-> ends_like k n.
Proof.
  intros Hn Hk Hw1 Hg Hg2 Hw2. split.
  - destruct (find (m_page_ref n) (decZ k ++ w1 ++ g ++ w2 ++ bs "R")) as [[i []]|] eqn:E; [|discriminate]. intros _.
    apply find_some in E. destruct E as (E & Hi & _).
    destruct (Nat.lt_ge_cases i (length (decZ k))) as [H1|H1].
    + rewrite skipn_app_l in E by exact H1.
      pose proof (proj1 (page_ref_parts _ _ Hn E)) as T.
      assert (Hy : forallb is_digit (skipn i (decZ k)) = true).
      { apply forallb_skipn. rewrite decZ_nonneg by exact Hk. apply dec_digits. }
      rewrite (proj1 (digits_then _ (w1 ++ g ++ w2 ++ bs "R") Hy (gap_no_digit _ _ Hw1))) in T.
      exists (firstn i (decZ k)). rewrite <- T. symmetry. apply firstn_skipn.
    + exfalso. rewrite skipn_app_r in E by exact H1. remember (i - length (decZ k))%nat as j eqn:Ej. clear Ej.
      destruct (Nat.lt_ge_cases j (length w1)) as [H2|H2].
      { rewrite no_digit_no_hit in E; [discriminate|exact Hn|]. apply space_no_start; [apply Hw1|exact H2]. }
      rewrite skipn_app_r in E by exact H2. remember (j - length w1)%nat as j2 eqn:Ej. clear Ej.
      destruct (Nat.lt_ge_cases j2 (length g)) as [H3|H3].
      { rewrite skipn_app_l in E by exact H3. pose proof (proj2 (page_ref_parts _ _ Hn E)) as (r & R1 & R2).
        rewrite (proj2 (digits_then _ (w2 ++ bs "R") (forallb_skipn _ j2 _ Hg2) (gap_no_digit _ _ Hw2))) in R1.
        rewrite ws1_gap in R1; [|exact Hw2|reflexivity]. injection R1 as <-. discriminate. }
      rewrite skipn_app_r in E by exact H3. remember (j2 - length g)%nat as j3 eqn:Ej. clear Ej.
      destruct (Nat.lt_ge_cases j3 (length w2)) as [H4|H4].
      { rewrite no_digit_no_hit in E; [discriminate|exact Hn|]. apply space_no_start; [apply Hw2|exact H4]. }
      rewrite skipn_app_r in E by exact H4. rewrite no_digit_no_hit in E; [discriminate|exact Hn|].
      destruct (j3 - length w2)%nat as [|[|j4]]; reflexivity.
  - intros (x & E). rewrite E. rewrite <- app_assoc.
    destruct (find (m_page_ref n) (x ++ decZ n ++ w1 ++ g ++ w2 ++ bs "R")) as [[i u]|] eqn:F; [reflexivity|].
    pose proof (find_none _ _ F (length x) ltac:(rewrite app_length; lia)) as H. rewrite skipn_app_all in H.
    exfalso. unfold m_page_ref in H. rewrite lit_app in H. cbn [obind] in H.
    rewrite ws1_gap in H; [|exact Hw1|]. 2:{ destruct g as [|c g]; [contradiction|]. cbn [app starts_with]. cbn [forallb] in Hg2.
      apply andb_prop in Hg2. destruct Hg2 as [Hg2 _]. clear - Hg2. destruct c; try reflexivity; discriminate Hg2. }
    cbn [obind] in H. rewrite digits1_app in H; [|exact Hg|exact Hg2|apply gap_no_digit, Hw2]. cbn [obind] in H.
    rewrite ws1_gap in H; [|exact Hw2|reflexivity]. discriminate H.
Qed.

(* -------------------- finding the parent -------------------- *)

Lemma pnum_in k : In (pnum k) (all_nums k).
Proof. destruct k; left; reflexivity. Qed.
Lemma nodup_flat {A} (f : A -> list Z) k l : NoDup (flat_map f (k :: l)) ->
  NoDup (f k) /\ NoDup (flat_map f l) /\ forall x, In x (f k) -> ~ In x (flat_map f l).
Proof.
  cbn [flat_map]. generalize (flat_map f l). intros r. generalize (f k). intros a. induction a as [|x a IH]; intros H.
  - split; [constructor|]. split; [exact H|]. intros x [].
  - cbn [app] in H. inversion H as [|? ? H1 H2]; subst. destruct (IH H2) as (I1 & I2 & I3). rewrite in_app_iff in H1. split; [|split].
    + constructor; tauto.
    + exact I2.
    + intros y [<-|Hy]; [tauto|apply I3, Hy].
Qed.
Lemma nodes_in t k kids : In (k, kids) (nodes t) -> In k (all_nums t) /\ forall x, In x kids -> incl (all_nums x) (tl (all_nums t)).
Proof.
  induction t as [n|n ks IH] using ptree_ind'; [intros []|]. cbn [nodes all_nums tl]. intros [E|H].
  - assert (n = k /\ ks = kids) as [-> ->] by (split; congruence). split; [left; reflexivity|].
    intros x Hx y Hy. apply in_flat_map. eauto.
  - apply in_flat_map in H. destruct H as (z & Hz & H). rewrite Forall_forall in IH. destruct (IH z Hz H) as [I1 I2].
    split; [right; apply in_flat_map; eauto|]. intros x Hx y Hy. apply in_flat_map. exists z. split; [exact Hz|].
    specialize (I2 x Hx y Hy). destruct (all_nums z); [destruct I2|right; exact I2].
Qed.
Lemma leaf_in t k kids n : In (k, kids) (nodes t) -> In (PPage n) kids -> In n (tl (all_nums t)).
Proof. intros H Hn. destruct (nodes_in t k kids H) as [_ H2]. apply (H2 _ Hn). left. reflexivity. Qed.
Lemma tl_in {A} (x : A) l : In x (tl l) -> In x l.
Proof. destruct l; [intros []|intros H; right; exact H]. Qed.

Lemma find_absent_kids get go self n kids rs : map parseObjectRef rs = map Ok (map pnum kids) ->
  Forall (forms_tree get) kids -> ~ In n (flat_map all_nums kids) ->
  (forall k, In k kids -> go (pnum k) = Err) ->
  find_in_kids get go self n rs = Err.
Proof.
  revert rs. induction kids as [|k kids IH]; intros [|r rs] E Hf Hn Hg; try discriminate; [reflexivity|].
  cbn [map] in E. injection E as E1 E2. inversion Hf as [|? ? F1 F2]; subst. cbn [flat_map] in Hn. rewrite in_app_iff in Hn.
  cbn [find_in_kids]. rewrite E1.
  destruct (Z.eqb_spec (pnum k) n) as [E|_]; [exfalso; apply Hn; left; rewrite <- E; apply pnum_in|].
  assert (IH' : find_in_kids get go self n rs = Err) by (apply IH; auto; intros; apply Hg; right; assumption).
  rewrite IH', (Hg k (or_introl eq_refl)).
  assert (exists x, get (pnum k) = Ok x) as (x & Ex).
  { destruct k; cbn [forms_tree pnum] in *; [destruct F1 as (x & H & _); eauto|destruct F1 as [(x & H & _) _]; eauto]. }
  rewrite Ex. destruct (bytes_eqb _ _); reflexivity.
Qed.
Lemma parent_step stack get n m kids : forms_tree get (PNode m kids) ->
  exists rs, map parseObjectRef rs = map Ok (map pnum kids) /\
    findParentRec (S stack) get n m = find_in_kids get (findParentRec stack get n) m n rs.
Proof.
  intros Hf. cbn [forms_tree] in Hf. destruct Hf as [(x & Hx & Ht & v & Hv & Ha) Hk].
  cbn [findParentRec]. rewrite Hx. cbn [rbind]. rewrite (has_value_extract _ _ _ key_Type Ht), page_not_node.
  rewrite (has_value_extract _ _ _ key_Kids Hv).
  assert (Hne : exists c v', v = c :: v') by (destruct Ha as (s & -> & _); eauto).
  destruct Hne as (c & v' & ->). exists (parseObjectRefArray (c :: v')). split; [|reflexivity].
  apply ref_texts_parse, parse_ref_array, Ha.
Qed.
Lemma height_kids n kids k stack : In k kids -> (height (PNode n kids) <= S stack)%nat -> (height k <= stack)%nat.
Proof.
  cbn [height]. intros Hk H. assert (height k <= fold_right (fun k m => Nat.max (height k) m) 0 kids)%nat; [|lia].
  clear H. induction kids as [|z kids IH]; [destruct Hk|]. cbn [fold_right]. destruct Hk as [->|Hk]; [lia|specialize (IH Hk); lia].
Qed.
Lemma parent_absent get t n : forms_tree get t -> ~ In n (all_nums t) -> forall stack, (height t <= stack)%nat ->
  findParentRec stack get n (pnum t) = Err.
Proof.
  induction t as [m|m kids IH] using ptree_ind'; intros Hf Hn stack Hs.
  - destruct Hf as (x & Hx & Hp). destruct stack as [|stack]; [cbn [height] in Hs; lia|]. cbn [findParentRec pnum]. rewrite Hx. cbn [rbind].
    rewrite (has_value_extract _ _ _ key_Type Hp), bytes_eqb_refl. reflexivity.
  - destruct stack as [|stack]; [cbn [height] in Hs; lia|]. cbn [pnum]. destruct (parent_step stack get n m kids Hf) as (rs & E & ->).
    cbn [forms_tree] in Hf. destruct Hf as [_ Hk]. apply forms_kids in Hk. cbn [all_nums In] in Hn.
    apply (find_absent_kids _ _ _ _ kids); auto. intros k Hkk. rewrite Forall_forall in IH, Hk.
    apply IH; auto; [|apply (height_kids m kids); assumption]. intros Hi. apply Hn. right. apply in_flat_map. eauto.
Qed.
Lemma parent_found get t n par pk : In (par, pk) (nodes t) -> In (PPage n) pk -> forms_tree get t -> NoDup (all_nums t) ->
  forall stack, (height t <= stack)%nat -> findParentRec stack get n (pnum t) = Ok par.
Proof.
  induction t as [m|m kids IH] using ptree_ind'; intros Hp Hn Hf Hd stack Hs; [destruct Hp|].
  destruct stack as [|stack]; [cbn [height] in Hs; lia|]. cbn [pnum]. destruct (parent_step stack get n m kids Hf) as (rs & E & ->).
  cbn [forms_tree] in Hf. destruct Hf as [_ Hk]. apply forms_kids in Hk. cbn [all_nums] in Hd. inversion Hd as [|? ? Hm Hd']; subst.
  cbn [nodes] in Hp.
  assert (Hcase : (par = m /\ In (PPage n) kids) \/ (exists z, In z kids /\ In (par, pk) (nodes z))).
  { destruct Hp as [Hp|Hp]; [left; split; [congruence|]; assert (kids = pk) as -> by congruence; exact Hn|right; apply in_flat_map in Hp; exact Hp]. }
  assert (Hh : forall k, In k kids -> (height k <= stack)%nat) by (intros k Hkk; apply (height_kids m kids); assumption).
  clear Hp Hs Hm Hd. revert rs E. induction kids as [|k kids IHk]; intros rs E; [destruct Hcase as [[_ []]|(z & [] & _)]|].
  destruct rs as [|r rs]; [discriminate|]. cbn [map] in E. injection E as E1 E2.
  inversion Hk as [|? ? K1 K2]; subst. inversion IH as [|? ? I1 I2]; subst.
  destruct (nodup_flat _ _ _ Hd') as (D1 & D2 & D3). cbn [find_in_kids]. rewrite E1.
  assert (Hrest : (par = m /\ In (PPage n) kids) \/ (exists z, In z kids /\ In (par, pk) (nodes z)) ->
                  find_in_kids get (findParentRec stack get n) m n rs = Ok par).
  { intros Hc. apply IHk; auto. intros; apply Hh; right; assumption. }
  assert (Hin : (par = m /\ In (PPage n) kids) \/ (exists z, In z kids /\ In (par, pk) (nodes z)) -> In n (flat_map all_nums kids)).
  { intros [[_ H]|(z & Hz & H)]; apply in_flat_map; [exists (PPage n); split; [exact H|left; reflexivity]|].
    exists z. split; [exact Hz|]. apply tl_in. eapply leaf_in; eassumption. }
  assert (exists x, get (pnum k) = Ok x) as (x & Ex).
  { destruct k; cbn [forms_tree pnum] in *; [destruct K1 as (x & H & _); eauto|destruct K1 as [(x & H & _) _]; eauto]. }
  assert (Hlater : (par = m /\ In (PPage n) kids) \/ (exists z, In z kids /\ In (par, pk) (nodes z)) ->
     (if pnum k =? n then Ok m else match get (pnum k) with
      | Ok t => if bytes_eqb (extractDictValue t (bs "/Type")) (bs "/Pages") then
          match findParentRec stack get n (pnum k) with Ok p => Ok p | Panic => Panic | Err => find_in_kids get (findParentRec stack get n) m n rs end
          else find_in_kids get (findParentRec stack get n) m n rs
      | Err => find_in_kids get (findParentRec stack get n) m n rs
      | Panic => Panic end) = Ok par).
  { intros Hc. pose proof (Hin Hc) as Hi. assert (Hnk : ~ In n (all_nums k)) by (intros H; apply (D3 n H Hi)).
    destruct (Z.eqb_spec (pnum k) n) as [Ek|_]; [exfalso; apply Hnk; rewrite <- Ek; apply pnum_in|].
    rewrite Ex, (parent_absent get k n K1 Hnk stack (Hh k (or_introl eq_refl))), (Hrest Hc). destruct (bytes_eqb _ _); reflexivity. }
  destruct Hcase as [[-> [->|Hc]]|(z & [->|Hz] & Hc)].
  - cbn [pnum]. rewrite Z.eqb_refl. reflexivity.
  - apply Hlater. left. auto.
  - pose proof (leaf_in _ _ _ _ Hc Hn) as Hl. destruct z as [q|q qk]; [destruct Hc|]. cbn [all_nums tl] in Hl, D1. inversion D1 as [|? ? Q1 Q2]; subst.
    cbn [pnum] in *. destruct (Z.eqb_spec q n) as [->|_]; [contradiction|]. rewrite Ex.
    cbn [forms_tree] in K1. destruct K1 as [(x' & Hx' & Ht & v & Hv & Ha) Hkk]. assert (x' = x) by congruence. subst x'.
    rewrite (has_value_extract _ _ _ key_Type Ht), bytes_eqb_refl.
    rewrite (I1 Hc Hn) with (stack := stack); [reflexivity| | |apply Hh; left; reflexivity].
    + cbn [forms_tree]. split; [|exact Hkk]. exists x. split; [exact Ex|]. split; [exact Ht|eauto].
    + cbn [all_nums]. constructor; assumption.
  - apply Hlater. right. eauto.
Qed.
