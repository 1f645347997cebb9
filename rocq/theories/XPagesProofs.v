(** Proofs about content/extract/pages.go, part 1: dictionary values and the
    page tree. *)
From Verif Require Import Scan ReadProofs XPagesModel XPagesSpec ManipSpec ManipProofs ManipProofs2 ManipProofs3 PageModel.
From Coq Require Import Lia ZArith.
Local Open Scope Z_scope.

(* -------------------- x_value -------------------- *)

Lemma x_absent d key : contains key d = false -> x_value d key = [].
Proof.
  intros H. unfold x_value.
  rewrite (find_absent _ key _ (needs_spaced key) H), (find_absent _ key _ (needs_named key) H).
  rewrite (find_nolit _ key); [reflexivity| |exact H].
  intros s Hs. unfold m_bracketed. destruct (lit key s) eqn:E; [|reflexivity].
  apply lit_some in E. subst s. rewrite prefixb_app in Hs. discriminate.
Qed.
Lemma x_spaced a key w v b : key_name key -> contains key a = false -> gap w -> word v -> word_ends b ->
  x_value (a ++ key ++ w ++ v ++ b) key = v.
Proof.
  intros Hk Ha Hw Hv Hb. unfold x_value.
  rewrite (find_before _ key _ _ (needs_spaced key)); [|apply key_name_nonnil, Hk|exact Ha|apply stopper_key; exact Hk].
  assert (E : find (m_spaced key) (key ++ w ++ v ++ b) = Some (0%nat, (v, b))).
  { pose proof (spaced_fires key w v b Hw Hv Hb) as F. apply (find_at (m_spaced key) [] _ _ (nofire_nil _) F). }
  rewrite E. reflexivity.
Qed.
Lemma x_named a key v b : key_name key -> sole key a b -> name_word v -> name_ends b -> prefixb key ("/"%byte :: v) = false ->
  x_value (a ++ key ++ "/"%byte :: v ++ b) key = "/"%byte :: v.
Proof.
  intros Hk [Ha Hb] Hv He Hp. unfold x_value.
  assert (R : contains key (tl key ++ "/"%byte :: v ++ b) = false).
  { apply contains_after; [exact Hk| |apply tail_no_slash, Hk]. apply named_rest; assumption. }
  rewrite (find_only_at (m_spaced key) key a); [|apply needs_spaced|exact Hk|exact Ha|apply named_not_spaced|exact R].
  rewrite (find_before _ key _ _ (needs_named key)); [|apply key_name_nonnil, Hk|exact Ha|apply stopper_key; exact Hk].
  pose proof (find_at (m_named key) [] _ _ (nofire_nil _) (named_fires key v b Hv He)) as F. cbn [app] in F. rewrite F.
  reflexivity.
Qed.
Lemma x_bracketed_lit key s b : s <> [] -> ~ In "]"%byte s -> m_bracketed key (key ++ "["%byte :: s ++ "]"%byte :: b) = Some s.
Proof.
  intros Hs Hi. unfold m_bracketed. rewrite lit_app. cbn [obind].
  change (ws0 ("["%byte :: s ++ "]"%byte :: b)) with ("["%byte :: s ++ "]"%byte :: b).
  change (lit (bs "[") ("["%byte :: s ++ "]"%byte :: b)) with (Some (s ++ "]"%byte :: b)). cbn [obind].
  assert (A : forallb (fun b => negb (beqb b "]")) s = true).
  { apply forallb_forall. intros c Hc. destruct (beqb c "]") eqn:E; [|reflexivity]. apply beqb_eq in E. subst c. contradiction. }
  assert (T : take_while (fun b => negb (beqb b "]")) (s ++ "]"%byte :: b) = s /\
              drop_while (fun b => negb (beqb b "]")) (s ++ "]"%byte :: b) = "]"%byte :: b).
  { clear Hs Hi. induction s as [|c s IH]; [split; reflexivity|]. cbn [forallb] in A. apply andb_prop in A. destruct A as [A1 A2].
    destruct (IH A2) as [I1 I2]. cbn [app take_while drop_while]. rewrite A1, I1, I2. split; reflexivity. }
  destruct T as [-> ->]. destruct s as [|c s]; [contradiction|]. reflexivity.
Qed.
Lemma x_bracketed_nil key b : m_bracketed key (key ++ "["%byte :: "]"%byte :: b) = None.
Proof. unfold m_bracketed. rewrite lit_app. reflexivity. Qed.
Lemma needs_bracketed key s : prefixb key s = false -> m_bracketed key s = None.
Proof.
  intros Hs. unfold m_bracketed. destruct (lit key s) eqn:E; [|reflexivity].
  apply lit_some in E. subst s. rewrite prefixb_app in Hs. discriminate.
Qed.
Lemma find_bracketed key a r x : key_name key -> contains key a = false -> m_bracketed key (key ++ r) = Some x ->
  find (m_bracketed key) (a ++ key ++ r) = Some (length a, x).
Proof.
  intros Hk Ha Hx. rewrite find_app.
  - pose proof (find_at (m_bracketed key) [] _ _ (nofire_nil _) Hx) as F. cbn [app] in F. rewrite F.
    change (length (@nil byte)) with 0%nat. rewrite Nat.add_0_r. reflexivity.
  - intros j Hj. apply needs_bracketed, before_key; [apply key_name_nonnil, Hk|exact Ha|apply stopper_key; exact Hk|exact Hj].
Qed.
Lemma find_bracketed_none key a r : key_name key -> contains key a = false -> m_bracketed key (key ++ r) = None ->
  contains key (tl key ++ r) = false -> find (m_bracketed key) (a ++ key ++ r) = None.
Proof.
  intros Hk Ha Hx Hr. rewrite find_app.
  - enough (find (m_bracketed key) (key ++ r) = None) as -> by reflexivity.
    apply find_none_intro. intros j Hj. destruct Hk as (w & E & _). rewrite E in *. cbn [tl] in Hr. cbn [app].
    destruct j as [|j]; [cbn [skipn]; exact Hx|].
    cbn [skipn]. apply needs_bracketed. rewrite contains_false in Hr. apply Hr. cbn [length app] in Hj. lia.
  - intros j Hj. apply needs_bracketed, before_key; [apply key_name_nonnil, Hk|exact Ha|apply stopper_key; exact Hk|exact Hj].
Qed.
(** An array right after its key. *)
Lemma x_array a key s b : key_name key -> sole key a b -> ~ In "]"%byte s -> ~ In "/"%byte s ->
  x_value (a ++ key ++ "["%byte :: s ++ "]"%byte :: b) key = match s with [] => [] | _ => "["%byte :: s ++ bs "]" end.
Proof.
  intros Hk [Ha Hb] Hs Hs2. unfold x_value.
  assert (R : contains key (tl key ++ "["%byte :: s ++ "]"%byte :: b) = false).
  { replace (tl key ++ "["%byte :: s ++ "]"%byte :: b) with ((tl key ++ "["%byte :: s ++ bs "]") ++ b)
      by (rewrite <- app_assoc; cbn [app]; rewrite <- app_assoc; reflexivity).
    apply contains_after; [exact Hk|exact Hb|]. intros Hi. apply in_app_or in Hi. destruct Hi as [Hi|Hi]; [apply (tail_no_slash key Hk Hi)|].
    destruct Hi as [Hi|Hi]; [discriminate|]. apply in_app_or in Hi. destruct Hi as [Hi|[Hi|[]]]; [contradiction|discriminate]. }
  rewrite (find_only_at (m_spaced key) key a); [|apply needs_spaced|exact Hk|exact Ha|apply array_not_spaced|exact R].
  rewrite (find_only_at (m_named key) key a); [|apply needs_named|exact Hk|exact Ha|apply array_not_named|exact R].
  destruct s as [|c s].
  - cbn [app] in *. rewrite find_bracketed_none; [reflexivity|exact Hk|exact Ha|apply x_bracketed_nil|exact R].
  - rewrite (find_bracketed key a _ (c :: s)); [reflexivity|exact Hk|exact Ha|apply x_bracketed_lit; [discriminate|exact Hs]].
Qed.

(* -------------------- the page tree -------------------- *)

Lemma ref_texts_read l rs : ref_texts l rs -> map XPagesModel.parse_ref rs = map Some l.
Proof.
  intros H. apply ref_texts_parse in H. revert l H. induction rs as [|r rs IH]; intros [|n l] H; try discriminate; [reflexivity|].
  cbn [map] in *. injection H as H1 H2. rewrite (IH _ H2). unfold XPagesModel.parse_ref. rewrite H1. reflexivity.
Qed.
Lemma kid_pages_ok go rs l : map XPagesModel.parse_ref rs = map Some l ->
  kid_pages go rs = fold_right (fun n acc => match go n with Panic => Panic | Err => acc | Ok x => rmap (app x) acc end) (Ok []) l.
Proof.
  revert l. induction rs as [|r rs IH]; intros [|n l] H; try discriminate; [reflexivity|].
  cbn [map] in H. injection H as H1 H2. cbn [kid_pages fold_right]. rewrite H1, (IH l H2). reflexivity.
Qed.
Lemma ref_list_nil l : ref_list l [] -> l = [].
Proof.
  intros H. remember (@nil byte) as s0 eqn:E. destruct H as [|n l' pre w1 g w2 rest]; [reflexivity|]. exfalso.
  apply app_eq_nil in E. destruct E as [_ E]. apply app_eq_nil in E. destruct E as [E _]. exact (decZ_nonnil _ E).
Qed.
Lemma node_kids t kids : shows_node t kids -> map XPagesModel.parse_ref (kids_of t) = map Some kids.
Proof.
  intros (_ & a & v & b & -> & (s & -> & Hr) & Ha & Hb).
  destruct (ref_list_flat _ _ Hr) as [[_ H1] H2].
  unfold kids_of.
  replace (a ++ bs "/Kids" ++ ("["%byte :: s ++ ["]"%byte]) ++ b) with (a ++ bs "/Kids" ++ "["%byte :: s ++ "]"%byte :: b)
    by (cbn [app]; rewrite <- app_assoc; reflexivity).
  rewrite x_array; [|apply key_Kids|split; assumption|exact H1|exact H2].
  destruct s as [|c s]; [rewrite (ref_list_nil _ Hr); reflexivity|]. cbn iota.
  change (prefixb (bs "[") ("["%byte :: (c :: s) ++ bs "]")) with true. cbn iota.
  apply ref_texts_read, parse_ref_array. exists (c :: s). split; [reflexivity|exact Hr].
Qed.
Lemma shows_page_is t : shows_page t -> is_page t = true.
Proof. intros (H1 & H2 & H3). unfold is_page, is_pages. rewrite H1, H2. cbn [orb negb andb]. destruct H3 as [->| ->]; [reflexivity|apply orb_true_r]. Qed.
Lemma shows_node_is t kids : shows_node t kids -> is_page t = false.
Proof. intros (H & _). unfold is_page, is_pages. destruct H as [->| ->]; [reflexivity|]. rewrite orb_true_r. reflexivity. Qed.

Section tree.
Context (inflate : bytes -> option bytes) (parse_float : bytes -> option float) (get : Z -> result bytes).
Notation page_of := (extractPage inflate parse_float get).
Notation walk := (extractPagesFromTree inflate parse_float get).

Lemma reads_kids kids : fold_right (fun k P => reads_tree get k /\ P) True kids <-> Forall (reads_tree get) kids.
Proof.
  induction kids as [|k kids IH]; cbn [fold_right]; [split; constructor|].
  rewrite IH. split; [intros [H1 H2]; constructor; assumption|intros H; inversion H; auto].
Qed.
Lemma walk_tree t : reads_tree get t -> forall ps, Forall2 (fun n p => exists x, get n = Ok x /\ page_of x = Ok p) (page_list t) ps ->
  forall stack, (height t <= stack)%nat -> walk stack (pnum t) = Ok ps.
Proof.
  induction t as [n|n kids IH] using ptree_ind'; intros Hf ps Hp stack Hs.
  - destruct Hf as (x & Hx & Hsh). cbn [height page_list] in *. destruct stack as [|stack]; [lia|].
    inversion Hp as [|? p ? ps' (x' & Hx' & Hpp) Hn]; subst. inversion Hn; subst.
    assert (x' = x) by congruence. subst x'.
    cbn [extractPagesFromTree pnum]. rewrite Hx. cbn [rbind]. rewrite (shows_page_is _ Hsh), Hpp. reflexivity.
  - cbn [reads_tree] in Hf. destruct Hf as [(x & Hx & Hn) Hk]. apply reads_kids in Hk.
    cbn [height] in Hs. destruct stack as [|stack]; [lia|].
    cbn [extractPagesFromTree pnum]. rewrite Hx. cbn [rbind]. rewrite (shows_node_is _ _ Hn).
    rewrite (kid_pages_ok _ _ _ (node_kids _ _ Hn)). cbn [page_list] in Hp.
    clear - IH Hk Hs Hp. revert Hs ps Hp. induction kids as [|k kids IHk]; intros Hs ps Hp.
    + inversion Hp; subst. reflexivity.
    + cbn [map fold_right flat_map] in *. inversion IH as [|? ? I1 I2]; subst. inversion Hk as [|? ? K1 K2]; subst.
      apply Forall2_app_inv_l in Hp. destruct Hp as (p1 & p2 & P1 & P2 & ->).
      rewrite (I1 K1 p1 P1 stack) by lia. rewrite (IHk I2 K2 ltac:(lia) p2 P2). reflexivity.
Qed.
Lemma walk_cycle n : (exists x l, get n = Ok x /\ shows_node x (n :: l)) -> forall stack, walk stack n = Panic.
Proof.
  intros (x & l & Hx & Hn). induction stack as [|stack IH]; [reflexivity|].
  cbn [extractPagesFromTree]. rewrite Hx. cbn [rbind]. rewrite (shows_node_is _ _ Hn).
  rewrite (kid_pages_ok _ _ _ (node_kids _ _ Hn)). cbn [fold_right]. rewrite IH. reflexivity.
Qed.
(** The whole document. *)
Lemma pages_tree root t cat ps stack w r a wp wd b : 0 <= root < 2 ^ 63 -> gap w -> get root = Ok cat ->
  cat = a ++ bs "/Pages" ++ wp ++ decZ (pnum t) ++ wd ++ b -> contains (bs "/Pages") a = false -> gap wp -> gap wd ->
  0 <= pnum t < 2 ^ 63 -> reads_tree get t -> (height t <= stack)%nat ->
  Forall2 (fun n p => exists x, get n = Ok x /\ page_of x = Ok p) (page_list t) ps ->
  XExtractPages inflate parse_float get stack (decZ root ++ w ++ r) = Ok (numbered 0 ps).
Proof.
  intros Hr Hw Hc Ec Ha Hwp Hwd Hn Ht Hs Hps. unfold XExtractPages.
  assert (E : decZ root ++ w ++ r <> []). { pose proof (decZ_nonnil root). destruct (decZ root); [contradiction|discriminate]. }
  destruct (decZ root ++ w ++ r) as [|c0 t0] eqn:E0; [contradiction|]. rewrite <- E0.
  rewrite parse_ref by assumption. cbn [rbind]. rewrite Hc. cbn [rbind]. rewrite Ec.
  rewrite x_spaced; [|apply key_Pages|exact Ha|exact Hwp|apply word_decZ|apply gap_not_plain, Hwd].
  pose proof (decZ_nonnil (pnum t)). pose proof (parse_num (pnum t) Hn) as P.
  destruct (decZ (pnum t)); [contradiction|]. rewrite P. cbn [rbind].
  rewrite (walk_tree t Ht ps Hps stack Hs). reflexivity.
Qed.
End tree.
