(** Proofs about actions and appearances of form fields. *)
From Verif Require Import XPagesProofs3 Util ManipSpec Scan WriterModel TextModel TextSpec TextProofs ParseProofs WriterProofs ManipModel ManipProofs FormsModel FormsProofs2 FormsProofs4 ActsModel ActsSpec.
Local Open Scope Z_scope.

Lemma closes_last t x y : closes t x y -> last_index (bs ">>") t = Some (length x).
Proof.
  intros [-> Hy]. apply last_index_at. intros j Hj Hl. change (bs ">>" ++ y) with (">"%byte :: ">"%byte :: y).
  assert (G : forall i, prefixb (bs ">>") (skipn i y) = false).
  { intros i. destruct (skipn i y) as [|c r] eqn:E; [reflexivity|]. simpl.
    assert (In c y) by (rewrite <- (firstn_skipn i y), E; apply in_or_app; right; left; reflexivity).
    rewrite forallb_forall in Hy. specialize (Hy c H). rewrite beqb_sym in Hy. destruct (beqb ">" c); [discriminate|reflexivity]. }
  destruct j as [|[|j]]; [lia| |cbn [skipn]; apply G]. cbn [skipn]. simpl.
  destruct y as [|c y]; [reflexivity|]. specialize (G 0%nat). cbn [skipn] in G. simpl in G.
  cbn [forallb] in Hy. apply andb_true_iff in Hy as [H1 _]. rewrite beqb_sym in H1. simpl. destruct (beqb ">" c); [discriminate|reflexivity].
Qed.
Lemma insert_closes e t x y : closes t x y -> insert_entry e t = Ok (x ++ e ++ bs " " ++ bs ">>" ++ y).
Proof.
  intros H. unfold insert_entry. rewrite (closes_last _ _ _ H). destruct H as [-> _].
  rewrite ManipProofs.firstn_app_all, skipn_app_exact. reflexivity.
Qed.
Lemma insert_again e x y t : closes t x y -> closes (x ++ e ++ bs " " ++ bs ">>" ++ y) (x ++ e ++ bs " ") y.
Proof. intros [_ H]. split; [rewrite <- !app_assoc; reflexivity|exact H]. Qed.
Lemma insert_ok e t : (exists t', insert_entry e t = Ok t') <-> contains (bs ">>") t = true.
Proof.
  unfold insert_entry. destruct (last_index (bs ">>") t) as [i|] eqn:E.
  - split; [intros _|intros _; eexists; reflexivity]. apply last_index_some in E as (H & Hl & _).
    destruct (contains (bs ">>") t) eqn:C; [reflexivity|]. rewrite contains_false in C. rewrite (C i Hl) in H. discriminate.
  - split; [intros [t' H]; discriminate|]. intros H. exfalso. apply contains_split in H as (a & b & ->).
    assert (X : forall t, last_index (bs ">>") t = None -> prefixb (bs ">>") t = false /\ forall c t', t = c :: t' -> last_index (bs ">>") t' = None).
    { intros t. destruct t as [|c t]; [split; [reflexivity|discriminate]|]. cbn [last_index].
      destruct (last_index (bs ">>") t) eqn:F; [discriminate|]. destruct (prefixb (bs ">>") (c :: t)) eqn:G; [discriminate|].
      intros _. split; [reflexivity|]. intros c' t' H. injection H as _ <-. exact F. }
    revert E. induction a as [|c a IH]; intros E.
    + cbn [app] in E. apply X in E as [E _]. discriminate.
    + apply X in E as [_ E]. exact (IH (E _ _ eq_refl)).
Qed.

Lemma set_only n t w : n < nextObjNum w -> only_object n w (SetObject n (Some t) w).
Proof.
  intros H. unfold SetObject. destruct (Z.leb_spec (nextObjNum w) n); [lia|]. repeat split.
  intros m Hm. cbn [objects set_objects]. rewrite mget_mset. destruct (Z.eqb_spec m n); [congruence|reflexivity].
Qed.
Lemma set_get n t w : WGetObject n (SetObject n (Some t) w) = Ok t.
Proof.
  unfold WGetObject, SetObject. destruct (nextObjNum w <=? n); cbn [objects set_next set_objects]; rewrite mget_mset, Z.eqb_refl; reflexivity.
Qed.
Lemma set_next_n n t w : nextObjNum w <= nextObjNum (SetObject n (Some t) w).
Proof. unfold SetObject. destruct (Z.leb_spec (nextObjNum w) n); cbn [nextObjNum set_next set_objects]; lia. Qed.

Lemma dict_usable a : (exists d, action_dict a = Ok d) <-> usable a.
Proof.
  unfold action_dict, usable. destruct (actType a); try (split; [intros _; exact I|intros _; eexists; reflexivity]).
  - destruct (actDest a) as [|c l].
    + destruct (Z.ltb_spec 0 (actPage a)).
      * split; [intros _; right; assumption|intros _; eexists; reflexivity].
      * split; [intros [d Hd]; discriminate|intros [Hd|Hd]; [congruence|lia]].
    + split; [intros _; left; discriminate|intros _; eexists; reflexivity].
  - split; [intros [d Hd]; discriminate|tauto].
Qed.

(** The action is added when the field exists, is a dictionary and the action
    is one *)
Lemma action_iff n a w : (exists w', AddActionToField n a w = Ok w') <->
  (exists t, WGetObject n w = Ok t /\ contains (bs ">>") t = true) /\ usable a.
Proof.
  unfold AddActionToField. split.
  - intros [w' H]. revert H. destruct (WGetObject n w) as [t| |] eqn:E; try discriminate. cbn [rbind].
    destruct (action_dict a) as [d| |] eqn:D; try discriminate. cbn [rbind].
    destruct (insert_entry (bs "/A " ++ d) t) as [t'| |] eqn:I; try discriminate. intros _.
    split; [exists t; split; [reflexivity|]; apply (insert_ok (bs "/A " ++ d)); eauto|apply dict_usable; eauto].
  - intros [(t & -> & C) U]. apply dict_usable in U as [d ->]. cbn [rbind].
    destruct (proj2 (insert_ok (bs "/A " ++ d) t) C) as [t' ->]. cbn [rbind]. eauto.
Qed.

Lemma action_added n a d w t x y : WGetObject n w = Ok t -> closes t x y -> action_dict a = Ok d -> n < nextObjNum w ->
  exists w', AddActionToField n a w = Ok w' /\ only_object n w w' /\ WGetObject n w' = Ok (x ++ bs "/A " ++ d ++ bs " >>" ++ y).
Proof.
  intros G C D N. unfold AddActionToField. rewrite G. cbn [rbind]. rewrite D. cbn [rbind].
  rewrite (insert_closes _ _ _ _ C). cbn [rbind]. eexists. split; [reflexivity|]. split; [apply set_only, N|].
  rewrite set_get. rewrite <- !app_assoc. reflexivity.
Qed.

Lemma uri_text n u rs pg d sc w t x y : WGetObject n w = Ok t -> closes t x y -> n < nextObjNum w ->
  u = utf8 rs -> forallb (fun r => (r <? 256)%N) rs = true ->
  exists w' l, AddActionToField n (mkAct AURI u sc d pg) w = Ok w' /\ only_object n w w' /\ reads_as l rs /\
    WGetObject n w' = Ok (x ++ bs "/A << /Type /Action /S /URI /URI " ++ l ++ bs " >> >>" ++ y).
Proof.
  intros G C N -> Hr.
  destruct (action_added n (mkAct AURI (utf8 rs) sc d pg) _ w t x y G C eq_refl N) as (w' & A & O & T).
  exists w', (bs "(" ++ escapeFieldValue (utf8 rs) ++ bs ")"). split; [exact A|]. split; [exact O|]. split.
  - intros rest. rewrite <- !app_assoc. apply field_escape_reads_back. exact Hr.
  - rewrite T. cbn [actURI]. rewrite <- !app_assoc. reflexivity.
Qed.
Lemma script_text n js rs pg d u w t x y : WGetObject n w = Ok t -> closes t x y -> n < nextObjNum w ->
  js = utf8 rs -> forallb (fun r => (r <? 256)%N) rs = true ->
  exists w' l, AddActionToField n (mkAct AJavaScript u js d pg) w = Ok w' /\ only_object n w w' /\ reads_as l rs /\
    WGetObject n w' = Ok (x ++ bs "/A << /Type /Action /S /JavaScript /JS " ++ l ++ bs " >> >>" ++ y).
Proof.
  intros G C N -> Hr.
  destruct (action_added n (mkAct AJavaScript u (utf8 rs) d pg) _ w t x y G C eq_refl N) as (w' & A & O & T).
  exists w', (bs "(" ++ escapeFieldValue (utf8 rs) ++ bs ")"). split; [exact A|]. split; [exact O|]. split.
  - intros rest. rewrite <- !app_assoc. apply field_escape_reads_back. exact Hr.
  - rewrite T. cbn [actScript]. rewrite <- !app_assoc. reflexivity.
Qed.
Lemma reset_text n u sc d pg w t x y : WGetObject n w = Ok t -> closes t x y -> n < nextObjNum w ->
  exists w', AddActionToField n (mkAct AReset u sc d pg) w = Ok w' /\ only_object n w w' /\
    WGetObject n w' = Ok (x ++ bs "/A << /Type /Action /S /ResetForm >> >>" ++ y).
Proof.
  intros G C N. destruct (action_added n (mkAct AReset u sc d pg) _ w t x y G C eq_refl N) as (w' & A & O & T).
  exists w'. split; [exact A|]. split; [exact O|]. rewrite T. reflexivity.
Qed.
Lemma goto_text n u sc c d pg w t x y : WGetObject n w = Ok t -> closes t x y -> n < nextObjNum w ->
  exists w', AddActionToField n (mkAct AGoTo u sc (c :: d) pg) w = Ok w' /\ only_object n w w' /\
    WGetObject n w' = Ok (x ++ bs "/A << /Type /Action /S /GoTo /D " ++ (c :: d) ++ bs " >> >>" ++ y).
Proof.
  intros G C N. destruct (action_added n (mkAct AGoTo u sc (c :: d) pg) _ w t x y G C eq_refl N) as (w' & A & O & T).
  exists w'. split; [exact A|]. split; [exact O|]. rewrite T. cbn [actDest]. rewrite <- !app_assoc. reflexivity.
Qed.
Lemma goto_page n u sc pg w t x y : WGetObject n w = Ok t -> closes t x y -> n < nextObjNum w -> 0 < pg ->
  exists w', AddActionToField n (mkAct AGoTo u sc [] pg) w = Ok w' /\ only_object n w w' /\
    WGetObject n w' = Ok (x ++ bs "/A << /Type /Action /S /GoTo /D [" ++ decZ pg ++ bs " 0 R /Fit] >> >>" ++ y).
Proof.
  intros G C N P. destruct (action_added n (mkAct AGoTo u sc [] pg) (bs "<< /Type /Action /S /GoTo /D [" ++ decZ pg ++ bs " 0 R /Fit] >>") w t x y G C) as (w' & A & O & T).
  { unfold action_dict. cbn [actType actDest actPage]. apply Z.ltb_lt in P. rewrite P. reflexivity. } { exact N. }
  exists w'. split; [exact A|]. split; [exact O|]. rewrite T. rewrite <- !app_assoc. reflexivity.
Qed.
Lemma submit_same n u u' sc d pg w : AddActionToField n (mkAct ASubmit u sc d pg) w = AddActionToField n (mkAct ASubmit u' sc d pg) w.
Proof. reflexivity. Qed.

Lemma second_action n a a' d d' w t x y : WGetObject n w = Ok t -> closes t x y -> n < nextObjNum w ->
  action_dict a = Ok d -> action_dict a' = Ok d' ->
  exists w1 w2, AddActionToField n a w = Ok w1 /\ AddActionToField n a' w1 = Ok w2 /\
    WGetObject n w2 = Ok (x ++ bs "/A " ++ d ++ bs " /A " ++ d' ++ bs " >>" ++ y).
Proof.
  intros G C N D D'. destruct (action_added n a d w t x y G C D N) as (w1 & A & (_ & O & _) & T).
  destruct (action_added n a' d' w1 _ (x ++ (bs "/A " ++ d) ++ bs " ") y T) as (w2 & A2 & _ & T2).
  { pose proof (insert_again (bs "/A " ++ d) x y t C) as H. rewrite <- !app_assoc in H |- *. exact H. }
  { exact D'. } { lia. }
  exists w1, w2. split; [exact A|]. split; [exact A2|]. rewrite T2. rewrite <- !app_assoc. reflexivity.
Qed.

(* ---------------- AddMouseAction ---------------- *)
Definition mouse_entry (k d : bytes) : bytes := bs "/AA << /" ++ k ++ bs " " ++ d ++ bs " >>".
Lemma mouse_added n ev k a d w t x y : WGetObject n w = Ok t -> closes t x y -> contains (bs "/AA ") t = false ->
  mouse_dict a = Ok d -> event_key ev = Some k -> n < nextObjNum w ->
  exists w', AddMouseAction n ev a w = Ok w' /\ only_object n w w' /\ WGetObject n w' = Ok (x ++ mouse_entry k d ++ bs " >>" ++ y).
Proof.
  intros G C F D K N. unfold AddMouseAction. rewrite G. cbn [rbind]. rewrite D. cbn [rbind]. rewrite K, F.
  rewrite (insert_closes _ _ _ _ C). cbn [rbind]. eexists. split; [reflexivity|]. split; [apply set_only, N|].
  rewrite set_get. unfold mouse_entry. rewrite <- !app_assoc. reflexivity.
Qed.
Lemma mouse_script n ev k js rs pg d u w t x y : WGetObject n w = Ok t -> closes t x y -> contains (bs "/AA ") t = false ->
  n < nextObjNum w -> In (ev, k) events -> js = utf8 rs -> forallb (fun r => (r <? 256)%N) rs = true ->
  exists w' l, AddMouseAction n ev (mkAct AJavaScript u js d pg) w = Ok w' /\ only_object n w w' /\ reads_as l rs /\
    WGetObject n w' = Ok (x ++ bs "/AA << /" ++ k ++ bs " << /Type /Action /S /JavaScript /JS " ++ l ++ bs " >> >> >>" ++ y).
Proof.
  intros G C F N K -> Hr.
  assert (K' : event_key ev = Some k).
  { cbn [events In] in K. repeat (destruct K as [K|K]; [injection K as <- <-; reflexivity|]). destruct K. }
  destruct (mouse_added n ev k (mkAct AJavaScript u (utf8 rs) d pg) _ w t x y G C F eq_refl K' N) as (w' & A & O & T).
  exists w', (bs "(" ++ escapeFieldValue (utf8 rs) ++ bs ")"). split; [exact A|]. split; [exact O|]. split.
  - intros rest. rewrite <- !app_assoc. apply field_escape_reads_back. exact Hr.
  - rewrite T. unfold mouse_entry. cbn [actScript]. rewrite <- !app_assoc. reflexivity.
Qed.
Lemma mouse_uri n ev k ur rs pg d sc w t x y : WGetObject n w = Ok t -> closes t x y -> contains (bs "/AA ") t = false ->
  n < nextObjNum w -> In (ev, k) events -> ur = utf8 rs -> forallb (fun r => (r <? 256)%N) rs = true ->
  exists w' l, AddMouseAction n ev (mkAct AURI ur sc d pg) w = Ok w' /\ only_object n w w' /\ reads_as l rs /\
    WGetObject n w' = Ok (x ++ bs "/AA << /" ++ k ++ bs " << /Type /Action /S /URI /URI " ++ l ++ bs " >> >> >>" ++ y).
Proof.
  intros G C F N K -> Hr.
  assert (K' : event_key ev = Some k).
  { cbn [events In] in K. repeat (destruct K as [K|K]; [injection K as <- <-; reflexivity|]). destruct K. }
  destruct (mouse_added n ev k (mkAct AURI (utf8 rs) sc d pg) _ w t x y G C F eq_refl K' N) as (w' & A & O & T).
  exists w', (bs "(" ++ escapeFieldValue (utf8 rs) ++ bs ")"). split; [exact A|]. split; [exact O|]. split.
  - intros rest. rewrite <- !app_assoc. apply field_escape_reads_back. exact Hr.
  - rewrite T. unfold mouse_entry. cbn [actURI]. rewrite <- !app_assoc. reflexivity.
Qed.

(** A flat dictionary is found *)
Lemma flat_here key old b : forallb (fun c => negb (beqb c ">")) old = true ->
  m_flat key (key ++ bs " <<" ++ old ++ bs ">>" ++ b) = Some b.
Proof.
  intros H. unfold m_flat. rewrite lit_app. cbn [obind].
  change (ws0 (bs " <<" ++ ?r)) with (bs "<<" ++ r). rewrite lit_app. cbn [obind].
  change (bs ">>" ++ b) with (">"%byte :: ">"%byte :: b). rewrite until_app by exact H. rewrite skipn_app_exact.
  exact (lit_app (bs ">>") b).
Qed.
Lemma flat_lit key s : prefixb key s = false -> m_flat key s = None.
Proof. intros H. unfold m_flat. apply lit_none in H. rewrite H. reflexivity. Qed.
(** One flat dictionary is replaced *)
Lemma flat_replaced key e a old b : key_name key -> contains key a = false -> contains key b = false ->
  forallb (fun c => negb (beqb c ">")) old = true -> forallb (fun c => negb (beqb c "$")) e = true ->
  replace_expand (m_flat key) e (a ++ key ++ bs " <<" ++ old ++ bs ">>" ++ b) 0 = a ++ e ++ b.
Proof.
  intros K Ha Hb Ho He. assert (K0 : key <> []) by (destruct K as (k & -> & _); discriminate).
  rewrite replace_expand_before.
  2:{ intros j Hj. apply flat_lit. apply before_key; [exact K0|exact Ha|apply stopper_key; exact K|exact Hj]. }
  f_equal. pose proof (flat_here key old b Ho) as M.
  remember (key ++ bs " <<" ++ old ++ bs ">>" ++ b) as s eqn:Es.
  destruct s as [|c s0]; [destruct K as (k & -> & _); discriminate|]. cbn [replace_expand]. rewrite M.
  rewrite expand_plain by (try exact He; lia). f_equal. rewrite replace_expand_skip.
  assert (L : (length (c :: s0) = length key + 3 + length old + 2 + length b)%nat).
  { rewrite Es, !app_length. change (length (bs " <<")) with 3%nat. change (length (bs ">>")) with 2%nat. lia. }
  assert (E : skipn (length (c :: s0) - length b - 1) s0 = b).
  { change (skipn (length (c :: s0) - length b - 1) s0) with (skipn (S (length (c :: s0) - length b - 1)) (c :: s0)).
    replace (S (length (c :: s0) - length b - 1)) with (length (key ++ bs " <<" ++ old ++ bs ">>"))
      by (rewrite !app_length; change (length (bs " <<")) with 3%nat; change (length (bs ">>")) with 2%nat; cbn [length] in L |- *; lia).
    rewrite Es. assert (X : key ++ bs " <<" ++ old ++ bs ">>" ++ b = (key ++ bs " <<" ++ old ++ bs ">>") ++ b)
      by (rewrite <- !app_assoc; reflexivity). rewrite X. apply skipn_app_exact. }
  rewrite E. apply replace_expand_none. intros j Hj. apply flat_lit. rewrite contains_false in Hb. apply Hb. lia.
Qed.

(** A second mouse action: what is left of the first one is its closing
    brackets *)
Lemma second_mouse n ev ev' k k' a a' d d' w t x y :
  WGetObject n w = Ok t -> closes t x y -> contains (bs "/AA") t = false -> n < nextObjNum w ->
  mouse_dict a = Ok (bs "<<" ++ d ++ bs ">>") -> mouse_dict a' = Ok d' -> event_key ev = Some k -> event_key ev' = Some k' ->
  forallb (fun c => negb (beqb c ">")) d = true -> forallb (fun c => negb (beqb c "$")) d' = true ->
  exists w1 w2, AddMouseAction n ev a w = Ok w1 /\ AddMouseAction n ev' a' w1 = Ok w2 /\
    WGetObject n w2 = Ok (x ++ bs "/AA << /" ++ k' ++ bs " " ++ d' ++ bs " >> >> >>" ++ y).
Proof.
  intros G C F N D D' K K' Hd Hd'.
  assert (Fx : contains (bs "/AA") x = false /\ contains (bs "/AA") y = false).
  { destruct C as [-> _]. split.
    - destruct (contains (bs "/AA") x) eqn:E; [|reflexivity]. apply contains_split in E as (p & q & ->).
      rewrite <- !app_assoc in F. rewrite contains_app_mid in F. discriminate.
    - destruct (contains (bs "/AA") y) eqn:E; [|reflexivity]. apply contains_split in E as (p & q & ->).
      assert (X : x ++ bs ">>" ++ p ++ bs "/AA" ++ q = (x ++ bs ">>" ++ p) ++ bs "/AA" ++ q) by (rewrite <- !app_assoc; reflexivity).
      rewrite X, contains_app_mid in F. discriminate. }
  destruct Fx as [Fx Fy].
  assert (F' : contains (bs "/AA ") t = false).
  { destruct (contains (bs "/AA ") t) eqn:E; [|reflexivity]. apply contains_split in E as (p & q & ->).
    change (bs "/AA " ++ q) with (bs "/AA" ++ bs " " ++ q) in F. rewrite contains_app_mid in F. discriminate. }
  destruct (mouse_added n ev k a _ w t x y G C F' D K N) as (w1 & A & (_ & O & _) & T).
  exists w1. unfold AddMouseAction at 2. rewrite T. cbn [rbind]. rewrite D'. cbn [rbind]. rewrite K'.
  assert (X : x ++ mouse_entry k (bs "<<" ++ d ++ bs ">>") ++ bs " >>" ++ y =
    x ++ bs "/AA" ++ bs " <<" ++ (bs " /" ++ k ++ bs " <<" ++ d) ++ bs ">>" ++ bs " >> >>" ++ y).
  { unfold mouse_entry. rewrite <- !app_assoc. reflexivity. }
  assert (Y : contains (bs "/AA ") (x ++ mouse_entry k (bs "<<" ++ d ++ bs ">>") ++ bs " >>" ++ y) = true).
  { unfold mouse_entry. rewrite <- !app_assoc. change (bs "/AA << /" ++ ?r) with (bs "/AA " ++ bs "<< /" ++ r). apply contains_app_mid. }
  rewrite Y, X.
  assert (Hk : forall e q, event_key e = Some q -> forallb (fun c => negb (beqb c ">")) q = true /\ forallb (fun c => negb (beqb c "$")) q = true).
  { intros e q. unfold event_key. cbn [kget]. repeat (match goal with |- context [bytes_eqb e ?z] => destruct (bytes_eqb e z); [intros H; injection H as <-; split; reflexivity|] end). discriminate. }
  rewrite flat_replaced; [| |exact Fx| | |].
  - cbn [rbind]. eexists. split; [exact A|]. split; [reflexivity|]. rewrite set_get. rewrite <- !app_assoc. reflexivity.
  - exists (bs "AA"). split; reflexivity.
  - change (bs " >> >>" ++ y) with (bs " >> >>" ++ y). destruct (contains (bs "/AA") (bs " >> >>" ++ y)) eqn:E; [|reflexivity].
    exfalso. rewrite contains_false in Fy. unfold contains in E. destruct (index (bs "/AA") (bs " >> >>" ++ y)) as [i|] eqn:I; [|discriminate].
    apply index_some in I as (P & L & _). rewrite app_length in L. change (length (bs " >> >>")) with 6%nat in L.
    do 6 (destruct i as [|i]; [discriminate|]). change (skipn (S (S (S (S (S (S i)))))) (bs " >> >>" ++ y)) with (skipn i y) in P.
    rewrite Fy in P by lia. discriminate.
  - rewrite !forallb_app. destruct (Hk _ _ K) as [-> _]. rewrite Hd. reflexivity.
  - rewrite !forallb_app. destruct (Hk _ _ K') as [_ ->]. rewrite Hd'. reflexivity.
Qed.
