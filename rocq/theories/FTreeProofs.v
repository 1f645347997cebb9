(** Proofs: the field tree of a form is read as the file has it. *)
From Verif Require Import Util Scan WriterModel ParseModel ManipModel TextModel FormsModel FormsProofs2 FTreeSpec.
From Verif Require XrefProofs WriterProofs.
Local Open Scope Z_scope.

(** What can follow a value. *)
Definition brk (r : bytes) : Prop := match r with [] => False | c :: _ => is_ws c = true \/ c = "/"%byte \/ c = ">"%byte end.
(** What can follow a key. *)
Definition stop (r : bytes) : Prop := match r with [] => True | c :: _ => regular c = false end.

(** No occurrence of [p] starts in [a] when [r] follows. *)
Definition silent (p a r : bytes) : Prop := forall j, (j < length a)%nat -> prefixb p (skipn j (a ++ r)) = false.
Lemma silent_nostart p a r : nostart p a -> silent p a r.
Proof. intros H j Hj. apply H, Hj. Qed.
Lemma silent_app p a b r : silent p a (b ++ r) -> silent p b r -> silent p (a ++ b) r.
Proof.
  intros Ha Hb j Hj. rewrite <- app_assoc. rewrite app_length in Hj.
  destruct (Nat.lt_ge_cases j (length a)) as [H|H]; [apply Ha, H|].
  rewrite skipn_app_r by exact H. apply Hb. lia.
Qed.
Lemma prefix_stop p u c r : prefixb p (u ++ c :: r) = true -> ~ In c p -> prefixb p u = true.
Proof.
  revert p. induction u as [|x u IH]; intros [|y p]; cbn [app prefixb]; auto.
  - rewrite andb_true_iff. intros [E _] H. apply beqb_eq in E. subst. exfalso. apply H. left. reflexivity.
  - rewrite !andb_true_iff. intros [E H1] H. split; [exact E|]. apply IH; [exact H1|]. intros I. apply H. right. exact I.
Qed.
Lemma silent_sep x p a c r : contains (x :: p) a = false -> ~ In c p -> silent (x :: p) a (c :: r).
Proof.
  intros H Hc j Hj. rewrite skipn_app_l by lia. destruct (skipn j a) as [|y u] eqn:E.
  { apply (f_equal (@length byte)) in E. rewrite skipn_length in E. cbn in E. lia. }
  cbn [app prefixb]. destruct (beqb x y) eqn:Exy; [|reflexivity]. cbn [andb].
  destruct (prefixb p (u ++ c :: r)) eqn:P; [|reflexivity]. apply prefix_stop in P; [|exact Hc].
  rewrite contains_false in H. specialize (H j ltac:(lia)). rewrite E in H. cbn [prefixb] in H. rewrite Exy, P in H. discriminate.
Qed.
Lemma find_silent {A} (m : bytes -> option A) p a r : (forall s, prefixb p s = false -> m s = None) -> silent p a r ->
  search m (a ++ r) = search m r.
Proof.
  intros Hm. induction a as [|b a IH]; intros H; [reflexivity|]. cbn [app].
  rewrite search_step by (apply Hm; exact (H 0%nat ltac:(cbn; lia))). apply IH.
  intros j Hj. exact (H (S j) ltac:(cbn [length]; lia)).
Qed.

Lemma word_regular b : is_word b = true -> regular b = true.
Proof. destruct b; vm_compute; congruence. Qed.
Lemma ws_not_regular b : is_ws b = true -> regular b = false.
Proof. unfold regular. intros ->. reflexivity. Qed.
Lemma brk_not_word c r : brk (c :: r) -> is_word c = false.
Proof.
  cbn [brk]. intros [H|[->| ->]]; [|reflexivity|reflexivity]. apply ws_not_regular in H.
  destruct (is_word c) eqn:E; [|reflexivity]. apply word_regular in E. congruence.
Qed.
Lemma brk_not_digit r : brk r -> match r with [] => True | c :: _ => is_digit c = false end.
Proof. destruct r as [|c r]; [intros []|]. cbn [brk]. intros [H|[->| ->]]; [|reflexivity|reflexivity]. revert H. clear. destruct c; vm_compute; congruence. Qed.
Lemma brk_stop r : brk r -> stop r.
Proof. destruct r as [|c r]; [intros []|]. cbn [brk stop]. intros [H|[->| ->]]; [|reflexivity|reflexivity]. apply ws_not_regular, H. Qed.
Lemma blank_noslash g p : blank g -> nostart ("/"%byte :: p) g.
Proof. intros H. apply (nostart_class is_ws); [exact H|reflexivity]. Qed.
Lemma regular_noslash g p : forallb regular g = true -> nostart ("/"%byte :: p) g.
Proof. intros H. apply (nostart_class regular); [exact H|reflexivity]. Qed.
Lemma class_impl (f h : byte -> bool) s : (forall b, f b = true -> h b = true) -> forallb f s = true -> forallb h s = true.
Proof. intros H. rewrite !forallb_forall. intros A b I. apply H, A, I. Qed.

Section Key.
Variables (ks : list bytes) (q : bytes).
Hypothesis Hq : In q ks.
Hypothesis Hw : forallb is_word q = true.

Lemma not_in_q c : is_word c = false -> ~ In c q.
Proof. intros H I. rewrite forallb_forall in Hw. rewrite (Hw c I) in H. discriminate. Qed.
Lemma free_silent a c r : free ks a -> is_word c = false -> silent ("/"%byte :: q) a (c :: r).
Proof. intros H Hc. apply silent_sep; [exact (H q Hq)|apply not_in_q, Hc]. Qed.
Lemma parens_nostart s : plain_string ks s -> nostart ("/"%byte :: q) (in_parens s).
Proof.
  intros (_ & _ & _ & H) r j Hj. revert j Hj. change (silent ("/"%byte :: q) (in_parens s) r). unfold in_parens.
  apply silent_app; [apply silent_nostart, nostartb_ok; reflexivity|]. apply silent_app.
  - change (bs ")" ++ r) with (")"%byte :: r). apply free_silent; [exact H|reflexivity].
  - apply silent_nostart, nostartb_ok. reflexivity.
Qed.
Lemma join_nostart l : Forall (nostart ("/"%byte :: q)) l -> nostart ("/"%byte :: q) (join (bs " ") l).
Proof.
  induction l as [|a l IH]; intros H; [apply nostart_nil|]. inversion H as [|x y H1 H2]; subst.
  destruct l as [|b l]; [exact H1|]. change (join (bs " ") (a :: b :: l)) with (a ++ bs " " ++ join (bs " ") (b :: l)).
  apply nostart_app; [exact H1|]. apply nostart_app; [apply nostartb_ok; reflexivity|apply IH, H2].
Qed.
Lemma ref_nostart r : object_number (fst r) -> object_number (snd r) -> nostart ("/"%byte :: q) (ref_text r).
Proof.
  intros [H1 _] [H2 _]. unfold ref_text. apply nostart_app; [apply nostart_decZ; [exact H1|reflexivity]|].
  apply nostart_app; [apply nostartb_ok; reflexivity|]. apply nostart_app; [apply nostart_decZ; [exact H2|reflexivity]|apply nostartb_ok; reflexivity].
Qed.
Lemma bracket_nostart a : nostart ("/"%byte :: q) a -> nostart ("/"%byte :: q) (bs "[" ++ a ++ bs "]").
Proof. intros H. apply nostart_app; [apply nostartb_ok; reflexivity|]. apply nostart_app; [exact H|apply nostartb_ok; reflexivity]. Qed.
(** Inside of values other than names *)
Lemma value_silent v r : val_ok ks v -> (forall w, v <> VName w) -> brk r -> silent ("/"%byte :: q) (val_text v) r.
Proof.
  intros H Hn Hr. destruct v as [s|w|z|n g|l|l|l|t]; cbn [val_ok val_text] in *.
  - apply silent_nostart, parens_nostart, H.
  - destruct (Hn w eq_refl).
  - apply silent_nostart, nostart_decZ; [lia|reflexivity].
  - apply silent_nostart, ref_nostart; apply H.
  - apply silent_nostart, bracket_nostart, join_nostart. rewrite Forall_map. revert H. apply Forall_impl. intros s [H _]. apply parens_nostart, H.
  - apply silent_nostart, bracket_nostart, join_nostart. revert H. apply Forall_impl. intros w [_ H]. apply regular_noslash.
    revert H. apply class_impl. unfold word_byte. intros b E. apply andb_true_iff in E. apply E.
  - apply silent_nostart, bracket_nostart, join_nostart. rewrite Forall_map. revert H. apply Forall_impl. intros x [H1 H2]. apply ref_nostart; assumption.
  - destruct r as [|c r]; [destruct Hr|]. apply free_silent; [apply H|]. apply brk_not_word with r, Hr.
Qed.

Variables (A : Type) (k : bytes -> option A) (kspec : fval -> option A).
Hypothesis Hreg : forall c r, regular c = true -> k (c :: r) = None.
Hypothesis Hk : forall gap v r, blank gap -> apart gap v -> val_ok ks v -> brk r -> k (gap ++ val_text v ++ r) = kspec v.
Let m (s : bytes) : option A := obind (lit ("/"%byte :: q) s) k.

Lemma m_silent s : prefixb ("/"%byte :: q) s = false -> m s = None.
Proof. intros H. unfold m. apply lit_none in H. rewrite H. reflexivity. Qed.
Lemma m_here r : m ("/"%byte :: q ++ r) = k r.
Proof. unfold m. change ("/"%byte :: q ++ r) with (("/"%byte :: q) ++ r). rewrite lit_app. reflexivity. Qed.
Lemma word_split : forall p w r, forallb regular w = true -> stop r -> forallb is_word p = true -> prefixb p (w ++ r) = true ->
  w = p \/ exists c w', w = p ++ c :: w' /\ regular c = true.
Proof.
  induction p as [|x p IH]; intros w r Hr Hs Hp H.
  - destruct w as [|c w]; [left; reflexivity|]. cbn [forallb] in Hr. apply andb_true_iff in Hr. right. exists c, w. split; [reflexivity|apply Hr].
  - cbn [forallb] in Hp. apply andb_true_iff in Hp. destruct Hp as [Hx Hp]. destruct w as [|y w].
    + destruct r as [|y r]; [discriminate|]. cbn [app prefixb] in H. apply andb_true_iff in H. destruct H as [E _]. apply beqb_eq in E. subst y.
      cbn [stop] in Hs. apply word_regular in Hx. congruence.
    + cbn [app prefixb] in H. apply andb_true_iff in H. destruct H as [E H]. apply beqb_eq in E. subst y.
      cbn [forallb] in Hr. apply andb_true_iff in Hr. destruct Hr as [_ Hr].
      destruct (IH w r Hr Hs Hp H) as [->|(c & w' & -> & Hc)]; [left; reflexivity|]. right. exists c, w'. split; [reflexivity|exact Hc].
Qed.
Lemma key_none w r : forallb regular w = true -> w <> q -> stop r -> m ("/"%byte :: w ++ r) = None.
Proof.
  intros Hr Hn Hs. destruct (prefixb q (w ++ r)) eqn:P.
  - destruct (word_split q w r Hr Hs Hw P) as [E|(c & w' & -> & Hc)]; [congruence|].
    rewrite <- app_assoc, m_here. cbn [app]. apply Hreg, Hc.
  - apply m_silent. cbn [prefixb]. rewrite P. apply andb_false_r.
Qed.
Lemma value_skip v r : val_ok ks v -> brk r -> search m (val_text v ++ r) = search m r.
Proof.
  intros H Hr. assert (C : (exists w, v = VName w) \/ forall w, v <> VName w) by (destruct v; eauto; right; discriminate).
  destruct C as [[w ->]|C].
  - destruct H as (Hn & Hwd & Hi). cbn [val_text]. rewrite <- app_assoc. change (bs "/" ++ w ++ r) with ("/"%byte :: w ++ r).
    assert (Hreg' : forallb regular w = true) by (revert Hwd; apply class_impl, word_regular).
    rewrite search_step; [|apply key_none; [exact Hreg'| |apply brk_stop, Hr]].
    + apply find_silent with (p := "/"%byte :: q); [exact m_silent|]. apply silent_nostart, regular_noslash, Hreg'.
    + intros ->. exact (Hi Hq).
  - apply find_silent with (p := "/"%byte :: q); [exact m_silent|]. apply value_silent; assumption.
Qed.
Lemma apart_stop gap v r : blank gap -> apart gap v -> val_ok ks v -> brk r -> stop (gap ++ val_text v ++ r).
Proof.
  intros Hb Ha Hv Hr. destruct gap as [|c gap].
  - cbn [app]. destruct v as [s|w|z|n g|l|l|l|t]; cbn [val_text apart] in *; try (destruct (Ha eq_refl)); try reflexivity.
    destruct Ha as [Ha|Ha]; [destruct (Ha eq_refl)|]. destruct t as [|b t]; [discriminate|]. cbn [prefixb] in Ha.
    change (bs "<") with ["<"%byte] in Ha. cbn [prefixb] in Ha. rewrite andb_true_r in Ha. apply beqb_eq in Ha. subst b. reflexivity.
  - cbn [app stop]. apply ws_not_regular. unfold blank in Hb. cbn [forallb] in Hb. apply andb_true_iff in Hb. apply Hb.
Qed.
Lemma entry_split e r : entry_text e ++ r = eBefore e ++ "/"%byte :: eKey e ++ eGap e ++ val_text (eVal e) ++ r.
Proof. unfold entry_text. rewrite <- !app_assoc. reflexivity. Qed.
Lemma after_key e r : entry_ok ks e -> brk r -> search m (eKey e ++ eGap e ++ val_text (eVal e) ++ r) = search m r.
Proof.
  intros (H1 & H2 & H3 & H4 & H5) Hr.
  rewrite (find_silent m ("/"%byte :: q)); [|exact m_silent|apply silent_nostart, regular_noslash, H2].
  rewrite (find_silent m ("/"%byte :: q)); [|exact m_silent|apply silent_nostart, blank_noslash, H3].
  apply value_skip; assumption.
Qed.
Lemma entry_skip e r : entry_ok ks e -> eKey e <> q -> brk r -> search m (entry_text e ++ r) = search m r.
Proof.
  intros He Hn Hr. pose proof He as (H1 & H2 & H3 & H4 & H5). rewrite entry_split.
  rewrite (find_silent m ("/"%byte :: q)); [|exact m_silent|apply silent_nostart, blank_noslash, H1].
  rewrite search_step; [apply after_key; assumption|]. apply key_none; [exact H2|exact Hn|apply apart_stop; assumption].
Qed.
Lemma entry_hit e r : entry_ok ks e -> eKey e = q -> brk r ->
  search m (entry_text e ++ r) = match kspec (eVal e) with Some x => Some x | None => search m r end.
Proof.
  intros He Hn Hr. pose proof He as (H1 & H2 & H3 & H4 & H5). rewrite entry_split.
  rewrite (find_silent m ("/"%byte :: q)); [|exact m_silent|apply silent_nostart, blank_noslash, H1].
  pose proof (m_here (eGap e ++ val_text (eVal e) ++ r)) as E. rewrite (Hk _ _ _ H3 H4 H5 Hr) in E.
  rewrite <- Hn in E at 1. destruct (kspec (eVal e)) as [x|].
  - apply search_hit. exact E.
  - rewrite search_step by exact E. apply after_key; assumption.
Qed.
Lemma entries_brk es r : Forall (entry_ok ks) es -> brk r -> brk (flat_map entry_text es ++ r).
Proof.
  intros H Hr. destruct es as [|e es]; [exact Hr|]. inversion H as [|x y H1 _]; subst. cbn [flat_map]. rewrite <- app_assoc, entry_split.
  destruct H1 as (H1 & _). destruct (eBefore e) as [|c b]; cbn [app brk]; [right; left; reflexivity|]. left.
  unfold blank in H1. cbn [forallb] in H1. apply andb_true_iff in H1. apply H1.
Qed.
Lemma entries_none es r : Forall (entry_ok ks) es -> ~ In q (map eKey es) -> brk r -> search m (flat_map entry_text es ++ r) = search m r.
Proof.
  intros H Hn Hr. induction H as [|e es He H IH]; [reflexivity|]. cbn [flat_map]. rewrite <- app_assoc.
  cbn [map] in Hn. rewrite entry_skip; [|exact He|intros E; apply Hn; left; exact E|apply entries_brk; assumption].
  apply IH. intros I. apply Hn. right. exact I.
Qed.
Lemma entries_read es r : Forall (entry_ok ks) es -> NoDup (map eKey es) -> brk r -> search m r = None ->
  search m (flat_map entry_text es ++ r) = match value_at es q with Some v => kspec v | None => None end.
Proof.
  intros H Hd Hr Hm. induction H as [|e es He H IH]; [exact Hm|]. cbn [map] in Hd. inversion Hd as [|x y Hx Hd']; subst.
  cbn [flat_map]. rewrite <- app_assoc. unfold value_at in *. cbn [List.find].
  destruct (bytes_eqb (eKey e) q) eqn:E.
  - apply bytes_eqb_eq in E. cbn [option_map]. rewrite entry_hit; [|exact He|exact E|apply entries_brk; assumption].
    destruct (kspec (eVal e)); [reflexivity|]. rewrite entries_none; [exact Hm|exact H|rewrite <- E; exact Hx|exact Hr].
  - rewrite entry_skip; [apply IH, Hd'|exact He| |apply entries_brk; assumption].
    intros E'. apply bytes_eqb_eq in E'. congruence.
Qed.
Lemma dictionary_read es d : dictionary ks es d -> q <> [] ->
  search m d = match value_at es q with Some v => kspec v | None => None end.
Proof.
  intros (Hd & He & before & gap & after & -> & Hg & Hb & Ha) Hn.
  rewrite (find_silent m ("/"%byte :: q)); [|exact m_silent|].
  2:{ change (bs "<<" ++ flat_map entry_text es ++ gap ++ bs ">>" ++ after) with ("<"%byte :: "<"%byte :: flat_map entry_text es ++ gap ++ bs ">>" ++ after).
      apply free_silent; [exact Hb|reflexivity]. }
  rewrite (find_silent m ("/"%byte :: q)); [|exact m_silent|apply silent_nostart, nostartb_ok; reflexivity].
  apply entries_read; [exact He|exact Hd| |].
  - destruct gap as [|c gap]; [right; right; reflexivity|]. left. unfold blank in Hg. cbn [forallb] in Hg. apply andb_true_iff in Hg. apply Hg.
  - rewrite (find_silent m ("/"%byte :: q)); [|exact m_silent|apply silent_nostart, blank_noslash, Hg].
    rewrite (find_silent m ("/"%byte :: q)); [|exact m_silent|apply silent_nostart, nostartb_ok; reflexivity].
    assert (N : forall s, contains ("/"%byte :: q) s = false -> search m s = None).
    { clear - Hw. induction s as [|b s IH]; intros C.
      - unfold search. cbn [find]. rewrite m_silent; reflexivity.
      - rewrite contains_false in C. rewrite search_step by (apply m_silent; exact (C 0%nat ltac:(lia))).
        apply IH. apply contains_false. intros j Hj. exact (C (S j) ltac:(cbn [length]; lia)). }
    apply N. exact (Ha q Hq).
Qed.
End Key.

(* ---------------------------------------------------------------- *)
(** The four notations *)
Lemma gap_ws0 g r : blank g -> match r with [] => True | b :: _ => is_ws b = false end -> ws0 (g ++ r) = r.
Proof. intros H Hr. unfold ws0. apply drop_while_app; assumption. Qed.
Lemma gap_ws1 g r : blank g -> g <> [] -> match r with [] => True | b :: _ => is_ws b = false end -> ws1 (g ++ r) = Some r.
Proof.
  intros H Hn Hr. destruct g as [|c g]; [congruence|]. unfold blank in H. cbn [forallb] in H. apply andb_true_iff in H. destruct H as [H1 H2].
  cbn [app ws1]. rewrite H1. f_equal. apply drop_while_app; assumption.
Qed.
Lemma digits_hd n r (f : byte -> bool) : 0 <= n -> (forall b, is_digit b = true -> f b = false) ->
  match decZ n ++ r with [] => True | b :: _ => f b = false end.
Proof. intros H Hf. apply digits_head; [apply XrefProofs.decZ_nonnil; exact H|apply XrefProofs.decZ_digits; exact H|exact Hf]. Qed.
Lemma value_hd ks v r : val_ok ks v -> match val_text v ++ r with [] => True | b :: _ => is_ws b = false end.
Proof.
  intros H. destruct v as [s|w|z|n g|l|l|l|t]; cbn [val_ok val_text] in *; try reflexivity.
  - apply digits_hd; [lia|exact digit_not_ws].
  - unfold ref_text. rewrite <- app_assoc. apply digits_hd; [destruct H as [[]]; cbn [fst]; lia|exact digit_not_ws].
  - destruct t as [|b t]; [destruct H as [_ []]|]. cbn [app]. apply H.
Qed.
Lemma lit_hd c s : match s with [] => True | b :: _ => beqb c b = false end -> lit [c] s = None.
Proof. intros H. apply lit_none. destruct s as [|b s]; [reflexivity|]. cbn [prefixb]. rewrite H. reflexivity. Qed.
Lemma digit_not b c : is_digit b = true -> is_digit c = false -> beqb c b = false.
Proof. intros H1 H2. destruct (beqb c b) eqn:E; [|reflexivity]. apply beqb_eq in E. congruence. Qed.
Lemma other_not b c : existsb (beqb b) ["("; "["; "/"]%byte = false -> In c ["("; "["; "/"]%byte -> beqb c b = false.
Proof.
  intros H1 H2. destruct (beqb c b) eqn:E; [|reflexivity]. apply beqb_eq in E. subst c.
  assert (X : existsb (beqb b) ["("; "["; "/"]%byte = true) by (apply existsb_exists; exists b; split; [exact H2|apply beqb_refl]). congruence.
Qed.
(** A value does not begin with [c], unless it is of the kind that does. *)
Lemma begins_not ks v r c : val_ok ks v -> In c ["("; "["; "/"]%byte ->
  match v with
  | VStr _ => c <> "("%byte | VName _ => c <> "/"%byte | VStrs _ | VWords _ | VRefs _ => c <> "["%byte | _ => True end ->
  lit [c] (val_text v ++ r) = None.
Proof.
  intros H Hc Hv. apply lit_hd. assert (Dc : is_digit c = false) by (destruct Hc as [<-|[<-|[<-|[]]]]; reflexivity).
  destruct v as [s|w|z|n g|l|l|l|t]; cbn [val_ok val_text] in *.
  - cbn. destruct Hc as [<-|[<-|[<-|[]]]]; try reflexivity. congruence.
  - cbn. destruct Hc as [<-|[<-|[<-|[]]]]; try reflexivity. congruence.
  - apply digits_hd; [lia|]. intros b Hb. apply digit_not; assumption.
  - unfold ref_text. rewrite <- app_assoc. apply digits_hd; [destruct H as [[]]; cbn [fst]; lia|]. intros b Hb. apply digit_not; assumption.
  - cbn. destruct Hc as [<-|[<-|[<-|[]]]]; try reflexivity. congruence.
  - cbn. destruct Hc as [<-|[<-|[<-|[]]]]; try reflexivity. congruence.
  - cbn. destruct Hc as [<-|[<-|[<-|[]]]]; try reflexivity. congruence.
  - destruct t as [|b t]; [destruct H as [_ []]|]. cbn [app]. apply other_not; [apply H|exact Hc].
Qed.
Lemma reg_ws0 c r : regular c = true -> ws0 (c :: r) = c :: r.
Proof. unfold regular, ws0. intros H. apply andb_true_iff in H. destruct H as [H _]. apply negb_true_iff in H. cbn [drop_while]. rewrite H. reflexivity. Qed.
Lemma reg_lit c x r : regular c = true -> regular x = false -> lit [x] (c :: r) = None.
Proof. intros H Hx. apply lit_hd. destruct (beqb x c) eqn:E; [|reflexivity]. apply beqb_eq in E. congruence. Qed.

Definition k_str (r : bytes) : option bytes :=
  do r <- lit (bs "(") (ws0 r); let g := until ")" r in do _ <- lit (bs ")") (skipn (length g) r); Some g.
Definition k_name (r : bytes) : option bytes :=
  do r <- lit (bs "/") (ws0 r); match take_while is_word r with [] => None | w => Some w end.
Definition k_arr (r : bytes) : option bytes :=
  do r <- lit (bs "[") (ws0 r); let g := until "]" r in do _ <- lit (bs "]") (skipn (length g) r); Some g.
Definition k_num (r : bytes) : option bytes := do r <- ws1 r; do (d, _) <- digits1 r; Some d.

Definition s_str (v : fval) : option bytes := match v with VStr s => Some s | _ => None end.
Definition s_name (v : fval) : option bytes := match v with VName w => Some w | _ => None end.
Definition s_num (v : fval) : option bytes := match v with VNum z => Some (decZ z) | VRef n _ => Some (decZ n) | _ => None end.
Definition s_arr (v : fval) : option bytes :=
  match v with
  | VStrs l => Some (join (bs " ") (map in_parens l)) | VWords l => Some (join (bs " ") l)
  | VRefs l => Some (join (bs " ") (map ref_text l)) | _ => None end.

Lemma str_reg c r : regular c = true -> k_str (c :: r) = None.
Proof. intros H. unfold k_str. rewrite reg_ws0 by exact H. change (bs "(") with ["("%byte]. rewrite reg_lit; [reflexivity|exact H|reflexivity]. Qed.
Lemma name_reg c r : regular c = true -> k_name (c :: r) = None.
Proof. intros H. unfold k_name. rewrite reg_ws0 by exact H. change (bs "/") with ["/"%byte]. rewrite reg_lit; [reflexivity|exact H|reflexivity]. Qed.
Lemma arr_reg c r : regular c = true -> k_arr (c :: r) = None.
Proof. intros H. unfold k_arr. rewrite reg_ws0 by exact H. change (bs "[") with ["["%byte]. rewrite reg_lit; [reflexivity|exact H|reflexivity]. Qed.
Lemma num_reg c r : regular c = true -> k_num (c :: r) = None.
Proof. intros H. unfold k_num, ws1. unfold regular in H. apply andb_true_iff in H. destruct H as [H _]. apply negb_true_iff in H. rewrite H. reflexivity. Qed.

Section Kinds.
Variable ks : list bytes.
Lemma k_str_ok gap v r : blank gap -> apart gap v -> val_ok ks v -> brk r -> k_str (gap ++ val_text v ++ r) = s_str v.
Proof.
  intros Hg _ Hv Hr. unfold k_str. rewrite gap_ws0; [|exact Hg|apply value_hd with ks, Hv].
  assert (D : (exists s, v = VStr s) \/ forall s, v <> VStr s) by (destruct v; eauto; right; discriminate).
  destruct D as [[s ->]|D].
  - cbn [val_text s_str]. unfold in_parens. rewrite <- !app_assoc. rewrite lit_app. cbn [obind].
    change (bs ")" ++ r) with (")"%byte :: r). destruct Hv as (_ & Hc & _). rewrite until_app by exact Hc.
    rewrite WriterProofs.skipn_app_exact. reflexivity.
  - change (bs "(") with ["("%byte]. rewrite begins_not with (ks := ks); [|exact Hv|left; reflexivity|].
    + destruct v; try reflexivity. destruct (D s eq_refl).
    + destruct v; try exact I; try discriminate. destruct (D s eq_refl).
Qed.
Lemma k_name_ok gap v r : blank gap -> apart gap v -> val_ok ks v -> brk r -> k_name (gap ++ val_text v ++ r) = s_name v.
Proof.
  intros Hg _ Hv Hr. unfold k_name. rewrite gap_ws0; [|exact Hg|apply value_hd with ks, Hv].
  assert (D : (exists s, v = VName s) \/ forall s, v <> VName s) by (destruct v; eauto; right; discriminate).
  destruct D as [[s ->]|D].
  - cbn [val_text s_name]. rewrite <- !app_assoc. rewrite lit_app. cbn [obind].
    destruct Hv as (Hn & Hc & _). rewrite take_while_app; [|exact Hc|destruct r as [|c r]; [exact I|exact (brk_not_word c r Hr)]].
    destruct s; [congruence|reflexivity].
  - change (bs "/") with ["/"%byte]. rewrite begins_not with (ks := ks); [|exact Hv|right; right; left; reflexivity|].
    + destruct v; try reflexivity. destruct (D w eq_refl).
    + destruct v; try exact I; try discriminate. destruct (D w eq_refl).
Qed.
Lemma arr_inside l r : without "]" l -> k_arr (bs "[" ++ l ++ bs "]" ++ r) = Some l.
Proof.
  intros H. unfold k_arr. change (ws0 (bs "[" ++ l ++ bs "]" ++ r)) with (bs "[" ++ l ++ bs "]" ++ r). rewrite lit_app. cbn [obind].
  change (bs "]" ++ r) with ("]"%byte :: r). rewrite until_app by exact H. rewrite WriterProofs.skipn_app_exact. reflexivity.
Qed.
Lemma join_without c l : without c (bs " ") -> Forall (without c) l -> without c (join (bs " ") l).
Proof. intros H1 H2. apply forallb_join; [exact H1|exact H2]. Qed.
Lemma parens_without s : without "]" s -> without "]" (in_parens s).
Proof. intros H. unfold without, in_parens in *. rewrite !forallb_app, H. reflexivity. Qed.
Lemma digits_without n : 0 <= n -> without "]" (decZ n).
Proof. intros H. unfold without. eapply class_impl; [|apply XrefProofs.decZ_digits; exact H]. intros b. destruct b; vm_compute; congruence. Qed.
Lemma ref_without r : object_number (fst r) -> object_number (snd r) -> without "]" (ref_text r).
Proof.
  intros [H1 _] [H2 _]. unfold ref_text. pose proof (digits_without _ H1) as A. pose proof (digits_without _ H2) as B.
  unfold without in *. rewrite !forallb_app, A, B. reflexivity.
Qed.
Lemma word_without w : forallb word_byte w = true -> without "]" w.
Proof. intros H. unfold without. revert H. apply class_impl. intros b. destruct b; vm_compute; congruence. Qed.
Lemma k_arr_ok gap v r : blank gap -> apart gap v -> val_ok ks v -> brk r -> k_arr (gap ++ val_text v ++ r) = s_arr v.
Proof.
  intros Hg _ Hv Hr. assert (G : k_arr (gap ++ val_text v ++ r) = k_arr (val_text v ++ r)).
  { unfold k_arr. rewrite gap_ws0; [|exact Hg|apply value_hd with ks, Hv].
    pose proof (gap_ws0 [] (val_text v ++ r) eq_refl (value_hd ks v r Hv)) as E. cbn [app] in E. rewrite E. reflexivity. }
  rewrite G. clear G.
  assert (N : match v with VStrs _ | VWords _ | VRefs _ => False | _ => True end -> k_arr (val_text v ++ r) = None).
  { intros K. unfold k_arr. pose proof (gap_ws0 [] (val_text v ++ r) eq_refl (value_hd ks v r Hv)) as E. cbn [app] in E. rewrite E.
    change (bs "[") with ["["%byte]. rewrite begins_not with (ks := ks); [reflexivity|exact Hv|right; left; reflexivity|].
    destruct v; try exact I; try discriminate; destruct K. }
  destruct v as [s|w|z|n g|l|l|l|t]; try (exact (N I)); cbn [val_text s_arr val_ok] in *; rewrite <- !app_assoc; apply arr_inside, join_without; try reflexivity.
  - rewrite Forall_map. revert Hv. apply Forall_impl. intros s [_ H]. apply parens_without, H.
  - revert Hv. apply Forall_impl. intros s [_ H]. apply word_without, H.
  - rewrite Forall_map. revert Hv. apply Forall_impl. intros x [H1 H2]. apply ref_without; assumption.
Qed.
Lemma digits1_none s : match s with [] => True | b :: _ => is_digit b = false end -> digits1 s = None.
Proof. intros H. unfold digits1. destruct s as [|b s]; [reflexivity|]. cbn [take_while]. rewrite H. reflexivity. Qed.
Lemma k_num_ok gap v r : blank gap -> apart gap v -> val_ok ks v -> brk r -> k_num (gap ++ val_text v ++ r) = s_num v.
Proof.
  intros Hg Ha Hv Hr. unfold k_num. pose proof (value_hd ks v r Hv) as Hh. destruct gap as [|c gp] eqn:Eg.
  - assert (N : ws1 ([] ++ val_text v ++ r) = None).
    { cbn [app]. unfold ws1. destruct (val_text v ++ r) as [|b x]; [reflexivity|]. rewrite Hh. reflexivity. }
    rewrite N. cbn [obind]. destruct v; try reflexivity; destruct (Ha eq_refl).
  - rewrite <- Eg in *. rewrite gap_ws1; [|exact Hg|rewrite Eg; discriminate|exact Hh]. cbn [obind].
    destruct v as [s|w|z|n g|l|l|l|t]; cbn [val_text val_ok s_num] in *.
    + rewrite digits1_none by reflexivity. reflexivity.
    + rewrite digits1_none by reflexivity. reflexivity.
    + rewrite digits1_app; [reflexivity|apply XrefProofs.decZ_nonnil; lia|apply XrefProofs.decZ_digits; lia|apply brk_not_digit, Hr].
    + unfold ref_text. cbn [fst snd]. rewrite <- !app_assoc. destruct Hv as [[H1 _] _].
      rewrite digits1_app; [reflexivity|apply XrefProofs.decZ_nonnil; lia|apply XrefProofs.decZ_digits; lia|reflexivity].
    + rewrite digits1_none by reflexivity. reflexivity.
    + rewrite digits1_none by reflexivity. reflexivity.
    + rewrite digits1_none by reflexivity. reflexivity.
    + rewrite digits1_none; [reflexivity|]. destruct t as [|b t]; [destruct Hv as [_ []]|]. cbn [app]. apply Hv.
Qed.
Variables (es : list entry) (d : bytes).
Hypothesis Hd : dictionary ks es d.
Lemma read_str q : In q ks -> forallb is_word q = true -> q <> [] -> search (m_str (bs "/" ++ q)) d = match value_at es q with Some v => s_str v | None => None end.
Proof. intros H1 H2 H3. exact (dictionary_read ks q H1 H2 _ k_str s_str str_reg k_str_ok es d Hd H3). Qed.
Lemma read_name q : In q ks -> forallb is_word q = true -> q <> [] -> search (m_name (bs "/" ++ q)) d = match value_at es q with Some v => s_name v | None => None end.
Proof. intros H1 H2 H3. exact (dictionary_read ks q H1 H2 _ k_name s_name name_reg k_name_ok es d Hd H3). Qed.
Lemma read_arr q : In q ks -> forallb is_word q = true -> q <> [] -> search (m_arr (bs "/" ++ q)) d = match value_at es q with Some v => s_arr v | None => None end.
Proof. intros H1 H2 H3. exact (dictionary_read ks q H1 H2 _ k_arr s_arr arr_reg k_arr_ok es d Hd H3). Qed.
Lemma read_num q : In q ks -> forallb is_word q = true -> q <> [] -> search (m_key (bs "/" ++ q)) d = match value_at es q with Some v => s_num v | None => None end.
Proof. intros H1 H2 H3. exact (dictionary_read ks q H1 H2 _ k_num s_num num_reg k_num_ok es d Hd H3). Qed.
End Kinds.
