From Verif Require Import WarnModel WarnSpec.

Section coll.
  Context (extra : nat -> nat).
  Notation step := (step extra). Notation run := (run extra).

  Lemma upd_length {A} i (x : A) l : length (upd i x l) = length l.
  Proof. revert i. induction l as [|a l IH]; intros [|i]; cbn; auto. Qed.
  Lemma nth_upd_same {A} i (x d : A) l : i < length l -> nth i (upd i x l) d = x.
  Proof. revert i. induction l as [|a l IH]; intros [|i] H; cbn in *; try lia; [reflexivity|]. apply IH. lia. Qed.
  Lemma nth_upd_other {A} i j (x d : A) l : i <> j -> nth j (upd i x l) d = nth j l d.
  Proof. revert i j. induction l as [|a l IH]; intros [|i] [|j] H; cbn; try reflexivity; try lia. apply IH. lia. Qed.
  Lemma firstn_upd {A} i (x : A) l : i < length l -> firstn (S i) (upd i x l) = firstn i l ++ [x].
  Proof. revert i. induction l as [|a l IH]; intros [|i] H; cbn in *; try lia; [reflexivity|]. f_equal. apply IH. lia. Qed.
  Lemma firstn_upd_le {A} n i (x : A) l : n <= i -> firstn n (upd i x l) = firstn n l.
  Proof. revert n i. induction l as [|a l IH]; intros [|n] [|i] H; cbn; try reflexivity; try lia. f_equal. apply IH. lia. Qed.

  (** A collector in a memory. *)
  Definition wf (st : memory * collector) : Prop :=
    let s := cWarnings (snd st) in sArr s < length (fst st) /\ sLen s <= length (array (fst st) (sArr s)).
  Definition holds (st : memory * collector) (l : list warning) : Prop := read (fst st) (cWarnings (snd st)) = map Some l.

  Lemma append_ok m s w : sArr s < length m -> sLen s <= length (array m (sArr s)) ->
    let '(m', s') := append1 extra m s w in
    sArr s' < length m' /\ sLen s' <= length (array m' (sArr s')) /\ read m' s' = read m s ++ [Some w] /\
    length m <= length m' /\
    (forall k n, n <= sLen s -> k < length m -> firstn n (array m' k) = firstn n (array m k) \/ k = sArr s' /\ sArr s' = sArr s /\ firstn n (array m' k) = firstn n (array m k)) /\
    (forall k, k < length m -> k <> sArr s -> array m' k = array m k) /\
    (sArr s' = sArr s /\ sLen s <= sLen s' \/ length m <= sArr s').
  Proof.
    intros H1 H2. unfold append1. destruct (Nat.ltb_spec (sLen s) (length (array m (sArr s)))) as [L|L].
    - assert (Hk : forall k, array (upd (sArr s) (upd (sLen s) (Some w) (array m (sArr s))) m) k =
        if Nat.eq_dec (sArr s) k then upd (sLen s) (Some w) (array m (sArr s)) else array m k).
      { intros k. unfold array at 1. destruct (Nat.eq_dec (sArr s) k) as [<-|Hn]; [apply nth_upd_same; exact H1|apply nth_upd_other; exact Hn]. }
      cbn [sArr sLen]. unfold read. cbn [sArr sLen]. rewrite !Hk. destruct (Nat.eq_dec (sArr s) (sArr s)); [|congruence].
      rewrite !upd_length. split; [exact H1|]. split; [lia|]. split; [apply firstn_upd; exact L|]. split; [lia|]. split; [|split; [|left; split; [reflexivity|lia]]].
      + intros k n Hn _. left. rewrite Hk. destruct (Nat.eq_dec (sArr s) k) as [<-|]; [apply firstn_upd_le; exact Hn|reflexivity].
      + intros k _ Hn. rewrite Hk. destruct (Nat.eq_dec (sArr s) k); [congruence|reflexivity].
    - assert (Hl : sLen s = length (array m (sArr s))) by lia.
      set (na := firstn (sLen s) (array m (sArr s)) ++ [Some w] ++ repeat None (extra (sLen s))).
      assert (Hk : forall k, k < length m -> array (m ++ [na]) k = array m k) by (intros k Hk; unfold array; apply app_nth1, Hk).
      assert (Hn : array (m ++ [na]) (length m) = na) by (unfold array; rewrite app_nth2, Nat.sub_diag by lia; reflexivity).
      cbn [sArr sLen]. unfold read. cbn [sArr sLen]. rewrite Hn, app_length. cbn [length].
      split; [lia|]. split; [|split; [|split; [lia|split; [|split; [|right; lia]]]]].
      + unfold na. rewrite !app_length, firstn_length. cbn [length]. lia.
      + unfold na. rewrite firstn_all2 with (n := sLen s) by lia. rewrite app_assoc.
        rewrite firstn_app. replace (S (sLen s) - length (array m (sArr s) ++ [Some w])) with 0 by (rewrite app_length; cbn [length]; lia).
        rewrite firstn_O, app_nil_r. apply firstn_all2. rewrite app_length. cbn [length]. lia.
      + intros k n _ Hlt. left. rewrite Hk by exact Hlt. reflexivity.
      + intros k Hlt _. apply Hk, Hlt.
  Qed.

  Lemma step_ok st o l : wf st -> holds st l ->
    wf (step st o) /\ holds (step st o) (expected (cEnabled (snd st)) l [o]) /\
    cEnabled (snd (step st o)) = match o with Enable => true | Disable => false | _ => cEnabled (snd st) end.
  Proof.
    destruct st as [m c]. intros [W1 W2] H. cbn [fst snd] in *. destruct o as [[w|]| | |]; cbn [step expected fst snd].
    - destruct (cEnabled c) eqn:E.
      + pose proof (append_ok m (cWarnings c) w W1 W2) as A. destruct (append1 extra m (cWarnings c) w) as [m' s'].
        destruct A as (A1 & A2 & A3 & _). split; [split; assumption|]. split; [|reflexivity]. unfold holds in *. cbn [fst snd cWarnings] in *. rewrite A3, H, map_app. reflexivity.
      + split; [split; assumption|]. split; [exact H|exact E].
    - split; [split; assumption|]. split; [exact H|reflexivity].
    - split; [split; cbn; [exact W1|lia]|]. split; reflexivity.
    - split; [split; assumption|]. split; [exact H|reflexivity].
    - split; [split; assumption|]. split; [exact H|reflexivity].
  Qed.
  Lemma run_ok ops : forall st l, wf st -> holds st l ->
    wf (run st ops) /\ holds (run st ops) (expected (cEnabled (snd st)) l ops).
  Proof.
    unfold WarnModel.run. induction ops as [|o ops IH]; intros st l W H; [split; assumption|]. cbn [fold_left].
    destruct (step_ok st o l W H) as (W1 & H1 & E1). specialize (IH _ _ W1 H1). rewrite E1 in IH.
    destruct o as [[w|]| | |]; cbn [expected] in *; exact IH.
  Qed.
  Lemma new_ok e m : wf (NewWarningCollector e m) /\ holds (NewWarningCollector e m) [].
  Proof. unfold NewWarningCollector, wf, holds. cbn. rewrite app_length. cbn. split; [lia|]. reflexivity. Qed.

  Lemma filter_some f l : filter_loop f (map Some l) = Ok (List.filter f l).
  Proof. induction l as [|w l IH]; [reflexivity|]. cbn. rewrite IH. reflexivity. Qed.

  (** Everything a user can observe after any operations. *)
  Lemma collector_ok e m ops :
    let '(m', c) := run (NewWarningCollector e m) ops in
    let ws := expected e [] ops in
    read m' (Warnings c) = map Some ws /\ Count c = length ws /\ HasWarnings c = negb (match ws with [] => true | _ => false end) /\
    (forall lv, FilterByLevel m' c lv = Ok (List.filter (fun w => bytes_eqb (wLevel w) lv) ws)) /\
    (forall code, GetByCode m' c code = Ok (List.filter (fun w => bytes_eqb (wCode w) code) ws)).
  Proof.
    destruct (new_ok e m) as [W H]. pose proof (run_ok ops _ _ W H) as [W1 H1].
    destruct (run (NewWarningCollector e m) ops) as [m' c]. unfold holds, wf in *. cbn [fst snd] in *.
    change (cEnabled (snd (NewWarningCollector e m))) with e in H1. set (ws := expected e [] ops) in *. cbv zeta.
    assert (L : sLen (cWarnings c) = length ws).
    { apply (f_equal (@length _)) in H1. rewrite map_length in H1. unfold read in H1. rewrite firstn_length in H1. lia. }
    split; [exact H1|]. split; [exact L|]. split; [unfold HasWarnings; rewrite L; destruct ws; reflexivity|].
    split; intros x; unfold FilterByLevel, GetByCode; rewrite H1; apply filter_some.
  Qed.

  (** A slice obtained from Warnings keeps its contents until Clear. *)
  Definition safe (st : memory * collector) (s : slice) : Prop :=
    wf st /\ sArr s < length (fst st) /\ (sArr s = sArr (cWarnings (snd st)) -> sLen s <= sLen (cWarnings (snd st))).
  Lemma step_safe st o s : no_clear [o] = true -> safe st s -> safe (step st o) s /\ read (fst (step st o)) s = read (fst st) s.
  Proof.
    destruct st as [m c]. intros N ((W1 & W2) & S1 & S2). cbn [fst snd] in *.
    destruct o as [[w|]| | |]; cbn [step fst snd]; try discriminate; try (split; [split; [split; assumption|split; assumption]|reflexivity]).
    destruct (cEnabled c); [|split; [split; [split; assumption|split; assumption]|reflexivity]].
    pose proof (append_ok m (cWarnings c) w W1 W2) as A. destruct (append1 extra m (cWarnings c) w) as [m' s'].
    destruct A as (A1 & A2 & A3 & A4 & A5 & A6 & A7). unfold safe, wf. cbn [fst snd cWarnings]. split.
    - split; [split; assumption|]. split; [lia|]. intros E. destruct A7 as [[A7 A8]|A7]; [|lia]. rewrite A7 in E. specialize (S2 E). lia.
    - unfold read. destruct (Nat.eq_dec (sArr s) (sArr (cWarnings c))) as [E|E].
      + destruct (A5 (sArr s) (sLen s) (S2 E) S1) as [H|(_ & _ & H)]; exact H.
      + rewrite A6 by assumption. reflexivity.
  Qed.
  Lemma run_safe ops : forall st s, no_clear ops = true -> safe st s -> read (fst (run st ops)) s = read (fst st) s.
  Proof.
    unfold WarnModel.run. induction ops as [|o ops IH]; intros st s N H; [reflexivity|]. cbn [fold_left].
    unfold no_clear in N. cbn [forallb] in N. apply andb_true_iff in N. destruct N as [N1 N2].
    destruct (step_safe st o s) as [H1 H2]; [unfold no_clear; cbn [forallb]; rewrite N1; reflexivity|exact H|].
    rewrite IH by assumption. exact H2.
  Qed.
  Lemma snapshot_ok e m ops1 ops2 : no_clear ops2 = true ->
    let st1 := run (NewWarningCollector e m) ops1 in
    let st2 := run st1 ops2 in
    read (fst st2) (Warnings (snd st1)) = map Some (expected e [] ops1).
  Proof.
    intros N. cbv zeta. destruct (new_ok e m) as [W H]. pose proof (run_ok ops1 _ _ W H) as [W1 H1].
    rewrite run_safe; [exact H1|exact N|]. split; [exact W1|]. split; [apply W1|]. intros _. apply Nat.le_refl.
  Qed.
End coll.

(** Errors *)
Lemma is_layer c : forall e, errorsIs e c = true <-> exists d, layer e d /\ has_code c d.
Proof.
  fix IH 1. intros e. destruct e as [code msg [e|]|msg e|msg]; cbn [errorsIs].
  - rewrite orb_true_iff, bytes_eqb_eq, IH. split.
    + intros [->|(d & H1 & H2)]; [exists (PDFError c msg (Some e)); split; [constructor|exists msg, (Some e); reflexivity]|].
      exists d. split; [constructor; exact H1|exact H2].
    + intros (d & H1 & H2). inversion H1; subst.
      * destruct H2 as (? & ? & [= -> _ _]). auto.
      * right. exists d. auto.
  - rewrite orb_false_r, bytes_eqb_eq. split.
    + intros ->. exists (PDFError c msg None). split; [constructor|exists msg, None; reflexivity].
    + intros (d & H1 & H2). inversion H1; subst. destruct H2 as (? & ? & [= -> _ _]). reflexivity.
  - rewrite IH. split.
    + intros (d & H1 & H2). exists d. split; [constructor; exact H1|exact H2].
    + intros (d & H1 & H2). inversion H1; subst; [destruct H2 as (? & ? & H2); discriminate|]. exists d. auto.
  - split; [discriminate|]. intros (d & H1 & H2). inversion H1; subst. destruct H2 as (? & ? & H2). discriminate.
Qed.
Lemma code_in_spec l e : code_in l e = true <-> exists c, In c l /\ has_code c e.
Proof.
  unfold code_in, has_code. destruct e as [code msg cause|msg e|msg].
  - rewrite existsb_exists. split.
    + intros (c & H1 & H2). apply bytes_eqb_eq in H2. subst c. exists code. split; [exact H1|]. exists msg, cause. reflexivity.
    + intros (c & H1 & (m & k & [= -> _ _])). exists c. split; [exact H1|]. apply bytes_eqb_refl.
  - split; [discriminate|]. intros (c & _ & (m & k & H)). discriminate.
  - split; [discriminate|]. intros (c & _ & (m & k & H)). discriminate.
Qed.

Lemma text_layer e d : layer e d -> exists pre post, error_text e = pre ++ message d ++ post.
Proof.
  induction 1 as [e|code msg e d L (pre & post & IH)|msg e d L (pre & post & IH)].
  - destruct e as [code msg [c|]|msg e|msg]; cbn [error_text message].
    + exists (bs "[" ++ code ++ bs "] "), (bs ": " ++ error_text c). now rewrite <- !app_assoc.
    + exists (bs "[" ++ code ++ bs "] "), []. now rewrite app_nil_r, <- !app_assoc.
    + now exists [], (bs ": " ++ error_text e).
    + exists [], []. now rewrite app_nil_r.
  - exists (bs "[" ++ code ++ bs "] " ++ msg ++ bs ": " ++ pre), post. cbn [error_text]. now rewrite IH, <- !app_assoc.
  - exists (msg ++ bs ": " ++ pre), post. cbn [error_text]. now rewrite IH, <- !app_assoc.
Qed.
Lemma text_code e c : has_code c e -> exists post, error_text e = bs "[" ++ c ++ bs "] " ++ post.
Proof. intros (msg & [d|] & ->); cbn [error_text]; eauto. Qed.
