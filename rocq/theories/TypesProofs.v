(** Proofs about warnings and errors. *)
From Verif Require Import Util TypesModel TypesSpec.
Local Open Scope Z_scope.

Lemma put_length i x l : length (put i x l) = length l.
Proof. revert i. induction l as [|y l IH]; intros [|i]; cbn [put length]; try rewrite IH; reflexivity. Qed.
Lemma put_before i x l n : (n <= i)%nat -> firstn n (put i x l) = firstn n l.
Proof.
  revert i n. induction l as [|y l IH]; intros [|i] [|n] H; cbn [put firstn]; try reflexivity; try lia. rewrite IH by lia. reflexivity.
Qed.
Lemma put_at i x l : (i < length l)%nat -> firstn (S i) (put i x l) = firstn i l ++ [x].
Proof.
  revert i. induction l as [|y l IH]; intros [|i] H; cbn [length] in H; try lia; [reflexivity|].
  change (firstn (S (S i)) (put (S i) x (y :: l))) with (y :: firstn (S i) (put i x l)). rewrite IH by lia. reflexivity.
Qed.

(** The collector's slice lies within its array *)
Definition wf (m : memory) (c : collector) : Prop :=
  sound m /\ exists l, mget (slArray (cWarnings c)) (arrays m) = Some l /\ (slLen (cWarnings c) <= length l)%nat.

Lemma cells_set a x l m f : cells (mkMem (mset a l m) f) x = if x =? a then l else cells (mkMem m f) x.
Proof. unfold cells. cbn [arrays]. rewrite mget_mset. destruct (x =? a); reflexivity. Qed.

Lemma step_ok grow m c k : wf m c ->
  let (m', c') := wstep grow (m, c) k in
  wf m' c' /\ (cEnabled c', seen m' (cWarnings c')) = held_step (cEnabled c, seen m (cWarnings c)) k /\
  (free m <= free m') /\
  (forall a, a < free m -> a <> slArray (cWarnings c) -> cells m' a = cells m a) /\
  (slArray (cWarnings c') = slArray (cWarnings c) \/ free m <= slArray (cWarnings c')) /\
  (k <> WClear -> forall s, slArray s < free m -> (slArray s = slArray (cWarnings c) -> (slLen s <= slLen (cWarnings c))%nat) -> seen m' s = seen m s).
Proof.
  intros [S (l & Hl & Hn)]. destruct k as [w| | |]; cbn [wstep].
  - unfold CAdd. destruct (cEnabled c) eqn:E; [|repeat split; try lia; eauto; rewrite E; destruct w; reflexivity].
    destruct w as [x|]; [|repeat split; try lia; try rewrite E; eauto].
    destruct c as [[a n] en]. cbn [cWarnings cEnabled slArray slLen] in *. subst en.
    unfold append1. cbn [slArray slLen]. unfold cells at 1. rewrite Hl. assert (Ha : a < free m) by exact (S _ _ Hl).
    assert (Ec : cells m a = l) by (unfold cells; rewrite Hl; reflexivity).
    destruct (Nat.ltb_spec n (length l)) as [H|H]; cbn [cWarnings cEnabled slArray slLen free arrays].
    + split.
      { split.
        - intros b k. cbn [arrays free]. rewrite mget_mset. destruct (Z.eqb_spec b a); [intros _; lia|apply S].
        - exists (put n x l). split; [cbn [arrays cWarnings slArray]; rewrite mget_mset, Z.eqb_refl, Ec; reflexivity|]. rewrite put_length. cbn [cWarnings slLen]. lia. }
      split. { cbn [held_step fst snd]. f_equal. unfold seen. cbn [slLen slArray]. rewrite cells_set, Z.eqb_refl, Ec, put_at by exact H. reflexivity. }
      split; [lia|]. split. { intros b Hb Hne. rewrite cells_set. destruct (Z.eqb_spec b a); [congruence|]. destruct m; reflexivity. }
      split; [left; reflexivity|]. intros _ s Hs Hle. unfold seen. rewrite cells_set.
      destruct (Z.eqb_spec (slArray s) a) as [Ea|]; [|destruct m; reflexivity]. rewrite Ea, Ec. apply put_before. exact (Hle Ea).
    + rewrite Ec. split.
      { split.
        - intros b k. cbn [arrays free]. rewrite mget_mset. destruct (Z.eqb_spec b (free m)); [intros _; lia|]. intros Hk. apply S in Hk. lia.
        - eexists. split; [cbn [arrays cWarnings slArray]; rewrite mget_mset, Z.eqb_refl; reflexivity|]. cbn [cWarnings slLen].
          rewrite app_length, firstn_length. cbn [length]. lia. }
      split.
      { cbn [held_step fst snd]. f_equal. unfold seen. cbn [slLen slArray]. rewrite cells_set, Z.eqb_refl, Ec.
        rewrite firstn_all2 with (n := n) by lia. assert (n = length l) by lia. subst n.
        replace (Datatypes.S (length l)) with (length l + 1)%nat by lia. rewrite firstn_app_2. reflexivity. }
      split; [lia|]. split. { intros b Hb Hne. rewrite cells_set. destruct (Z.eqb_spec b (free m)); [lia|]. destruct m; reflexivity. }
      split; [right; lia|]. intros _ s Hs Hle. unfold seen. rewrite cells_set. destruct (Z.eqb_spec (slArray s) (free m)); [lia|]. destruct m; reflexivity.
  - unfold CClear. cbn [cWarnings cEnabled slArray slLen]. split; [split; [exact S|exists l; split; [exact Hl|cbn; lia]]|].
    split; [reflexivity|]. split; [lia|]. split; [reflexivity|]. split; [left; reflexivity|]. intros H; congruence.
  - unfold CEnable. cbn [cWarnings cEnabled]. split; [split; [exact S|exists l; split; assumption]|]. split; [reflexivity|].
    split; [lia|]. split; [reflexivity|]. split; [left; reflexivity|]. reflexivity.
  - unfold CDisable. cbn [cWarnings cEnabled]. split; [split; [exact S|exists l; split; assumption]|]. split; [reflexivity|].
    split; [lia|]. split; [reflexivity|]. split; [left; reflexivity|]. reflexivity.
Qed.

Lemma new_wf m en : sound m -> let (m', c) := NewWarningCollector en m in
  wf m' c /\ cEnabled c = en /\ seen m' (cWarnings c) = [] /\ slArray (cWarnings c) = free m /\ free m < free m' /\
  (forall a, a < free m -> cells m' a = cells m a).
Proof.
  intros S. unfold NewWarningCollector. split.
  { split.
    - intros a l. cbn [arrays free]. rewrite mget_mset. destruct (Z.eqb_spec a (free m)); [lia|]. intros H. apply S in H. lia.
    - exists []. cbn [arrays cWarnings slArray slLen]. rewrite mget_mset, Z.eqb_refl. split; [reflexivity|cbn; lia]. }
  split; [reflexivity|]. split; [reflexivity|]. split; [reflexivity|]. split; [cbn; lia|].
  intros a Ha. rewrite cells_set. destruct (Z.eqb_spec a (free m)); [lia|]. destruct m; reflexivity.
Qed.

Lemma steps_ok grow : forall l m c, wf m c ->
  let (m', c') := wsteps grow (m, c) l in
  wf m' c' /\ (cEnabled c', seen m' (cWarnings c')) = fold_left held_step l (cEnabled c, seen m (cWarnings c)).
Proof.
  induction l as [|k l IH]; intros m c W; [cbn; split; [exact W|reflexivity]|].
  unfold wsteps. cbn [fold_left]. pose proof (step_ok grow m c k W) as H.
  destruct (wstep grow (m, c) k) as [m1 c1]. destruct H as (W1 & E1 & _). specialize (IH m1 c1 W1). rewrite E1 in IH. exact IH.
Qed.
Lemma seen_length m c : wf m c -> length (seen m (cWarnings c)) = CCount c.
Proof. intros [_ (l & Hl & Hn)]. unfold seen, cells, CCount. rewrite Hl, firstn_length. lia. Qed.

Lemma collected grow m en l : sound m ->
  let (m0, c0) := NewWarningCollector en m in
  let (m', c) := wsteps grow (m0, c0) l in
  cEnabled c = fst (held en l) /\ seen m' (CWarnings c) = snd (held en l) /\
  CCount c = length (snd (held en l)) /\ (CHasWarnings c = true <-> snd (held en l) <> []).
Proof.
  intros S. pose proof (new_wf m en S) as N. destruct (NewWarningCollector en m) as [m0 c0]. destruct N as (W & E1 & E2 & _).
  pose proof (steps_ok grow l m0 c0 W) as H. destruct (wsteps grow (m0, c0) l) as [m' c]. destruct H as [W' H].
  rewrite E1, E2 in H. fold (held en l) in H. rewrite <- H. cbn [fst snd]. pose proof (seen_length m' c W') as L.
  split; [reflexivity|]. split; [reflexivity|]. split; [symmetry; exact L|].
  unfold CHasWarnings. fold (CCount c). rewrite <- L. unfold CWarnings. destruct (seen m' (cWarnings c)); cbn [length].
  - split; [discriminate|congruence].
  - split; [discriminate|reflexivity].
Qed.
Lemma filtered at_ level m c : CFilterByLevel at_ level m c = List.filter (fun p => bytes_eqb (wLevel (at_ p)) level) (seen m (CWarnings c)).
Proof. reflexivity. Qed.

(** A list taken out earlier *)
Lemma snapshot_steps grow : forall l m c s, wf m c -> ~ In WClear l -> slArray s < free m ->
  (slArray s = slArray (cWarnings c) -> (slLen s <= slLen (cWarnings c))%nat) ->
  seen (fst (wsteps grow (m, c) l)) s = seen m s.
Proof.
  induction l as [|k l IH]; intros m c s W Hn Hs Hle; [reflexivity|]. unfold wsteps. cbn [fold_left].
  pose proof (step_ok grow m c k W) as H. destruct (wstep grow (m, c) k) as [m1 c1] eqn:E. destruct H as (W1 & E1 & F & _ & A & K).
  rewrite <- (K ltac:(intros ->; apply Hn; left; reflexivity) s Hs Hle). apply IH; [exact W1|intros H; apply Hn; right; exact H|lia|].
  intros Heq. assert (slLen (cWarnings c) <= slLen (cWarnings c1))%nat.
  { pose proof (seen_length _ _ W) as L0. pose proof (seen_length _ _ W1) as L1. unfold CCount in *. rewrite <- L0, <- L1.
    pose proof (f_equal snd E1) as Es. cbn [snd] in Es. rewrite Es. destruct k as [[w|]| | |]; cbn [held_step fst snd].
    - destruct (cEnabled c); cbn [snd]; rewrite ?app_length; lia.
    - cbn [snd]. lia.
    - exfalso. apply Hn. left. reflexivity.
    - cbn [snd]. lia.
    - cbn [snd]. lia. }
  destruct A as [A|A]; [|lia]. rewrite A in Heq. specialize (Hle Heq). lia.
Qed.
Lemma snapshot grow m en l l' : sound m -> ~ In WClear l' ->
  let (m1, c1) := wsteps grow (NewWarningCollector en m) l in
  let (m2, _) := wsteps grow (m1, c1) l' in
  seen m2 (CWarnings c1) = seen m1 (CWarnings c1).
Proof.
  intros S Hn. pose proof (new_wf m en S) as N. destruct (NewWarningCollector en m) as [m0 c0]. destruct N as (W & _).
  pose proof (steps_ok grow l m0 c0 W) as H. destruct (wsteps grow (m0, c0) l) as [m1 c1]. destruct H as [W1 _].
  pose proof (snapshot_steps grow l' m1 c1 (CWarnings c1) W1 Hn) as K. destruct (wsteps grow (m1, c1) l') as [m2 c2]. cbn [fst] in K.
  apply K; [|intros _; unfold CWarnings; lia]. destruct W1 as [S1 (x & Hx & _)]. exact (S1 _ _ Hx).
Qed.
(** After Clear the next warning is written over the first of the list *)
Lemma overwritten grow m en l x old rest : sound m ->
  let (m1, c1) := wsteps grow (NewWarningCollector en m) l in
  cEnabled c1 = true -> seen m1 (CWarnings c1) = old :: rest ->
  let (m2, _) := wsteps grow (m1, c1) [WClear; WAdd (Some x)] in
  seen m2 (CWarnings c1) = x :: rest.
Proof.
  intros S. pose proof (new_wf m en S) as N. destruct (NewWarningCollector en m) as [m0 c0]. destruct N as (W & _).
  pose proof (steps_ok grow l m0 c0 W) as H. destruct (wsteps grow (m0, c0) l) as [m1 c1]. destruct H as [[S1 (z & Hz & Hn)] _].
  intros He Hs. unfold wsteps. cbn [fold_left wstep]. unfold CAdd, CClear. cbn [cEnabled cWarnings]. rewrite He.
  unfold append1. cbn [slArray slLen]. unfold CWarnings in *. unfold seen in Hs. unfold cells in Hs |- *. rewrite Hz in Hs |- *.
  destruct c1 as [[a n] en1]. cbn [cWarnings slArray slLen] in *. destruct n as [|n]; [discriminate|]. destruct z as [|z0 z]; [discriminate|].
  cbn [length]. cbn [Nat.ltb Nat.leb]. unfold seen, cells. cbn [slArray slLen arrays]. rewrite mget_mset, Z.eqb_refl.
  cbn [firstn put] in Hs |- *. injection Hs as _ Hs. rewrite Hs. reflexivity.
Qed.

(** Two collectors *)
Lemma mixed grow : forall l m c1 c2, wf m c1 -> wf m c2 -> slArray (cWarnings c1) <> slArray (cWarnings c2) ->
  let '(m', c1', c2') := wmix grow m c1 c2 l in
  (cEnabled c1', seen m' (cWarnings c1')) = fold_left held_step (calls_of true l) (cEnabled c1, seen m (cWarnings c1)) /\
  (cEnabled c2', seen m' (cWarnings c2')) = fold_left held_step (calls_of false l) (cEnabled c2, seen m (cWarnings c2)).
Proof.
  assert (Keep : forall m m' c c' k, wf m c -> wf m c' -> slArray (cWarnings c) <> slArray (cWarnings c') ->
    forall c1, wstep grow (m, c) k = (m', c1) -> wf m' c1 /\ wf m' c' /\ slArray (cWarnings c1) <> slArray (cWarnings c') /\
      (cEnabled c1, seen m' (cWarnings c1)) = held_step (cEnabled c, seen m (cWarnings c)) k /\
      seen m' (cWarnings c') = seen m (cWarnings c')).
  { intros m m' c c' k W W' D c1 E. pose proof (step_ok grow m c k W) as H. rewrite E in H. destruct H as (W1 & E1 & F & K & A & _).
    destruct W' as [S' (z & Hz & Hn)]. assert (B : slArray (cWarnings c') < free m) by exact (S' _ _ Hz).
    assert (Ec : cells m' (slArray (cWarnings c')) = cells m (slArray (cWarnings c'))) by (apply K; congruence).
    split; [exact W1|]. split.
    { split; [apply W1|]. exists z. split; [|exact Hn]. unfold cells in Ec. rewrite Hz in Ec.
      destruct (mget (slArray (cWarnings c')) (arrays m')) as [q|] eqn:Q; [congruence|]. exfalso.
      assert (M : exists q, mget (slArray (cWarnings c')) (arrays m') = Some q).
      { destruct k as [[w|]| | |]; cbn [wstep] in E; unfold CAdd, CClear, CEnable, CDisable in E.
        - destruct (cEnabled c); [|injection E as <- _; eauto]. unfold append1 in E. destruct (slLen (cWarnings c) <? _)%nat in E;
          injection E as <- _; cbn [arrays]; rewrite mget_mset; destruct (_ =? _); eauto.
        - destruct (cEnabled c); injection E as <- _; eauto.
        - injection E as <- _; eauto.
        - injection E as <- _; eauto.
        - injection E as <- _; eauto. }
      destruct M as [q M]. congruence. }
    split; [destruct A as [A|A]; [congruence|lia]|]. split; [exact E1|]. unfold seen. rewrite Ec. reflexivity. }
  induction l as [|[b k] l IH]; intros m c1 c2 W1 W2 D; [split; reflexivity|]. destruct b; cbn [wmix].
  - destruct (wstep grow (m, c1) k) as [m' c] eqn:E. destruct (Keep m m' c1 c2 k W1 W2 D c E) as (A & B & C & F & G).
    specialize (IH m' c c2 A B C). destruct (wmix grow m' c c2 l) as [[m2 x1] x2]. destruct IH as [I1 I2].
    unfold calls_of in *. cbn [List.filter fst Bool.eqb map snd fold_left]. rewrite F in I1. rewrite G in I2. split; assumption.
  - destruct (wstep grow (m, c2) k) as [m' c] eqn:E. destruct (Keep m m' c2 c1 k W2 W1 (not_eq_sym D) c E) as (A & B & C & F & G).
    specialize (IH m' c1 c B A (not_eq_sym C)). destruct (wmix grow m' c1 c l) as [[m2 x1] x2]. destruct IH as [I1 I2].
    unfold calls_of in *. cbn [List.filter fst Bool.eqb map snd fold_left]. rewrite F in I2. rewrite G in I1. split; assumption.
Qed.
Lemma two_collectors grow m en1 en2 l : sound m ->
  let (m1, c1) := NewWarningCollector en1 m in
  let (m2, c2) := NewWarningCollector en2 m1 in
  let '(m', c1', c2') := wmix grow m2 c1 c2 l in
  seen m' (CWarnings c1') = snd (held en1 (calls_of true l)) /\ seen m' (CWarnings c2') = snd (held en2 (calls_of false l)).
Proof.
  intros S. pose proof (new_wf m en1 S) as N. destruct (NewWarningCollector en1 m) as [m1 c1]. destruct N as (W1 & E1 & H1 & A1 & F1 & K1).
  pose proof (new_wf m1 en2 (proj1 W1)) as N. destruct (NewWarningCollector en2 m1) as [m2 c2] eqn:E. destruct N as (W2 & E2 & H2 & A2 & F2 & K2).
  assert (W1' : wf m2 c1).
  { split; [apply W2|]. destruct W1 as [S1 (z & Hz & Hn)]. exists z. split; [|exact Hn]. unfold NewWarningCollector in E. injection E as <- _.
    cbn [arrays]. rewrite mget_mset. destruct (Z.eqb_spec (slArray (cWarnings c1)) (free m1)); [lia|exact Hz]. }
  pose proof (mixed grow l m2 c1 c2 W1' W2 ltac:(lia)) as H. destruct (wmix grow m2 c1 c2 l) as [[m' x1] x2]. destruct H as [I1 I2].
  assert (Hc : seen m2 (cWarnings c1) = []) by (unfold seen; rewrite K2 by lia; exact H1).
  rewrite E1, Hc in I1. rewrite E2, H2 in I2. unfold CWarnings, held. rewrite <- I1, <- I2. split; reflexivity.
Qed.

(* ---------------- errors ---------------- *)
Lemma is_iff t : forall e, errors_is e t = true <->
  exists x, in_chain x e /\ (eid x = eid t \/ exists c, has_code x c /\ has_code t c).
Proof.
  assert (M : forall x, is_method x t = true <-> exists c, has_code x c /\ has_code t c).
  { intros x. unfold is_method. destruct x as [i c m ca ctx| |]; [|split; [discriminate|intros (c & (? & ? & ? & ? & E) & _); discriminate]..].
    destruct t as [i' c' m' ca' ctx'| |]; [|split; [discriminate|intros (? & _ & (? & ? & ? & ? & E)); discriminate]..].
    split.
    - intros H. apply bytes_eqb_eq in H. subst c'. exists c. split; repeat eexists.
    - intros (d & (? & ? & ? & ? & E1) & (? & ? & ? & ? & E2)). injection E1 as _ -> _ _ _. injection E2 as _ -> _ _ _. apply bytes_eqb_refl. }
  fix IH 1. intros e. assert (Here : (eid e =? eid t) || is_method e t = true <-> (eid e = eid t \/ exists c, has_code e c /\ has_code t c)).
  { rewrite orb_true_iff, Z.eqb_eq, M. reflexivity. }
  destruct e as [i c m [ca|] ctx|i tx|i b ca].
  - change (errors_is (PDFError i c m (Some ca) ctx) t) with ((eid (PDFError i c m (Some ca) ctx) =? eid t) || is_method (PDFError i c m (Some ca) ctx) t || errors_is ca t).
    rewrite orb_true_iff, Here. rewrite (IH ca). split.
    + intros [H|(x & Hx & H)]; [eexists; split; [apply chain_here|exact H]|]. exists x. split; [eapply chain_cause; [reflexivity|exact Hx]|exact H].
    + intros (x & Hx & H). inversion Hx as [|? c0 Hu Hc]; subst; [left; exact H|]. right. exists x. cbn in Hu. injection Hu as <-. split; assumption.
  - change (errors_is (PDFError i c m None ctx) t) with ((eid (PDFError i c m None ctx) =? eid t) || is_method (PDFError i c m None ctx) t || false).
    rewrite orb_false_r, Here. split; [intros H; eexists; split; [apply chain_here|exact H]|].
    intros (x & Hx & H). inversion Hx as [|? c0 Hu Hc]; subst; [exact H|discriminate].
  - change (errors_is (Other i tx) t) with ((eid (Other i tx) =? eid t) || is_method (Other i tx) t || false).
    rewrite orb_false_r, Here. split; [intros H; eexists; split; [apply chain_here|exact H]|].
    intros (x & Hx & H). inversion Hx as [|? c0 Hu Hc]; subst; [exact H|discriminate].
  - change (errors_is (Wrapped i b ca) t) with ((eid (Wrapped i b ca) =? eid t) || is_method (Wrapped i b ca) t || errors_is ca t).
    rewrite orb_true_iff, Here. rewrite (IH ca). split.
    + intros [H|(x & Hx & H)]; [eexists; split; [apply chain_here|exact H]|]. exists x. split; [eapply chain_cause; [reflexivity|exact Hx]|exact H].
    + intros (x & Hx & H). inversion Hx as [|? c0 Hu Hc]; subst; [left; exact H|]. right. exists x. cbn in Hu. injection Hu as <-. split; assumption.
Qed.
Lemma sentinel_iff id code e : (forall x, in_chain x e -> eid x <> id) ->
  (errors_is e (sentinel id code) = true <-> exists x, in_chain x e /\ has_code x code).
Proof.
  intros Hid. rewrite is_iff. split.
  - intros (x & Hx & [H|(c & H1 & (? & ? & ? & ? & E))]); [elim (Hid x Hx H)|]. unfold sentinel in E. injection E as _ <- _ _ _. eauto.
  - intros (x & Hx & H). exists x. split; [exact Hx|]. right. exists code. split; [exact H|]. unfold sentinel, has_code. eauto.
Qed.
Lemma in_codes_nodup : NoDup codes.
Proof. unfold codes. repeat constructor; cbn [In]; intros H; repeat (destruct H as [H|H]; [discriminate H|]); exact H. Qed.
Lemma one_of_2 c a b : bytes_eqb c a || bytes_eqb c b = true <-> In c [a; b].
Proof. rewrite orb_true_iff, !bytes_eqb_eq. cbn [In]. intuition. Qed.
Lemma kinds i c m ca x :
  (IsNotFound (PDFError i c m ca x) = true <-> In c [bs "OBJECT_NOT_FOUND"; bs "FIELD_NOT_FOUND"]) /\
  (IsEncryptionError (PDFError i c m ca x) = true <-> In c [bs "ENCRYPTED"; bs "DECRYPTION_FAILED"; bs "WRONG_PASSWORD"; bs "UNSUPPORTED_CRYPTO"]) /\
  (IsValidationError (PDFError i c m ca x) = true <-> In c [bs "VALIDATION_ERROR"; bs "INVALID_VALUE"]) /\
  GetErrorCode (PDFError i c m ca x) = Some c.
Proof.
  split; [apply one_of_2|]. split; [|split; [apply one_of_2|reflexivity]].
  unfold IsEncryptionError. rewrite !orb_true_iff, !bytes_eqb_eq. cbn [In]. unfold ErrCodeEncrypted, ErrCodeDecryptionFailed, ErrCodeWrongPassword, ErrCodeUnsupportedCrypto. intuition.
Qed.
Lemma outside_only i b e : GetErrorCode (Wrapped i b e) = None /\ IsNotFound (Wrapped i b e) = false /\
  IsEncryptionError (Wrapped i b e) = false /\ IsValidationError (Wrapped i b e) = false.
Proof. repeat split. Qed.
Lemma context_keeps k v e : GetErrorCode (eWithContext k v e) = GetErrorCode e /\ error_text (eWithContext k v e) = error_text e /\
  unwrap (eWithContext k v e) = unwrap e /\ forall t, errors_is (eWithContext k v e) t = errors_is e t.
Proof. destruct e as [i c m [ca|] x|i t|i b c]; repeat split; intros t'; destruct t'; reflexivity. Qed.
Lemma texts e : (forall c, unwrap e = Some c -> exists p, error_text e = p ++ error_text c).
Proof.
  intros c H. destruct e as [i co m [ca|] x|i t|i b ca]; try discriminate; cbn in H; injection H as ->.
  - exists (bs "[" ++ co ++ bs "] " ++ m ++ bs ": "). cbn [error_text]. rewrite <- !app_assoc. reflexivity.
  - exists (b ++ bs ": "). cbn [error_text]. rewrite <- app_assoc. reflexivity.
Qed.
