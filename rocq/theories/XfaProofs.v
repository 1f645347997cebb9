(** Proofs for reading back a document built from XFA streams. *)
From Verif Require Import Util Scan XfaModel XfaSpec WriterProofs ParseProofs ReadProofs XrefProofs PageSpec PageProofs2 PageProofs3 FormsProofs3 MarksProofs4.
From Verif Require ManipProofs ManipProofs2.
Local Open Scope Z_scope.

Definition stream_text (deflate : bytes -> bytes) (s : xfa_data) : bytes :=
  formatDictionary (stream_dict embedded (Some (in_file deflate s)) (match xdData s with [] => false | _ => xdCompress s end))
  ++ nl ++ bs "stream" ++ nl ++ in_file deflate s ++ nl ++ bs "endstream".
Lemma stream_bytes deflate s : stream_data deflate (Some (xdData s)) (xdCompress s) =
  (Some (in_file deflate s), match xdData s with [] => false | _ => xdCompress s end).
Proof. unfold stream_data, in_file. destruct (xdData s); [reflexivity|]. destruct (xdCompress s); reflexivity. Qed.

Lemma stored_extends w w' n t : n < nextObjNum w -> extends w w' -> (forall o a, mget n (objects w) = Some o -> oDict o = Some a -> mget a (dicts w) <> None) ->
  stored_text w n t -> stored_text w' n t.
Proof.
  intros Hn [_ [E2 E3]] Hd (o & Ho & Ht). exists o. rewrite E2 by exact Hn. split; [exact Ho|].
  destruct (oStream o); [|exact Ht]. rewrite Ht. destruct (oDict o) as [a|] eqn:Ea; [|reflexivity].
  specialize (Hd o a Ho Ea). destruct (mget a (dicts w)) as [d|] eqn:Ed; [|congruence]. rewrite (E3 _ _ Ed). reflexivity.
Qed.

(** What the builder leaves in the writer. *)
Definition same_switches (w w' : writer) : Prop :=
  useXRefStream w' = useXRefStream w /\ useObjectStream w' = useObjectStream w /\ encryptRef w' = encryptRef w /\
  outlinesRef w' = outlinesRef w /\ pdfVersion w' = pdfVersion w.

Lemma add_stream_version deflate d data cmp w : pdfVersion (snd (add_stream deflate d data cmp w)) = pdfVersion w.
Proof.
  unfold add_stream, AddStreamObject. cbn [dicts set_dicts]. rewrite mget_mset, Z.eqb_refl.
  destruct (stream_data deflate data cmp) as [sd c]. reflexivity.
Qed.

Lemma add_xfa_spec deflate l : forall w es w', add_xfa deflate l w = (es, w') ->
  es = map (fun p => (xdName (fst p), snd p)) (numbered_from (nextObjNum w) l) /\
  nextObjNum w' = nextObjNum w + Z.of_nat (length l) /\ extends w w' /\ same_switches w w' /\
  (forall s n, In (s, n) (numbered_from (nextObjNum w) l) -> stored_text w' n (stream_text deflate s)) /\
  (forall n o, mget n (objects w') = Some o -> mget n (objects w) = Some o \/
     exists s, In (s, n) (numbered_from (nextObjNum w) l) /\ stored_text w' n (stream_text deflate s)).
Proof.
  induction l as [|s l IH]; intros w es w' H.
  - cbn [add_xfa] in H. injection H as <- <-. cbn [numbered_from map length]. split; [reflexivity|]. split; [lia|].
    split; [apply extends_refl|]. split; [repeat split|]. split; [intros ? ? []|auto].
  - cbn [add_xfa] in H.
    pose proof (add_stream_spec deflate embedded (Some (xdData s)) (xdCompress s) w) as X.
    pose proof (add_stream_extends deflate embedded (Some (xdData s)) (xdCompress s) w) as Y.
    pose proof (add_stream_version deflate embedded (Some (xdData s)) (xdCompress s) w) as V.
    destruct (add_stream deflate embedded (Some (xdData s)) (xdCompress s) w) as [n w1]. cbn [snd] in Y, V.
    destruct (add_xfa deflate l w1) as [r w2] eqn:E. injection H as <- <-.
    destruct (IH _ _ _ E) as (I1 & I2 & I3 & I4 & I5 & I6).
    destruct X as (X1 & X2 & X3 & X4 & (a & X5 & X6) & X7 & X8 & X9 & X10).
    rewrite stream_bytes in X5, X6. cbn [fst snd] in X5, X6.
    assert (S1 : stored_text w1 n (stream_text deflate s)).
    { apply (stored_stream w1 n _ a); assumption. }
    assert (S2 : stored_text w2 n (stream_text deflate s)).
    { apply (stored_extends w1 w2); [lia|exact I3| |exact S1]. intros o b Ho Hb. rewrite X5 in Ho. injection Ho as <-. cbn [oDict] in Hb. injection Hb as <-. congruence. }
    rewrite X2 in *. cbn [numbered_from map length fst snd]. rewrite <- X1.
    split; [rewrite I1; reflexivity|]. split; [lia|]. split; [exact (extends_trans _ _ _ Y I3)|].
    split.
    { destruct I4 as (A & B & C & D & F). unfold same_switches. rewrite A, B, C, D, F. repeat split; assumption. }
    split.
    + intros s' n' [Q|Q]; [injection Q as <- <-; exact S2|apply I5, Q].
    + intros m o Ho. destruct (I6 m o Ho) as [Q|(s' & Q1 & Q2)].
      * destruct (Z.eq_dec m n) as [->|Ne]; [right; exists s; split; [left; reflexivity|exact S2]|]. left. rewrite <- X3 by exact Ne. exact Q.
      * right. exists s'. split; [right; exact Q1|exact Q2].
Qed.

Lemma stored_unique w n t t' : stored_text w n t -> stored_text w n t' -> t = t'.
Proof.
  intros (o & H & T) (o' & H' & T'). rewrite H in H'. injection H' as <-.
  destruct (oStream o); [congruence|]. destruct (oContent o); congruence.
Qed.

Definition form_entries (l : list xfa_data) : list (bytes * Z) := map (fun p => (xdName (fst p), snd p)) (numbered_from 1 l).

Lemma built deflate l w : BuildFromXFA deflate l = w -> let k := Z.of_nat (length l) in
  useXRefStream w = false /\ useObjectStream w = false /\ encryptRef w = None /\ pdfVersion w = bs "1.7" /\
  updateCatalogWithOutlines w = w /\ nextObjNum w = k + 3 /\ rootRef w = Some (k + 2) /\
  (forall s n, In (s, n) (numbered_from 1 l) -> stored_text w n (stream_text deflate s)) /\
  stored_text w (k + 1) (xfa_form (form_entries l)) /\ stored_text w (k + 2) (xfa_catalog (k + 1)) /\
  (forall n t, stored_text w n t -> (exists s, In (s, n) (numbered_from 1 l) /\ t = stream_text deflate s) \/
     (n = k + 1 /\ t = xfa_form (form_entries l)) \/ (n = k + 2 /\ t = xfa_catalog (k + 1))).
Proof.
  intros <- k. unfold BuildFromXFA. destruct (add_xfa deflate l NewPDFWriter) as [es w] eqn:E.
  destruct (add_xfa_spec _ _ _ _ _ E) as (I1 & I2 & I3 & (A & B & C & D & F) & I5 & I6).
  change (nextObjNum NewPDFWriter) with 1 in *. fold k in I2.
  cbn [useXRefStream useObjectStream encryptRef outlinesRef pdfVersion NewPDFWriter] in A, B, C, D, F.
  unfold AddObject. cbn [nextObjNum set_next set_objects objects SetRoot useXRefStream useObjectStream encryptRef pdfVersion rootRef].
  rewrite I2. replace (1 + k) with (k + 1) by lia. replace (k + 1 + 1) with (k + 2) by lia. replace (k + 2 + 1) with (k + 3) by lia.
  split; [exact A|]. split; [exact B|]. split; [exact C|]. split; [exact F|].
  split; [unfold updateCatalogWithOutlines; cbn [outlinesRef SetRoot set_next set_objects]; rewrite D; reflexivity|].
  split; [reflexivity|]. split; [reflexivity|].
  assert (Old : forall n t, n < k + 1 -> stored_text w n t -> stored_text
    (SetRoot (k + 2) (set_next (set_objects (set_next (set_objects w (mset (k + 1) (mkObj (Some (xfa_form es)) None None) (objects w))) (k + 2))
       (mset (k + 2) (mkObj (Some (xfa_catalog (k + 1))) None None) (mset (k + 1) (mkObj (Some (xfa_form es)) None None) (objects w)))) (k + 3))) n t).
  { intros n t Hn (o & Ho & Ht). exists o. cbn [objects dicts SetRoot set_next set_objects]. rewrite !mget_mset.
    destruct (n =? k + 2) eqn:Q1; [lia|]. destruct (n =? k + 1) eqn:Q2; [lia|]. split; [exact Ho|exact Ht]. }
  assert (R : forall s n, In (s, n) (numbered_from 1 l) -> 1 <= n < k + 1).
  { clear. subst k. intros s n. assert (G : forall l m, In (s, n) (numbered_from m l) -> m <= n < m + Z.of_nat (length l)).
    { clear l. induction l as [|x l IH]; intros m; [intros []|]. cbn [numbered_from length]. intros [Q|Q]; [injection Q as _ <-; lia|]. apply IH in Q. lia. }
    intros H. apply G in H. lia. }
  assert (Es : es = form_entries l) by exact I1.
  split; [intros s n H; apply Old; [apply R in H; lia|apply I5, H]|].
  split; [|split].
  - eexists. cbn [objects SetRoot set_next set_objects]. rewrite !mget_mset, Z.eqb_refl. replace (k + 1 =? k + 2) with false by lia.
    split; [reflexivity|]. cbn [oStream oContent]. rewrite Es. reflexivity.
  - eexists. cbn [objects SetRoot set_next set_objects]. rewrite !mget_mset, Z.eqb_refl. split; reflexivity.
  - intros n t (o & Ho & Ht). cbn [objects SetRoot set_next set_objects] in Ho. rewrite !mget_mset in Ho.
    destruct (n =? k + 2) eqn:Q1; [|destruct (n =? k + 1) eqn:Q2].
    + right. right. injection Ho as <-. cbn [oStream oContent] in Ht. split; [lia|exact Ht].
    + right. left. injection Ho as <-. cbn [oStream oContent] in Ht. rewrite Es in Ht. split; [lia|exact Ht].
    + left. destruct (I6 n o Ho) as [Q|(s & Q3 & Q4)]; [discriminate Q|]. exists s. split; [exact Q3|].
      eapply stored_unique; [|exact Q4]. exists o. split; [exact Ho|exact Ht].
Qed.
