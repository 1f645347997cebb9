(** Proofs: records made of named fields. *)
From Verif Require Import Base Util DatasetsModel TextModel MdFldModel MdFldSpec.
Local Open Scope Z_scope.

Lemma lower_letter a n : (b2n a < 128)%N -> lower_byte a = n -> forallb (fun c => negb ((65 <=? b2n c)%N && (b2n c <=? 90)%N)) [n] = true -> same_letter a n.
Proof. destruct a; intros H <- _; try (exfalso; vm_compute in H; discriminate); vm_compute; tauto || (right; vm_compute; repeat split; discriminate). Qed.
Lemma letter_lower a n : same_letter a n -> forallb (fun c => negb ((65 <=? b2n c)%N && (b2n c <=? 90)%N)) [n] = true -> lower_byte a = n.
Proof.
  intros [->|[[H1 H2] H3]] Hn.
  - unfold lower_byte. cbn in Hn. destruct ((65 <=? b2n n)%N && (b2n n <=? 90)%N); [discriminate|reflexivity].
  - unfold lower_byte. replace ((65 <=? b2n a)%N && (b2n a <=? 90)%N) with true.
    2: { symmetry. apply andb_true_iff. split; apply N.leb_le; lia. }
    rewrite H3. destruct n; reflexivity.
Qed.
Lemma lower_cons b r : (b2n b < 128)%N -> ToLower (b :: r) = lower_byte b :: ToLower r.
Proof. destruct b; intros H; try reflexivity; exfalso; vm_compute in H; discriminate. Qed.

Lemma lower_spelled k : ascii k -> forall n, forallb (fun c => negb ((65 <=? b2n c)%N && (b2n c <=? 90)%N)) n = true ->
  (ToLower k = n <-> Forall2 same_letter k n).
Proof.
  induction 1 as [|b r Hb Hr IH]; intros n Hn.
  - cbn. split; [intros <-; constructor|intros H; inversion H; reflexivity].
  - rewrite (lower_cons b r Hb). destruct n as [|c n].
    + split; [discriminate|intros H; inversion H].
    + cbn [forallb] in Hn. apply andb_true_iff in Hn. destruct Hn as [Hc Hn].
      assert (Hc' : forallb (fun c => negb ((65 <=? b2n c)%N && (b2n c <=? 90)%N)) [c] = true) by (cbn [forallb]; rewrite Hc; reflexivity).
      split.
      * intros [= E1 E2]. constructor; [apply lower_letter; assumption|apply IH; assumption].
      * intros H. inversion H as [|x y xs ys H1 H2]; subst. f_equal; [apply letter_lower; assumption|apply IH; assumption].
Qed.

Definition slots : list (bytes * std_field) :=
  [(bs "title", MTitle); (bs "author", MAuthor); (bs "subject", MSubject); (bs "keywords", MKeywords);
   (bs "creator", MCreator); (bs "producer", MProducer); (bs "creationdate", MCreationDate); (bs "creation_date", MCreationDate);
   (bs "moddate", MModDate); (bs "mod_date", MModDate)].
Definition slot (k : bytes) : option std_field := kget (ToLower k) slots.

Lemma means_slot f k : ascii k -> (means f k <-> slot k = Some f).
Proof.
  intros Ha. assert (Hn : forall n, In n (std_names f) -> forallb (fun c => negb ((65 <=? b2n c)%N && (b2n c <=? 90)%N)) n = true).
  { destruct f; cbn [std_names]; intros n H; cbn [In] in H; repeat (destruct H as [<-|H]; [reflexivity|]); destruct H. }
  transitivity (In (ToLower k) (std_names f)).
  - unfold means. split.
    + intros (n & Hi & H). apply (lower_spelled k Ha n (Hn n Hi)) in H. rewrite H. exact Hi.
    + intros Hi. exists (ToLower k). split; [exact Hi|]. apply (lower_spelled k Ha _ (Hn _ Hi)). reflexivity.
  - unfold slot. generalize (ToLower k). intros n. unfold slots. split.
    + destruct f; cbn [std_names In]; intros H; repeat (destruct H as [<-|H]; [reflexivity|]); destruct H.
    + cbn [kget]. repeat (match goal with |- context [bytes_eqb n ?s] => destruct (bytes_eqb n s) eqn:? end;
        [match goal with H : bytes_eqb n _ = true |- _ => apply bytes_eqb_eq in H; subst n; intros [= <-]; cbn [std_names In]; tauto end|]).
      discriminate.
Qed.

Lemma set_std f m k v : std_value f (set_field m (k, v)) =
  match slot k with Some g => if match f, g with
      | MTitle, MTitle | MAuthor, MAuthor | MSubject, MSubject | MKeywords, MKeywords | MCreator, MCreator | MProducer, MProducer
      | MCreationDate, MCreationDate | MModDate, MModDate => true | _, _ => false end then v else std_value f m
  | None => std_value f m end.
Proof.
  unfold set_field, slot, slots. destruct m as [t a s w c p cd md cu]. generalize (ToLower k). intros n. cbn [kget].
  repeat (match goal with |- context [bytes_eqb n ?s] => destruct (bytes_eqb n s) end; [destruct f; reflexivity|]).
  destruct f; reflexivity.
Qed.
Lemma set_custom m k v : mdCustom (set_field m (k, v)) = match slot k with Some _ => mdCustom m | None => kset k v (mdCustom m) end.
Proof.
  unfold set_field, slot, slots. destruct m as [t a s w c p cd md cu]. generalize (ToLower k). intros n. cbn [kget].
  repeat (match goal with |- context [bytes_eqb n ?s] => destruct (bytes_eqb n s) end; [reflexivity|]). reflexivity.
Qed.
Lemma new_snoc l kv : NewMetadataFromFields (l ++ [kv]) = set_field (NewMetadataFromFields l) kv.
Proof. unfold NewMetadataFromFields. rewrite fold_left_app. reflexivity. Qed.

Lemma std_last f l : let m := NewMetadataFromFields l in
  (exists k, In (k, std_value f m) l /\ slot k = Some f) \/ (std_value f m = [] /\ forall k v, In (k, v) l -> slot k <> Some f).
Proof.
  cbv zeta. induction l as [|[k v] l IH] using rev_ind.
  { right. split; [destruct f; reflexivity|intros k v []]. }
  rewrite new_snoc, set_std. destruct (slot k) as [g|] eqn:E.
  - destruct (match f, g with
      | MTitle, MTitle | MAuthor, MAuthor | MSubject, MSubject | MKeywords, MKeywords | MCreator, MCreator | MProducer, MProducer
      | MCreationDate, MCreationDate | MModDate, MModDate => true | _, _ => false end) eqn:Eg.
    + left. exists k. split; [apply in_or_app; right; left; reflexivity|]. rewrite E. destruct f, g; try discriminate; reflexivity.
    + destruct IH as [(k' & Hi & Hk)|[H1 H2]].
      * left. exists k'. split; [apply in_or_app; left; exact Hi|exact Hk].
      * right. split; [exact H1|]. intros k' v' Hi. apply in_app_or in Hi. destruct Hi as [Hi|[Hi|[]]]; [apply (H2 k' v' Hi)|].
        injection Hi as <- <-. rewrite E. intros [= ->]. destruct f; discriminate.
  - destruct IH as [(k' & Hi & Hk)|[H1 H2]].
    + left. exists k'. split; [apply in_or_app; left; exact Hi|exact Hk].
    + right. split; [exact H1|]. intros k' v' Hi. apply in_app_or in Hi. destruct Hi as [Hi|[Hi|[]]]; [apply (H2 k' v' Hi)|].
      injection Hi as <- <-. rewrite E. discriminate.
Qed.

Lemma kset_fresh {A} k (v : A) m : ~ In k (map fst m) -> kset k v m = m ++ [(k, v)].
Proof.
  induction m as [|[k' v'] m IH]; intros H; [reflexivity|]. cbn [kset app]. destruct (bytes_eqb k k') eqn:E.
  - exfalso. apply bytes_eqb_eq in E. subst. apply H. left. reflexivity.
  - rewrite IH; [reflexivity|]. intros Hi. apply H. right. exact Hi.
Qed.
Lemma custom_exact l : NoDup (map fst l) -> let m := NewMetadataFromFields l in
  (forall k v, In (k, v) (mdCustom m) <-> In (k, v) l /\ slot k = None) /\ NoDup (map fst (mdCustom m)).
Proof.
  cbv zeta. induction l as [|[k v] l IH] using rev_ind; intros N.
  { split; [|constructor]. intros k v. cbn. tauto. }
  rewrite map_app in N. cbn [map fst] in N. pose proof (NoDup_remove_1 _ _ _ N) as N1. pose proof (NoDup_remove_2 _ _ _ N) as N2.
  rewrite app_nil_r in N1, N2. destruct (IH N1) as [I1 I2]. rewrite new_snoc, set_custom. destruct (slot k) as [g|] eqn:E.
  - split; [|exact I2]. intros k' v'. rewrite I1, in_app_iff. split; [tauto|]. intros [[H|[H|[]]] Hk]; [tauto|]. injection H as <- <-. congruence.
  - assert (Hn : ~ In k (map fst (mdCustom (NewMetadataFromFields l)))).
    { intros Hi. apply in_map_iff in Hi. destruct Hi as ([k' v'] & <- & Hi). apply I1 in Hi. destruct Hi as [Hi _].
      apply N2. apply in_map_iff. exists (k', v'). auto. }
    split; [|apply kset_nodup, I2]. intros k' v'. rewrite (kset_fresh _ _ _ Hn), !in_app_iff, I1. cbn [In]. split.
    + intros [[H1 H2]|[H|[]]]; [tauto|]. injection H as <- <-. tauto.
    + intros [[H|[H|[]]] Hk]; tauto.
Qed.

Lemma fields_ok l : NoDup (map fst l) -> Forall (fun kv => ascii (fst kv)) l -> record_of l (NewMetadataFromFields l).
Proof.
  intros N A. assert (Ha : forall k v, In (k, v) l -> ascii k) by (intros k v Hi; rewrite Forall_forall in A; exact (A (k, v) Hi)).
  destruct (custom_exact l N) as [C1 C2]. cbv zeta in C1, C2.
  unfold record_of. split; [|split; [|split; [|split; [|exact C2]]]].
  - intros f k v Hi Hm Hu. destruct (std_last f l) as [(k' & Hi' & Hk)|[_ H]].
    + specialize (Hu _ _ Hi' (proj2 (means_slot f k' (Ha _ _ Hi')) Hk)). congruence.
    + exfalso. apply (H k v Hi). apply (means_slot f k (Ha _ _ Hi)), Hm.
  - intros f Hno. destruct (std_last f l) as [(k' & Hi' & Hk)|[H _]]; [|exact H].
    exfalso. apply (Hno _ _ Hi'). apply (means_slot f k' (Ha _ _ Hi')), Hk.
  - intros f. destruct (std_last f l) as [(k' & Hi' & Hk)|[H _]]; [right|left; exact H].
    exists k'. split; [exact Hi'|]. apply (means_slot f k' (Ha _ _ Hi')), Hk.
  - intros k v. rewrite C1. split; intros [Hi Hk]; (split; [exact Hi|]).
    + intros f Hm. apply (means_slot f k (Ha _ _ Hi)) in Hm. congruence.
    + destruct (slot k) as [g|] eqn:E; [|reflexivity]. exfalso. apply (Hk g). apply (means_slot g k (Ha _ _ Hi)), E.
Qed.
