(** Proofs for updating the fields of an XFA document. *)
From Verif Require Import Util Scan XfaModel XfaSpec WriterProofs.
From Verif Require ManipProofs XrefProofs CompareProofs3.
From Coq Require Import Permutation.
Local Open Scope Z_scope.

Definition opens (s : bytes) : Prop := match s with c :: _ => c = "<"%byte | [] => False end.

(** A tag does not begin in a text that lacks it, if the text is followed by a bracket. *)
Lemma skip_text q a b : ~ In "<"%byte q -> contains ("<"%byte :: q) a = false -> opens b ->
  index ("<"%byte :: q) (a ++ b) = option_map (Nat.add (length a)) (index ("<"%byte :: q) b).
Proof.
  intros Hq Ha Hb. set (p := "<"%byte :: q) in *.
  assert (G : forall j, (j < length a)%nat -> prefixb p (skipn j (a ++ b)) = false).
  { intros j Hj. destruct (prefixb p (skipn j (a ++ b))) eqn:E; [|reflexivity]. exfalso.
    pose proof (proj1 (contains_false p a) Ha j ltac:(lia)) as N.
    rewrite skipn_app_l in E by lia. apply prefixb_spec in E. destruct E as [r E].
    destruct (Nat.le_gt_cases (length p) (length (skipn j a))) as [L|L].
    - assert (skipn j a = p ++ skipn (length p) (skipn j a)).
      { rewrite <- (firstn_skipn (length p) (skipn j a)) at 1. f_equal.
        assert (firstn (length p) (skipn j a ++ b) = firstn (length p) (p ++ r)) by (rewrite E; reflexivity).
        rewrite firstn_app in H. replace (length p - length (skipn j a))%nat with O in H by lia. rewrite firstn_O, app_nil_r in H.
        rewrite H. rewrite firstn_app, Nat.sub_diag, firstn_all, firstn_O, app_nil_r. reflexivity. }
      rewrite H in N. rewrite prefixb_app in N. discriminate N.
    - destruct b as [|c b]; [exact Hb|]. cbn [opens] in Hb. subst c.
      assert (nth_error (skipn j a ++ "<"%byte :: b) (length (skipn j a)) = Some "<"%byte) by (rewrite nth_error_app2, Nat.sub_diag by lia; reflexivity).
      rewrite E in H. rewrite nth_error_app1 in H by exact L.
      assert (0 < length (skipn j a))%nat by (rewrite skipn_length; lia).
      destruct (length (skipn j a)) as [|m]; [lia|]. cbn [nth_error p] in H. apply Hq. eapply nth_error_In. exact H. }
  clear Ha. induction a as [|x a IH]; [cbn [app length]; destruct (index p b); reflexivity|].
  pose proof (G 0%nat ltac:(cbn; lia)) as G0. cbn [skipn] in G0.
  transitivity (option_map S (index p (a ++ b))).
  { change ((x :: a) ++ b) with (x :: (a ++ b)) in *. unfold p in *. cbn [index]. rewrite G0. reflexivity. }
  rewrite IH; [destruct (index p b); reflexivity|]. intros j Hj. apply (G (S j)). cbn [length]. lia.
Qed.
Lemma skip_text_nil q a : contains ("<"%byte :: q) a = false -> index ("<"%byte :: q) a = None.
Proof. unfold contains. destruct (index _ a); [discriminate|reflexivity]. Qed.

Ltac no_open := let H := fresh in intros H; cbn in H; repeat (destruct H as [H|H]; [discriminate H|]); exact H.

Lemma lacks_longer p q s : contains p s = false -> contains (p ++ q) s = false.
Proof.
  intros H. apply contains_false. intros j Hj. pose proof (proj1 (contains_false p s) H j Hj) as N.
  destruct (prefixb (p ++ q) (skipn j s)) eqn:E; [|reflexivity]. apply prefixb_spec in E. destruct E as [r E].
  rewrite E, <- app_assoc, prefixb_app in N. discriminate N.
Qed.

(** ** One field *)

Definition fpat (name : bytes) : bytes := bs "<field name=""" ++ name ++ bs """".
Lemma fpat_eq name : field_pattern name = "<"%byte :: bs "field name=""" ++ name ++ bs """".
Proof. reflexivity. Qed.
Lemma fpat_tail name : plain_name name -> ~ In "<"%byte (bs "field name=""" ++ name ++ bs """").
Proof. intros [H _] Q. rewrite !in_app_iff in Q. destruct Q as [Q|[Q|Q]]; [revert Q; no_open|contradiction|revert Q; no_open]. Qed.

Lemma prefixb_common (p a b : bytes) : prefixb (p ++ a) (p ++ b) = prefixb a b.
Proof. induction p as [|x p IH]; [reflexivity|]. cbn [app prefixb]. rewrite beqb_refl. exact IH. Qed.
Lemma name_differs n m r : plain_name n -> plain_name m -> n <> m -> prefixb (n ++ bs """") (m ++ bs """" ++ r) = false.
Proof.
  intros [_ Hn] [_ Hm]. change (bs """") with [""""%byte]. cbn [app]. revert m Hm. induction n as [|x n IH]; intros [|y m] Hm Hne.
  - contradiction.
  - cbn [app prefixb]. destruct (beqb """" y) eqn:E; [|reflexivity]. apply beqb_eq in E. subst y. exfalso. apply Hm. left. reflexivity.
  - cbn [app prefixb]. destruct (beqb x """") eqn:E; [|reflexivity]. apply beqb_eq in E. subst x. exfalso. apply Hn. left. reflexivity.
  - cbn [app prefixb]. destruct (beqb x y) eqn:E; [|reflexivity]. apply beqb_eq in E. subst y. cbn [andb]. apply IH.
    + intros Q. apply Hn. right. exact Q.
    + intros Q. apply Hm. right. exact Q.
    + intros ->. apply Hne. reflexivity.
Qed.

Lemma no_field_lacks name t : no_field t -> contains (field_pattern name) t = false.
Proof. intros H. unfold field_pattern. apply lacks_longer. exact H. Qed.

(** The text of a field after the quote of its tag has no field of its own. *)
Lemma body_no_field b : clean_body b -> forall r, opens r -> forall name, plain_name name ->
  index (field_pattern name) (render_body b ++ r) = option_map (Nat.add (length (render_body b))) (index (field_pattern name) r).
Proof.
  intros Hb r Hr name Hname. rewrite fpat_eq. pose proof (fpat_tail name Hname) as NT.
  assert (S : forall t u, no_field t -> opens u -> index ("<"%byte :: bs "field name=""" ++ name ++ bs """") (t ++ u) =
     option_map (Nat.add (length t)) (index ("<"%byte :: bs "field name=""" ++ name ++ bs """") u)).
  { intros t u Ht Hu. apply skip_text; [exact NT|apply (no_field_lacks name t Ht)|exact Hu]. }
  assert (L : forall t u, nostart (bs "<field name=""") t -> index ("<"%byte :: bs "field name=""" ++ name ++ bs """") (t ++ u) =
     option_map (Nat.add (length t)) (index ("<"%byte :: bs "field name=""" ++ name ++ bs """") u)).
  { intros t u Ht. apply index_nostart. intros c j Hj. pose proof (Ht c j Hj) as N.
    destruct (prefixb ("<"%byte :: bs "field name=""" ++ name ++ bs """") (skipn j (t ++ c))) eqn:E; [|reflexivity].
    apply prefixb_spec in E. destruct E as [z E]. rewrite E in N.
    change ("<"%byte :: bs "field name=""" ++ name ++ bs """") with (bs "<field name=""" ++ name ++ bs """") in N.
    rewrite <- app_assoc, prefixb_app in N. discriminate N. }
  destruct b as [t|h v t]; cbn [render_body clean_body] in *.
  - apply S; [apply Hb|exact Hr].
  - destruct Hb as (H1 & H2 & H3). rewrite <- !app_assoc.
    rewrite S by (try apply H1; reflexivity). rewrite L by (apply nostartb_ok; reflexivity).
    rewrite S by (try apply H2; reflexivity). rewrite L by (apply nostartb_ok; reflexivity).
    rewrite S by (try apply H3; exact Hr). rewrite !app_length.
    destruct (index _ r); [|reflexivity]. cbn [option_map]. f_equal. lia.
Qed.

Lemma field_skipped f name r : clean_field f -> plain_name name -> xfName f <> name ->
  index (field_pattern name) (render_field f ++ r) = option_map (Nat.add (length (render_field f))) (index (field_pattern name) r).
Proof.
  intros [Hf Hb] Hname Hne. unfold render_field. rewrite <- !app_assoc.
  assert (N0 : nostart (field_pattern name) (bs "<field name=""" ++ xfName f ++ bs """")).
  { intros c j Hj. destruct j as [|j].
    - cbn [skipn]. rewrite <- !app_assoc. unfold field_pattern. rewrite prefixb_common.
      apply name_differs; auto.
    - destruct (prefixb (field_pattern name) (skipn (S j) ((bs "<field name=""" ++ xfName f ++ bs """") ++ c))) eqn:E; [|reflexivity]. exfalso.
      apply prefixb_spec in E. destruct E as [z E]. rewrite skipn_app_l in E by lia.
      destruct (skipn (S j) (bs "<field name=""" ++ xfName f ++ bs """")) as [|x y] eqn:Es.
      + apply (f_equal (@length byte)) in Es. rewrite skipn_length in Es. cbn [length] in Es. lia.
      + rewrite fpat_eq in E. cbn [app] in E. injection E as -> _.
        assert (In "<"%byte (skipn j (bs "field name=""" ++ xfName f ++ bs """"))).
        { change (bs "<field name=""" ++ xfName f ++ bs """") with ("<"%byte :: (bs "field name=""" ++ xfName f ++ bs """")) in Es.
          cbn [skipn] in Es. rewrite Es. left. reflexivity. }
        apply (fpat_tail (xfName f) Hf). rewrite <- (firstn_skipn j (bs "field name=""" ++ xfName f ++ bs """")). apply in_or_app. right. exact H. }
  pose proof (index_nostart _ _ (render_body (xfBody f) ++ bs "</field>" ++ r) N0) as E. rewrite <- !app_assoc in E. rewrite E.
  rewrite body_no_field by (try assumption; reflexivity).
  rewrite index_nostart.
  2:{ intros c j Hj. destruct (prefixb (field_pattern name) (skipn j (bs "</field>" ++ c))) eqn:Q; [|reflexivity]. exfalso.
      rewrite fpat_eq in Q. do 8 (destruct j as [|j]; [cbn in Q; discriminate Q|]). cbn in Hj. lia. }
  rewrite !app_length. destruct (index _ r); [|reflexivity]. cbn [option_map]. f_equal. lia.
Qed.

(** Inside a field: its end, and its value element. *)
Lemma field_end f r : clean_field f ->
  index (bs "</field>") (render_field f ++ r) = Some (length (bs "<field name=""" ++ xfName f ++ bs """" ++ render_body (xfBody f))).
Proof.
  intros [[Hn _] Hb]. unfold render_field. rewrite <- !app_assoc.
  rewrite (index_nostart (bs "</field>") (bs "<field name=""")) by (apply nostartb_ok; reflexivity).
  rewrite (index_nostart (bs "</field>") (xfName f)).
  2:{ apply (nostart_class (fun b => negb (beqb b "<"))); [|reflexivity].
      apply forallb_forall. intros x Hx. destruct (beqb x "<") eqn:E; [|reflexivity]. apply beqb_eq in E. subst x. contradiction. }
  rewrite (index_nostart (bs "</field>") (bs """")) by (apply nostartb_ok; reflexivity).
  assert (S : forall t u, contains (bs "</field>") t = false -> opens u -> index (bs "</field>") (t ++ u) = option_map (Nat.add (length t)) (index (bs "</field>") u)).
  { intros t u Ht Hu. change (bs "</field>") with ("<"%byte :: bs "/field>"). apply skip_text; [no_open|exact Ht|exact Hu]. }
  assert (E : index (bs "</field>") (render_body (xfBody f) ++ bs "</field>" ++ r) = Some (length (render_body (xfBody f)))).
  { destruct (xfBody f) as [t|h v t]; cbn [render_body clean_body] in *.
    - rewrite S by (try apply Hb; reflexivity). rewrite index_here. cbn [option_map]. rewrite Nat.add_0_r. reflexivity.
    - destruct Hb as (H1 & H2 & H3). rewrite <- !app_assoc.
      rewrite S by (try apply H1; reflexivity). rewrite (index_nostart (bs "</field>") (bs "<value>")) by (apply nostartb_ok; reflexivity).
      rewrite S by (try apply H2; reflexivity). rewrite (index_nostart (bs "</field>") (bs "</value>")) by (apply nostartb_ok; reflexivity).
      rewrite S by (try apply H3; reflexivity). rewrite index_here. cbn [option_map]. f_equal. rewrite !app_length. lia. }
  rewrite E. cbn [option_map]. f_equal. rewrite !app_length. lia.
Qed.

Lemma section_value q f : (q = bs "value>" \/ q = bs "/value>") -> plain_name (xfName f) ->
  forall b, index ("<"%byte :: q) (bs "<field name=""" ++ xfName f ++ bs """" ++ b) =
    option_map (Nat.add (length (bs "<field name=""" ++ xfName f ++ bs """"))) (index ("<"%byte :: q) b).
Proof.
  intros Hq [Hn _] b.
  rewrite (index_nostart _ (bs "<field name=""")) by (apply nostartb_ok; destruct Hq as [-> | ->]; reflexivity).
  rewrite (index_nostart _ (xfName f)).
  2:{ apply (nostart_class (fun b => negb (beqb b "<"))); [|reflexivity].
      apply forallb_forall. intros x Hx. destruct (beqb x "<") eqn:E; [|reflexivity]. apply beqb_eq in E. subst x. contradiction. }
  rewrite (index_nostart _ (bs """")) by (apply nostartb_ok; destruct Hq as [-> | ->]; reflexivity).
  rewrite !app_length. destruct (index _ b); [|reflexivity]. cbn [option_map]. f_equal. lia.
Qed.

Lemma update_here pre f r v : clean_field f -> index (field_pattern (xfName f)) (pre ++ render_field f ++ r) = Some (length pre) ->
  update_field (pre ++ render_field f ++ r) (xfName f, v) = pre ++ render_field (with_value v f) ++ r.
Proof.
  intros Hf HI. unfold update_field. rewrite HI. rewrite skipn_app_exact. rewrite field_end by exact Hf.
  set (H0 := bs "<field name=""" ++ xfName f ++ bs """") in *.
  assert (E0 : bs "<field name=""" ++ xfName f ++ bs """" ++ render_body (xfBody f) = H0 ++ render_body (xfBody f)) by (unfold H0; rewrite <- !app_assoc; reflexivity).
  assert (R0 : render_field f = H0 ++ render_body (xfBody f) ++ bs "</field>") by (unfold render_field, H0; rewrite <- !app_assoc; reflexivity).
  assert (R1 : render_field (with_value v f) = H0 ++ render_body (xfBody (with_value v f)) ++ bs "</field>") by (unfold render_field, H0; rewrite <- !app_assoc; reflexivity).
  rewrite E0, R0, R1.
  assert (F : firstn (length (H0 ++ render_body (xfBody f))) ((H0 ++ render_body (xfBody f) ++ bs "</field>") ++ r) = H0 ++ render_body (xfBody f)).
  { rewrite <- !app_assoc, (app_assoc H0). apply ManipProofs.firstn_app_all. }
  rewrite F. destruct Hf as [Hn Hb].
  pose proof (section_value (bs "value>") f (or_introl eq_refl) Hn (render_body (xfBody f))) as V1.
  pose proof (section_value (bs "/value>") f (or_intror eq_refl) Hn (render_body (xfBody f))) as V2.
  change ("<"%byte :: bs "value>") with (bs "<value>") in V1. change ("<"%byte :: bs "/value>") with (bs "</value>") in V2.
  rewrite E0 in V1, V2. fold H0 in V1, V2. rewrite V1, V2. clear V1 V2 E0 R0 R1 F HI.
  destruct (xfBody f) as [t|h v0 t] eqn:Eb; cbn [render_body clean_body] in *.
  - destruct Hb as (_ & _ & B3 & B4). change (bs "<value>") with ("<"%byte :: bs "value>") at 1. rewrite skip_text_nil by exact B3.
    change ("<"%byte :: bs "value>") with (bs "<value>"). cbn [option_map].
    replace (length pre + length (H0 ++ t))%nat with (length (pre ++ H0 ++ t)) by (rewrite !app_length; lia).
    assert (Ex : pre ++ (H0 ++ t ++ bs "</field>") ++ r = (pre ++ H0 ++ t) ++ bs "</field>" ++ r) by (rewrite <- !app_assoc; reflexivity).
    rewrite Ex, ManipProofs.firstn_app_all, skipn_app_exact. unfold with_value. rewrite Eb. cbn [xfBody render_body]. rewrite <- !app_assoc. reflexivity.
  - destruct Hb as ((_ & _ & A3 & A4) & (_ & _ & B3 & B4) & _).
    assert (I1 : index (bs "<value>") (h ++ bs "<value>" ++ v0 ++ bs "</value>" ++ t) = Some (length h)).
    { change (bs "<value>") with ("<"%byte :: bs "value>"). rewrite skip_text; [|no_open|exact A3|reflexivity]. rewrite index_here. cbn [option_map]. rewrite Nat.add_0_r. reflexivity. }
    assert (I2 : index (bs "</value>") (h ++ bs "<value>" ++ v0 ++ bs "</value>" ++ t) = Some (length (h ++ bs "<value>" ++ v0))).
    { change (bs "</value>") with ("<"%byte :: bs "/value>"). rewrite skip_text; [|no_open|exact A4|reflexivity].
      rewrite (index_nostart _ (bs "<value>")) by (apply nostartb_ok; reflexivity).
      rewrite skip_text; [|no_open|exact B4|reflexivity]. rewrite index_here. cbn [option_map]. f_equal. rewrite !app_length. lia. }
    rewrite I1, I2. cbn [option_map].
    replace (length pre + (length H0 + length h) + 7)%nat with (length (pre ++ H0 ++ h ++ bs "<value>")) by (rewrite !app_length; change (length (bs "<value>")) with 7%nat; lia).
    replace (length pre + (length H0 + length (h ++ bs "<value>" ++ v0)))%nat with (length (pre ++ H0 ++ h ++ bs "<value>" ++ v0)) by (rewrite !app_length; lia).
    assert (Ex : pre ++ (H0 ++ (h ++ bs "<value>" ++ v0 ++ bs "</value>" ++ t) ++ bs "</field>") ++ r =
                 (pre ++ H0 ++ h ++ bs "<value>") ++ v0 ++ bs "</value>" ++ t ++ bs "</field>" ++ r) by (rewrite <- !app_assoc; reflexivity).
    assert (Ey : pre ++ (H0 ++ (h ++ bs "<value>" ++ v0 ++ bs "</value>" ++ t) ++ bs "</field>") ++ r =
                 (pre ++ H0 ++ h ++ bs "<value>" ++ v0) ++ bs "</value>" ++ t ++ bs "</field>" ++ r) by (rewrite <- !app_assoc; reflexivity).
    rewrite Ex at 1. rewrite ManipProofs.firstn_app_all. rewrite Ey, skipn_app_exact.
    unfold with_value. rewrite Eb. cbn [xfBody render_body]. rewrite <- !app_assoc. reflexivity.
Qed.

(** ** The document *)

Fixpoint set_first (nv : bytes * bytes) (fs : list (bytes * xfield)) : list (bytes * xfield) :=
  match fs with
  | [] => []
  | (t, f) :: fs => if bytes_eqb (xfName f) (fst nv) then (t, with_value (snd nv) f) :: fs else (t, f) :: set_first nv fs
  end.
Definition texts (fs : list (bytes * xfield)) : bytes := flat_map (fun p => fst p ++ render_field (snd p)) fs.

Lemma update_doc name v e : plain_name name -> no_field e -> forall fs, Forall (fun p => no_field (fst p) /\ clean_field (snd p)) fs ->
  forall pre, (forall x, opens x \/ x = [] -> True) ->
  (index (field_pattern name) (pre ++ texts fs ++ e) = option_map (Nat.add (length pre)) (index (field_pattern name) (texts fs ++ e))) ->
  update_field (pre ++ texts fs ++ e) (name, v) = pre ++ texts (set_first (name, v) fs) ++ e.
Proof.
  intros Hn He fs Hfs. induction Hfs as [|[t f] fs [Ht Hf] Hfs IH]; intros pre _ HI.
  - cbn [texts flat_map app set_first] in *. unfold update_field. rewrite HI. rewrite fpat_eq, skip_text_nil by (apply (no_field_lacks name e He)). reflexivity.
  - cbn [texts flat_map app set_first fst snd] in *. fold (texts fs) in *. rewrite <- !app_assoc in *.
    cbn [fst snd] in Ht, Hf.
    assert (St : index (field_pattern name) (t ++ render_field f ++ texts fs ++ e) = option_map (Nat.add (length t)) (index (field_pattern name) (render_field f ++ texts fs ++ e))).
    { rewrite fpat_eq. apply skip_text; [apply fpat_tail, Hn|apply (no_field_lacks name t Ht)|reflexivity]. }
    destruct (bytes_eqb (xfName f) name) eqn:E.
    + apply bytes_eqb_eq in E. subst name.
      assert (Ex : pre ++ t ++ render_field f ++ texts fs ++ e = (pre ++ t) ++ render_field f ++ texts fs ++ e) by (rewrite <- !app_assoc; reflexivity).
      rewrite Ex. rewrite update_here; [cbn [texts flat_map fst snd]; rewrite <- !app_assoc; reflexivity|exact Hf|].
      rewrite <- Ex, HI, St. unfold render_field. rewrite <- !app_assoc.
      assert (Ef : bs "<field name=""" ++ xfName f ++ bs """" ++ render_body (xfBody f) ++ bs "</field>" ++ texts fs ++ e =
        field_pattern (xfName f) ++ render_body (xfBody f) ++ bs "</field>" ++ texts fs ++ e) by (unfold field_pattern; rewrite <- !app_assoc; reflexivity).
      rewrite Ef, index_here. cbn [option_map]. f_equal. rewrite app_length. lia.
    + assert (Hne : xfName f <> name) by (intros Q; rewrite Q in E; rewrite bytes_eqb_refl in E; discriminate E).
      assert (Ex : forall z, pre ++ t ++ render_field f ++ z = (pre ++ t ++ render_field f) ++ z) by (intros z; rewrite <- !app_assoc; reflexivity).
      cbn [texts flat_map fst snd]. fold (texts (set_first (name, v) fs)). rewrite <- !app_assoc. rewrite !Ex. apply IH; [auto|].
      rewrite <- !Ex, HI, St. rewrite field_skipped by assumption. rewrite !app_length.
      destruct (index _ (texts fs ++ e)); [|reflexivity]. cbn [option_map]. f_equal. lia.
Qed.

Lemma update_one d name v : clean_doc d -> plain_name name ->
  update_field (render d) (name, v) = render (mkXDoc (set_first (name, v) (xdFields d)) (xdEnd d)).
Proof.
  intros [H1 H2] Hn. unfold render. cbn [xdFields xdEnd].
  apply (update_doc name v (xdEnd d) Hn H2 (xdFields d) H1 []); [auto|]. cbn [app length]. destruct (index _ _); reflexivity.
Qed.

Lemma with_clean v f : no_tags v -> clean_field f -> clean_field (with_value v f).
Proof.
  intros Hv [H1 H2]. split; [exact H1|]. unfold with_value. cbn [xfBody]. destruct (xfBody f); cbn [clean_body] in *; [|tauto].
  split; [exact H2|]. split; [exact Hv|]. unfold no_tags, no_field. repeat split.
Qed.
Lemma set_first_clean name v fs : no_tags v -> Forall (fun p => no_field (fst p) /\ clean_field (snd p)) fs ->
  Forall (fun p => no_field (fst p) /\ clean_field (snd p)) (set_first (name, v) fs).
Proof.
  intros Hv. induction 1 as [|[t f] fs [Ht Hf] Hfs IH]; cbn [set_first fst snd]; [constructor|].
  destruct (bytes_eqb (xfName f) name); constructor; cbn [fst snd]; auto. split; [exact Ht|]. apply with_clean; assumption.
Qed.

Lemma beq_sym a b : bytes_eqb a b = bytes_eqb b a.
Proof.
  destruct (bytes_eqb a b) eqn:E, (bytes_eqb b a) eqn:F; try reflexivity; exfalso.
  - apply bytes_eqb_eq in E. subst. rewrite bytes_eqb_refl in F. discriminate F.
  - apply bytes_eqb_eq in F. subst. rewrite bytes_eqb_refl in E. discriminate E.
Qed.
Lemma fold_filled_cons t f data : NoDup (map fst data) -> forall fs,
  fold_left (fun fs nv => set_first nv fs) data ((t, f) :: fs) =
  match kget (xfName f) data with
  | Some v => (t, with_value v f) :: fold_left (fun fs nv => set_first nv fs) (without (xfName f) data) fs
  | None => (t, f) :: fold_left (fun fs nv => set_first nv fs) data fs
  end.
Proof.
  revert f. induction data as [|[n v] data IH]; intros f Hd fs; [reflexivity|].
  cbn [map fst] in Hd. inversion Hd as [|x y D1 D2]; subst. cbn [fold_left set_first fst snd kget without filter].
  rewrite (beq_sym n (xfName f)). destruct (bytes_eqb (xfName f) n) eqn:E; cbn [negb].
  - apply bytes_eqb_eq in E. subst n. rewrite IH by exact D2. unfold with_value at 1 2 3. cbn [xfName].
    replace (kget (xfName f) data) with (@None bytes).
    2:{ symmetry. destruct (kget (xfName f) data) eqn:Q; [|reflexivity]. exfalso. apply D1. apply CompareProofs3.kget_In in Q. apply in_map_iff. exists (xfName f, b). split; [reflexivity|exact Q]. }
    f_equal. f_equal. symmetry.
    assert (W : forall l, ~ In (xfName f) (map fst l) -> filter (fun e : bytes * bytes => negb (bytes_eqb (fst e) (xfName f))) l = l).
    { induction l as [|[a b] l IHl]; intros Hl; [reflexivity|]. cbn [filter fst map In] in *. destruct (bytes_eqb a (xfName f)) eqn:Q.
      - apply bytes_eqb_eq in Q. tauto.
      - cbn [negb]. f_equal. apply IHl. tauto. }
    apply W. exact D1.
  - rewrite IH by exact D2. destruct (kget (xfName f) data); reflexivity.
Qed.
Lemma without_nodup n data : NoDup (map fst data) -> NoDup (map fst (without n data)).
Proof.
  induction data as [|[a b] data IH]; intros H; [constructor|]. cbn [without filter map fst] in *. inversion H; subst.
  destruct (negb (bytes_eqb a n)); [|apply IH; assumption]. cbn [map fst]. constructor; [|apply IH; assumption].
  intros Q. apply in_map_iff in Q. destruct Q as ([x y] & Q1 & Q2). apply filter_In in Q2. apply H2. apply in_map_iff. exists (x, y). tauto.
Qed.
Lemma fold_filled fs : forall data, NoDup (map fst data) -> fold_left (fun fs nv => set_first nv fs) data fs = filled_fields data fs.
Proof.
  induction fs as [|[t f] fs IH]; intros data Hd.
  - cbn [filled_fields]. clear Hd. induction data as [|nv data IHd]; [reflexivity|exact IHd].
  - rewrite fold_filled_cons by exact Hd. cbn [filled_fields]. destruct (kget (xfName f) data).
    + rewrite IH by (apply without_nodup, Hd). reflexivity.
    + rewrite IH by exact Hd. reflexivity.
Qed.

Theorem update_fields d data : clean_doc d -> NoDup (map fst data) -> Forall (fun nv => plain_name (fst nv) /\ no_tags (snd nv)) data ->
  UpdateXFAFieldValues (render d) data = render (filled data d).
Proof.
  intros Hd Hn Hv. unfold UpdateXFAFieldValues, filled. rewrite <- fold_filled by exact Hn. clear Hn. destruct d as [fs e]. cbn [xdFields xdEnd].
  revert fs Hd. induction Hv as [|[n v] data [V1 V2] Hv IH]; intros fs Hd; [reflexivity|]. cbn [fold_left fst snd] in *.
  rewrite update_one by assumption. cbn [xdFields xdEnd]. apply IH. destruct Hd as [H1 H2]. split; [|exact H2]. cbn [xdFields].
  apply set_first_clean; assumption.
Qed.

Lemma kget_without n m (data : list (bytes * bytes)) : kget n (without m data) = if bytes_eqb n m then None else kget n data.
Proof.
  induction data as [|[a b] data IH]; [cbn; destruct (bytes_eqb n m); reflexivity|]. cbn [without filter fst kget].
  destruct (bytes_eqb a m) eqn:E; cbn [negb kget]; fold (without m data); rewrite IH.
  - apply bytes_eqb_eq in E. subst a. destruct (bytes_eqb n m); reflexivity.
  - destruct (bytes_eqb n a) eqn:F; [|reflexivity]. apply bytes_eqb_eq in F. subst a. rewrite E. reflexivity.
Qed.
Lemma filled_ext fs : forall data data', (forall n, kget n data = kget n data') -> filled_fields data fs = filled_fields data' fs.
Proof.
  induction fs as [|[t f] fs IH]; intros data data' H; [reflexivity|]. cbn [filled_fields]. rewrite H.
  destruct (kget (xfName f) data'); f_equal; apply IH; [|exact H]. intros n. rewrite !kget_without, H. reflexivity.
Qed.
Lemma kget_perm (l l' : list (bytes * bytes)) n : NoDup (map fst l) -> Permutation l l' -> kget n l = kget n l'.
Proof.
  intros Hd Hp. induction Hp as [|[a b] l l' Hp IH|[a b] [c d] l|l l' l'' H1 IH1 H2 IH2]; [reflexivity| | |].
  - cbn [map fst] in Hd. inversion Hd; subst. cbn [kget]. rewrite IH by assumption. reflexivity.
  - cbn [map fst] in Hd. inversion Hd as [|x y D1 D2]; subst. cbn [kget]. destruct (bytes_eqb n a) eqn:E1, (bytes_eqb n c) eqn:E2; try reflexivity.
    apply bytes_eqb_eq in E1, E2. subst. exfalso. apply D1. left. reflexivity.
  - rewrite IH1 by exact Hd. apply IH2. eapply Permutation_NoDup; [|exact Hd]. apply Permutation_map. exact H1.
Qed.
Theorem update_order d data data' : clean_doc d -> NoDup (map fst data) -> Forall (fun nv => plain_name (fst nv) /\ no_tags (snd nv)) data ->
  Permutation data data' -> UpdateXFAFieldValues (render d) data' = UpdateXFAFieldValues (render d) data.
Proof.
  intros Hd Hn Hv Hp. rewrite !update_fields; try assumption.
  - unfold filled. f_equal. f_equal. apply filled_ext. intros n. symmetry. apply kget_perm; assumption.
  - eapply Permutation_NoDup; [|exact Hn]. apply Permutation_map, Hp.
  - eapply Permutation_Forall; eassumption.
Qed.

(** ** The data section *)
Theorem update_section pre d post data x y :
  clean_doc d -> NoDup (map fst data) -> Forall (fun nv => plain_name (fst nv) /\ no_tags (snd nv)) data ->
  render d = bs "<data" ++ x -> render d = y ++ bs "</data>" ->
  contains (bs "<data") pre = false -> contains (bs "</data>") post = false ->
  UpdateXFAValues (pre ++ render d ++ post) data = Ok (pre ++ render (filled data d) ++ post).
Proof.
  intros Hd Hn Hv Ex Ey Hpre Hpost. unfold UpdateXFAValues.
  assert (I1 : index (bs "<data") (pre ++ render d ++ post) = Some (length pre)).
  { rewrite Ex, <- app_assoc. change (bs "<data") with ("<"%byte :: bs "data"). rewrite skip_text; [|no_open|exact Hpre|reflexivity].
    rewrite index_here. cbn [option_map]. rewrite Nat.add_0_r. reflexivity. }
  assert (I2 : last_index (bs "</data>") (pre ++ render d ++ post) = Some (length (pre ++ y))).
  { rewrite Ey. assert (Q : pre ++ (y ++ bs "</data>") ++ post = (pre ++ y) ++ bs "</data>" ++ post) by (rewrite <- !app_assoc; reflexivity). rewrite Q.
    apply ManipProofs.last_index_at. intros j J1 J2.
    destruct (Nat.lt_ge_cases j 7) as [L|L].
    - do 7 (destruct j as [|j]; [try lia; reflexivity|]). lia.
    - rewrite skipn_app_r by exact L. apply (proj1 (contains_false _ _) Hpost). rewrite app_length in J2. change (length (bs "</data>")) with 7%nat in *. lia. }
  rewrite I1, I2.
  assert (Ll : (length (pre ++ y) + 7)%nat = length (pre ++ render d)) by (rewrite Ey, !app_length; change (length (bs "</data>")) with 7%nat; lia).
  rewrite Ll.
  assert (Sl : slice (pre ++ render d ++ post) (length pre) (length (pre ++ render d)) = Ok (render d)).
  { unfold slice. rewrite !app_length.
    replace ((length pre <=? length pre + length (render d))%nat) with true by (symmetry; apply Nat.leb_le; lia).
    replace ((length pre + length (render d) <=? length pre + (length (render d) + length post))%nat) with true by (symmetry; apply Nat.leb_le; lia).
    cbn [andb]. f_equal. unfold sub. rewrite skipn_app_exact. replace (length pre + length (render d) - length pre)%nat with (length (render d)) by lia.
    apply ManipProofs.firstn_app_all. }
  rewrite Sl. cbn [rbind]. f_equal. rewrite ManipProofs.firstn_app_all. rewrite update_fields by assumption.
  f_equal. f_equal. rewrite app_assoc. apply skipn_app_exact.
Qed.
Theorem update_whole d data :
  clean_doc d -> NoDup (map fst data) -> Forall (fun nv => plain_name (fst nv) /\ no_tags (snd nv)) data ->
  contains (bs "<data") (render d) = false \/ contains (bs "</data>") (render d) = false ->
  UpdateXFAValues (render d) data = Ok (render (filled data d)).
Proof.
  intros Hd Hn Hv H. unfold UpdateXFAValues. rewrite update_fields by assumption.
  destruct (index (bs "<data") (render d)) as [a|] eqn:E1; [|reflexivity].
  destruct (last_index (bs "</data>") (render d)) as [b|] eqn:E2; [|reflexivity].
  exfalso. destruct H as [H|H].
  - unfold contains in H. rewrite E1 in H. discriminate H.
  - apply last_index_some in E2. destruct E2 as [E2 _]. pose proof (proj1 (contains_false _ _) H b) as Q.
    destruct (Nat.le_gt_cases b (length (render d))) as [L|L]; [rewrite (Q L) in E2; discriminate E2|].
    rewrite skipn_all2 in E2 by lia. discriminate E2.
Qed.
