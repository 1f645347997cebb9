(** Proofs about the comparison report. *)
From Verif Require Import Util CompareModel CompareSpec CompareProofs4 ReportModel ReportSpec WriterProofs.
Local Open Scope Z_scope.

Lemma heading_title : heading = report_title. Proof. reflexivity. Qed.
Lemma report_identical {B} fmt2 (d1 d2 : document B) c : cIdentical c = true -> GenerateReport fmt2 d1 d2 c = says_identical.
Proof. intros H. unfold GenerateReport. rewrite H. reflexivity. Qed.
Lemma report_different {B} fmt2 (d1 d2 : document B) c : cIdentical c = false ->
  GenerateReport fmt2 d1 d2 c = says_different (cTotal c) ++ meta_part d1 d2 (cMeta c) ++ structure_part d1 d2 (cPageCount c) ++
    pages_part fmt2 d1 d2 (cPages c) ++ form_part (cForm c).
Proof.
  intros H. unfold GenerateReport. rewrite H, heading_title. unfold says_different, line. rewrite <- !app_assoc. reflexivity.
Qed.
Lemma not_identical t r : says_different t ++ r <> says_identical.
Proof.
  intros H. unfold says_different, says_identical in H. rewrite <- !app_assoc in H. apply app_inv_head in H.
  unfold line in H. apply (f_equal (fun l => nth 1 l x00)) in H. discriminate.
Qed.

Lemma no_break_app a b : no_break a -> no_break b -> no_break (a ++ b).
Proof. unfold no_break. rewrite in_app_iff. tauto. Qed.
Lemma no_break_lit a : forallb (fun b => negb (beqb b x0a)) a = true -> no_break a.
Proof. intros H Hi. rewrite forallb_forall in H. specialize (H _ Hi). discriminate. Qed.
Lemma no_break_dec z : no_break (decZ z).
Proof. intros H. apply decZ_bytes in H as [H|H]; discriminate. Qed.
Ltac nb := repeat first [apply no_break_app | apply no_break_dec | (apply no_break_lit; reflexivity)].

Section pages.
  Context (fmt2 : float -> bytes) (Hf : forall x, no_break (fmt2 x)).
  Context {B : Type} (d1 d2 : document B).
  Lemma describe_line n d : no_break (describe fmt2 d1 d2 n d).
  Proof.
    destruct d; unfold describe, size_text, degrees, num, arrow; nb; try apply Hf.
    destruct (iMoved d); nb.
  Qed.
  Lemma count_indented {A} label (l : list A) after : no_break label -> no_break after ->
    exists ls, Forall no_break ls /\ count_line (bs "  " ++ label) l after = indented ls.
  Proof.
    intros H1 H2. destruct l as [|x l]; [exists []; split; [constructor|reflexivity]|].
    exists [label ++ num (length (x :: l)) ++ after]. split; [constructor; [unfold num; nb; assumption|constructor]|].
    unfold count_line, indented, line. cbn [flat_map]. rewrite app_nil_r, <- !app_assoc. reflexivity.
  Qed.
  Lemma indented_app a b : indented (a ++ b) = indented a ++ indented b.
  Proof. apply flat_map_app. Qed.
  Lemma indented_join a b : (exists ls, Forall no_break ls /\ a = indented ls) -> (exists ls, Forall no_break ls /\ b = indented ls) ->
    exists ls, Forall no_break ls /\ a ++ b = indented ls.
  Proof.
    intros (x & Hx & ->) (y & Hy & ->). exists (x ++ y). split; [apply Forall_app; split; assumption|symmetry; apply indented_app].
  Qed.
  Lemma counts_indented d : exists ls, Forall no_break ls /\ counts d = indented ls.
  Proof.
    destruct d; try (exists []; split; [constructor|reflexivity]); unfold counts.
    - apply indented_join; [|apply indented_join]; [apply (count_indented (bs "Text Added: "))|apply (count_indented (bs "Text Removed: "))|apply (count_indented (bs "Text Modified: "))]; nb.
    - apply indented_join; [apply (count_indented (bs "Graphics Added: "))|apply (count_indented (bs "Graphics Removed: "))]; nb.
    - apply indented_join; [apply (count_indented (bs "Images Added: "))|apply (count_indented (bs "Images Removed: "))]; nb.
    - apply indented_join; [apply (count_indented (bs "Annotations Added: "))|apply (count_indented (bs "Annotations Removed: "))]; nb.
  Qed.
  Lemma all_counts ds : exists ls, Forall no_break ls /\ flat_map counts ds = indented ls.
  Proof.
    induction ds as [|d ds IH]; [exists []; split; [constructor|reflexivity]|]. cbn [flat_map].
    apply indented_join; [apply counts_indented|exact IH].
  Qed.
  Lemma described ds n : flat_map (fun d => bs "  " ++ describe fmt2 d1 d2 n d ++ lf) ds = indented (map (describe fmt2 d1 d2 n) ds).
  Proof.
    unfold indented, line. induction ds as [|d ds IH]; [reflexivity|]. cbn [flat_map map]. rewrite IH, <- !app_assoc. reflexivity.
  Qed.
  Lemma page_listed n ds d a b : In d ds ->
    listed_under (a ++ page_part fmt2 d1 d2 (n, ds) ++ b) n (describe fmt2 d1 d2 n d).
  Proof.
    intros Hd. apply in_split in Hd as (u & v & ->). destruct (all_counts (u ++ d :: v)) as (ls & Hls & E).
    exists a, (ls ++ map (describe fmt2 d1 d2 n) u), (indented (map (describe fmt2 d1 d2 n) v) ++ b). split.
    - apply Forall_app. split; [exact Hls|]. apply Forall_map. apply Forall_forall. intros x _. apply describe_line.
    - unfold page_part. cbn [fst snd]. rewrite E, described, map_app. cbn [map].
      rewrite (indented_app (map _ u)). rewrite (indented_app (ls ++ _) [_]), (indented_app ls).
      unfold line, num. cbn [app]. change (indented (describe fmt2 d1 d2 n d :: map (describe fmt2 d1 d2 n) v))
        with (indented ([describe fmt2 d1 d2 n d] ++ map (describe fmt2 d1 d2 n) v)). rewrite indented_app. unfold lf.
      rewrite <- !app_assoc. reflexivity.
  Qed.
  Lemma page_reported c n ds d : cIdentical c = false -> In (n, ds) (cPages c) -> In d ds ->
    listed_under (GenerateReport fmt2 d1 d2 c) n (describe fmt2 d1 d2 n d).
  Proof.
    intros Hi Hp Hd. rewrite report_different by exact Hi. apply in_split in Hp as (u & v & Hp).
    unfold pages_part. destruct (cPages c) as [|p l] eqn:E; [destruct u; discriminate|]. rewrite Hp, flat_map_app. cbn [flat_map].
    match goal with |- listed_under (?x ++ ?y ++ ?z ++ (?q ++ ?r ++ ?s ++ (?t ++ page_part _ _ _ ?p ++ ?w) ++ ?k) ++ ?o) _ _ =>
      replace (x ++ y ++ z ++ (q ++ r ++ s ++ (t ++ page_part fmt2 d1 d2 p ++ w) ++ k) ++ o) with
        ((x ++ y ++ z ++ q ++ r ++ s ++ t) ++ page_part fmt2 d1 d2 p ++ (w ++ k ++ o)) by (rewrite <- !app_assoc; reflexivity) end.
    apply page_listed. exact Hd.
  Qed.
  Definition count_text (c : bytes * nat) : bytes := fst c ++ bs ": " ++ decZ (Z.of_nat (snd c)) ++ bs " elements".
  Definition some_counted (c : bytes * nat) : bool := negb (snd c =? 0)%nat.
  Lemma count_line_text {A} k (l : list A) :
    count_line (bs "  " ++ k ++ bs ": ") l (bs " elements") = indented (map count_text (List.filter some_counted [(k, length l)])).
  Proof.
    destruct l as [|x l]; [reflexivity|]. unfold count_line, some_counted, num. cbn [List.filter snd length Nat.eqb negb map].
    unfold indented, line, count_text. cbn [flat_map fst snd]. rewrite app_nil_r, <- !app_assoc. reflexivity.
  Qed.
  Lemma counts_text d : counts d = indented (map count_text (List.filter some_counted (counted d))).
  Proof.
    assert (C : forall c l, indented (map count_text (List.filter some_counted (c :: l))) =
      indented (map count_text (List.filter some_counted [c])) ++ indented (map count_text (List.filter some_counted l))).
    { intros c l. change (c :: l) with ([c] ++ l). rewrite filter_app, map_app, indented_app. reflexivity. }
    destruct d; try reflexivity; unfold counts, counted; repeat rewrite (C _ (_ :: _)); rewrite <- !count_line_text; reflexivity.
  Qed.
  Lemma all_counts_text ds : flat_map counts ds = indented (map count_text (List.filter some_counted (flat_map counted ds))).
  Proof.
    induction ds as [|d ds IH]; [reflexivity|]. cbn [flat_map]. rewrite filter_app, map_app, indented_app, IH, counts_text. reflexivity.
  Qed.
  Lemma kind_no_break d k n : In (k, n) (counted d) -> no_break k.
  Proof.
    destruct d; cbn [counted In]; intros H; try contradiction;
    repeat (destruct H as [H|H]; [injection H as <- _; nb|]); contradiction.
  Qed.
  Lemma count_listed n ds d k m a b : In d ds -> In (k, m) (counted d) -> m <> O ->
    listed_under (a ++ page_part fmt2 d1 d2 (n, ds) ++ b) n (count_text (k, m)).
  Proof.
    intros Hd Hk Hm.
    assert (In (k, m) (List.filter some_counted (flat_map counted ds))) as Hi.
    { apply filter_In. split; [apply in_flat_map; exists d; split; assumption|]. unfold some_counted. cbn [snd]. destruct m; [congruence|reflexivity]. }
    assert (Forall no_break (map count_text (List.filter some_counted (flat_map counted ds)))) as Hn.
    { apply Forall_map, Forall_forall. intros (k', m') Hx. apply filter_In in Hx as (Hx & _). apply in_flat_map in Hx as (d' & _ & Hx).
      unfold count_text. cbn [fst snd]. nb. exact (kind_no_break _ _ _ Hx). }
    apply in_split in Hi as (u & v & E). rewrite E in Hn. rewrite map_app in Hn. apply Forall_app in Hn as (Hn & _).
    exists a, (map count_text u), (indented (map count_text v) ++ indented (map (describe fmt2 d1 d2 n) ds) ++ b). split; [exact Hn|].
    unfold page_part. cbn [fst snd]. rewrite all_counts_text, E, described, map_app, !indented_app. cbn [map].
    change (indented (count_text (k, m) :: map count_text v)) with (indented ([count_text (k, m)] ++ map count_text v)). rewrite indented_app.
    unfold line, num, lf. rewrite <- !app_assoc. reflexivity.
  Qed.
  Lemma count_reported c n ds d k m : cIdentical c = false -> In (n, ds) (cPages c) -> In d ds -> In (k, m) (counted d) -> m <> O ->
    listed_under (GenerateReport fmt2 d1 d2 c) n (k ++ bs ": " ++ decZ (Z.of_nat m) ++ bs " elements").
  Proof.
    intros Hi Hp Hd Hk Hm. rewrite report_different by exact Hi. apply in_split in Hp as (u & v & Hp).
    unfold pages_part. destruct (cPages c) as [|p l] eqn:E; [destruct u; discriminate|]. rewrite Hp, flat_map_app. cbn [flat_map].
    match goal with |- listed_under (?x ++ ?y ++ ?z ++ (?q ++ ?r ++ ?s ++ (?t ++ page_part _ _ _ ?p ++ ?w) ++ ?k) ++ ?o) _ _ =>
      replace (x ++ y ++ z ++ (q ++ r ++ s ++ (t ++ page_part fmt2 d1 d2 p ++ w) ++ k) ++ o) with
        ((x ++ y ++ z ++ q ++ r ++ s ++ t) ++ page_part fmt2 d1 d2 p ++ (w ++ k ++ o)) by (rewrite <- !app_assoc; reflexivity) end.
    exact (count_listed n ds d k m _ _ Hd Hk Hm).
  Qed.
End pages.

(* ---------------- forms and metadata ---------------- *)
Lemma has_line_app a l b t : a <> [] -> t = a ++ line l ++ b -> last a x00 = x0a -> has_line t l.
Proof.
  intros Ha -> Hl. exists (removelast a), b. rewrite (app_removelast_last x00 Ha) at 1. rewrite Hl, <- app_assoc. reflexivity.
Qed.
Lemma map_line {A} (f : A -> bytes) (l : list A) x a : In x l -> a <> [] -> last a x00 = x0a ->
  forall b t, t = a ++ flat_map (fun c => line (f c)) l ++ b -> has_line t (f x).
Proof.
  intros Hx Ha La b t ->. apply in_split in Hx as (u & v & ->). rewrite flat_map_app. cbn [flat_map].
  apply (has_line_app (a ++ flat_map (fun c => line (f c)) u) (f x) (flat_map (fun c => line (f c)) v ++ b)).
  - destruct a; [congruence|discriminate].
  - rewrite <- !app_assoc. reflexivity.
  - destruct u as [|y u _] using rev_ind; [cbn [flat_map]; rewrite app_nil_r; exact La|]. rewrite flat_map_app. cbn [flat_map]. unfold line.
    rewrite app_nil_r, !app_assoc. apply last_last.
Qed.
Definition added_line (c : fchange) : bytes := bs "    - " ++ fst (fst c) ++ bs ": " ++ value_text (snd c).
Definition removed_line (c : fchange) : bytes := bs "    - " ++ fst (fst c) ++ bs ": " ++ value_text (snd (fst c)).
Definition changed_line (c : fchange) : bytes := bs "    - " ++ fst (fst c) ++ bs ": " ++ value_text (snd (fst c)) ++ bs " -> " ++ value_text (snd c).
Lemma fm_ext {A} (f g : A -> bytes) l : (forall x, f x = g x) -> flat_map f l = flat_map g l.
Proof. intros H. induction l as [|x l IH]; [reflexivity|]. cbn [flat_map]. rewrite H, IH. reflexivity. Qed.
Lemma form_text f : form_part (Some f) =
  bs "Form Differences:" ++ lf ++ dashes "-" 30 ++
  match fdType f with Some (a, b) => bs "  Form Type: " ++ a ++ arrow ++ b ++ lf | None => [] end ++
  count_line (bs "  Fields Added: ") (fdAdded f) [] ++ flat_map (fun c => line (added_line c)) (fdAdded f) ++
  count_line (bs "  Fields Removed: ") (fdRemoved f) [] ++ flat_map (fun c => line (removed_line c)) (fdRemoved f) ++
  count_line (bs "  Fields Modified: ") (fdModified f) [] ++ flat_map (fun c => line (changed_line c)) (fdModified f) ++ lf.
Proof.
  unfold form_part. do 5 f_equal.
  f_equal; [apply fm_ext; intros c; unfold line, added_line; rewrite <- !app_assoc; reflexivity|]. f_equal.
  f_equal; [apply fm_ext; intros c; unfold line, removed_line; rewrite <- !app_assoc; reflexivity|]. f_equal.
  f_equal. apply fm_ext; intros c; unfold line, changed_line; rewrite <- !app_assoc; reflexivity.
Qed.
Lemma count_last {A} label (l : list A) a x : In x l -> (a ++ count_line label l []) <> [] /\ last (a ++ count_line label l []) x00 = x0a.
Proof.
  destruct l as [|y l]; [intros []|]. intros _. unfold count_line. split.
  - rewrite !app_assoc. intros H. apply app_eq_nil in H as [_ H]. discriminate.
  - rewrite !app_assoc. unfold lf. apply last_last.
Qed.
Lemma form_reported {B} fmt2 (d1 d2 : document B) c f : cIdentical c = false -> cForm c = Some f ->
  (forall x, In x (fdAdded f) -> has_line (GenerateReport fmt2 d1 d2 c) (added_line x)) /\
  (forall x, In x (fdRemoved f) -> has_line (GenerateReport fmt2 d1 d2 c) (removed_line x)) /\
  (forall x, In x (fdModified f) -> has_line (GenerateReport fmt2 d1 d2 c) (changed_line x)).
Proof.
  intros Hi Hf. rewrite report_different by exact Hi. rewrite Hf, form_text.
  set (p1 := says_different (cTotal c)). set (p2 := meta_part _ _ _). set (p3 := structure_part _ _ _). set (p4 := pages_part _ _ _ _).
  set (t := match fdType f with Some (a, b) => _ | None => _ end).
  set (A1 := flat_map (fun c => line (added_line c)) (fdAdded f)). set (R1 := flat_map (fun c => line (removed_line c)) (fdRemoved f)).
  set (M1 := flat_map (fun c => line (changed_line c)) (fdModified f)).
  set (hd := p1 ++ p2 ++ p3 ++ p4 ++ bs "Form Differences:" ++ lf ++ dashes "-" 30 ++ t).
  repeat split; intros x Hx.
  - destruct (count_last (bs "  Fields Added: ") (fdAdded f) hd x Hx) as [N L].
    refine (map_line added_line (fdAdded f) x _ Hx N L _ _ _).
    unfold hd. rewrite <- !app_assoc. reflexivity.
  - destruct (count_last (bs "  Fields Removed: ") (fdRemoved f) (hd ++ count_line (bs "  Fields Added: ") (fdAdded f) [] ++ A1) x Hx) as [N L].
    refine (map_line removed_line (fdRemoved f) x _ Hx N L _ _ _).
    unfold hd. rewrite <- !app_assoc. reflexivity.
  - destruct (count_last (bs "  Fields Modified: ") (fdModified f) (hd ++ count_line (bs "  Fields Added: ") (fdAdded f) [] ++ A1 ++
      count_line (bs "  Fields Removed: ") (fdRemoved f) [] ++ R1) x Hx) as [N L].
    refine (map_line changed_line (fdModified f) x _ Hx N L _ _ _).
    unfold hd. rewrite <- !app_assoc. reflexivity.
Qed.

Lemma verdict {B} deq fmt1 all1 all2 iter1 iter2 o (d1 d2 : document B) c fmt2 :
  compareDocs deq fmt1 all1 all2 iter1 iter2 o d1 d2 = Ok c ->
  (GenerateReport fmt2 d1 d2 c = says_identical <-> nothing_reported c) /\
  (~ nothing_reported c -> 0 < cTotal c /\ exists rest, GenerateReport fmt2 d1 d2 c = says_different (cTotal c) ++ rest).
Proof.
  intros H. pose proof (identical_ok _ _ _ _ _ _ _ _ _ _ H) as (I1 & I2 & I3).
  destruct (cIdentical c) eqn:E.
  - split; [|tauto]. split; [tauto|]. intros _. apply report_identical, E.
  - split.
    + split; [|intros Hn; apply I1 in Hn; discriminate]. rewrite report_different by exact E. intros Hr. apply not_identical in Hr. destruct Hr.
    + intros Hn. split; [|rewrite report_different by exact E; eexists; reflexivity]. destruct (Z.eq_dec (cTotal c) 0); [tauto|lia].
Qed.

Lemma marks_unsaid {B} fmt2 (d1 d2 : document B) c : cIdentical c = false -> only_marks c ->
  GenerateReport fmt2 d1 d2 c = says_different (cTotal c).
Proof.
  intros Hi (H1 & H2 & H3 & _ & H5). rewrite report_different by exact Hi. rewrite H1, H2, H3, H5. cbn. rewrite !app_nil_r. reflexivity.
Qed.

(** Metadata: what the report says depends on three fields only *)
Lemma meta_text {B} (d1 d2 : document B) a b fs : dMeta d1 = Some a -> dMeta d2 = Some b ->
  meta_part d1 d2 (Some fs) = line (bs "Metadata Differences:") ++ line (bs "------------------------------") ++
    flat_map (fun f => meta_line f a b) (List.filter reported_field fs) ++ line [].
Proof.
  intros Ha Hb. unfold meta_part. rewrite Ha, Hb. change (dashes "-" 30) with (line (bs "------------------------------")). unfold line at 1.
  assert (E : flat_map (fun f => meta_line f a b) fs = flat_map (fun f => meta_line f a b) (List.filter reported_field fs)).
  { induction fs as [|f fs IH]; [reflexivity|]. cbn [flat_map List.filter]. rewrite IH. destruct f; reflexivity. }
  rewrite E. reflexivity.
Qed.
Lemma meta_reported {B} fmt2 (d1 d2 : document B) c a b fs : cIdentical c = false -> dMeta d1 = Some a -> dMeta d2 = Some b -> cMeta c = Some fs ->
  exists rest, GenerateReport fmt2 d1 d2 c = says_different (cTotal c) ++ line (bs "Metadata Differences:") ++ line (bs "------------------------------") ++
    flat_map (fun f => match f with
      | FTitle => line (bs "  Title: " ++ mTitle a ++ bs " -> " ++ mTitle b)
      | FAuthor => line (bs "  Author: " ++ mAuthor a ++ bs " -> " ++ mAuthor b)
      | FPages => line (bs "  Page Count: " ++ decZ (mPages a) ++ bs " -> " ++ decZ (mPages b))
      | _ => []
      end) (List.filter reported_field fs) ++ line [] ++ rest.
Proof.
  intros Hi Ha Hb Hc. rewrite report_different by exact Hi. rewrite Hc, (meta_text d1 d2 a b fs Ha Hb). eexists.
  rewrite <- !app_assoc. do 3 f_equal. f_equal. apply fm_ext. intros f. destruct f; cbn [meta_line]; unfold line; rewrite <- ?app_assoc; reflexivity.
Qed.

(** The pages meant are the ones compared *)
Lemma page_lines {B} deq fmt1 all1 all2 iter1 iter2 o (d1 d2 : document B) c fmt2 n ds d :
  (forall x, no_break (fmt2 x)) -> compareDocs deq fmt1 all1 all2 iter1 iter2 o d1 d2 = Ok c ->
  In (n, ds) (cPages c) -> In d ds ->
  exists p q, (needs_pages d = true -> nth_error (dPages d1) (n - 1) = Some p /\ nth_error (dPages d2) (n - 1) = Some q) /\
    listed_under (GenerateReport fmt2 d1 d2 c) n (page_line fmt2 n p q d).
Proof.
  intros Hf H Hp Hd. pose proof (identical_ok _ _ _ _ _ _ _ _ _ _ H) as (I1 & _).
  assert (E : cIdentical c = false).
  { destruct (cIdentical c); [|reflexivity]. destruct (proj1 I1 eq_refl) as (_ & _ & X & _). rewrite X in Hp. destruct Hp. }
  exists (page_of d1 n), (page_of d2 n). split.
  - intros Hn. unfold compareDocs in H.
    destruct (comparePages fmt1 all1 all2 iter1 iter2 o 0 (dPages d1) (dPages d2)) as [pd| |] eqn:Ep; try discriminate.
    injection H as <-. cbn [cPages] in Hp.
    destruct (pages_ok fmt1 all1 all2 iter1 iter2 o (dPages d1) (dPages d2) 0 pd Ep) as [_ Hall]. apply Hall in Hp as (i & -> & Hp).
    unfold page_of. replace (S (0 + i) - 1)%nat with i by lia. cbn [Nat.add] in Hp.
    destruct (nth_error (dPages d1) i) as [p|] eqn:E1; destruct (nth_error (dPages d2) i) as [q|] eqn:E2; try tauto.
    + split; [rewrite (nth_error_nth _ _ blank_page E1)|rewrite (nth_error_nth _ _ blank_page E2)]; reflexivity.
    + exfalso. rewrite Hp in Hd. destruct Hd as [<-|[]]. discriminate Hn.
    + exfalso. rewrite Hp in Hd. destruct Hd as [<-|[]]. discriminate Hn.
  - pose proof (page_reported fmt2 Hf d1 d2 c n ds d E Hp Hd) as L.
    replace (page_line fmt2 n (page_of d1 n) (page_of d2 n) d) with (describe fmt2 d1 d2 n d); [exact L|].
    destruct d; reflexivity.
Qed.

Lemma pages_counted {B} fmt2 (d1 d2 : document B) c : cIdentical c = false -> cPageCount c = true ->
  has_line (GenerateReport fmt2 d1 d2 c)
    (bs "  Page Count: " ++ decZ (Z.of_nat (length (dPages d1))) ++ bs " -> " ++ decZ (Z.of_nat (length (dPages d2)))).
Proof.
  intros Hi Hc. rewrite report_different by exact Hi. rewrite Hc. unfold structure_part.
  eexists (says_different (cTotal c) ++ meta_part d1 d2 (cMeta c) ++ bs "Structure Differences:" ++ lf ++ repeat "-"%byte 30),
    (lf ++ pages_part fmt2 d1 d2 (cPages c) ++ form_part (cForm c)).
  unfold line, dashes, lf, num, arrow. rewrite <- !app_assoc. reflexivity.
Qed.
