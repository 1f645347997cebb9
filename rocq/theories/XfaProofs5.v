(** Proofs for replacing a stream in a file: which array the pieces are read from. *)
From Verif Require Import Util Scan XfaModel XfaSpec WriterProofs XrefProofs.
From Verif Require ManipProofs.
Local Open Scope Z_scope.

Lemma cut_found pre obj a digits b ws data post : findable pre obj a digits b ws data post ->
  let l1 := length (pre ++ decZ obj ++ bs " 0 obj" ++ a ++ bs "/Length ") in
  let s1 := (l1 + length digits + length b + 6 + length ws)%nat in
  stream_cut (stream_file pre obj a digits b ws data post) obj = Ok (l1, (l1 + length digits)%nat, s1, (s1 + length data)%nat).
Proof.
  intros (Ho & Hf & Na & Sa & Sb & Dn & Dd & Hb & Hw & Hd & Nd). cbv zeta. unfold stream_cut. rewrite Hf.
  unfold stream_file at 1. rewrite skipn_app_exact.
  set (D := decZ obj ++ bs " 0 obj" ++ a ++ bs "/Length " ++ digits ++ b).
  assert (ED : decZ obj ++ bs " 0 obj" ++ a ++ bs "/Length " ++ digits ++ b ++ bs "stream" ++ ws ++ data ++ bs "endstream" ++ post =
               D ++ bs "stream" ++ ws ++ data ++ bs "endstream" ++ post) by (unfold D; rewrite <- !app_assoc; reflexivity).
  rewrite ED.
  assert (ND : nostart (bs "stream") D).
  { unfold D. apply nostart_app; [apply nostart_decZ; [exact Ho|reflexivity]|]. apply nostart_app; [apply nostartb_ok; reflexivity|].
    apply nostart_app; [exact Sa|]. apply nostart_app; [apply nostartb_ok; reflexivity|]. apply nostart_app; [|exact Sb].
    apply (nostart_class is_digit); [exact Dd|reflexivity]. }
  rewrite index_at by exact ND.
  assert (ES : skipn (length pre) (stream_file pre obj a digits b ws data post) = D ++ bs "stream" ++ ws ++ data ++ bs "endstream" ++ post).
  { unfold stream_file. rewrite skipn_app_exact. exact ED. }
  rewrite ES, ManipProofs.firstn_app_all.
  assert (FL : find m_length_digits D = Some (length (decZ obj ++ bs " 0 obj" ++ a), (digits, b))).
  { assert (E2 : D = (decZ obj ++ bs " 0 obj" ++ a) ++ bs "/Length " ++ digits ++ b) by (unfold D; rewrite <- !app_assoc; reflexivity).
    rewrite E2. apply find_at.
    - apply (nostart_nofire m_length_digits (bs "/Length")).
      + intros u Hu. unfold m_length_digits. rewrite (proj2 (lit_none _ _) Hu). reflexivity.
      + apply nostart_app; [apply nostart_decZ; [exact Ho|reflexivity]|]. apply nostart_app; [apply nostartb_ok; reflexivity|exact Na].
    - unfold m_length_digits. change (bs "/Length " ++ digits ++ b) with (bs "/Length" ++ " "%byte :: digits ++ b). rewrite lit_app. cbn [obind].
      rewrite ws1_space by (apply digits_head; auto using digit_not_ws). cbn [obind].
      apply digits1_app; assumption. }
  rewrite FL.
  assert (Ef : stream_file pre obj a digits b ws data post = (pre ++ D ++ bs "stream") ++ ws ++ data ++ bs "endstream" ++ post).
  { unfold stream_file. rewrite ED, <- !app_assoc. reflexivity. }
  assert (L6 : (length pre + length D + 6)%nat = length (pre ++ D ++ bs "stream")) by (rewrite !app_length; change (length (bs "stream")) with 6%nat; lia).
  rewrite L6. rewrite Ef, skipn_app_exact.
  assert (TW : take_while is_blank (ws ++ data ++ bs "endstream" ++ post) = ws).
  { apply take_while_app; [exact Hw|]. destruct data as [|c d]; [reflexivity|exact Hd]. }
  rewrite TW. rewrite (app_assoc (pre ++ D ++ bs "stream")).
  replace (length (pre ++ D ++ bs "stream") + length ws)%nat with (length ((pre ++ D ++ bs "stream") ++ ws)) by (rewrite app_length; lia).
  rewrite skipn_app_exact. rewrite index_at by exact Nd.
  assert (LD : length D = (length (decZ obj ++ bs " 0 obj" ++ a ++ bs "/Length ") + length digits + length b)%nat) by (unfold D; rewrite !app_length; lia).
  assert (P1 : (length pre + (length D - length b))%nat = (length (pre ++ decZ obj ++ bs " 0 obj" ++ a ++ bs "/Length ") + length digits)%nat).
  { rewrite LD. rewrite (app_length pre). lia. }
  assert (P2 : length ((pre ++ D ++ bs "stream") ++ ws) = (length (pre ++ decZ obj ++ bs " 0 obj" ++ a ++ bs "/Length ") + length digits + length b + 6 + length ws)%nat).
  { rewrite app_length, <- L6, LD. rewrite (app_length pre). lia. }
  rewrite P1, P2. f_equal. f_equal. f_equal. f_equal. lia.
Qed.

(** ** The array *)
Lemma write_len k xs m : (k + length xs <= length m)%nat -> length (write_at k xs m) = length m.
Proof. intros H. unfold write_at. rewrite !app_length, firstn_length, skipn_length. lia. Qed.
Lemma write_before k xs m j : (j <= k)%nat -> (k <= length m)%nat -> firstn j (write_at k xs m) = firstn j m.
Proof.
  intros H1 H2. unfold write_at. rewrite firstn_app, firstn_length. replace (j - Nat.min k (length m))%nat with O by lia.
  rewrite firstn_O, app_nil_r, firstn_firstn. f_equal. lia.
Qed.
Lemma write_after k xs m j : (k + length xs <= j)%nat -> (k + length xs <= length m)%nat -> skipn j (write_at k xs m) = skipn j m.
Proof.
  intros H1 H2. unfold write_at. rewrite app_assoc, skipn_app, app_length, firstn_length.
  rewrite skipn_all2 by (rewrite app_length, firstn_length; lia). cbn [app].
  rewrite skipn_skipn. f_equal. lia.
Qed.
Lemma write_upto k xs m : (k + length xs <= length m)%nat -> firstn (k + length xs) (write_at k xs m) = firstn k m ++ xs.
Proof.
  intros H. unfold write_at. rewrite app_assoc.
  replace (k + length xs)%nat with (length (firstn k m ++ xs)) by (rewrite app_length, firstn_length; lia).
  apply ManipProofs.firstn_app_all.
Qed.
Lemma sub_skipn i j m : sub i j m = firstn (j - i) (skipn i m).
Proof. reflexivity. Qed.

(** The four appends, for cuts in order. *)
Section Appends.
Variables (mem : bytes) (n l1 l2 s1 s2 : nat) (d new : bytes).
Hypothesis (O1 : (l1 <= l2)%nat) (O2 : (l2 <= s1)%nat) (O3 : (s1 <= s2)%nat) (O4 : (s2 <= n)%nat) (O5 : (n <= length mem)%nat).
Hypothesis (Dd : (length d <= l2 - l1)%nat).
Let st1 := go_append (mem, Shared l1) d.
Let st2 := go_append st1 (sub l2 s1 (fst st1)).
Let st3 := go_append st2 new.
Let st4 := go_append st3 (sub s2 n (fst st3)).
Let k := (l1 + length d + (s1 - l2))%nat.

Lemma st1_eq : st1 = (write_at l1 d mem, Shared (l1 + length d)).
Proof. unfold st1, go_append. replace (l1 + length d <=? length mem)%nat with true by (symmetry; apply Nat.leb_le; lia). reflexivity. Qed.
Lemma between_eq : sub l2 s1 (fst st1) = sub l2 s1 mem.
Proof. rewrite st1_eq. cbn [fst]. unfold sub. rewrite write_after by lia. reflexivity. Qed.
Lemma between_len : length (sub l2 s1 mem) = (s1 - l2)%nat.
Proof. unfold sub. rewrite firstn_length, skipn_length. lia. Qed.
Definition mem2 := write_at (l1 + length d) (sub l2 s1 mem) (write_at l1 d mem).
Lemma mem2_len : length mem2 = length mem.
Proof. unfold mem2. rewrite write_len, write_len; rewrite ?between_len; try (rewrite write_len by lia); lia. Qed.
Lemma st2_eq : st2 = (mem2, Shared k).
Proof.
  unfold st2. rewrite between_eq, st1_eq. unfold go_append. rewrite between_len.
  rewrite write_len by lia. replace (l1 + length d + (s1 - l2) <=? length mem)%nat with true by (symmetry; apply Nat.leb_le; lia).
  reflexivity.
Qed.
Lemma mem2_upto : firstn k mem2 = firstn l1 mem ++ d ++ sub l2 s1 mem.
Proof.
  unfold mem2, k. rewrite <- between_len. rewrite write_upto by (rewrite write_len by lia; rewrite between_len; lia).
  rewrite write_upto by lia. rewrite <- app_assoc. reflexivity.
Qed.
Lemma mem2_after j : (s1 <= j)%nat -> skipn j mem2 = skipn j mem.
Proof. intros H. unfold mem2. rewrite write_after; [|rewrite between_len; lia|rewrite write_len by lia; rewrite between_len; lia]. rewrite write_after by lia. reflexivity. Qed.

Definition cut_result : bytes * bytes := (contents st4, fst st4).

Lemma appended_own (m : bytes) (x y : bytes) : contents (go_append (m, Own x) y) = x ++ y.
Proof. reflexivity. Qed.
Lemma appended_any (m : bytes) j y : (j <= length m)%nat -> contents (go_append (m, Shared j) y) = firstn j m ++ y.
Proof.
  intros H. unfold go_append. destruct (j + length y <=? length m)%nat eqn:E; unfold contents; cbn [fst snd]; [|reflexivity].
  apply Nat.leb_le in E. apply write_upto. exact E.
Qed.

Lemma st3_fit : (k + length new <= length mem)%nat -> st3 = (write_at k new mem2, Shared (k + length new)).
Proof. intros H. unfold st3. rewrite st2_eq. unfold go_append. rewrite mem2_len. replace (k + length new <=? length mem)%nat with true by (symmetry; apply Nat.leb_le; lia). reflexivity. Qed.
Lemma st3_own : (length mem < k + length new)%nat -> st3 = (mem2, Own (firstn k mem2 ++ new)).
Proof. intros H. unfold st3. rewrite st2_eq. unfold go_append. rewrite mem2_len. replace (k + length new <=? length mem)%nat with false by (symmetry; apply Nat.leb_gt; lia). reflexivity. Qed.

(** The new data stays clear of what follows the stream, or does not fit in the array. *)
Lemma clear_result : (k + length new <= s2 \/ length mem < k + length new)%nat ->
  contents st4 = firstn l1 mem ++ d ++ sub l2 s1 mem ++ new ++ sub s2 n mem.
Proof.
  intros H. unfold st4. destruct (Nat.le_gt_cases (k + length new) (length mem)) as [E|E].
  - assert (k + length new <= s2)%nat by lia. rewrite st3_fit by exact E.
    cbn [fst]. rewrite appended_any by (rewrite write_len; rewrite ?mem2_len; lia).
    rewrite write_upto by (rewrite mem2_len; lia). rewrite mem2_upto.
    unfold sub at 2. rewrite write_after by (rewrite ?mem2_len; lia). rewrite mem2_after by lia.
    rewrite <- !app_assoc. reflexivity.
  - rewrite st3_own by exact E. cbn [fst]. rewrite appended_own. rewrite mem2_upto. unfold sub at 2. rewrite mem2_after by lia. rewrite <- !app_assoc. reflexivity.
Qed.

(** The new data reaches into what follows the stream and fits in the array. *)
Lemma overlap_result : (s2 <= k + length new)%nat -> (k + length new <= length mem)%nat ->
  contents st4 = firstn l1 mem ++ d ++ sub l2 s1 mem ++ new ++ firstn (n - s2) (skipn (s2 - k) new ++ skipn (k + length new) mem).
Proof.
  intros H1 H2. unfold st4. rewrite st3_fit by exact H2.
  cbn [fst]. rewrite appended_any by (rewrite write_len; rewrite ?mem2_len; lia).
  rewrite write_upto by (rewrite mem2_len; lia). rewrite mem2_upto. rewrite <- !app_assoc. do 4 f_equal.
  assert (ks : (k <= s1)%nat) by (unfold k; lia).
  unfold sub. f_equal. unfold write_at. rewrite skipn_app, firstn_length, mem2_len.
  rewrite skipn_all2 by (rewrite firstn_length, mem2_len; lia). cbn [app].
  replace (Nat.min k (length mem)) with k by lia. rewrite skipn_app. replace (s2 - k - length new)%nat with O by lia. cbn [skipn]. f_equal.
  apply mem2_after. lia.
Qed.

(** The caller's array holds the result afterwards, when that fits. *)
Lemma array_after : (k + length new <= s2)%nat -> firstn (length (contents st4)) (fst st4) = contents st4.
Proof.
  intros H. unfold st4. rewrite st3_fit by lia. cbn [fst].
  unfold go_append. rewrite write_len by (rewrite mem2_len; lia). rewrite mem2_len.
  replace (k + length new + length (sub s2 n (write_at k new mem2)) <=? length mem)%nat with true.
  2:{ symmetry. apply Nat.leb_le. unfold sub. rewrite firstn_length, skipn_length, write_len by (rewrite mem2_len; lia). rewrite mem2_len. lia. }
  unfold contents. cbn [fst snd]. rewrite firstn_length.
  set (u := (k + length new + _)%nat). set (M := write_at _ _ (write_at _ _ _)).
  destruct (Nat.le_gt_cases u (length M)) as [L|L].
  - rewrite Nat.min_l by exact L. reflexivity.
  - rewrite Nat.min_r by lia. rewrite firstn_all, firstn_all2 by lia. reflexivity.
Qed.
End Appends.

Section Replace.
Variables (pre : bytes) (obj : Z) (a digits b ws data post new spare : bytes).
Hypothesis F : findable pre obj a digits b ws data post.
Let f := stream_file pre obj a digits b ws data post.
Let mem := f ++ spare.
Let n := length f.
Let d := decZ (flen new).

Lemma parts : let l1 := length (pre ++ decZ obj ++ bs " 0 obj" ++ a ++ bs "/Length ") in
  let s1 := (l1 + length digits + length b + 6 + length ws)%nat in
  firstn l1 mem = pre ++ decZ obj ++ bs " 0 obj" ++ a ++ bs "/Length " /\
  sub (l1 + length digits) s1 mem = b ++ bs "stream" ++ ws /\
  sub (s1 + length data) n mem = bs "endstream" ++ post /\
  skipn (s1 + length data) mem = bs "endstream" ++ post ++ spare /\ n = (s1 + length data + 9 + length post)%nat.
Proof.
  cbv zeta. set (P := pre ++ decZ obj ++ bs " 0 obj" ++ a ++ bs "/Length ").
  assert (E : mem = P ++ digits ++ (b ++ bs "stream" ++ ws) ++ data ++ bs "endstream" ++ post ++ spare).
  { unfold mem, f, stream_file, P. rewrite <- !app_assoc. reflexivity. }
  assert (Ln : n = (length P + length digits + length b + 6 + length ws + length data + 9 + length post)%nat).
  { unfold n, f, stream_file, P. rewrite !app_length. change (length (bs "stream")) with 6%nat. change (length (bs "endstream")) with 9%nat. lia. }
  rewrite E. split; [apply ManipProofs.firstn_app_all|].
  assert (S2 : skipn (length P + length digits + length b + 6 + length ws + length data) (P ++ digits ++ (b ++ bs "stream" ++ ws) ++ data ++ bs "endstream" ++ post ++ spare) = bs "endstream" ++ post ++ spare).
  { assert (Q : P ++ digits ++ (b ++ bs "stream" ++ ws) ++ data ++ bs "endstream" ++ post ++ spare = (P ++ digits ++ (b ++ bs "stream" ++ ws) ++ data) ++ bs "endstream" ++ post ++ spare) by (rewrite <- !app_assoc; reflexivity).
    rewrite Q. apply skipn_len_app. rewrite !app_length. change (length (bs "stream")) with 6%nat. lia. }
  repeat split.
  - unfold sub. assert (Q : P ++ digits ++ (b ++ bs "stream" ++ ws) ++ data ++ bs "endstream" ++ post ++ spare = (P ++ digits) ++ (b ++ bs "stream" ++ ws) ++ data ++ bs "endstream" ++ post ++ spare) by (rewrite <- !app_assoc; reflexivity).
    rewrite Q, skipn_len_app by (rewrite app_length; reflexivity). apply firstn_len_app. rewrite !app_length. change (length (bs "stream")) with 6%nat. lia.
  - unfold sub. rewrite S2. rewrite app_assoc. apply firstn_len_app. rewrite app_length, Ln. change (length (bs "endstream")) with 9%nat. lia.
  - exact S2.
  - exact Ln.
Qed.

Definition replaced : bytes := stream_file pre obj a d b ws new post.

Lemma replace_clear : (length d <= length digits)%nat ->
  (length d + length new <= length digits + length data \/
   length spare + 9 + length post + length digits + length data < length d + length new)%nat ->
  exists after, ReplaceStreamInPDF mem n obj new = Ok (replaced, after).
Proof.
  intros H1 H2. unfold ReplaceStreamInPDF.
  assert (Fn : firstn n mem = f) by (apply ManipProofs.firstn_app_all). rewrite Fn.
  unfold f at 1. rewrite (cut_found _ _ _ _ _ _ _ _ F). cbn [rbind].
  destruct parts as (P1 & P2 & P3 & P4 & P5). cbv zeta in *. set (l1 := length (pre ++ decZ obj ++ bs " 0 obj" ++ a ++ bs "/Length ")) in *.
  assert (Lm : length mem = (n + length spare)%nat) by (unfold mem; rewrite app_length; reflexivity).
  eexists. f_equal. f_equal.
  rewrite clear_result; try lia.
  - rewrite P1, P2, P3. unfold replaced, stream_file. fold d. rewrite <- !app_assoc. reflexivity.
  - fold d. lia.
  - fold d. destruct H2; [left; lia|right; lia].
Qed.

Lemma replace_mutates : (length d <= length digits)%nat -> (length d + length new <= length digits + length data)%nat ->
  exists after, ReplaceStreamInPDF mem n obj new = Ok (replaced, after) /\ firstn (length replaced) after = replaced.
Proof.
  intros H1 H2. destruct (replace_clear H1 (or_introl H2)) as (after & E). exists after. split; [exact E|].
  revert E. unfold ReplaceStreamInPDF.
  assert (Fn : firstn n mem = f) by (apply ManipProofs.firstn_app_all). rewrite Fn.
  unfold f at 1. rewrite (cut_found _ _ _ _ _ _ _ _ F). cbn [rbind].
  destruct parts as (P1 & P2 & P3 & P4 & P5). cbv zeta in *. set (l1 := length (pre ++ decZ obj ++ bs " 0 obj" ++ a ++ bs "/Length ")) in *.
  assert (Lm : length mem = (n + length spare)%nat) by (unfold mem; rewrite app_length; reflexivity).
  intros E. injection E as E1 E2. rewrite <- E1, <- E2. apply array_after; try lia; fold d; lia.
Qed.

(** The same number of digits, longer data, room in the array. *)
Lemma replace_overlap : length d = length digits -> (length data < length new)%nat -> (length new <= length data + 9 + length post + length spare)%nat ->
  exists after, ReplaceStreamInPDF mem n obj new =
    Ok (pre ++ decZ obj ++ bs " 0 obj" ++ a ++ bs "/Length " ++ d ++ b ++ bs "stream" ++ ws ++ new ++
        firstn (9 + length post) (skipn (length data) new ++ skipn (length new - length data) (bs "endstream" ++ post ++ spare)), after).
Proof.
  intros H1 H2 H3. unfold ReplaceStreamInPDF.
  assert (Fn : firstn n mem = f) by (apply ManipProofs.firstn_app_all). rewrite Fn.
  unfold f at 1. rewrite (cut_found _ _ _ _ _ _ _ _ F). cbn [rbind].
  destruct parts as (P1 & P2 & P3 & P4 & P5). cbv zeta in *. set (l1 := length (pre ++ decZ obj ++ bs " 0 obj" ++ a ++ bs "/Length ")) in *.
  assert (Lm : length mem = (n + length spare)%nat) by (unfold mem; rewrite app_length; reflexivity).
  eexists. f_equal. f_equal. fold d.
  rewrite overlap_result; try lia.
  rewrite P1, P2. rewrite <- !app_assoc. do 10 f_equal.
  match goal with |- firstn ?i (?x ++ ?y) = firstn ?j (?z ++ ?w) => replace i with j by lia; replace x with z by (f_equal; lia); replace y with w; [reflexivity|] end.
  rewrite <- P4, skipn_skipn. f_equal. lia.
Qed.
End Replace.
