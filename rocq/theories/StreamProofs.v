(** Proofs about StreamModel. *)
From Verif Require Import Util ParseModel StreamSpec.
From Verif Require Scan ManipProofs2 XPagesProofs3 WriterProofs.
Local Open Scope Z_scope.

Lemma wrap_small z : - 2 ^ 63 <= z < 2 ^ 63 -> wrap64 z = z.
Proof. intros H. unfold wrap64. rewrite Z.mod_small by lia. lia. Qed.

(** ** The cursor *)
Definition sound (s : pstream) : Prop := (pOff s <= length (pData s))%nat /\ flen (pData s) < 2 ^ 62.
Lemma seek_into s z w : sound s -> - 2 ^ 62 <= z < 2 ^ 62 -> forall t, (w = 0 /\ t = z) \/ (w = 1 /\ t = Z.of_nat (pOff s) + z) \/ (w = 2 /\ t = flen (pData s) + z) ->
  Seek s z w = mkStream (pData s) (Z.to_nat (into (pData s) t)).
Proof.
  intros [H1 H2] Hz t Ht. unfold Seek.
  match goal with |- mkStream _ (if ?o <? 0 then _ else _) = _ => assert (E : o = t) end.
  { unfold flen in *. destruct Ht as [[-> ->]|[[-> ->]|[-> ->]]]; cbn [Z.eqb]; [reflexivity| |]; apply wrap_small; lia. }
  rewrite E. f_equal. unfold into, len, flen. destruct (Z.ltb_spec t 0); [lia|]. destruct (Z.ltb_spec (Z.of_nat (length (pData s))) t); lia.
Qed.
Lemma read_end s n : sound s -> 0 <= n < 2 ^ 62 ->
  (let e := wrap64 (Z.of_nat (pOff s) + n) in if flen (pData s) <? e then flen (pData s) else e) = into (pData s) (Z.of_nat (pOff s) + n) /\
  Z.of_nat (pOff s) <= into (pData s) (Z.of_nat (pOff s) + n).
Proof.
  intros [H1 H2] Hn. unfold flen in *. cbv zeta. rewrite wrap_small by lia. unfold into, len.
  destruct (Z.ltb_spec (Z.of_nat (length (pData s))) (Z.of_nat (pOff s) + n)); lia.
Qed.
Lemma sub_part d p n : 0 <= n -> (p <= length d)%nat -> sub p (Z.to_nat (into d (Z.of_nat p + n))) d = part d (Z.of_nat p) n.
Proof.
  intros Hn Hp. unfold sub, part, into, len. rewrite Nat2Z.id.
  destruct (Z.le_gt_cases (Z.of_nat p + n) (Z.of_nat (length d))) as [H|H].
  - f_equal. lia.
  - rewrite !firstn_all2; [reflexivity| |]; rewrite skipn_length; lia.
Qed.
Lemma perform_ideal s c : sound s -> moderate c ->
  exists s', perform s c = Ok (fst (ideal (pData s) (Z.of_nat (pOff s)) c), s') /\ sound s' /\ pData s' = pData s /\
    Z.of_nat (pOff s') = snd (ideal (pData s) (Z.of_nat (pOff s)) c).
Proof.
  intros Hs Hc. pose proof Hs as [H1 H2]. unfold flen in *.
  assert (I : forall z, 0 <= into (pData s) z <= Z.of_nat (length (pData s))) by (intros z; unfold into, len; lia).
  assert (K : forall z, sound (mkStream (pData s) (Z.to_nat (into (pData s) z))) /\ Z.of_nat (Z.to_nat (into (pData s) z)) = into (pData s) z).
  { intros z. specialize (I z). split; [|lia]. split; cbn [pOff pData]; [lia|exact H2]. }
  destruct c as [z w| |n| |n]; cbn [perform ideal moderate] in *.
  - destruct (Z.eq_dec w 0) as [->|N0]; [|destruct (Z.eq_dec w 1) as [->|N1]; [|destruct (Z.eq_dec w 2) as [->|N2]]].
    + rewrite (seek_into s z 0 Hs Hc z) by tauto. eexists. split; [unfold Tell; cbn [pOff fst]; rewrite (proj2 (K z)); reflexivity|]. cbn [pOff pData snd]. repeat split; try apply K; reflexivity.
    + rewrite (seek_into s z 1 Hs Hc (Z.of_nat (pOff s) + z)) by tauto. eexists. split; [unfold Tell; cbn [pOff fst]; rewrite (proj2 (K _)); reflexivity|]. cbn [pOff pData snd]. repeat split; try apply K; reflexivity.
    + rewrite (seek_into s z 2 Hs Hc (flen (pData s) + z)) by tauto. eexists. split; [unfold Tell; cbn [pOff fst]; rewrite (proj2 (K _)); reflexivity|]. cbn [pOff pData snd]. repeat split; try apply K; reflexivity.
    + assert (E : ideal (pData s) (Z.of_nat (pOff s)) (CSeek z w) = (APos (Z.of_nat (pOff s)), Z.of_nat (pOff s))).
      { cbn [ideal]. destruct w as [|[[]|[]|]|]; try reflexivity; congruence. }
      cbn [ideal] in E. rewrite E. cbn [fst snd].
      assert (E2 : Seek s z w = s).
      { unfold Seek. rewrite (proj2 (Z.eqb_neq w 0) N0), (proj2 (Z.eqb_neq w 1) N1), (proj2 (Z.eqb_neq w 2) N2).
        replace (Z.of_nat (pOff s) <? 0) with false by (symmetry; apply Z.ltb_ge; lia).
        replace (flen (pData s) <? Z.of_nat (pOff s)) with false by (symmetry; apply Z.ltb_ge; unfold flen; lia). rewrite Nat2Z.id. destruct s; reflexivity. }
      rewrite E2. exists s. repeat split; auto.
  - exists s. repeat split; auto.
  - unfold Read. destruct (Nat.leb_spec (length (pData s)) (pOff s)) as [H|H].
    + replace (len (pData s) <=? Z.of_nat (pOff s)) with true by (symmetry; apply Z.leb_le; unfold len; lia). exists s. repeat split; auto.
    + replace (len (pData s) <=? Z.of_nat (pOff s)) with false by (symmetry; apply Z.leb_gt; unfold len; lia).
      destruct (read_end s n Hs Hc) as [E1 E2]. cbv zeta in *. rewrite E1. replace (into _ _ <? Z.of_nat (pOff s)) with false by (symmetry; apply Z.ltb_ge; exact E2).
      rewrite sub_part by lia. eexists. split; [reflexivity|]. cbn [pOff pData snd]. repeat split; try apply K; reflexivity.
  - unfold ReadByte, part. rewrite Nat2Z.id. change (Z.to_nat 1) with 1%nat. destruct (skipn (pOff s) (pData s)) as [|b r] eqn:E; cbn [firstn].
    + exists s. repeat split; auto.
    + assert (Hl : (pOff s < length (pData s))%nat) by (apply (f_equal (@length byte)) in E; rewrite skipn_length in E; cbn [length] in E; lia).
      eexists. split; [reflexivity|]. cbn [pOff pData snd]. split; [split; cbn [pOff pData]; [lia|exact H2]|]. split; [reflexivity|lia].
  - unfold Peek. exists s. destruct (Nat.leb_spec (length (pData s)) (pOff s)) as [H|H].
    + cbn [rmap]. split; [|repeat split; auto]. cbn [fst]. unfold part. rewrite Nat2Z.id, skipn_all2 by exact H. rewrite firstn_nil. reflexivity.
    + destruct (read_end s n Hs Hc) as [E1 E2]. cbv zeta in *. rewrite E1. replace (into _ _ <? Z.of_nat (pOff s)) with false by (symmetry; apply Z.ltb_ge; exact E2).
      rewrite sub_part by lia. repeat split; auto.
Qed.
Lemma performs_ideal cs : forall s, sound s -> Forall moderate cs -> performs s cs = Ok (ideals (pData s) (Z.of_nat (pOff s)) cs).
Proof.
  induction cs as [|c cs IH]; intros s Hs Hc; [reflexivity|]. inversion Hc as [|? ? C1 C2]; subst. cbn [performs ideals].
  destruct (perform_ideal s c Hs C1) as (s' & -> & Hs' & D & P). cbn [rbind fst snd]. rewrite (IH s' Hs' C2), D, P. destruct (ideal _ _ c); reflexivity.
Qed.
Theorem history d cs : len d < 2 ^ 62 -> Forall moderate cs -> performs (NewPDFStream d) cs = Ok (ideals d 0 cs).
Proof. intros Hd Hc. apply (performs_ideal cs (NewPDFStream d)); [split; [cbn; lia|exact Hd]|exact Hc]. Qed.
(** reading to the end gives the data *)
Lemma ideals_reads d ns : forall p, 0 <= p -> Forall (fun n => 0 < n) ns ->
  flat_map (fun a => match a with ABytes b => b | _ => [] end) (ideals d p (map CRead ns)) = part d p (fold_right Z.add 0 ns).
Proof.
  assert (S0 : forall ns, Forall (fun n => 0 < n) ns -> 0 <= fold_right Z.add 0 ns) by (induction 1; cbn [fold_right]; lia).
  induction ns as [|n ns IH]; intros p Hp Hn; [unfold part; cbn [map ideals flat_map fold_right Z.to_nat firstn]; reflexivity|]. inversion Hn as [|? ? N1 N2]; subst.
  cbn [map ideals ideal fold_right]. specialize (S0 ns N2). destruct (Z.leb_spec (len d) p) as [H|H].
  - cbn [flat_map app]. rewrite IH by assumption. unfold part. rewrite !skipn_all2 by (unfold len in H; lia). rewrite !firstn_nil. reflexivity.
  - cbn [flat_map]. unfold into. destruct (Z.le_gt_cases (p + n) (len d)) as [L|L].
    + replace (Z.max 0 (Z.min (len d) (p + n))) with (p + n) by lia. rewrite IH by (assumption || lia). unfold part.
      rewrite <- (firstn_skipn (Z.to_nat n) (firstn (Z.to_nat (n + fold_right Z.add 0 ns)) (skipn (Z.to_nat p) d))).
      rewrite firstn_firstn, skipn_firstn_comm, skipn_skipn. f_equal; [f_equal; lia|]. f_equal; [lia|]. f_equal. lia.
    + replace (Z.max 0 (Z.min (len d) (p + n))) with (len d) by (unfold len in *; lia). rewrite IH by (assumption || (unfold len; lia)). unfold part.
      rewrite (skipn_all2 (n := Z.to_nat (len d))) by (unfold len; lia). rewrite firstn_nil, app_nil_r. unfold len in *. rewrite !firstn_all2; [reflexivity| |]; rewrite skipn_length; lia.
Qed.
Theorem reads_all d ns : len d < 2 ^ 62 -> Forall (fun n => 0 < n < 2 ^ 62) ns -> len d <= fold_right Z.add 0 ns ->
  exists l, performs (NewPDFStream d) (map CRead ns) = Ok l /\ flat_map (fun a => match a with ABytes b => b | _ => [] end) l = d.
Proof.
  intros Hd Hn L. exists (ideals d 0 (map CRead ns)). split.
  - apply history; [exact Hd|]. apply Forall_forall. intros c Hc. apply in_map_iff in Hc as (n & <- & H). rewrite Forall_forall in Hn. specialize (Hn n H). cbn beta in Hn. cbn. lia.
  - rewrite ideals_reads by (lia || (eapply Forall_impl; [|exact Hn]; cbn beta; lia)). unfold part. cbn [Z.to_nat skipn]. apply firstn_all2. unfold len in L. lia.
Qed.
(** A negative length, or one near the largest integer, panics. *)
Lemma read_negative s n : (pOff s < length (pData s))%nat -> flen (pData s) < 2 ^ 62 -> - 2 ^ 63 <= n < 0 -> Read s n = Panic /\ Peek s n = Panic.
Proof.
  intros H1 H2 H3. unfold flen in *. unfold Read, Peek. replace (length (pData s) <=? pOff s)%nat with false by (symmetry; apply Nat.leb_gt; exact H1).
  rewrite wrap_small by lia. replace (flen (pData s) <? Z.of_nat (pOff s) + n) with false by (symmetry; apply Z.ltb_ge; unfold flen; lia).
  replace (Z.of_nat (pOff s) + n <? Z.of_nat (pOff s)) with true by (symmetry; apply Z.ltb_lt; lia). split; reflexivity.
Qed.
Lemma read_huge s : (0 < pOff s < length (pData s))%nat -> flen (pData s) < 2 ^ 62 -> Read s (2 ^ 63 - 1) = Panic.
Proof.
  intros H1 H2. unfold flen in *. unfold Read. replace (length (pData s) <=? pOff s)%nat with false by (symmetry; apply Nat.leb_gt; lia).
  assert (E : wrap64 (Z.of_nat (pOff s) + (2 ^ 63 - 1)) = Z.of_nat (pOff s) - 1 - 2 ^ 63).
  { unfold wrap64. replace (Z.of_nat (pOff s) + (2 ^ 63 - 1) + 2 ^ 63) with (Z.of_nat (pOff s) - 1 + 1 * 2 ^ 64) by lia. rewrite Z.mod_add by lia. rewrite Z.mod_small by lia. lia. }
  rewrite E. replace (flen (pData s) <? _) with false by (symmetry; apply Z.ltb_ge; unfold flen; lia).
  replace (_ <? Z.of_nat (pOff s)) with true by (symmetry; apply Z.ltb_lt; lia). reflexivity.
Qed.

(** ** Headers *)
Lemma back_off s : sound s -> back s = mkStream (pData s) (pred (pOff s)).
Proof.
  intros H. pose proof H as [H1 H2]. unfold back. rewrite (seek_into s (-1) 1 H ltac:(lia) (Z.of_nat (pOff s) + -1)) by tauto. f_equal. unfold into, len. lia.
Qed.
Lemma take_le f (d : bytes) : (length (take_while f d) <= length d)%nat.
Proof. induction d as [|b d IH]; [cbn; lia|]. cbn [take_while]. destruct (f b); cbn [length]; lia. Qed.
Lemma sound_back s : sound s -> sound (back s).
Proof. intros H. rewrite back_off by exact H. destruct H as [H1 H2]. split; cbn [pOff pData]; [lia|exact H2]. Qed.
Lemma sound_skip s : sound s -> sound (skipOverWhitespace s).
Proof. intros [H1 H2]. unfold skipOverWhitespace. split; cbn [pOff pData]; [|exact H2]. destruct (Nat.leb_spec (length (pData s)) (pOff s + length (take_while ws4 (skipn (pOff s) (pData s))))); lia. Qed.
Lemma sound_until s : sound s -> sound (snd (readUntilWhitespace s)).
Proof. intros [H1 H2]. unfold readUntilWhitespace. split; cbn [snd pOff pData]; [|exact H2]. pose proof (take_le (fun b => negb (ws4 b)) (skipn (pOff s) (pData s))) as T. rewrite skipn_length in T. lia. Qed.
Lemma sound_comment s : sound s -> sound (skipOverComment s).
Proof. intros [H1 H2]. unfold skipOverComment. destruct (skipn (pOff s) (pData s)) as [|b r]; [split; assumption|]. destruct (beqb b "%"); [|split; assumption]. split; cbn [pOff pData]; [lia|exact H2]. Qed.
Lemma data_skip s : pData (skipOverWhitespace s) = pData s. Proof. reflexivity. Qed.
Lemma data_back s : pData (back s) = pData s. Proof. reflexivity. Qed.
Lemma data_until s : pData (snd (readUntilWhitespace s)) = pData s. Proof. reflexivity. Qed.
Lemma data_comment s : pData (skipOverComment s) = pData s.
Proof. unfold skipOverComment. destruct (skipn (pOff s) (pData s)) as [|b r]; [reflexivity|]. destruct (beqb b "%"); reflexivity. Qed.
Lemma sound_read s n r : sound s -> Read s n = Ok r -> sound (snd r) /\ pData (snd r) = pData s.
Proof.
  intros [H1 H2] E. unfold Read in E. destruct (length (pData s) <=? pOff s)%nat; [discriminate|]. cbv zeta in E.
  destruct (flen (pData s) <? wrap64 (Z.of_nat (pOff s) + n)) eqn:F; [apply Z.ltb_lt in F|apply Z.ltb_ge in F]; destruct (_ <? Z.of_nat (pOff s)); try discriminate;
  injection E as <-; cbn [snd]; (split; [split; cbn [pOff pData]; [unfold flen in *; lia|exact H2]|reflexivity]).
Qed.
Definition first_word (s : pstream) : bytes := fst (readUntilWhitespace (back (skipOverWhitespace (skipOverComment s)))).
Lemma header_cases s : sound s ->
  readObjectHeader s = Err \/ exists i g s', readObjectHeader s = Ok (i, g, s') /\ atoi (first_word s) = Some i /\ sound s' /\ pData s' = pData s.
Proof.
  intros H. unfold readObjectHeader, first_word. set (s1 := back (skipOverWhitespace (skipOverComment s))).
  assert (S1 : sound s1) by (apply sound_back, sound_skip, sound_comment, H).
  assert (D1 : pData s1 = pData s) by (unfold s1; rewrite data_back, data_skip; apply data_comment).
  destruct (readUntilWhitespace s1) as [id s2] eqn:E1. pose proof (sound_until s1 S1) as S2. pose proof (data_until s1) as D2. rewrite E1 in S2, D2. cbn [snd fst] in *.
  set (s3 := skipOverWhitespace (back (skipOverWhitespace s2))). assert (S3 : sound s3) by (apply sound_skip, sound_back, sound_skip, S2).
  assert (D3 : pData s3 = pData s2) by reflexivity.
  destruct (readUntilWhitespace s3) as [gn s4] eqn:E2. pose proof (sound_until s3 S3) as S4. pose proof (data_until s3) as D4. rewrite E2 in S4, D4. cbn [snd fst] in *.
  set (s5 := skipOverWhitespace (back (skipOverWhitespace s4))). assert (S5 : sound s5) by (apply sound_skip, sound_back, sound_skip, S4).
  assert (D5 : pData s5 = pData s4) by reflexivity.
  destruct (Read s5 3) as [r| |] eqn:E3; cbn [rbind]; [|left; reflexivity|].
  - destruct (sound_read _ _ _ S5 E3) as [S6 D6]. destruct (bytes_eqb (fst r) (bs "obj")); [|left; reflexivity].
    destruct (atoi id) as [i|]; [|left; reflexivity]. destruct (atoi gn) as [g|]; [|left; reflexivity].
    right. eexists _, _, _. split; [reflexivity|]. split; [reflexivity|]. split; [apply sound_back, sound_skip, S6|]. rewrite data_back, data_skip. congruence.
  - exfalso. destruct S5 as [A B]. unfold flen in *. unfold Read in E3. destruct (Nat.leb_spec (length (pData s5)) (pOff s5)) as [L|L]; [discriminate|].
    destruct (read_end s5 3 (conj A B) ltac:(lia)) as [R1 R2]. cbv zeta in *. rewrite R1 in E3. destruct (Z.ltb_spec (into (pData s5) (Z.of_nat (pOff s5) + 3)) (Z.of_nat (pOff s5))); [lia|discriminate].
Qed.
(** The word that is read begins one byte early. *)
Lemma word_early u c w x v : flen (u ++ [c] ++ w ++ [x] ++ v) < 2 ^ 62 -> w <> [] -> forallb (fun b => negb (ws4 b)) w = true -> ws4 x = true -> ~ In "%"%byte w ->
  first_word (mkStream (u ++ [c] ++ w ++ [x] ++ v) (S (length u))) = if ws4 c then [] else c :: w.
Proof.
  intros L Hw Hf Hx Hp. set (d := u ++ [c] ++ w ++ [x] ++ v) in *.
  assert (E : skipn (S (length u)) d = w ++ [x] ++ v) by (unfold d; rewrite app_assoc; replace (S (length u)) with (length (u ++ [c])) by (rewrite app_length; cbn [length]; lia); apply WriterProofs.skipn_app_exact).
  assert (E0 : skipn (length u) d = c :: w ++ [x] ++ v) by (unfold d; apply WriterProofs.skipn_app_exact).
  destruct w as [|b w]; [congruence|]. assert (Hb : ws4 b = false) by (cbn [forallb] in Hf; apply andb_true_iff in Hf as [Hf _]; destruct (ws4 b); [discriminate|reflexivity]).
  assert (Hc : beqb b "%" = false) by (apply beqb_neq; intros ->; apply Hp; left; reflexivity).
  assert (Ll : (S (length u) < length d)%nat) by (unfold d; rewrite !app_length; cbn [length]; lia).
  unfold first_word. replace (skipOverComment _) with (mkStream d (S (length u))) by (unfold skipOverComment; cbn [pOff pData]; rewrite E; cbn [app]; rewrite Hc; reflexivity).
  replace (skipOverWhitespace _) with (mkStream d (S (length u))).
  2:{ unfold skipOverWhitespace. cbn [pOff pData]. rewrite E. cbn [app take_while]. rewrite Hb. cbn [length]. rewrite Nat.add_0_r. replace (length d <=? S (length u))%nat with false by (symmetry; apply Nat.leb_gt; exact Ll). reflexivity. }
  rewrite back_off by (split; cbn [pOff pData]; [lia|exact L]). cbn [pOff pData pred]. unfold readUntilWhitespace. cbn [pOff pData fst]. rewrite E0. cbn [take_while].
  destruct (ws4 c); cbn [negb]; [reflexivity|]. f_equal. apply take_while_app; [exact Hf|]. cbn [app]. rewrite Hx. reflexivity.
Qed.

(** *** Numbers *)
Lemma decZ_dec z : 0 <= z -> decZ z = dec (Z.to_N z).
Proof. intros H. destruct z; [reflexivity|reflexivity|lia]. Qed.
Lemma decZ_len z : 0 <= z < 2 ^ 63 -> (length (decZ z) <= 19)%nat.
Proof. intros H. rewrite decZ_dec by lia. apply dec_length; [|lia]. change (10 ^ N.of_nat 19)%N with 10000000000000000000%N. lia. Qed.
Lemma dec_word n : forallb (fun b => negb (ws4 b)) (dec n) = true /\ ~ In "%"%byte (dec n).
Proof.
  pose proof (dec_digits n) as D. rewrite forallb_forall in D. split.
  - apply forallb_forall. intros b Hb. specialize (D b Hb). destruct b; try discriminate D; reflexivity.
  - intros H. specialize (D _ H). discriminate D.
Qed.
Lemma dec_nonnil n : dec n <> [].
Proof. intros E. pose proof (ManipProofs2.decZ_nonnil (Z.of_N n)) as H. rewrite decZ_dec in H by lia. rewrite N2Z.id in H. contradiction. Qed.
(** a byte before a number makes it another number, or none *)
Lemma atoi_longer c n i : (0 < n)%N -> c <> "0"%byte -> c <> "+"%byte -> atoi (c :: dec n) = Some i -> i <> Z.of_N n.
Proof.
  intros Hn H0 Hp E. unfold atoi in E. pose proof (dec_nonnil n) as Hnn.
  destruct (beqb c "-") eqn:Em.
  - destruct (dec n) as [|b r] eqn:Ed; [congruence|]. rewrite <- Ed in E. destruct (forallb is_digit (dec n) && _); [|discriminate]. injection E as <-. rewrite num_dec. lia.
  - replace (beqb c "+") with false in E by (symmetry; apply beqb_neq; exact Hp). cbv zeta in E.
    destruct (forallb is_digit (c :: dec n) && (num (c :: dec n) <=? int64_max)%N) eqn:F; [|discriminate]. injection E as <-.
    apply andb_true_iff in F as [F _]. cbn [forallb] in F. apply andb_true_iff in F as [F _]. rewrite num_cons, num_dec.
    assert (P : (0 < 10 ^ N.of_nat (length (dec n)))%N) by (apply N.neq_0_lt_0; apply N.pow_nonzero; lia).
    assert (Q : (0 < digit_val c)%N) by (destruct c; try discriminate F; try (exfalso; apply H0; reflexivity); reflexivity). nia.
Qed.
(** *** An occurrence of the header is not read, or read as another number *)
Lemma header_read_wrong d num gen p i g s' : 0 < num -> flen d < 2 ^ 62 -> header_at d num gen p ->
  (exists c, (0 < p)%nat /\ nth_error d (pred p) = Some c /\ c <> "0"%byte /\ c <> "+"%byte) ->
  readObjectHeader (mkStream d p) = Ok (i, g, s') -> i <> num.
Proof.
  intros Hn L (u & v & E & Hu) (c & Hp & Hc & N0 & N1) R.
  assert (S0 : sound (mkStream d p)). { split; cbn [pOff pData]; [|exact L]. subst d. rewrite app_length. lia. }
  destruct (header_cases _ S0) as [Q|(i' & g' & s2 & Q & A & _)]; [congruence|]. rewrite Q in R. injection R as <- <- <-.
  assert (exists u', u = u' ++ [c]) as [u' ->].
  { destruct (exists_last (l := u)) as (u' & b & ->); [intros ->; cbn in Hu; lia|]. exists u'. rewrite app_length in Hu. cbn [length] in Hu. subst d p.
    replace (pred (length u' + 1)) with (length u') in Hc by lia. rewrite <- app_assoc in Hc. rewrite nth_error_app2, Nat.sub_diag in Hc by lia. cbn in Hc. injection Hc as ->. reflexivity. }
  assert (Ed : d = u' ++ [c] ++ decZ num ++ [x20] ++ (decZ gen ++ bs " obj" ++ v)) by (rewrite E; unfold header_text; rewrite <- !app_assoc; reflexivity).
  assert (Ep : p = S (length u')) by (rewrite <- Hu, app_length; cbn [length]; lia). rewrite decZ_dec in Ed by lia. destruct (dec_word (Z.to_N num)) as [W1 W2].
  rewrite Ep, Ed in A. rewrite word_early in A; [|rewrite <- Ed; exact L|apply dec_nonnil|exact W1|reflexivity|exact W2].
  destruct (ws4 c); [discriminate A|]. pose proof (atoi_longer c (Z.to_N num) i' ltac:(lia) N0 N1 A). lia.
Qed.

Lemma seek_at d o : flen d < 2 ^ 62 -> (o <= length d)%nat -> Seek (NewPDFStream d) (Z.of_nat o) 0 = mkStream d o.
Proof.
  intros L H. unfold flen in *. unfold Seek, NewPDFStream. cbn [pData]. change (0 =? 0) with true. cbv iota. replace (Z.of_nat o <? 0) with false by (symmetry; apply Z.ltb_ge; lia).
  replace (flen d <? Z.of_nat o) with false by (symmetry; apply Z.ltb_ge; unfold flen; lia). f_equal. lia.
Qed.
Lemma header_len num gen : 0 <= num < 2 ^ 63 -> 0 <= gen < 2 ^ 63 -> (length (header_text num gen) <= 43)%nat.
Proof. intros H1 H2. unfold header_text. rewrite !app_length. pose proof (decZ_len num H1). pose proof (decZ_len gen H2). change (length (bs " obj")) with 4%nat. cbn [length]. lia. Qed.
Lemma header_here u d num gen v lo hi : d = u ++ header_text num gen ++ v -> (lo <= length u)%nat -> (length u + length (header_text num gen) <= hi)%nat ->
  contains (header_text num gen) (sub lo hi d) = true.
Proof.
  intros -> H1 H2. unfold sub. rewrite skipn_app. replace (lo - length u)%nat with 0%nat by lia. cbn [skipn].
  rewrite firstn_app. rewrite firstn_all2 by (rewrite skipn_length; lia). rewrite firstn_app. rewrite (firstn_all2 (header_text num gen)) by (rewrite skipn_length; lia).
  apply WriterProofs.contains_app_mid.
Qed.
Section Decrypt.
Context (enc : bool) (dec chunked : bytes -> Z -> Z -> result bytes).
(** ReadObjectFromXRef fails for every object of every file. *)
Theorem never_read fuel d num gen o : prefixb (bs "%PDF-") d = true -> flen d < 2 ^ 62 -> 0 < num < 2 ^ 63 -> 0 <= gen < 2 ^ 63 ->
  header_at d num gen o -> (forall p c, header_at d num gen (S p) -> nth_error d p = Some c -> c <> "0"%byte /\ c <> "+"%byte) ->
  ReadObjectFromXRef enc dec chunked fuel d num gen (Z.of_nat o) = Some Err.
Proof.
  intros Hp L Hn Hg Ho Hall. apply prefixb_spec in Hp as (rest & Hd).
  assert (W : forall p, header_at d num gen p -> exists c, (0 < p)%nat /\ nth_error d (pred p) = Some c /\ c <> "0"%byte /\ c <> "+"%byte).
  { intros p Hh. destruct p as [|p].
    - exfalso. destruct Hh as (u & v & E & Hu). destruct u; [|discriminate]. rewrite Hd in E. unfold header_text in E. rewrite decZ_dec in E by lia.
      pose proof (dec_nonnil (Z.to_N num)). pose proof (dec_digits (Z.to_N num)) as D. destruct (Base.dec (Z.to_N num)) as [|b r]; [congruence|]. cbn [forallb] in D. apply andb_true_iff in D as [D _].
      apply (f_equal (hd x00)) in E. cbn in E. subst b. discriminate D.
    - destruct Hh as (u & v & E & Hu). destruct (nth_error d p) as [c|] eqn:Q.
      + exists c. split; [lia|]. split; [exact Q|]. apply (Hall p c); [exists u, v; auto|exact Q].
      + apply nth_error_None in Q. subst d. rewrite E, app_length in Q. lia. }
  assert (G : forall p x, header_at d num gen p -> readObjectHeader (mkStream d p) = Ok x -> fst (fst x) <> num).
  { intros p [[i g] s'] Hh R. cbn [fst]. eapply header_read_wrong; [lia|exact L|exact Hh|apply W, Hh|exact R]. }
  assert (S0 : forall p, (p <= length d)%nat -> sound (mkStream d p)) by (intros p Hpp; split; cbn [pOff pData]; assumption).
  pose proof Ho as (u & v & E & Hu). pose proof (header_len num gen ltac:(lia) Hg) as HL.
  assert (Lo : (o + length (header_text num gen) <= length d)%nat) by (rewrite E, !app_length, <- Hu; lia).
  unfold ReadObjectFromXRef, locate. cbv zeta. rewrite seek_at by (assumption || lia).
  destruct (header_cases (mkStream d o) (S0 o ltac:(lia))) as [R|(i & g & s' & R & _)]; rewrite R.
  2:{ specialize (G o _ Ho R). cbn [fst] in G. replace (i =? num) with false by (symmetry; apply Z.eqb_neq; exact G). reflexivity. }
  unfold flen in *. rewrite (wrap_small (Z.of_nat o - 500)), (wrap_small (Z.of_nat o + 500)) by lia. set (lo := Z.max 0 (Z.of_nat o - 500)). set (hi := Z.min (Z.of_nat (length d)) (Z.of_nat o + 500)).
  replace (hi <? lo) with false by (symmetry; apply Z.ltb_ge; unfold hi, lo; lia).
  fold (header_text num gen).
  destruct (index (header_text num gen) (sub (Z.to_nat lo) (Z.to_nat hi) d)) as [i|] eqn:Ei.
  2:{ exfalso. pose proof (header_here u d num gen v (Z.to_nat lo) (Z.to_nat hi) E ltac:(unfold lo; lia) ltac:(unfold hi; lia)) as C. unfold contains in C. rewrite Ei in C. discriminate C. }
  assert (Hh : header_at d num gen (Z.to_nat lo + i)).
  { pose proof (proj1 (index_some _ _ _) Ei) as Wi. apply index_split in Ei. set (w := sub (Z.to_nat lo) (Z.to_nat hi) d) in *.
    exists (firstn (Z.to_nat lo) d ++ firstn i w), (skipn (i + length (header_text num gen)) w ++ skipn (Z.to_nat hi) d). split.
    - rewrite <- !app_assoc. rewrite (app_assoc (header_text num gen)), (app_assoc (firstn i w)), <- Ei. unfold w, sub.
      rewrite <- (firstn_skipn (Z.to_nat lo) d) at 1. f_equal. rewrite <- (firstn_skipn (Z.to_nat hi - Z.to_nat lo) (skipn (Z.to_nat lo) d)) at 1. f_equal.
      rewrite skipn_skipn. f_equal. unfold lo, hi. lia.
    - assert (Lw : (i <= length w)%nat). { destruct (Nat.le_gt_cases i (length w)) as [Q|Q]; [exact Q|]. exfalso. destruct Wi as [Wi _]. rewrite skipn_all2 in Wi by lia. unfold header_text in Wi. rewrite decZ_dec in Wi by lia. pose proof (dec_nonnil (Z.to_N num)). destruct (Base.dec (Z.to_N num)); [congruence|discriminate Wi]. }
      rewrite app_length, !firstn_length. unfold w, sub in Lw. rewrite firstn_length, skipn_length in Lw. unfold w, sub. rewrite firstn_length, skipn_length.
      subst lo hi. lia. }
  assert (Lh : (Z.to_nat lo + i <= length d)%nat) by (destruct Hh as (a & b & Q & Ha); rewrite Q, app_length; lia).
  replace (lo + Z.of_nat i) with (Z.of_nat (Z.to_nat lo + i)) by (unfold lo; lia). rewrite seek_at by assumption.
  destruct (header_cases (mkStream d (Z.to_nat lo + i)) (S0 _ Lh)) as [R'|(i' & g & s' & R' & _)]; rewrite R'; [reflexivity|].
  specialize (G _ _ Hh R'). cbn [fst] in G. replace (i' =? num) with false by (symmetry; apply Z.eqb_neq; exact G). reflexivity.
Qed.
(** *** Beyond the end *)
Lemma ws_next s : sound s -> (length (pData s) - 2 <= pOff s)%nat ->
  (length (pData s) - 2 <= pOff (skipOverWhitespace (back (skipOverWhitespace (snd (readUntilWhitespace s))))))%nat.
Proof.
  intros S0 H. pose proof S0 as [A B]. set (t := snd (readUntilWhitespace s)). assert (St : sound t) by (apply sound_until, S0).
  assert (Dt : pData t = pData s) by reflexivity.
  assert (Ht : (pOff s <= pOff t)%nat) by (unfold t, readUntilWhitespace; cbn [snd pOff]; lia).
  assert (Hw : match skipn (pOff t) (pData t) with [] => True | b :: _ => ws4 b = true end).
  { unfold t, readUntilWhitespace. cbn [snd pOff pData]. set (r := skipn (pOff s) (pData s)). set (f := fun b => negb (ws4 b)).
    replace (skipn (pOff s + length (take_while f r)) (pData s)) with (skipn (length (take_while f r)) r) by (unfold r; rewrite skipn_skipn; f_equal; lia).
    clearbody r. induction r as [|b r IH]; [exact I|]. cbn [take_while]. destruct (f b) eqn:F; [cbn [length skipn]; exact IH|]. cbn [length skipn]. unfold f in F. destruct (ws4 b); [reflexivity|discriminate]. }
  assert (K : (length (pData s) - 1 <= pOff (skipOverWhitespace t))%nat).
  { unfold skipOverWhitespace. cbn [pOff]. rewrite Dt. destruct (Nat.leb_spec (length (pData s)) (pOff t + length (take_while ws4 (skipn (pOff t) (pData s))))) as [Q|Q]; [lia|].
    rewrite Dt in Hw. destruct (skipn (pOff t) (pData s)) as [|b r] eqn:E.
    - apply (f_equal (@length byte)) in E. rewrite skipn_length in E. cbn [length] in E. cbn [take_while length] in Q. lia.
    - cbn [take_while]. rewrite Hw. cbn [length]. lia. }
  set (w := back (skipOverWhitespace t)). assert (Ew : w = mkStream (pData s) (pred (pOff (skipOverWhitespace t)))) by exact (back_off _ (sound_skip _ St)).
  unfold skipOverWhitespace at 1. rewrite Ew. cbn [pOff pData].
  match goal with |- context [(length ?d <=? ?q)%nat] => destruct (Nat.leb_spec (length d) q) end; lia.
Qed.
Lemma header_eof d : flen d < 2 ^ 62 -> readObjectHeader (mkStream d (length d)) = Err.
Proof.
  intros L. unfold readObjectHeader.
  replace (skipOverComment (mkStream d (length d))) with (mkStream d (length d)) by (unfold skipOverComment; cbn [pOff pData]; rewrite skipn_all; reflexivity).
  replace (skipOverWhitespace (mkStream d (length d))) with (mkStream d (pred (length d))).
  2:{ unfold skipOverWhitespace. cbn [pOff pData]. replace (length d <=? _)%nat with true by (symmetry; apply Nat.leb_le; lia). reflexivity. }
  rewrite back_off by (split; cbn [pOff pData]; [lia|exact L]). cbn [pOff pData].
  set (s1 := mkStream d (pred (pred (length d)))). assert (S1 : sound s1) by (split; cbn; [lia|exact L]).
  pose proof (ws_next s1 S1 ltac:(cbn; lia)) as H2. destruct (readUntilWhitespace s1) as [id s2] eqn:E1. cbn [snd] in H2.
  pose proof (sound_until s1 S1) as S2. assert (D2 : pData s2 = d) by (pose proof (data_until s1) as X; rewrite E1 in X; exact X). rewrite E1 in S2. cbn [snd] in S2.
  set (s3 := skipOverWhitespace (back (skipOverWhitespace s2))) in *. assert (S3 : sound s3) by (apply sound_skip, sound_back, sound_skip, S2).
  assert (D3 : pData s3 = d) by exact D2. pose proof (ws_next s3 S3 ltac:(rewrite D3; exact H2)) as H4.
  destruct (readUntilWhitespace s3) as [gn s4] eqn:E2. cbn [snd] in H4. assert (D4 : pData s4 = d) by (pose proof (data_until s3) as X; rewrite E2 in X; cbn [snd] in X; congruence).
  set (s5 := skipOverWhitespace (back (skipOverWhitespace s4))) in *. assert (D5 : pData s5 = d) by exact D4. rewrite D3 in H4.
  destruct (Read s5 3) as [r| |] eqn:E3; cbn [rbind]; [|reflexivity|].
  - assert (Lr : (length (fst r) <= 2)%nat).
    { clearbody s5. unfold Read in E3. destruct (length (pData s5) <=? pOff s5)%nat; [discriminate|]. cbv zeta in E3. destruct (_ <? Z.of_nat (pOff s5)) eqn:F; [discriminate|]. apply (f_equal (fun x => match x with Ok y => y | _ => r end)) in E3. subst r. cbn [fst]. unfold sub.
      rewrite firstn_length, skipn_length, D5. lia. }
    replace (bytes_eqb (fst r) (bs "obj")) with false; [reflexivity|]. symmetry. destruct (bytes_eqb (fst r) (bs "obj")) eqn:Q; [|reflexivity]. apply bytes_eqb_eq in Q. rewrite Q in Lr. cbn in Lr. lia.
  - exfalso. assert (S5 : sound s5). { apply sound_skip, sound_back, sound_skip. pose proof (sound_until s3 S3) as X. rewrite E2 in X. exact X. }
    destruct S5 as [A B]. unfold Read in E3. destruct (Nat.leb_spec (length (pData s5)) (pOff s5)) as [Q|Q]; [discriminate|].
    destruct (read_end s5 3 (conj A B) ltac:(lia)) as [R1 R2]. cbv zeta in *. rewrite R1 in E3. destruct (Z.ltb_spec (into (pData s5) (Z.of_nat (pOff s5) + 3)) (Z.of_nat (pOff s5))); [lia|discriminate].
Qed.
Theorem beyond_panics fuel d num gen o : flen d < 2 ^ 62 -> flen d + 500 < o < 2 ^ 63 - 500 -> ReadObjectFromXRef enc dec chunked fuel d num gen o = Some Panic.
Proof.
  intros L H. unfold flen in *. unfold ReadObjectFromXRef, locate. cbv zeta.
  replace (Seek (NewPDFStream d) o 0) with (mkStream d (length d)).
  2:{ unfold Seek, NewPDFStream. cbn [pData]. change (0 =? 0) with true. cbv iota. replace (o <? 0) with false by (symmetry; apply Z.ltb_ge; lia). replace (flen d <? o) with true by (symmetry; apply Z.ltb_lt; unfold flen; lia). reflexivity. }
  rewrite header_eof by exact L. unfold flen. rewrite (wrap_small (o - 500)), (wrap_small (o + 500)) by lia.
  replace (Z.min (Z.of_nat (length d)) (o + 500) <? Z.max 0 (o - 500)) with true by (symmetry; apply Z.ltb_lt; lia). reflexivity.
Qed.
(** *** Within the file *)
Lemma loop_no_panic fuel : forall s l, dictionary_loop fuel s l <> Some Panic.
Proof.
  induction fuel as [|f IH]; intros s l; [discriminate|]. cbn [dictionary_loop]. cbv zeta. destruct (prefixb _ _); [discriminate|].
  destruct (readNameObject _) as [[k s']|]; [destruct (readPDFObject _) as [v s2]; apply IH|]. destruct (index _ _); discriminate.
Qed.
Lemma dict_no_panic fuel s : parseDictionaryFromStream fuel s <> Some Panic.
Proof. unfold parseDictionaryFromStream. destruct (prefixb _ _); [apply loop_no_panic|discriminate]. Qed.
Section NoPanic.
Context (Hd : forall x n g, dec x n g <> Panic) (Hc : forall x n g, chunked x n g <> Panic).
Lemma decrypted_no_panic x n g : decrypted dec chunked x n g <> Panic.
Proof. unfold decrypted. specialize (Hd x n g). specialize (Hc x n g). destruct (dec x n g); congruence. Qed.
Lemma parsed_no_panic l n g : decryptParsedDictionary dec chunked l n g <> Panic.
Proof.
  induction l as [|[k v] l IH]; [discriminate|]. cbn [decryptParsedDictionary]. pose proof (decrypted_no_panic v n g) as D.
  destruct (decrypted dec chunked v n g); [| |congruence]; destruct (decryptParsedDictionary dec chunked l n g); cbn; congruence.
Qed.
Lemma opaque_no_panic fuel d k n g g' : opaque_object enc dec chunked fuel d k n g g' <> Some Panic.
Proof.
  unfold opaque_object. cbv zeta.
  assert (C : forall c : result bytes, c <> Panic -> Some (rmap (whole n g) (rbind c (fun c => if enc then decrypted dec chunked c n g' else Ok c))) <> Some Panic).
  { intros c H. destruct c as [c| |]; cbn [rbind rmap]; [|discriminate|congruence]. destruct enc; [|discriminate]. pose proof (decrypted_no_panic c n g') as D. destruct (decrypted dec chunked c n g'); cbn [rmap]; congruence. }
  set (content := match index (bs "endobj") (skipn k d) with Some e => Ok (firstn e (skipn k d)) | None => Err end). assert (N : content <> Panic) by (unfold content; destruct (index _ _); discriminate).
  specialize (C content N). clearbody content.
  assert (T : (match firstn 200 (skipn k d) with [] => Err | _ => dec (firstn 200 (skipn k d)) n g' end) <> Panic) by (destruct (firstn 200 (skipn k d)); [discriminate|apply Hd]).
  destruct (match firstn 200 (skipn k d) with [] => Err | _ => dec (firstn 200 (skipn k d)) n g' end) as [t| |]; [|exact C|congruence].
  destruct (contains _ _); [|exact C]. destruct content as [c| |]; cbn [rbind]; [|discriminate|congruence].
  pose proof (decrypted_no_panic c n g') as D. destruct (decrypted dec chunked c n g') as [x| |]; [|discriminate|congruence].
  pose proof (dict_no_panic fuel (NewPDFStream x)) as P. destruct (parseDictionaryFromStream fuel (NewPDFStream x)) as [[l| |]|]; cbn [option_map]; congruence.
Qed.
Lemma seek_sound d z w : flen d < 2 ^ 62 -> sound (Seek (NewPDFStream d) z w).
Proof.
  intros L. split; [|exact L]. unfold Seek. cbn [pOff pData NewPDFStream]. unfold flen.
  match goal with |- ((if (?a <? 0)%Z then _ else _) <= _)%nat => destruct (Z.ltb_spec a 0); [lia|destruct (Z.ltb_spec (Z.of_nat (length d)) a); lia] end.
Qed.
Theorem within_no_panic_ fuel d num gen o : flen d < 2 ^ 62 -> 0 <= o <= flen d + 500 -> ReadObjectFromXRef enc dec chunked fuel d num gen o <> Some Panic.
Proof.
  intros L Ho. unfold ReadObjectFromXRef.
  assert (R : forall z, readObjectHeader (Seek (NewPDFStream d) z 0) <> Panic).
  { intros z. destruct (header_cases _ (seek_sound d z 0 L)) as [-> | (i & g & s' & -> & _)]; discriminate. }
  assert (P : locate d num gen o <> Panic).
  { unfold locate. cbv zeta. pose proof (R o) as R1. destruct (readObjectHeader (Seek (NewPDFStream d) o 0)); [discriminate| |congruence].
    unfold flen in *. rewrite !wrap_small by lia. replace (_ <? Z.max _ _) with false by (symmetry; apply Z.ltb_ge; lia).
    destruct (index _ _) as [i|]; [apply R|]. pose proof (R (findObjectHeaderByRegex d num gen)) as R2. destruct (readObjectHeader (Seek _ (findObjectHeaderByRegex d num gen) 0)); congruence. }
  destruct (locate d num gen o) as [[[id g] s]| |]; [|discriminate|congruence]. destruct (negb (id =? num)); [discriminate|].
  destruct (prefixb _ _); [|apply opaque_no_panic].
  pose proof (dict_no_panic fuel s) as Q. destruct (parseDictionaryFromStream fuel s) as [[l| |]|]; try congruence.
  destruct enc; [|discriminate]. pose proof (parsed_no_panic l num g) as X. destruct (decryptParsedDictionary dec chunked l num g); cbn [rmap]; congruence.
Qed.
End NoPanic.
Theorem within_no_panic fuel d num gen o : flen d < 2 ^ 62 -> (forall x n g, dec x n g <> Panic) -> (forall x n g, chunked x n g <> Panic) ->
  0 <= o <= flen d + 500 -> ReadObjectFromXRef enc dec chunked fuel d num gen o <> Some Panic.
Proof. intros L Hd Hc. exact (within_no_panic_ Hd Hc fuel d num gen o L). Qed.
(** *** A loop that does not end *)
Lemma loop_forever fuel : forall p l, (p = 2 \/ p = 3)%nat -> dictionary_loop fuel (mkStream (bs "<< /") p) l = None.
Proof.
  induction fuel as [|f IH]; [reflexivity|]. intros p l Hp.
  assert (E : dictionary_loop (S f) (mkStream (bs "<< /") p) l = dictionary_loop f (mkStream (bs "<< /") 3) (l ++ [(bs "/", [])])) by (destruct Hp as [-> | ->]; reflexivity).
  rewrite E. apply IH. right. reflexivity.
Qed.
Theorem never_returns fuel : ReadObjectFromXRef enc dec chunked fuel (bs "<< /") 7 0 0 = None.
Proof.
  unfold ReadObjectFromXRef. replace (locate (bs "<< /") 7 0 0) with (Ok (7, 0, mkStream (bs "<< /") 0)) by (vm_compute; reflexivity).
  cbn [Z.eqb Pos.eqb negb]. replace (prefixb (bs "<<") (skipn (pOff (mkStream (bs "<< /") 0)) (pData (mkStream (bs "<< /") 0)))) with true by reflexivity.
  unfold parseDictionaryFromStream. replace (prefixb (bs "<<") (skipn (pOff (mkStream (bs "<< /") 0)) (pData (mkStream (bs "<< /") 0)))) with true by reflexivity.
  cbn [pOff pData]. change (0 + 2)%nat with 2%nat. rewrite loop_forever by tauto. reflexivity.
Qed.
End Decrypt.
