(** Proofs about GetFieldAppearance. *)
From Verif Require Import Util Scan ParseModel ParseSpec ReadProofs XrefProofs WriterModel WriterSpec WriterProofs FormsModel FormsProofs FormsProofs2 ApprModel ApprSpec.
From Verif Require ActsSpec.
Local Open Scope Z_scope.

Lemma lit_nofire {A} p (k : bytes -> option A) a : nostart p a -> nofire (fun s => do r <- lit p s; k r) a.
Proof. intros H b j Hj. unfold lit. rewrite (H b j Hj). reflexivity. Qed.
Lemma lit_here p b : lit p (p ++ b) = Some b.
Proof. unfold lit. rewrite prefixb_app. rewrite skipn_app, skipn_all, Nat.sub_diag. reflexivity. Qed.
Lemma drop_ws g r : blanks g -> match r with [] => True | b :: _ => is_ws b = false end -> drop_while is_ws (g ++ r) = r.
Proof.
  unfold blanks. intros H Hr. induction g as [|c g IH]; cbn [app].
  - destruct r as [|b r]; [reflexivity|]. cbn [drop_while]. rewrite Hr. reflexivity.
  - cbn [forallb] in H. apply andb_true_iff in H. destruct H as [H1 H2]. cbn [drop_while]. rewrite H1. exact (IH H2).
Qed.
Lemma ws1_gap g r : blanks g -> g <> [] -> match r with [] => True | b :: _ => is_ws b = false end -> ws1 (g ++ r) = Some r.
Proof.
  intros H Hg Hr. destruct g as [|c g]; [congruence|]. unfold blanks in H. cbn [forallb] in H. apply andb_true_iff in H. destruct H as [H1 H2].
  cbn [app ws1]. rewrite H1. f_equal. apply drop_ws; assumption.
Qed.
Lemma find_first {A} (m : bytes -> option A) c p a b v :
  (forall s, prefixb (c :: p) s = false -> m s = None) -> ~ In c p -> contains (c :: p) a = false ->
  m ((c :: p) ++ b) = Some v -> find m (a ++ (c :: p) ++ b) = Some (length a, v).
Proof.
  intros Hm Hc Ha Hv. induction a as [|x a IH].
  - cbn [app]. rewrite find_unfold. change (c :: p ++ b) with ((c :: p) ++ b). rewrite Hv. reflexivity.
  - rewrite find_unfold. rewrite Hm.
    + cbn [app]. change (c :: p ++ b) with ((c :: p) ++ b). rewrite IH; [reflexivity|].
      rewrite contains_false in *. intros j Hj. apply (Ha (S j)). cbn [length]. lia.
    + cbn [app prefixb]. rewrite prefixb_sep by exact Hc.
      rewrite contains_false in Ha. specialize (Ha 0%nat (Nat.le_0_l _)). exact Ha.
Qed.
Lemma find_nowhere {A} (m : bytes -> option A) p s :
  (forall s, prefixb p s = false -> m s = None) -> contains p s = false -> find m s = None.
Proof. exact (find_nolit m p s). Qed.

Lemma m_appearances_lit s : prefixb (bs "/AP") s = false -> m_appearances s = None.
Proof. intros H. unfold m_appearances, lit. rewrite H. reflexivity. Qed.
Lemma m_normal_lit s : prefixb (bs "/N") s = false -> m_normal s = None.
Proof. intros H. unfold m_normal, lit. rewrite H. reflexivity. Qed.
Lemma m_stream_lit s : prefixb (bs "stream") s = false -> m_stream s = None.
Proof. intros H. unfold m_stream, lit. rewrite H. reflexivity. Qed.

Lemma appearances_at a g x b : contains (bs "/AP") a = false -> blanks g -> none_of ">" x ->
  search m_appearances (a ++ bs "/AP" ++ g ++ bs "<<" ++ x ++ bs ">>" ++ b) = Some x.
Proof.
  intros Ha Hg Hx. unfold search, value_of. 
  change (a ++ bs "/AP" ++ g ++ bs "<<" ++ x ++ bs ">>" ++ b) with (a ++ ("/"%byte :: bs "AP") ++ g ++ bs "<<" ++ x ++ bs ">>" ++ b).
  erewrite (find_first m_appearances "/" (bs "AP") a (g ++ bs "<<" ++ x ++ bs ">>" ++ b) x);
    [reflexivity|exact m_appearances_lit|intros [E|[E|[]]]; discriminate|exact Ha|].
  unfold m_appearances. change ("/"%byte :: bs "AP") with (bs "/AP"). rewrite lit_here. cbn [obind].
  unfold ws0. rewrite drop_ws by (exact Hg || reflexivity). rewrite lit_here. cbn [obind].
  change (bs ">>" ++ b) with (">"%byte :: ">"%byte :: b). rewrite until_app by exact Hx. rewrite skipn_app_exact.
  change (">"%byte :: ">"%byte :: b) with (bs ">>" ++ b). rewrite lit_here. reflexivity.
Qed.

Lemma normal_at c g1 p g2 q g3 e : 0 <= p -> 0 <= q -> contains (bs "/N") c = false ->
  blanks g1 -> g1 <> [] -> blanks g2 -> g2 <> [] -> blanks g3 -> g3 <> [] ->
  search m_normal (c ++ bs "/N" ++ g1 ++ decZ p ++ g2 ++ decZ q ++ g3 ++ bs "R" ++ e) = Some (decZ p).
Proof.
  intros Hp Hq Hc B1 N1 B2 N2 B3 N3. unfold search, value_of.
  assert (D : forall z, 0 <= z -> decZ z <> [] /\ forallb is_digit (decZ z) = true).
  { intros z Hz. split; [apply XrefProofs.decZ_nonnil; exact Hz|exact (XrefProofs.decZ_digits z Hz)]. }
  destruct (D p Hp) as [Dp1 Dp2], (D q Hq) as [Dq1 Dq2].
  assert (G : forall g r, blanks g -> g <> [] -> match g ++ r with [] => True | b :: _ => is_digit b = false end).
  { intros g r Hb Hn. destruct g as [|x g]; [congruence|]. unfold blanks in Hb. cbn [forallb] in Hb. apply andb_true_iff in Hb.
    destruct Hb as [Hx _]. cbn [app]. destruct (is_digit x) eqn:Ex; [|reflexivity]. apply digit_not_ws in Ex. congruence. }
  change (c ++ bs "/N" ++ g1 ++ decZ p ++ g2 ++ decZ q ++ g3 ++ bs "R" ++ e)
    with (c ++ ("/"%byte :: bs "N") ++ g1 ++ decZ p ++ g2 ++ decZ q ++ g3 ++ bs "R" ++ e).
  erewrite (find_first m_normal "/" (bs "N") c _ (decZ p));
    [reflexivity|exact m_normal_lit|intros [E|[]]; discriminate|exact Hc|].
  unfold m_normal. change ("/"%byte :: bs "N") with (bs "/N"). rewrite lit_here. cbn [obind].
  rewrite ws1_gap; [|exact B1|exact N1|apply digits_head; [exact Dp1|exact Dp2|exact digit_not_ws]]. cbn [obind].
  rewrite digits1_app; [|exact Dp1|exact Dp2|apply G; assumption]. cbn [obind].
  rewrite ws1_gap; [|exact B2|exact N2|apply digits_head; [exact Dq1|exact Dq2|exact digit_not_ws]]. cbn [obind].
  rewrite digits1_app; [|exact Dq1|exact Dq2|apply G; assumption]. cbn [obind].
  rewrite ws1_gap; [|exact B3|exact N3|reflexivity]. cbn [obind]. rewrite lit_here. reflexivity.
Qed.

Lemma rest_clean c d r : is_ws c = false -> m_rest (x0a :: (c :: d) ++ r) = m_line ((c :: d) ++ r).
Proof. intros H. cbn [m_rest app]. rewrite H. reflexivity. Qed.
Lemma line_one d b : none_of x0a d -> m_line (d ++ nl ++ bs "endstream" ++ b) = Some d.
Proof.
  intros H. unfold m_line. change (nl ++ bs "endstream" ++ b) with (x0a :: bs "endstream" ++ b). rewrite until_app by exact H.
  rewrite skipn_app_exact. change (x0a :: bs "endstream" ++ b) with ((nl ++ bs "endstream") ++ b). rewrite lit_here. reflexivity.
Qed.
Lemma contains_skip p x s : contains p (x :: s) = false -> contains p s = false.
Proof. rewrite !contains_false. intros H j Hj. apply (H (S j)). cbn [length]. lia. Qed.
Lemma contains_after p a s : contains p (a ++ s) = false -> contains p s = false.
Proof. induction a as [|x a IH]; [auto|]. intros H. apply IH. exact (contains_skip _ _ _ H). Qed.
Lemma line_more l d b : none_of x0a l -> contains (bs "stream") d = false -> m_line (l ++ x0a :: d ++ nl ++ b) = None.
Proof.
  intros H Hd. unfold m_line. rewrite until_app by exact H. rewrite skipn_app_exact. unfold lit.
  change (prefixb (nl ++ bs "endstream") (x0a :: d ++ nl ++ b)) with (prefixb (bs "endstream") (d ++ x0a :: b)).
  rewrite prefixb_sep by (intros E; repeat (destruct E as [E|E]; [discriminate|]); exact E).
  destruct (prefixb (bs "endstream") d) eqn:E; [|reflexivity]. exfalso.
  apply prefixb_spec in E. destruct E as [u ->]. change (bs "endstream" ++ u) with (bs "end" ++ bs "stream" ++ u) in Hd.
  apply contains_after in Hd. rewrite contains_false in Hd. specialize (Hd 0%nat (Nat.le_0_l _)). cbn [skipn] in Hd. rewrite prefixb_app in Hd. discriminate.
Qed.
Lemma line_some s v : m_line s = Some v -> contains (bs "stream") s = true.
Proof.
  unfold m_line, lit. destruct (prefixb (nl ++ bs "endstream") (skipn (length (until x0a s)) s)) eqn:E; [|discriminate]. intros _.
  apply prefixb_spec in E. destruct E as [u E]. destruct (contains (bs "stream") s) eqn:C; [reflexivity|]. exfalso.
  rewrite <- (firstn_skipn (length (until x0a s)) s), E in C. apply contains_after in C.
  change ((nl ++ bs "endstream") ++ u) with ((nl ++ bs "end") ++ bs "stream" ++ u) in C. apply contains_after in C.
  rewrite contains_false in C. specialize (C 0%nat (Nat.le_0_l _)). cbn [skipn] in C. rewrite prefixb_app in C. discriminate.
Qed.
Lemma rest_none s : contains (bs "stream") s = false -> m_rest s = None.
Proof.
  induction s as [|c s IH]; [reflexivity|]. intros H. apply contains_skip in H. cbn [m_rest]. rewrite (IH H).
  destruct (is_ws c); [|reflexivity]. destruct (beqb c x0a); [|reflexivity].
  destruct (m_line s) eqn:E; [|reflexivity]. apply line_some in E. congruence.
Qed.

Lemma find_past {A} (m : bytes -> option A) c p a b :
  (forall s, prefixb (c :: p) s = false -> m s = None) -> ~ In c p -> contains (c :: p) a = false ->
  m ((c :: p) ++ b) = None -> value_of (find m (a ++ (c :: p) ++ b)) = value_of (find m (p ++ b)).
Proof.
  intros Hm Hc Ha Hv. induction a as [|x a IH].
  - cbn [app]. rewrite (find_unfold m (c :: p ++ b)). change (c :: p ++ b) with ((c :: p) ++ b). rewrite Hv. cbn [app].
    destruct (find m (p ++ b)) as [[i v]|]; reflexivity.
  - rewrite find_unfold. rewrite Hm.
    + cbn [app]. change (c :: p ++ b) with ((c :: p) ++ b).
      rewrite <- IH by (rewrite contains_false in *; intros j Hj; apply (Ha (S j)); cbn [length]; lia).
      destruct (find m (a ++ (c :: p) ++ b)) as [[i v]|]; reflexivity.
    + cbn [app prefixb]. rewrite prefixb_sep by exact Hc.
      rewrite contains_false in Ha. specialize (Ha 0%nat (Nat.le_0_l _)). exact Ha.
Qed.
Lemma s_once : ~ In "s"%byte (bs "tream").
Proof. intros E. repeat (destruct E as [E|E]; [discriminate|]). exact E. Qed.

Lemma stream_one h d b : contains (bs "stream") h = false -> clean_data d -> none_of x0a d ->
  search m_stream (stream_object h d b) = Some d.
Proof.
  intros Hh [Hs Hd] Hn. unfold search, value_of, stream_object.
  change (h ++ bs "stream" ++ nl ++ d ++ nl ++ bs "endstream" ++ b) with (h ++ ("s"%byte :: bs "tream") ++ nl ++ d ++ nl ++ bs "endstream" ++ b).
  erewrite (find_first m_stream "s" (bs "tream") h _ d); [reflexivity|exact m_stream_lit|exact s_once|exact Hh|].
  unfold m_stream. change ("s"%byte :: bs "tream") with (bs "stream"). rewrite lit_here. cbn [obind].
  destruct d as [|c d]; [destruct Hd|]. change (nl ++ (c :: d) ++ nl ++ bs "endstream" ++ b) with (x0a :: (c :: d) ++ nl ++ bs "endstream" ++ b).
  rewrite rest_clean by exact Hd. apply line_one, Hn.
Qed.
Lemma first_line d : In x0a d -> exists l d2, d = l ++ x0a :: d2 /\ none_of x0a l.
Proof.
  unfold none_of. induction d as [|c d IH]; [intros []|]. intros H. destruct (beqb c x0a) eqn:E.
  - apply beqb_eq in E. subst c. exists [], d. split; reflexivity.
  - destruct H as [->|H]; [discriminate|]. destruct (IH H) as (l & d2 & -> & Hl). exists (c :: l), d2. split; [reflexivity|].
    cbn [forallb]. rewrite E. exact Hl.
Qed.
Lemma stream_more h d b : contains (bs "stream") h = false -> clean_data d -> In x0a d -> contains (bs "stream") b = false ->
  search m_stream (stream_object h d b) = None.
Proof.
  intros Hh [Hs Hd] Hn Hb. unfold search, stream_object.
  change (h ++ bs "stream" ++ nl ++ d ++ nl ++ bs "endstream" ++ b) with (h ++ ("s"%byte :: bs "tream") ++ nl ++ d ++ nl ++ bs "endstream" ++ b).
  rewrite find_past; [|exact m_stream_lit|exact s_once|exact Hh|].
  - replace (bs "tream" ++ nl ++ d ++ nl ++ bs "endstream" ++ b) with ((bs "tream" ++ nl ++ d ++ nl ++ bs "end") ++ ("s"%byte :: bs "tream") ++ b)
      by (rewrite <- !app_assoc; reflexivity).
    rewrite find_past; [|exact m_stream_lit|exact s_once| |].
    + unfold value_of. rewrite (find_nowhere m_stream (bs "stream")); [reflexivity|exact m_stream_lit|].
      rewrite contains_nostart by (apply nostartb_ok; reflexivity). exact Hb.
    + rewrite contains_nostart by (apply nostartb_ok; reflexivity). rewrite contains_nostart by (apply nostartb_ok; reflexivity).
      rewrite app_assoc. change (d ++ nl) with (d ++ [x0a]).
      rewrite contains_nostart; [reflexivity|]. apply nostart_sep; [exact Hs| |discriminate].
      intros E. repeat (destruct E as [E|E]; [discriminate|]). exact E.
    + unfold m_stream. change ("s"%byte :: bs "tream") with (bs "stream"). rewrite lit_here. cbn [obind]. exact (rest_none _ Hb).
  - unfold m_stream. change ("s"%byte :: bs "tream") with (bs "stream"). rewrite lit_here. cbn [obind].
    destruct (first_line d Hn) as (l & d2 & Ed & Hl). destruct d as [|c d]; [destruct Hd|].
    change (nl ++ (c :: d) ++ nl ++ bs "endstream" ++ b) with (x0a :: (c :: d) ++ nl ++ bs "endstream" ++ b).
    rewrite rest_clean by exact Hd. rewrite Ed. rewrite <- app_assoc.
    change ((x0a :: d2) ++ nl ++ bs "endstream" ++ b) with (x0a :: d2 ++ nl ++ bs "endstream" ++ b). apply line_more; [exact Hl|].
    rewrite Ed in Hs. apply contains_after in Hs. exact (contains_skip _ _ _ Hs).
Qed.

Lemma shown get n t p q : get n = Ok t -> shows t p q ->
  GetFieldAppearance get n = rbind (get p) (fun o => match search m_stream o with Some s => Ok s | None => Ok o end).
Proof.
  intros Hg ([Hp1 Hp2] & Hq & a & g & c & g1 & g2 & g3 & e & b & -> & Ha & Hc & Nc & Ne & Bg & B1 & N1 & B2 & N2 & B3 & N3).
  unfold GetFieldAppearance. rewrite Hg. cbn [rbind].
  rewrite appearances_at; [|exact Ha|exact Bg|].
  2: { unfold none_of in *. rewrite !forallb_app, Nc, Ne.
       assert (W : forall g, blanks g -> forallb (fun b => negb (beqb b ">")) g = true).
       { intros g0. unfold blanks. induction g0 as [|x g0 IH]; [reflexivity|]. cbn [forallb]. rewrite !andb_true_iff. intros [X1 X2]. split; [|exact (IH X2)].
         revert X1. clear. destruct x; vm_compute; congruence. }
       assert (Dg : forall z, 0 <= z -> forallb (fun b => negb (beqb b ">")) (decZ z) = true).
       { intros z Hz. pose proof (XrefProofs.decZ_digits z Hz) as H. revert H. generalize (decZ z). clear. induction b as [|x b IH]; [reflexivity|].
         cbn [forallb]. rewrite !andb_true_iff. intros [X1 X2]. split; [|exact (IH X2)]. revert X1. clear. destruct x; vm_compute; congruence. }
       rewrite (W _ B1), (W _ B2), (W _ B3), (Dg _ Hp1), (Dg _ Hq). reflexivity. }
  rewrite normal_at by assumption.
  rewrite XrefProofs.atoi_clip_decZ by (split; assumption). reflexivity.
Qed.
Lemma one_line get n t p q h d b : get n = Ok t -> shows t p q -> get p = Ok (stream_object h d b) ->
  contains (bs "stream") h = false -> clean_data d -> none_of x0a d -> GetFieldAppearance get n = Ok d.
Proof. intros Hg Hs Hp Hh Hd Hn. rewrite (shown _ _ _ _ _ Hg Hs), Hp. cbn [rbind]. rewrite stream_one by assumption. reflexivity. Qed.
Lemma more_lines get n t p q h d b : get n = Ok t -> shows t p q -> get p = Ok (stream_object h d b) ->
  contains (bs "stream") h = false -> clean_data d -> In x0a d -> contains (bs "stream") b = false ->
  GetFieldAppearance get n = Ok (stream_object h d b).
Proof. intros Hg Hs Hp Hh Hd Hn Hb. rewrite (shown _ _ _ _ _ Hg Hs), Hp. cbn [rbind]. rewrite stream_more by assumption. reflexivity. Qed.
Lemma states_none get n t : get n = Ok t -> shows_states t -> GetFieldAppearance get n = Err.
Proof.
  intros Hg (a & g & g0 & g1 & x & b & -> & Ha & Hx & Nx & Bg & B0 & B1). unfold GetFieldAppearance. rewrite Hg. cbn [rbind].
  assert (W : forall g, blanks g -> forallb (fun b => negb (beqb b ">")) g = true).
  { intros g2. unfold blanks. induction g2 as [|y g2 IH]; [reflexivity|]. cbn [forallb]. rewrite !andb_true_iff. intros [X1 X2]. split; [|exact (IH X2)].
    revert X1. clear. destruct y; vm_compute; congruence. }
  rewrite appearances_at; [|exact Ha|exact Bg|].
  2: { unfold none_of in *. rewrite !forallb_app, Nx, (W _ B0), (W _ B1). reflexivity. }
  unfold search. change (g0 ++ bs "/N" ++ g1 ++ bs "<<" ++ x) with (g0 ++ ("/"%byte :: bs "N") ++ g1 ++ bs "<<" ++ x).
  assert (NN : forall g r, blanks g -> contains (bs "/N") (g ++ r) = contains (bs "/N") r).
  { intros g2 r Hb. apply contains_nostart. apply (nostart_class is_ws); [exact Hb|reflexivity]. }
  rewrite find_past; [|exact m_normal_lit|intros [E|[]]; discriminate| |].
  - unfold value_of. rewrite (find_nowhere m_normal (bs "/N")); [reflexivity|exact m_normal_lit|].
    rewrite contains_nostart by (apply nostartb_ok; reflexivity). rewrite NN by exact B1.
    rewrite contains_nostart by (apply nostartb_ok; reflexivity). exact Hx.
  - change (bs "/N") with ("/"%byte :: bs "N"). rewrite <- (app_nil_r g0). exact (NN g0 [] B0).
  - unfold m_normal. change ("/"%byte :: bs "N") with (bs "/N"). rewrite lit_here. cbn [obind].
    destruct g1 as [|y g1]; [reflexivity|]. rewrite ws1_gap by (exact B1 || discriminate || reflexivity). reflexivity.
Qed.
Lemma never_panics get n : (forall m, get m <> Panic) -> GetFieldAppearance get n <> Panic.
Proof.
  intros H. unfold GetFieldAppearance. destruct (get n) eqn:E; cbn [rbind]; [|discriminate|destruct (H n E)].
  destruct (search m_appearances a); [|discriminate]. destruct (search m_normal b); [|discriminate].
  destruct (get (atoi_clip b0)) eqn:E2; cbn [rbind]; [|discriminate|destruct (H _ E2)]. destruct (search m_stream a0); discriminate.
Qed.

(** In a written document *)
Lemma shows_object n t p q : 0 <= n -> shows t p q -> shows (object_text n t) p q.
Proof.
  intros Hn (Hp & Hq & a & g & c & g1 & g2 & g3 & e & b & -> & Ha & R). split; [exact Hp|]. split; [exact Hq|].
  exists (decZ n ++ bs " 0 obj" ++ nl ++ a), g, c, g1, g2, g3, e, (b ++ nl ++ bs "endobj"). split.
  - unfold object_text. rewrite <- !app_assoc. reflexivity.
  - split; [|exact R]. rewrite contains_nostart by (apply (nostart_decZ "/" (bs "AP")); [exact Hn|reflexivity]).
    rewrite contains_nostart by (apply nostartb_ok; reflexivity). rewrite contains_nostart by (apply nostartb_ok; reflexivity). exact Ha.
Qed.
Lemma written_shown deflate order inflate w out n t p q d content :
  is_order order -> useXRefStream w = false -> useObjectStream w = false -> encryptRef w = None -> outlinesRef w = None ->
  1 <= nextObjNum w <= 499 -> all_readable w ->
  fst (Write deflate order None w) = out -> Z.of_nat (length out) < 10 ^ 10 ->
  1 <= n < nextObjNum w -> stored_text w n t -> shows t p q ->
  1 <= p < nextObjNum w -> ActsSpec.form_xobject deflate w p d content ->
  let z := deflate content in
  let head := formatDictionary (d ++ [(bs "Filter", VStr (bs "/FlateDecode")); (bs "Length", VInt (Z.of_nat (length z)))]) in
  contains (bs "stream") head = false -> clean_data z ->
  (none_of x0a z -> GetFieldAppearance (GetObject inflate None out) n = Ok z) /\
  (In x0a z -> GetFieldAppearance (GetObject inflate None out) n = Ok (object_text p (head ++ nl ++ bs "stream" ++ nl ++ z ++ nl ++ bs "endstream"))).
Proof.
  intros Ho Hx Hs He Hl Hn Hr Hw Ho2 Hn1 Ht Hsh Hp1 (adr & Hm & Hd) z head Hh Hz.
  assert (U : updateCatalogWithOutlines w = w) by (unfold updateCatalogWithOutlines; rewrite Hl; reflexivity).
  assert (Sp : stored_text w p (head ++ nl ++ bs "stream" ++ nl ++ z ++ nl ++ bs "endstream")).
  { eexists. split; [exact Hm|]. cbn [oStream oContent oDict]. rewrite Hd. reflexivity. }
  pose proof (read_back_get deflate order inflate w out Ho Hx Hs He Hn Hr Hw Ho2) as R. rewrite U in R.
  pose proof (R n t Hn1 Ht) as Rn. pose proof (R p _ Hp1 Sp) as Rp.
  assert (E : object_text p (head ++ nl ++ bs "stream" ++ nl ++ z ++ nl ++ bs "endstream") =
              stream_object (decZ p ++ bs " 0 obj" ++ nl ++ head ++ nl) z (nl ++ bs "endobj")).
  { unfold object_text, stream_object. rewrite <- !app_assoc. reflexivity. }
  assert (C : contains (bs "stream") (decZ p ++ bs " 0 obj" ++ nl ++ head ++ nl) = false).
  { rewrite contains_nostart by (apply (nostart_decZ "s" (bs "tream")); [lia|reflexivity]).
    rewrite contains_nostart by (apply nostartb_ok; reflexivity). rewrite contains_nostart by (apply nostartb_ok; reflexivity).
    rewrite <- (app_nil_r (head ++ nl)). rewrite contains_nostart; [reflexivity|]. apply (nostart_sep (bs "stream") head x0a); [exact Hh| |discriminate].
    intros X. repeat (destruct X as [X|X]; [discriminate|]). exact X. }
  rewrite E in Rp |- *. apply (shows_object n) in Hsh; [|lia]. split; intros Hnl.
  - exact (one_line _ _ _ _ _ _ _ _ Rn Hsh Rp C Hz Hnl).
  - exact (more_lines _ _ _ _ _ _ _ _ Rn Hsh Rp C Hz Hnl eq_refl).
Qed.
