(** Proofs for the reader: dictionaries, tables, chains. *)
From Verif Require Import Scan WriterModel WriterProofs ParseModel ParseSpec ParseProofs XrefProofs ReadProofs ReaderSpec.
Local Open Scope Z_scope.

Lemma beqb_false a b : a <> b -> beqb a b = false.
Proof. intros H. destruct (beqb a b) eqn:E; [apply beqb_eq in E; contradiction|reflexivity]. Qed.

(** Dictionaries *)

Lemma dict_scan_cons2 k a b s : dict_scan (S k) (a :: b :: s) =
  if beqb a "<" && beqb b "<" then (2 + dict_scan (S (S k)) s)%nat
  else if beqb a ">" && beqb b ">" then (2 + dict_scan k s)%nat
  else (1 + dict_scan (S k) (b :: s))%nat.
Proof. reflexivity. Qed.
Lemma dict_scan_step k c s : c <> "<"%byte -> c <> ">"%byte -> dict_scan (S k) (c :: s) = S (dict_scan (S k) s).
Proof.
  intros H1 H2. destruct s as [|b s].
  - reflexivity.
  - cbn [dict_scan]. rewrite !(beqb_false c) by assumption. reflexivity.
Qed.
Lemma dict_scan_bytes k h s : (forall b, In b h -> b <> "<"%byte /\ b <> ">"%byte) ->
  dict_scan (S k) (h ++ s) = (length h + dict_scan (S k) s)%nat.
Proof.
  induction h as [|b h IH]; intros H; [reflexivity|]. cbn [app length]. 
  rewrite dict_scan_step by (apply H; left; reflexivity). rewrite IH by (intros; apply H; right; assumption). reflexivity.
Qed.
Lemma dict_scan_open k s : dict_scan (S k) (bs "<<" ++ s) = (2 + dict_scan (S (S k)) s)%nat.
Proof. reflexivity. Qed.
Lemma dict_scan_close k s : dict_scan (S k) (bs ">>" ++ s) = (2 + dict_scan k s)%nat.
Proof. reflexivity. Qed.

Lemma dict_scan_balanced d : balanced d -> forall k s, dict_scan (S k) (d ++ s) = (length d + dict_scan (S k) s)%nat.
Proof.
  induction 1 as [|c d H1 H2 Hd IH|d e Hd IHd He IHe|h c e Hh Hc He IH]; intros k s.
  - reflexivity.
  - cbn [app length]. rewrite dict_scan_step by assumption. rewrite IH. reflexivity.
  - rewrite <- !app_assoc. rewrite dict_scan_open, IHd, dict_scan_close, IHe. rewrite !app_length.
    change (length (bs "<<")) with 2%nat. change (length (bs ">>")) with 2%nat. lia.
  - rewrite <- !app_assoc. rewrite !app_length. change (length (bs "<")) with 1%nat. change (length (bs ">")) with 1%nat.
    assert (dict_scan (S k) (bs ">" ++ (c :: e) ++ s) = (1 + dict_scan (S k) ((c :: e) ++ s))%nat) as E1.
    { change (bs ">" ++ (c :: e) ++ s) with (">"%byte :: c :: (e ++ s)). rewrite dict_scan_cons2.
      rewrite (beqb_false c ">"%byte) by exact Hc. rewrite andb_false_r. reflexivity. }
    assert (dict_scan (S k) (bs "<" ++ h ++ bs ">" ++ (c :: e) ++ s) = (1 + dict_scan (S k) (h ++ bs ">" ++ (c :: e) ++ s))%nat) as E2.
    { destruct h as [|b h].
      - reflexivity.
      - change (bs "<" ++ (b :: h) ++ bs ">" ++ (c :: e) ++ s) with ("<"%byte :: b :: (h ++ bs ">" ++ (c :: e) ++ s)). rewrite dict_scan_cons2.
        rewrite (beqb_false b "<"%byte) by (apply Hh; left; reflexivity). rewrite andb_false_r. reflexivity. }
    rewrite E2, dict_scan_bytes by exact Hh. rewrite E1, IH. lia.
Qed.

Lemma white_nostart c q w : white w -> is_ws c = false -> nostart (c :: q) w.
Proof. intros H Hc. apply (nostart_class is_ws); [apply forallb_forall; exact H|exact Hc]. Qed.

Lemma trailer_dict_balanced a w d post :
  nostart (bs "trailer") a -> nostart (bs "<<") w -> balanced d ->
  trailer_dict (a ++ bs "trailer" ++ w ++ bs "<<" ++ d ++ bs ">>" ++ post) = Some (bs "<<" ++ d ++ bs ">>").
Proof.
  intros Ha Hw Hd. unfold trailer_dict. rewrite index_at by exact Ha. cbn [obind].
  rewrite skipn_app_r by lia. replace (length a + 7 - length a)%nat with 7%nat by lia.
  match goal with |- context [skipn 7 (bs "trailer" ++ ?r)] => change (skipn 7 (bs "trailer" ++ r)) with r end.
  rewrite index_at by exact Hw. cbn [obind]. rewrite skipn_app_exact. f_equal.
  match goal with |- context [skipn 2 (bs "<<" ++ ?r)] => change (skipn 2 (bs "<<" ++ r)) with r end.
  rewrite dict_scan_balanced by exact Hd. rewrite dict_scan_close.
  replace (dict_scan 0 post) with 0%nat by (destruct post; reflexivity).
  rewrite !app_assoc. rewrite <- (app_assoc _ d). apply firstn_len_app. rewrite !app_length.
  change (length (bs "<<")) with 2%nat. change (length (bs ">>")) with 2%nat. lia.
Qed.

(** Looking up an entry *)
Lemma slash_nofire {A} (m : bytes -> option A) q a r : (forall s, prefixb ("/"%byte :: q) s = false -> m s = None) ->
  ~ In "/"%byte q -> contains ("/"%byte :: q) a = false ->
  forall j, (j < length a)%nat -> m (skipn j (a ++ "/"%byte :: r)) = None.
Proof.
  intros Hm Hq Hc j Hj. apply Hm. rewrite skipn_app_l by lia. rewrite contains_false in Hc. specialize (Hc j ltac:(lia)).
  destruct (skipn j a) as [|y u] eqn:E.
  - apply (f_equal (@length byte)) in E. rewrite skipn_length in E. cbn in E. lia.
  - cbn [prefixb app] in *. rewrite prefixb_sep by exact Hq. exact Hc.
Qed.
Lemma find_first {A} (m : bytes -> option A) a b v :
  (forall j, (j < length a)%nat -> m (skipn j (a ++ b)) = None) -> m b = Some v -> find m (a ++ b) = Some (length a, v).
Proof. intros H Hb. rewrite find_app by exact H. rewrite (find_at0 m b v Hb). f_equal. f_equal. lia. Qed.

Lemma ws1_white w s : w <> [] -> white w -> match s with [] => True | b :: _ => is_ws b = false end -> ws1 (w ++ s) = Some s.
Proof.
  intros Hn Hw Hs. destruct w as [|b w]; [congruence|]. unfold ws1. cbn [app]. rewrite (Hw b (or_introl eq_refl)). f_equal.
  assert (forall b, In b w -> is_ws b = true) as Hw' by (intros; apply Hw; right; assumption). clear Hn Hw.
  induction w as [|c w IH]; cbn [app drop_while].
  - apply drop_while_stop. exact Hs.
  - rewrite (Hw' c (or_introl eq_refl)). cbn [app drop_while] in IH. apply IH. intros; apply Hw'; right; assumption.
Qed.

Lemma m_key_white key w z r : w <> [] -> white w -> 0 <= z -> match r with [] => True | b :: _ => is_digit b = false end ->
  m_key key (key ++ w ++ decZ z ++ r) = Some (decZ z).
Proof.
  intros Hn Hw Hz Hr. unfold m_key. rewrite lit_app. cbn [obind].
  rewrite ws1_white; [|exact Hn|exact Hw|apply digits_head; auto using decZ_nonnil, decZ_digits, digit_not_ws].
  cbn [obind]. rewrite digits1_app by (auto using decZ_nonnil, decZ_digits). reflexivity.
Qed.

Lemma m_ref_white key w n g r : w <> [] -> white w -> 0 <= n -> 0 <= g ->
  m_ref key (key ++ w ++ reference n g ++ r) = Some (reference n g).
Proof.
  intros Hnn Hw Hn Hg. unfold m_ref, reference. rewrite lit_app. cbn [obind]. rewrite <- !app_assoc.
  rewrite ws1_white; [|exact Hnn|exact Hw|apply digits_head; auto using decZ_nonnil, decZ_digits, digit_not_ws].
  cbn [obind]. rewrite digits1_app by (auto using decZ_nonnil, decZ_digits; reflexivity). cbn [obind].
  match goal with |- context [ws1 (bs " " ++ ?x)] => change (bs " " ++ x) with (" "%byte :: x) end.
  rewrite ws1_space by (apply digits_head; auto using decZ_nonnil, decZ_digits, digit_not_ws). cbn [obind].
  rewrite digits1_app by (auto using decZ_nonnil, decZ_digits; reflexivity). cbn [obind].
  change (bs " R" ++ r) with (" "%byte :: bs "R" ++ r). rewrite ws1_space by reflexivity. cbn [obind]. rewrite lit_app. cbn [obind]. f_equal.
  change (" "%byte :: decZ g ++ " "%byte :: bs "R" ++ r) with (bs " " ++ decZ g ++ bs " R" ++ r).
  rewrite !app_assoc. rewrite (app_length _ r).
  match goal with |- firstn (length ?a + length r - length r) _ = _ => replace (length a + length r - length r)%nat with (length a) by lia end.
  apply firstn_len_app. reflexivity.
Qed.

Definition slash_key (key : bytes) : Prop := exists q, key = "/"%byte :: q /\ ~ In "/"%byte q.
Lemma slash_open d key q : key = "/"%byte :: q -> contains key d = false -> contains key (bs "<<" ++ d) = false.
Proof. intros -> H. rewrite contains_nostart; [exact H|]. apply nostartb_ok. reflexivity. Qed.

Lemma states_key key z d : slash_key key -> 0 <= z -> states key (decZ z) d ->
  value_of (find (m_key key) (bs "<<" ++ d ++ bs ">>")) = Some (decZ z).
Proof.
  intros (q & Eq & Hq) Hz (a & w & b & -> & Ha & Hn & Hw & Hb).
  replace (bs "<<" ++ (a ++ key ++ w ++ decZ z ++ b) ++ bs ">>") with ((bs "<<" ++ a) ++ key ++ w ++ decZ z ++ b ++ bs ">>")
    by (rewrite <- !app_assoc; reflexivity).
  erewrite find_first; [reflexivity| |].
  - pose proof (slash_open a key q Eq Ha) as Hc. rewrite Eq in *. cbn [app].
    apply (slash_nofire _ q); [apply m_key_lit|exact Hq|exact Hc].
  - apply m_key_white; try assumption. destruct b; [reflexivity|exact Hb].
Qed.
Lemma states_ref key n g d : slash_key key -> 0 <= n -> 0 <= g -> states key (reference n g) d ->
  value_of (find (m_ref key) (bs "<<" ++ d ++ bs ">>")) = Some (reference n g).
Proof.
  intros (q & Eq & Hq) Hz Hg (a & w & b & -> & Ha & Hn & Hw & Hb).
  replace (bs "<<" ++ (a ++ key ++ w ++ reference n g ++ b) ++ bs ">>") with ((bs "<<" ++ a) ++ key ++ w ++ reference n g ++ b ++ bs ">>")
    by (rewrite <- !app_assoc; reflexivity).
  erewrite find_first; [reflexivity| |].
  - pose proof (slash_open a key q Eq Ha) as Hc. rewrite Eq in *. cbn [app].
    apply (slash_nofire _ q); [apply m_ref_lit|exact Hq|exact Hc].
  - apply m_ref_white; assumption.
Qed.
Lemma unstated key d (q : bytes) : key = "/"%byte :: q -> ~ In ">"%byte q -> contains key d = false ->
  contains key (bs "<<" ++ d ++ bs ">>") = false.
Proof.
  intros -> Hq H. rewrite contains_nostart by (apply nostartb_ok; reflexivity).
  change (bs ">>") with ([">"%byte] ++ [">"%byte]). rewrite app_assoc. apply nostart_contains; [discriminate|].
  apply nostart_app; [|apply nostartb_ok; reflexivity]. apply nostart_sep; [exact H| |discriminate].
  intros [E|E]; [discriminate|contradiction].
Qed.

(** Tables *)
Lemma row_line r : line_end (tEnd r) -> exists t, tEnd r = t ++ [x0a] /\ white t /\ ~ In x0a t.
Proof.
  intros [->|[->| ->]].
  - exists []. repeat split; [intros b []|intros []].
  - exists [x0d]. repeat split; [intros b [<-|[]]; reflexivity|intros [E|[]]; discriminate].
  - exists [" "%byte]. repeat split; [intros b [<-|[]]; reflexivity|intros [E|[]]; discriminate].
Qed.
Lemma end_line e : line_end e -> exists t, e = t ++ [x0a] /\ white t /\ ~ In x0a t.
Proof. intros H. apply (row_line (mkRowText 0 0 true e)). exact H. Qed.

Definition row_core (r : row) : bytes :=
  dec_pad 10 (Z.to_N (tOff r)) ++ bs " " ++ dec_pad 5 (Z.to_N (tGen r)) ++ bs " " ++ (if tUse r then bs "n" else bs "f").
Definition sub_core (s : subsection) : bytes := decZ (sFirst s) ++ bs " " ++ decZ (Z.of_nat (length (sRows s))).

Lemma digits_no_nl d : forallb is_digit d = true -> ~ In x0a d.
Proof. intros H Hi. rewrite forallb_forall in H. specialize (H _ Hi). discriminate. Qed.
Lemma row_core_no_nl r : ~ In x0a (row_core r).
Proof.
  unfold row_core. intros H. rewrite !in_app_iff in H. decompose [or] H.
  - eapply digits_no_nl; [apply dec_pad_digits|eassumption].
  - cbn in *. intuition discriminate.
  - eapply digits_no_nl; [apply dec_pad_digits|eassumption].
  - cbn in *. intuition discriminate.
  - destruct (tUse r); cbn in *; intuition discriminate.
Qed.
Lemma sub_core_no_nl s : 0 <= sFirst s -> ~ In x0a (sub_core s).
Proof.
  unfold sub_core. intros H0 H. rewrite !in_app_iff in H. decompose [or] H.
  - eapply digits_no_nl; [apply decZ_digits; exact H0|eassumption].
  - cbn in *. intuition discriminate.
  - apply (digits_no_nl (decZ (Z.of_nat (length (sRows s))))); [apply decZ_digits; apply Nat2Z.is_nonneg|assumption].
Qed.

(** The core of a line, once its end is trimmed. *)
Lemma trim_core core t u b : core = u ++ [b] -> is_ws b = false -> match core with [] => True | c :: _ => is_ws c = false end ->
  white t -> trim is_ws (core ++ t) = core.
Proof.
  intros E Hb Hc Ht. unfold trim. rewrite drop_while_stop.
  - rewrite E. apply rtrim_tidy; [exact Hb|apply forallb_forall; exact Ht].
  - destruct core as [|c core]; [destruct u; discriminate|exact Hc].
Qed.
Lemma row_core_ends r : exists u b, row_core r = u ++ [b] /\ is_ws b = false.
Proof.
  unfold row_core. exists (dec_pad 10 (Z.to_N (tOff r)) ++ bs " " ++ dec_pad 5 (Z.to_N (tGen r)) ++ bs " "), (if tUse r then "n"%byte else "f"%byte).
  rewrite <- !app_assoc. destruct (tUse r); split; reflexivity.
Qed.
Lemma row_core_head r : exists c s, row_core r = c :: s /\ is_digit c = true.
Proof.
  unfold row_core. pose proof (dec_pad_nonnil 10 (Z.to_N (tOff r))) as Hn. pose proof (dec_pad_digits 10 (Z.to_N (tOff r))) as Hd.
  destruct (dec_pad 10 (Z.to_N (tOff r))) as [|c s]; [congruence|]. cbn [forallb] in Hd. apply andb_true_iff in Hd.
  eexists c, _. split; [reflexivity|tauto].
Qed.
Lemma sub_core_ends s : exists u b, sub_core s = u ++ [b] /\ is_ws b = false.
Proof.
  unfold sub_core. set (k := Z.of_nat (length (sRows s))). assert (0 <= k) as Hk by (unfold k; apply Nat2Z.is_nonneg).
  destruct (exists_last (XrefProofs.decZ_nonnil k Hk)) as (u & b & Eu).
  exists (decZ (sFirst s) ++ bs " " ++ u), b. rewrite Eu, <- !app_assoc. split; [reflexivity|]. apply digit_not_ws.
  pose proof (decZ_digits k Hk) as Hd. rewrite forallb_forall in Hd. apply Hd. rewrite Eu. apply in_or_app. right. left. reflexivity.
Qed.
Lemma sub_core_head s : 0 <= sFirst s -> exists c r, sub_core s = c :: r /\ is_digit c = true.
Proof.
  intros H0. unfold sub_core. pose proof (XrefProofs.decZ_nonnil (sFirst s) H0) as Hn. pose proof (decZ_digits (sFirst s) H0) as Hd.
  destruct (decZ (sFirst s)) as [|c r]; [congruence|]. cbn [forallb] in Hd. apply andb_true_iff in Hd.
  eexists c, _. split; [reflexivity|tauto].
Qed.
Lemma atoi_padw w p : 0 <= p < 2 ^ 63 -> atoi (dec_pad w (Z.to_N p)) = Some p.
Proof.
  intros H. rewrite atoi_dec_pad; [f_equal; lia|].
  unfold int64_max. change (2 ^ 63) with 9223372036854775808 in H. lia.
Qed.

Lemma classify_row r : 
  classify is_ws (row_core r) = XEntry (dec_pad 10 (Z.to_N (tOff r))) (dec_pad 5 (Z.to_N (tGen r))) (if tUse r then bs "n" else bs "f").
Proof.
  unfold classify, row_core.
  match goal with |- context [?a ++ bs " " ++ ?b ++ bs " " ++ ?c] => change (a ++ bs " " ++ b ++ bs " " ++ c) with (a ++ " "%byte :: b ++ " "%byte :: c) end.
  rewrite fields_word; [|apply dec_pad_nonnil|apply digits_no; [apply dec_pad_digits|apply digit_not_ws]|reflexivity].
  rewrite fields_word; [|apply dec_pad_nonnil|apply digits_no; [apply dec_pad_digits|apply digit_not_ws]|reflexivity].
  destruct (tUse r); reflexivity.
Qed.
Lemma classify_sub_core s : 0 <= sFirst s < 2 ^ 63 -> Z.of_nat (length (sRows s)) < 2 ^ 63 -> classify is_ws (sub_core s) = XSub (sFirst s).
Proof.
  intros H1 H2. unfold classify, sub_core.
  match goal with |- context [?a ++ bs " " ++ ?b] => change (a ++ bs " " ++ b) with (a ++ " "%byte :: b) end.
  rewrite fields_word; [|apply XrefProofs.decZ_nonnil; lia|apply digits_no; [apply decZ_digits; lia|apply digit_not_ws]|reflexivity].
  rewrite fields_last; [|apply XrefProofs.decZ_nonnil; lia|apply digits_no; [apply decZ_digits; lia|apply digit_not_ws]].
  rewrite !atoi_decZ by lia. reflexivity.
Qed.

Lemma digit_not_trailer c s : is_digit c = true -> prefixb (bs "trailer") (c :: s) = false.
Proof.
  intros H. change (bs "trailer") with ("t"%byte :: bs "railer"). cbn [prefixb].
  destruct (beqb "t" c) eqn:Eb; [|reflexivity]. apply beqb_eq in Eb. subst c. discriminate.
Qed.

Lemma tl_row r t rest k : row_ok r -> white t ->
  table_lines ((row_core r ++ t) :: rest) (Some k) =
  table_lines rest (Some (k + 1)) ++ (if tUse r then [(k, tOff r)] else []).
Proof.
  intros (H1 & H2 & _) Ht. cbn [table_lines].
  destruct (row_core_ends r) as (u & b & Eu & Hb). destruct (row_core_head r) as (c & s & Ec & Hc).
  rewrite (trim_core _ _ u b Eu Hb); [|rewrite Ec; apply digit_not_ws, Hc|exact Ht].
  rewrite classify_row. rewrite Ec, digit_not_trailer by exact Hc. rewrite !atoi_padw by assumption.
  destruct (tUse r); [reflexivity|]. rewrite app_nil_r. reflexivity.
Qed.
Lemma tl_sub s t rest cur : 0 <= sFirst s < 2 ^ 63 -> Z.of_nat (length (sRows s)) < 2 ^ 63 -> white t ->
  table_lines ((sub_core s ++ t) :: rest) cur = table_lines rest (Some (sFirst s)).
Proof.
  intros H1 H2 Ht. cbn [table_lines].
  destruct (sub_core_ends s) as (u & b & Eu & Hb). destruct (sub_core_head s ltac:(lia)) as (c & q & Ec & Hc).
  rewrite (trim_core _ _ u b Eu Hb); [|rewrite Ec; apply digit_not_ws, Hc|exact Ht].
  rewrite classify_sub_core by assumption. rewrite Ec, digit_not_trailer by exact Hc. reflexivity.
Qed.

Definition used (l : list (Z * row)) : zmap Z :=
  map (fun nr => (fst nr, tOff (snd nr))) (filter (fun nr => tUse (snd nr)) l).
Lemma used_app a b : used (a ++ b) = used a ++ used b.
Proof. unfold used. rewrite filter_app, map_app. reflexivity. Qed.
Lemma numbered_cons {A} k (x : A) l : numbered k (x :: l) = (k, x) :: numbered (k + 1) l.
Proof.
  unfold numbered. cbn [length seq map combine]. f_equal; [f_equal; lia|]. f_equal.
  rewrite <- seq_shift, map_map. apply map_ext. intros; lia.
Qed.

Lemma tl_rows rows : Forall row_ok rows -> forall k s, exists k',
  table_lines (split_on x0a (flat_map row_text rows ++ s)) (Some k) =
  table_lines (split_on x0a s) (Some k') ++ rev (used (numbered k rows)).
Proof.
  induction 1 as [|r rows Hr _ IH]; intros k s.
  - exists k. cbn [flat_map app]. unfold numbered. cbn. rewrite app_nil_r. reflexivity.
  - destruct (IH (k + 1) s) as [k' E]. exists k'. rewrite numbered_cons.
    destruct (row_line r) as (t & Et & Ht & Hn); [apply Hr|].
    cbn [flat_map]. unfold row_text at 1. rewrite Et.
    replace (((dec_pad 10 (Z.to_N (tOff r)) ++ bs " " ++ dec_pad 5 (Z.to_N (tGen r)) ++ bs " " ++
       (if tUse r then bs "n" else bs "f") ++ t ++ [x0a]) ++ flat_map row_text rows) ++ s)
      with ((row_core r ++ t) ++ x0a :: flat_map row_text rows ++ s) by (unfold row_core; rewrite <- !app_assoc; reflexivity).
    rewrite split_on_line.
    2:{ intros Hi. apply in_app_or in Hi. destruct Hi as [Hi|Hi]; [apply (row_core_no_nl r Hi)|contradiction]. }
    rewrite tl_row by assumption. rewrite E. unfold used. cbn [filter fst snd]. rewrite <- app_assoc. f_equal.
    destruct (tUse r); cbn [map rev fst snd]; [reflexivity|rewrite app_nil_r; reflexivity].
Qed.

Lemma tl_subs subs : Forall sub_ok subs -> forall cur s, exists cur',
  table_lines (split_on x0a (flat_map sub_text subs ++ s)) cur =
  table_lines (split_on x0a s) cur' ++ rev (used (table_rows subs)).
Proof.
  induction 1 as [|b subs Hb _ IH]; intros cur s.
  - exists cur. cbn [flat_map app]. cbn. rewrite app_nil_r. reflexivity.
  - destruct Hb as (H1 & H2 & H3 & H4). destruct (end_line _ H3) as (t & Et & Ht & Hn).
    cbn [flat_map]. unfold sub_text at 1. rewrite Et.
    replace (((decZ (sFirst b) ++ bs " " ++ decZ (Z.of_nat (length (sRows b))) ++ (t ++ [x0a]) ++ flat_map row_text (sRows b)) ++
      flat_map sub_text subs) ++ s)
      with ((sub_core b ++ t) ++ x0a :: flat_map row_text (sRows b) ++ flat_map sub_text subs ++ s) by (unfold sub_core; rewrite <- !app_assoc; reflexivity).
    rewrite split_on_line.
    2:{ intros Hi. apply in_app_or in Hi. destruct Hi as [Hi|Hi]; [apply (sub_core_no_nl b ltac:(lia) Hi)|contradiction]. }
    change (2 ^ 62) with 4611686018427387904 in H1. 
    rewrite tl_sub by (try assumption; change (2 ^ 63) with 9223372036854775808; lia).
    destruct (tl_rows (sRows b) H4 (sFirst b) (flat_map sub_text subs ++ s)) as [k' E].
    destruct (IH (Some k') s) as [cur' E']. exists cur'. rewrite E, E'.
    unfold table_rows. cbn [flat_map]. fold (table_rows subs). rewrite used_app, rev_app_distr, app_assoc. reflexivity.
Qed.

Lemma tl_trailer u cur : (forall l ls, split_on x0a (bs "trailer" ++ u) = l :: ls -> table_lines (l :: ls) cur = []).
Proof.
  intros l ls E.
  assert (exists v, l = bs "trailer" ++ v) as [v ->].
  { change (bs "trailer" ++ u) with ("t"%byte :: bs "railer" ++ u) in E.
    assert (forall p, ~ In x0a p -> forall l ls, split_on x0a (p ++ u) = l :: ls -> exists v, l = p ++ v) as H.
    { induction p as [|c p IH]; intros Hp l0 ls0 E0; [eexists; reflexivity|]. cbn [app split_on] in E0.
      destruct (beqb c x0a) eqn:Ec; [apply beqb_eq in Ec; subst; exfalso; apply Hp; left; reflexivity|].
      destruct (split_on x0a (p ++ u)) as [|l1 ls1] eqn:E1; [exfalso; revert E1; apply split_on_nonnil|].
      injection E0 as <- <-. destruct (IH ltac:(intros Hi; apply Hp; right; exact Hi) _ _ eq_refl) as [v ->]. exists v. reflexivity. }
    apply (H (bs "trailer") ltac:(apply no_nl_in; reflexivity) _ _ E). }
  cbn [table_lines].
  assert (exists v', trim is_ws (bs "trailer" ++ v) = bs "trailer" ++ v') as [v' E'].
  { unfold trim. rewrite drop_while_stop by reflexivity. unfold rtrim. rewrite rev_app_distr.
    assert (forall a, exists a', drop_while is_ws (a ++ rev (bs "trailer")) = a' ++ rev (bs "trailer")) as Hd.
    { induction a as [|c a IH]; [exists []; reflexivity|]. cbn [app drop_while]. destruct (is_ws c); [exact IH|exists (c :: a); reflexivity]. }
    destruct (Hd (rev v)) as [a' ->]. exists (rev a'). rewrite rev_app_distr, rev_involutive. reflexivity. }
  rewrite E'. rewrite prefixb_app. reflexivity.
Qed.

Lemma trad_conforming f a e subs r : f = a ++ table_text e subs ++ bs "trailer" ++ r ->
  line_end e -> Forall sub_ok subs -> Z.of_nat (length (table_text e subs)) + 7 <= 10000 ->
  xsObjects (parseTraditionalxrefSection f (flen a)) = rev (used (table_rows subs)).
Proof.
  intros -> He Hs Hl. unfold parseTraditionalxrefSection. cbn [xsObjects].
  unfold from, flen. rewrite Nat2Z.id, skipn_app_exact.
  rewrite take_app_l by lia. rewrite take_app_l by (change (length (bs "trailer")) with 7%nat; lia).
  set (r' := take _ r). destruct (end_line e He) as (t & -> & Ht & Hn).
  unfold table_text. rewrite <- !app_assoc.
  match goal with |- context [split_on x0a (bs "xref" ++ t ++ [x0a] ++ ?s)] =>
    replace (bs "xref" ++ t ++ [x0a] ++ s) with ((bs "xref" ++ t) ++ x0a :: s) by (rewrite <- !app_assoc; reflexivity) end.
  rewrite split_on_line.
  2:{ intros Hi. apply in_app_or in Hi. destruct Hi as [Hi|Hi]; [cbn in Hi; intuition discriminate|contradiction]. }
  rewrite (trim_core (bs "xref") t (bs "xre") "f"%byte) by (try reflexivity; exact Ht).
  rewrite bytes_eqb_refl.
  destruct (tl_subs subs Hs None (bs "trailer" ++ r')) as [cur' ->].
  destruct (split_on x0a (bs "trailer" ++ r')) as [|l ls] eqn:E; [exfalso; revert E; apply split_on_nonnil|].
  rewrite (tl_trailer r' cur' l ls E). reflexivity.
Qed.

Lemma line_end_white e : line_end e -> white e.
Proof. intros [->|[->| ->]] b Hb; cbn in Hb; decompose [or] Hb; subst; try reflexivity; contradiction. Qed.
Lemma table_no_trailer e subs : line_end e -> Forall sub_ok subs -> nostart (bs "trailer") (table_text e subs).
Proof.
  intros He Hs. change (bs "trailer") with ("t"%byte :: bs "railer"). unfold table_text.
  apply nostart_app; [apply nostartb_ok; reflexivity|].
  apply nostart_app; [apply white_nostart; [apply line_end_white, He|reflexivity]|].
  apply nostart_flat_map. intros s Hi. rewrite Forall_forall in Hs. destruct (Hs s Hi) as (H1 & H2 & H3 & H4). unfold sub_text.
  apply nostart_app; [apply nostart_decZ; [lia|reflexivity]|].
  apply nostart_app; [apply nostartb_ok; reflexivity|].
  apply nostart_app; [apply nostart_decZ; [lia|reflexivity]|].
  apply nostart_app; [apply white_nostart; [apply line_end_white, H3|reflexivity]|].
  apply nostart_flat_map. intros r Hr. rewrite Forall_forall in H4. destruct (H4 r Hr) as (_ & _ & H5). unfold row_text.
  apply nostart_app; [apply nostart_dec_pad; reflexivity|].
  apply nostart_app; [apply nostartb_ok; reflexivity|].
  apply nostart_app; [apply nostart_dec_pad; reflexivity|].
  apply nostart_app; [apply nostartb_ok; reflexivity|].
  apply nostart_app; [destruct (tUse r); apply nostartb_ok; reflexivity|].
  apply white_nostart; [apply line_end_white, H5|reflexivity].
Qed.

Lemma section_split f x subs d : section_at f x subs d ->
  exists sec, from x f = sec /\ prefixb (bs "xref") sec = true /\ trailer_dict sec = Some (bs "<<" ++ d ++ bs ">>") /\
    x < flen f /\ xsObjects (parseTraditionalxrefSection f x) = rev (used (table_rows subs)).
Proof.
  intros (a & e & w & post & E & -> & He & Hs & Hw & Hd & Hl).
  exists (table_text e subs ++ bs "trailer" ++ w ++ bs "<<" ++ d ++ bs ">>" ++ post). split; [|split; [|split; [|split]]].
  - unfold from, flen. rewrite Nat2Z.id, E, skipn_app_exact. reflexivity.
  - unfold table_text. rewrite <- app_assoc. apply prefixb_app.
  - apply trailer_dict_balanced; [apply table_no_trailer; assumption| |exact Hd].
    apply (white_nostart "<"%byte (bs "<")); [exact Hw|reflexivity].
  - unfold flen. rewrite E, app_length. unfold table_text. rewrite !app_length. change (length (bs "xref")) with 4%nat. lia.
  - apply (trad_conforming f a e subs _ E He Hs Hl).
Qed.

Lemma section_parses inflate f x subs d : section_at f x subs d ->
  parsexrefSection inflate f x = Ok (parseTraditionalxrefSection f x).
Proof.
  intros H. destruct (section_split f x subs d H) as (sec & E1 & E2 & E3 & E4 & E5).
  unfold parsexrefSection. replace (flen f <=? x) with false by lia. rewrite E1, E2. reflexivity.
Qed.
Lemma section_prev f x subs d : section_at f x subs d ->
  findPrevOffset f x = parse_int64 (value_of (find (m_key (bs "/Prev")) (bs "<<" ++ d ++ bs ">>"))).
Proof.
  intros H. destruct (section_split f x subs d H) as (sec & E1 & E2 & E3 & E4 & E5).
  unfold findPrevOffset. replace (flen f <=? x) with false by lia. rewrite E1, E2, E3. reflexivity.
Qed.
Lemma slash_prev : slash_key (bs "/Prev").
Proof. exists (bs "Prev"). split; [reflexivity|]. intros H. cbn in H. intuition discriminate. Qed.
Lemma slash_root : slash_key (bs "/Root").
Proof. exists (bs "Root"). split; [reflexivity|]. intros H. cbn in H. intuition discriminate. Qed.
Lemma slash_info : slash_key (bs "/Info").
Proof. exists (bs "Info"). split; [reflexivity|]. intros H. cbn in H. intuition discriminate. Qed.
Lemma slash_size : slash_key (bs "/Size").
Proof. exists (bs "Size"). split; [reflexivity|]. intros H. cbn in H. intuition discriminate. Qed.

Lemma section_fields f x subs d : section_at f x subs d ->
  (forall n, mget n (xsObjects (parseTraditionalxrefSection f x)) = table_says subs n) /\
  (forall n, mget n (xsStreams (parseTraditionalxrefSection f x)) = None) /\
  (forall y, 0 <= y < 2 ^ 63 -> states (bs "/Prev") (decZ y) d -> xsPrev (parseTraditionalxrefSection f x) = y) /\
  (forall n g, 0 <= n -> 0 <= g -> states (bs "/Root") (reference n g) d -> xsRoot (parseTraditionalxrefSection f x) = reference n g) /\
  (forall n g, 0 <= n -> 0 <= g -> states (bs "/Info") (reference n g) d -> xsInfo (parseTraditionalxrefSection f x) = reference n g) /\
  (forall k, 0 <= k < 2 ^ 63 -> states (bs "/Size") (decZ k) d -> xsSize (parseTraditionalxrefSection f x) = k).
Proof.
  intros H. destruct (section_split f x subs d H) as (sec & E1 & E2 & E3 & E4 & E5). repeat split; intros.
  - rewrite E5. reflexivity.
  - unfold parseTraditionalxrefSection. cbn [xsPrev]. rewrite E1, E3. rewrite (states_key _ y) by (try apply slash_prev; try lia; assumption).
    cbn [atoi0]. apply atoi_clip_decZ. assumption.
  - unfold parseTraditionalxrefSection. cbn [xsRoot]. rewrite E1, E3. rewrite (states_ref _ n g) by (try apply slash_root; assumption). reflexivity.
  - unfold parseTraditionalxrefSection. cbn [xsInfo]. rewrite E1, E3. rewrite (states_ref _ n g) by (try apply slash_info; assumption). reflexivity.
  - unfold parseTraditionalxrefSection. cbn [xsSize]. rewrite E1, E3. rewrite (states_key _ k) by (try apply slash_size; try lia; assumption).
    cbn [atoi0]. apply atoi_clip_decZ. assumption.
Qed.

(** Chains *)
Lemma chain_bounds f x c : table_chain f x c -> 0 < x < flen f.
Proof.
  induction 1 as [x subs d H0 Hs _|x y subs d older Hx Hs _ _ IH]; destruct (section_split _ _ _ _ Hs) as (sec & _ & _ & _ & E & _); lia.
Qed.
Lemma chain_prev f x c : table_chain f x c -> forall fuel visited l, (forall v, In v visited -> x < v) ->
  prev_chain fuel f visited x = Some l -> x :: l = map (fun s => fst (fst s)) c.
Proof.
  induction 1 as [x subs d H0 Hs Hp|x y subs d older Hx Hs Hp Hc IH]; intros fuel visited l Hv E.
  - destruct fuel as [|fuel]; cbn [prev_chain] in E.
    + destruct (_ && _) eqn:Eb in E; [discriminate|]. injection E as <-. reflexivity.
    + destruct (_ && _) eqn:Eb in E; [|injection E as <-; reflexivity].
      rewrite (section_prev f x subs d Hs) in E.
      rewrite (find_nolit (m_key (bs "/Prev")) (bs "/Prev")) in E.
      * cbn [value_of option_map parse_int64] in E. injection E as <-. reflexivity.
      * apply m_key_lit.
      * apply (unstated _ _ (bs "Prev")); [reflexivity|intros Hi; cbn in Hi; intuition discriminate|exact Hp].
  - pose proof (chain_bounds f y older Hc) as Hy.
    assert (0 <? x = true) as Eb1 by lia.
    assert (existsb (Z.eqb x) visited = false) as Eb2.
    { destruct (existsb (Z.eqb x) visited) eqn:Ex; [|reflexivity]. apply existsb_eqb_in in Ex. specialize (Hv x Ex). lia. }
    destruct fuel as [|fuel]; cbn [prev_chain] in E; rewrite Eb1, Eb2 in E; cbn [andb negb] in E; [discriminate|].
    rewrite (section_prev f x subs d Hs) in E. rewrite (states_key _ y) in E by (try apply slash_prev; try lia; assumption).
    cbn [parse_int64] in E. rewrite atoi_decZ in E by lia.
    replace ((0 <? y) && (y <? flen f)) with true in E by lia.
    destruct (prev_chain fuel f (x :: visited) y) as [l'|] eqn:El; [|discriminate]. injection E as <-.
    cbn [map fst]. f_equal. apply (IH fuel (x :: visited) l'); [|exact El].
    intros v [<-|Hvv]; [lia|]. specialize (Hv v Hvv). lia.
Qed.

Lemma chain_sections inflate f x c : table_chain f x c ->
  sections_at inflate f (map (fun s => fst (fst s)) c) = map (fun s => parseTraditionalxrefSection f (fst (fst s))) c /\
  forall n, newest_binding n (map xsObjects (map (fun s => parseTraditionalxrefSection f (fst (fst s))) c)) = chain_says c n /\
            newest_binding n (map xsStreams (map (fun s => parseTraditionalxrefSection f (fst (fst s))) c)) = None.
Proof.
  induction 1 as [x subs d H0 Hs Hp|x y subs d older Hx Hs Hp Hc [IH1 IH2]].
  - cbn [map fst sections_at flat_map]. unfold sections_at. cbn [flat_map]. rewrite (section_parses _ _ _ _ _ Hs). split; [reflexivity|].
    intros n. cbn [newest_binding chain_says]. destruct (section_fields _ _ _ _ Hs) as (F1 & F2 & _). rewrite F1, F2. 
    destruct (table_says subs n); split; reflexivity.
  - cbn [map fst]. unfold sections_at in *. cbn [flat_map]. rewrite (section_parses _ _ _ _ _ Hs). cbn [app]. split; [rewrite IH1; reflexivity|].
    intros n. cbn [newest_binding chain_says]. destruct (section_fields _ _ _ _ Hs) as (F1 & F2 & _). rewrite F1, F2.
    destruct (IH2 n) as [-> ->]. destruct (table_says subs n); split; reflexivity.
Qed.

Lemma parse_sections_ok inflate f xs : (forall x, In x xs -> exists s, parsexrefSection inflate f x = Ok s) ->
  parse_sections inflate f xs = Ok (sections_at inflate f xs).
Proof.
  induction xs as [|x xs IH]; intros H; [reflexivity|]. cbn [parse_sections sections_at flat_map].
  destruct (H x (or_introl eq_refl)) as [s Es]. rewrite Es. unfold sections_at in *.
  rewrite IH by (intros; apply H; right; assumption). reflexivity.
Qed.
Lemma chain_all inflate f x c : table_chain f x c ->
  forall y, In y (map (fun s => fst (fst s)) c) -> exists s, parsexrefSection inflate f y = Ok s.
Proof.
  induction 1 as [x subs d H0 Hs Hp|x y subs d older Hx Hs Hp Hc IH]; intros z Hz; cbn [map fst] in Hz.
  - destruct Hz as [<-|[]]. eexists. apply (section_parses inflate _ _ _ _ Hs).
  - destruct Hz as [<-|Hz]; [eexists; apply (section_parses inflate _ _ _ _ Hs)|apply IH, Hz].
Qed.

Lemma sections_rev inflate f xs : sections_at inflate f (rev xs) = rev (sections_at inflate f xs).
Proof.
  unfold sections_at. apply flat_map_rev1. intros y. destruct (parsexrefSection inflate f y); cbn; lia.
Qed.

Lemma chain_nonempty f x c : table_chain f x c -> exists subs d older, c = (x, subs, d) :: older /\ section_at f x subs d.
Proof. destruct 1; eauto 6. Qed.

(** Opening a file whose tables form a chain. *)
Lemma open_chain inflate crypt f x c : findLastStartXRef f = Ok x -> table_chain f x c ->
  8 <= flen f -> contains (bs "/Encrypt") f = false ->
  exists p, Open inflate crypt f = Ok p /\ pRaw p = f /\ pDec p = None /\
    (forall n, mget n (pXref p) = option_map AtOffset (chain_says c n)) /\
    (forall subs d older, c = (x, subs, d) :: older ->
       (forall n g, 0 <= n -> 0 <= g -> states (bs "/Root") (reference n g) d -> pRoot p = reference n g) /\
       (forall k, 0 <= k < 2 ^ 63 -> states (bs "/Size") (decZ k) d -> pSize p = k)).
Proof.
  intros Hx Hc Hl He.
  destruct (prev_chain_terminates f x) as (l & El & _ & _ & _).
  assert (x :: l = map (fun s => fst (fst s)) c) as Exl by (apply (chain_prev f x c Hc (S (S (length f))) [] l ltac:(intros v []) El)).
  destruct (chain_sections inflate f x c Hc) as [Es Eb].
  assert (parse_sections inflate f (rev (x :: l)) = Ok (rev (map (fun s => parseTraditionalxrefSection f (fst (fst s))) c))) as Ep.
  { rewrite parse_sections_ok, sections_rev, Exl, Es; [reflexivity|].
    intros y Hy. apply in_rev in Hy. rewrite Exl in Hy. apply (chain_all inflate f x c Hc y Hy). }
  assert (parseIncremental inflate f = Ok (merge (map xsObjects (rev (map (fun s => parseTraditionalxrefSection f (fst (fst s))) c))),
     merge (map xsStreams (rev (map (fun s => parseTraditionalxrefSection f (fst (fst s))) c))),
     rev (map (fun s => parseTraditionalxrefSection f (fst (fst s))) c))) as Ei.
  { unfold parseIncremental. rewrite Hx. cbn [rbind]. unfold parseXRefChain. rewrite El, Ep.
    destruct (rev (map (fun s => parseTraditionalxrefSection f (fst (fst s))) c)) as [|s0 ss] eqn:Er; [|reflexivity].
    apply (f_equal (@length _)) in Er. rewrite rev_length, map_length in Er.
    destruct (chain_nonempty f x c Hc) as (? & ? & ? & -> & _). discriminate. }
  assert (mentions_encrypt f = false) as Em.
  { unfold mentions_encrypt. rewrite (find_nolit (m_ref (bs "/Encrypt")) (bs "/Encrypt")); [reflexivity|apply m_ref_lit|exact He]. }
  unfold Open. replace (flen f <? 8) with false by lia. rewrite Em. cbn [rbind]. unfold parseStandard. rewrite Ei.
  eexists. split; [reflexivity|]. cbn [pRaw pDec pXref pRoot pSize]. split; [reflexivity|]. split; [reflexivity|]. split.
  - intros n. rewrite mget_app.
    rewrite (mget_map (fun si => InStream (fst si) (snd si)) n). rewrite (mget_map AtOffset n).
    rewrite !merge_newest, <- !map_rev, rev_involutive. destruct (Eb n) as [-> ->]. reflexivity.
  - intros subs d older ->. rewrite rev_involutive. cbn [map fst].
    inversion Hc as [? ? ? ? Hs|? ? ? ? ? ? Hs]; subst; destruct (section_fields _ _ _ _ Hs) as (_ & _ & _ & F4 & _ & F6); split; intros; auto.
Qed.

(** Objects of any generation *)
Lemma m_objnum_gen n g s : 0 <= n -> 0 <= g -> m_objnum n (decZ n ++ bs " " ++ decZ g ++ bs " obj" ++ s) = Some (decZ g).
Proof.
  intros Hn Hg. unfold m_objnum. rewrite lit_app. cbn [obind].
  match goal with |- context [ws1 (bs " " ++ ?x)] => change (bs " " ++ x) with (" "%byte :: x) end.
  rewrite ws1_space by (apply digits_head; auto using XrefProofs.decZ_nonnil, decZ_digits, digit_not_ws). cbn [obind].
  rewrite digits1_app by (auto using XrefProofs.decZ_nonnil, decZ_digits; reflexivity). cbn [obind].
  change (bs " obj" ++ s) with (" "%byte :: bs "obj" ++ s). rewrite ws1_space by reflexivity. cbn [obind]. rewrite lit_app. reflexivity.
Qed.

Lemma index_obj_gen n g s : 0 <= n -> 0 <= g ->
  index (bs "obj") (decZ n ++ bs " " ++ decZ g ++ bs " obj" ++ s) = Some (length (decZ n) + length (decZ g) + 2)%nat.
Proof.
  intros Hn Hg.
  replace (decZ n ++ bs " " ++ decZ g ++ bs " obj" ++ s) with ((decZ n ++ bs " " ++ decZ g ++ bs " ") ++ bs "obj" ++ s) by (rewrite <- !app_assoc; reflexivity).
  rewrite index_at; [rewrite !app_length; change (length (bs " ")) with 1%nat; f_equal; lia|].
  apply nostart_app; [apply nostart_decZ; [exact Hn|reflexivity]|]. apply nostart_app; [apply nostartb_ok; reflexivity|].
  apply nostart_app; [apply nostart_decZ; [exact Hg|reflexivity]|]. apply nostartb_ok; reflexivity.
Qed.

Lemma read_object_gen n g t rest : 0 <= n -> 0 <= g -> readable t ->
  read_object None n g (gen_object n g t ++ rest) = Ok (gen_object n g t).
Proof.
  intros Hn Hg (R1 & R2 & R3 & R4 & R5). unfold read_object.
  set (H := decZ n ++ bs " " ++ decZ g ++ bs " obj" ++ nl).
  assert (gen_object n g t ++ rest = (H ++ t ++ nl) ++ bs "endobj" ++ rest) as ED.
  { unfold gen_object, H. rewrite <- !app_assoc. reflexivity. }
  assert (forall x, H ++ x ++ nl ++ bs "endobj" = gen_object n g x) as EG.
  { intros x. unfold gen_object, H. rewrite <- !app_assoc. reflexivity. }
  rewrite ED.
  assert (nostart (bs "endobj") (H ++ t ++ nl)) as Hns.
  { apply nostart_app; [|apply nostart_sep; [exact R1| |discriminate]].
    - unfold H. apply nostart_app; [apply nostart_decZ; [exact Hn|reflexivity]|].
      apply nostart_app; [apply nostartb_ok; reflexivity|].
      apply nostart_app; [apply nostart_decZ; [exact Hg|reflexivity]|apply nostartb_ok; reflexivity].
    - intros Hi; cbn in Hi; decompose [or] Hi; try discriminate; contradiction. }
  rewrite index_at by exact Hns.
  rewrite firstn_len_app by reflexivity.
  set (i := (length (decZ n) + length (decZ g) + 2)%nat).
  assert (index (bs "obj") (H ++ t ++ nl) = Some i) as Ei.
  { unfold H. rewrite <- !app_assoc. apply index_obj_gen; assumption. }
  rewrite Ei.
  assert (length H = (i + 4)%nat) as HH by (unfold H, i; rewrite !app_length; change (length (bs " obj")) with 4%nat; change (length (bs " ")) with 1%nat; change (length nl) with 1%nat; lia).
  assert (forall cs, (cs <= length (H ++ t ++ nl))%nat ->
    sub cs (length (H ++ t ++ nl)) ((H ++ t ++ nl) ++ bs "endobj" ++ rest) = skipn cs (H ++ t ++ nl)) as Hsub.
  { intros cs Hcs. unfold sub. rewrite skipn_app_l by exact Hcs. apply firstn_len_app. apply skipn_length. }
  assert (skipn (i + 3) (H ++ t ++ nl) = nl ++ t ++ nl) as Es.
  { unfold H, i. rewrite <- !app_assoc.
    match goal with |- skipn ?k (?a ++ ?b ++ ?c ++ ?d ++ ?r) = _ => replace (a ++ b ++ c ++ d ++ r) with ((a ++ b ++ c ++ d) ++ r) by (rewrite <- !app_assoc; reflexivity) end.
    apply skipn_len_app. rewrite !app_length. change (length (bs " obj")) with 4%nat; change (length (bs " ")) with 1%nat. lia. }
  rewrite (Hsub (i + 3)%nat) by (rewrite app_length, HH; lia). rewrite Es.
  destruct t as [|b t'] eqn:Et.
  - change (nl ++ [] ++ nl) with [x0a; x0a]. change (take_while is_blank [x0a; x0a]) with [x0a; x0a]. cbn [length app].
    rewrite Hsub by (rewrite app_length, HH; cbn [app length nl]; lia).
    replace (i + 3 + 2)%nat with (length (H ++ nl)) by (rewrite app_length, HH; cbn [length nl]; lia).
    rewrite app_nil_l. rewrite skipn_all. cbn [index prefixb bs list_byte_of_string].
    unfold obj_result, gen_object. cbn [app suffixb length Nat.leb andb]. reflexivity.
  - rewrite <- Et in *. assert (t <> []) as Hne by (rewrite Et; discriminate).
    change (nl ++ t ++ nl) with (x0a :: t ++ nl).
    rewrite take_blank_one; [|rewrite Et in *; exact R4|exact Hne]. cbn [length].
    rewrite Hsub by (rewrite !app_length, HH; lia).
    replace (i + 3 + 1)%nat with (length H) by lia. rewrite skipn_app_exact.
    assert (~ In x0a (bs "stream")) as N1 by (intros Hi; cbn in Hi; decompose [or] Hi; try discriminate; contradiction).
    assert (~ In x0a (bs "endstream")) as N2 by (intros Hi; cbn in Hi; decompose [or] Hi; try discriminate; contradiction).
    destruct (contains (bs "stream") t) eqn:Ec.
    + destruct R5 as [R5|R5]; [discriminate|].
      change nl with [x0a]. rewrite index_end by assumption.
      destruct (index (bs "stream") t) as [st|] eqn:Est; [|unfold contains in Ec; rewrite Est in Ec; discriminate].
      rewrite index_end; [|unfold contains; rewrite R5; reflexivity|exact N2]. rewrite R5. cbn [rbind].
      destruct (endstream_suffix t R5) as [Hlen Hsuf].
      replace (length t - 9 + 9)%nat with (length t) by lia.
      rewrite firstn_len_app by reflexivity. unfold obj_result, gen_object. rewrite Hsuf.
      try rewrite <- !app_assoc; reflexivity.
    + assert (index (bs "stream") (t ++ nl) = None) as ->.
      { assert (contains (bs "stream") (t ++ nl) = false) as E.
        { apply nostart_contains; [discriminate|]. apply nostart_sep; [exact Ec|exact N1|discriminate]. }
        unfold contains in E. destruct (index (bs "stream") (t ++ nl)); [discriminate|reflexivity]. }
      unfold obj_result, gen_object. change nl with [x0a]. rewrite suffix_last. try rewrite <- !app_assoc; reflexivity.
Qed.

Lemma get_direct_gen f pre n g t post : 0 <= n < 2 ^ 63 -> 0 <= g < 2 ^ 63 -> readable t -> f = pre ++ gen_object n g t ++ post ->
  GetDirectObject None f n (flen pre) = Ok (gen_object n g t).
Proof.
  intros Hn Hg Ht ->. unfold GetDirectObject, flen, from. rewrite Nat2Z.id, skipn_app_exact.
  rewrite lt_app; [|unfold gen_object; pose proof (XrefProofs.decZ_nonnil n ltac:(lia)); destruct (decZ n); [congruence|discriminate]].
  replace (Z.of_nat (length pre) <? 0) with false by lia. cbn [orb].
  assert (exists r, take 50 (gen_object n g t ++ post) = decZ n ++ bs " " ++ decZ g ++ bs " obj" ++ r) as [r ->].
  { unfold gen_object. rewrite <- !app_assoc. pose proof (decZ_length63 n Hn). pose proof (decZ_length63 g Hg).
    rewrite take_app_l by lia. rewrite take_app_l by (change (length (bs " ")) with 1%nat; lia).
    rewrite take_app_l by (change (length (bs " ")) with 1%nat; lia).
    rewrite take_app_l by (change (length (bs " ")) with 1%nat; change (length (bs " obj")) with 4%nat; lia). eauto. }
  rewrite m_objnum_gen by lia. rewrite atoi_clip_decZ by exact Hg. apply read_object_gen; [lia|lia|exact Ht].
Qed.

Lemma open_chain_objects inflate crypt f x c : findLastStartXRef f = Ok x -> table_chain f x c ->
  8 <= flen f -> contains (bs "/Encrypt") f = false ->
  exists p, Open inflate crypt f = Ok p /\
    (forall n, chain_says c n = None -> PGetObject inflate p n = Err /\ PHasObject p n = false) /\
    (forall n g t pre post, chain_says c n = Some (flen pre) -> f = pre ++ gen_object n g t ++ post ->
       0 <= n < 2 ^ 63 -> 0 <= g < 2 ^ 63 -> readable t ->
       PGetObject inflate p n = Ok (gen_object n g t) /\ PHasObject p n = true) /\
    (forall subs d older, c = (x, subs, d) :: older ->
       (forall n g, 0 <= n -> 0 <= g -> states (bs "/Root") (reference n g) d -> pRoot p = reference n g) /\
       (forall k, 0 <= k < 2 ^ 63 -> states (bs "/Size") (decZ k) d -> pSize p = k)).
Proof.
  intros Hx Hc Hl He. destruct (open_chain inflate crypt f x c Hx Hc Hl He) as (p & H1 & H2 & H3 & H4 & H5).
  exists p. split; [exact H1|]. split; [|split; [|exact H5]].
  - intros n E. unfold PGetObject, PHasObject, mem. rewrite H4, E. split; reflexivity.
  - intros n g t pre post E Ef Hn Hg Ht. unfold PGetObject, PHasObject, mem. rewrite H4, E. cbn [option_map]. split; [|reflexivity].
    rewrite H2, H3. apply (get_direct_gen f pre n g t post); assumption.
Qed.

(** The parsed object numbers *)
Lemma objects_listed p : NoDup (PObjects p) /\ length (PObjects p) = PObjectCount p /\
  forall n, In n (PObjects p) <-> PHasObject p n = true.
Proof.
  split; [apply mkeys_nodup|]. split; [reflexivity|]. intros n. unfold PObjects, PHasObject, mem. rewrite mkeys_in.
  destruct (mget n (pXref p)); split; intros H; eauto; try discriminate. destruct H as [v Hv]. discriminate.
Qed.
