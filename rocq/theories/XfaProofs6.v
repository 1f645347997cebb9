(** Proofs for the dictionaries read when a document is rebuilt. *)
From Verif Require Import Util Scan XfaModel XfaSpec WriterProofs XrefProofs XfaProofs2.
From Verif Require ManipProofs ManipProofs2 ReadProofs.
Local Open Scope Z_scope.

Lemma trim_white w1 x w2 b t c u : forallb is_space w1 = true -> forallb is_space w2 = true ->
  x = b :: t -> is_space b = false -> x = u ++ [c] -> is_space c = false -> trim is_space (w1 ++ x ++ w2) = x.
Proof.
  intros H1 H2 E1 Hb E2 Hc. unfold trim. rewrite drop_while_app; [|exact H1|rewrite E1; exact Hb].
  unfold rtrim. rewrite rev_app_distr. rewrite drop_while_app.
  - apply rev_involutive.
  - rewrite forallb_forall in *. intros y Hy. apply H2. apply in_rev. exact Hy.
  - rewrite E2, rev_app_distr. exact Hc.
Qed.

Lemma ws_space b : is_ws b = true -> is_space b = true.
Proof. destruct b; cbn; intros H; try reflexivity; discriminate H. Qed.
Lemma trim_ws0 s : trim is_space (ws0 s) = trim is_space s.
Proof.
  unfold trim, ws0. f_equal. induction s as [|b s IH]; [reflexivity|]. cbn [drop_while]. destruct (is_ws b) eqn:E; [|reflexivity].
  rewrite (ws_space b E). exact IH.
Qed.
Lemma ws0_length s : (length (ws0 s) <= length s)%nat.
Proof. unfold ws0. induction s as [|b s IH]; [apply Nat.le_refl|]. cbn [drop_while]. destruct (is_ws b); cbn [length]; lia. Qed.

Lemma ws0_app v r : match r with [] => True | c :: _ => is_ws c = false end -> ws0 (v ++ r) = ws0 v ++ r.
Proof.
  intros H. unfold ws0. induction v as [|b v IH]; [cbn [app drop_while]; apply ReadProofs.drop_while_stop; exact H|].
  cbn [app drop_while]. destruct (is_ws b); [exact IH|reflexivity].
Qed.

Definition segs (l : list (bytes * bytes)) : bytes := flat_map (fun e => bs "/" ++ fst e ++ snd e) l.
Definition tail_ok (z : bytes) : Prop := match z with [] => True | c :: _ => c = "/"%byte end.
Lemma segs_tail l : tail_ok (segs l).
Proof. destruct l as [|e l]; [exact I|reflexivity]. Qed.

Lemma key_here k v z : word k -> match v with c :: _ => is_word c = false | [] => True end -> tail_ok z ->
  m_dict_key ((bs "/" ++ k ++ v) ++ z) = Some (k, ws0 v ++ z).
Proof.
  intros [Hn Hk] Hv Hz. unfold m_dict_key. rewrite <- !app_assoc, lit_app. cbn [obind].
  assert (Hvz : match v ++ z with [] => True | c :: _ => is_word c = false end).
  { destruct v as [|c v]; [|exact Hv]. cbn [app]. destruct z as [|c z]; [exact I|]. cbn [tail_ok] in Hz. subst c. reflexivity. }
  rewrite take_while_app by assumption. destruct k as [|c k]; [congruence|].
  rewrite drop_while_app by assumption. f_equal. f_equal. apply ws0_app.
  destruct z as [|x z]; [exact I|]. cbn [tail_ok] in Hz. subst x. reflexivity.
Qed.
Lemma noslash_nomatch v z : ~ In "/"%byte v -> matches m_dict_key (v ++ z) 0 = matches m_dict_key z 0.
Proof.
  induction v as [|c v IH]; intros H; [reflexivity|]. cbn [app matches]. 
  assert (m_dict_key (c :: v ++ z) = None) as ->.
  { unfold m_dict_key. cbn [lit bs]. replace (lit (bs "/") (c :: v ++ z)) with (@None bytes); [reflexivity|]. symmetry. apply lit_none.
    cbn [prefixb]. change (prefixb (bs "/") (c :: v ++ z)) with (beqb "/" c && true). destruct (beqb "/" c) eqn:E; [|reflexivity]. apply beqb_eq in E. exfalso. apply H. left. auto. }
  apply IH. intros Q. apply H. right. exact Q.
Qed.

Lemma ws0_suffix v : exists w, v = w ++ ws0 v.
Proof. unfold ws0. induction v as [|b v [w IH]]; [exists []; reflexivity|]. cbn [drop_while]. destruct (is_ws b); [exists (b :: w); cbn [app]; f_equal; exact IH|exists []; reflexivity]. Qed.

Lemma segs_entries l : slashless l -> dict_entries (matches m_dict_key (segs l) 0) = map (fun e => (fst e, dict_value (trim is_space (snd e)))) l.
Proof.
  induction 1 as [|[k v] l (Hk & Hs & Hv) Hl IH]; [reflexivity|]. cbn [fst snd] in *.
  change (segs ((k, v) :: l)) with ((bs "/" ++ k ++ v) ++ segs l).
  destruct (ws0_suffix v) as [w Ew].
  assert (E : (bs "/" ++ k ++ v) ++ segs l = (bs "/" ++ k ++ w) ++ ws0 v ++ segs l) by (rewrite Ew at 1; rewrite <- !app_assoc; reflexivity).
  pose proof (key_here k v (segs l) Hk Hv (segs_tail l)) as M. rewrite E in *.
  rewrite (matches_step m_dict_key (bs "/" ++ k ++ w) (ws0 v ++ segs l) k); [|discriminate|exact M].
  rewrite noslash_nomatch by (intros Q; apply Hs; rewrite Ew; apply in_or_app; right; exact Q).
  cbn [dict_entries map fst snd]. rewrite IH. f_equal. f_equal. f_equal.
  assert (L : (length (ws0 v ++ segs l) - match matches m_dict_key (segs l) 0 with [] => 0 | (s, _, _) :: _ => length s end)%nat = length (ws0 v)).
  { destruct l as [|[k2 v2] l]; [rewrite app_length; cbn [segs flat_map length matches]; lia|].
    inversion Hl as [|x y (Hk2 & Hs2 & Hv2) Hl2]; subst. cbn [fst snd] in *.
    destruct (ws0_suffix v2) as [w2 Ew2].
    pose proof (key_here k2 v2 (segs l) Hk2 Hv2 (segs_tail l)) as M2.
    assert (E2 : (bs "/" ++ k2 ++ v2) ++ segs l = (bs "/" ++ k2 ++ w2) ++ ws0 v2 ++ segs l) by (rewrite Ew2 at 1; rewrite <- !app_assoc; reflexivity).
    change (segs ((k2, v2) :: l)) with ((bs "/" ++ k2 ++ v2) ++ segs l). rewrite E2 in *.
    rewrite (matches_step m_dict_key (bs "/" ++ k2 ++ w2) (ws0 v2 ++ segs l) k2); [|discriminate|exact M2]. rewrite (app_length (ws0 v)). lia. }
  rewrite L, ManipProofs.firstn_app_all. apply trim_ws0.
Qed.

Theorem dict_parsed l w1 w2 : slashless l -> forallb is_space w1 = true -> forallb is_space w2 = true ->
  parseDictionary (w1 ++ dict_text l ++ w2) = fold_left (fun d e => kset (fst e) (dict_value (trim is_space (snd e))) d) l [].
Proof.
  intros Hl H1 H2. unfold parseDictionary.
  rewrite (trim_white w1 (dict_text l) w2 "<"%byte (bs "<" ++ segs l ++ bs ">>") ">"%byte (bs "<<" ++ segs l ++ bs ">")); try assumption; try reflexivity.
  2:{ unfold dict_text. fold (segs l). change (bs ">>") with (bs ">" ++ [">"%byte]). rewrite <- !app_assoc. reflexivity. }
  unfold trim_prefix, dict_text. rewrite prefixb_app. fold (segs l).
  change (length (bs "<<")) with 2%nat. change (skipn 2 (bs "<<" ++ segs l ++ bs ">>")) with (segs l ++ bs ">>").
  assert (T : trim is_space (segs l ++ bs ">>") = segs l ++ bs ">>").
  { pose proof (segs_tail l) as St. destruct (segs l) as [|c s] eqn:E; [reflexivity|]. cbn [tail_ok] in St. subst c.
    pose proof (trim_white [] (("/"%byte :: s) ++ bs ">>") [] "/"%byte (s ++ bs ">>") ">"%byte (("/"%byte :: s) ++ bs ">")) as Q.
    cbn [app] in Q. rewrite app_nil_r in Q. apply Q; try reflexivity. change (bs ">>") with (bs ">" ++ [">"%byte]). rewrite app_assoc. reflexivity. }
  rewrite T, ManipProofs2.trim_suffix_app. rewrite segs_entries by exact Hl. clear.
  generalize (@nil (bytes * value)). induction l as [|e l IH]; intros acc; [reflexivity|]. cbn [map fold_left fst snd]. apply IH.
Qed.

Lemma array_long lim : forall a z, (lim <= length a)%nat -> forallb (fun b => negb (beqb b "[") && negb (beqb b "]")) a = true -> array_end lim 1 (a ++ z) = None.
Proof.
  induction lim as [|lim IH]; intros a z Hl Ha; [destruct (a ++ z); reflexivity|]. destruct a as [|b a]; [cbn [length] in Hl; lia|].
  cbn [app array_end forallb length] in *. apply andb_true_iff in Ha. destruct Ha as [Hb Ha]. apply andb_true_iff in Hb. destruct Hb as [B1 B2].
  apply negb_true_iff in B1, B2. rewrite B1, B2, IH by (try assumption; lia). reflexivity.
Qed.
Lemma long_array a : (length a >= array_limit)%nat -> forallb (fun b => negb (beqb b "[") && negb (beqb b "]")) a = true ->
  findXFAArrayContent (bs "<</XFA[" ++ a ++ bs "]>>") = Err.
Proof.
  intros Hl Ha. unfold findXFAArrayContent.
  destruct a as [|x a]; [unfold array_limit in Hl; cbn [length] in Hl; lia|].
  set (c := bs "<</XFA[" ++ (x :: a) ++ bs "]>>").
  assert (P : xfa_pos c = Some 2%nat).
  { unfold xfa_pos. assert (I0 : index (bs "<<") c = Some 0%nat) by reflexivity. rewrite I0. change (skipn 0 c) with c.
    assert (I1 : index (bs "/XFA") c = Some 2%nat) by reflexivity. rewrite I1.
    assert (D : dict_close 0 c = option_map (fun i => (i + 2)%nat) (option_map S (option_map S (option_map S (option_map S (option_map S (dict_close 1 ((x :: a) ++ bs "]>>")))))))) by reflexivity.
    rewrite D. destruct (dict_close 1 ((x :: a) ++ bs "]>>")) as [k|]; [|reflexivity]. cbn [option_map].
    replace (S (S (S (S (S k)))) + 2)%nat with (7 + k)%nat by lia.
    change (firstn (7 + k) c) with (bs "<</XFA[" ++ firstn k ((x :: a) ++ bs "]>>")).
    assert (I2 : forall z, index (bs "/XFA") (bs "<</XFA[" ++ z) = Some 2%nat) by reflexivity. rewrite I2. reflexivity. }
  rewrite P. change (skipn 2 c) with (bs "/XFA[" ++ (x :: a) ++ bs "]>>").
  assert (I3 : forall z, index (bs "[") (bs "/XFA[" ++ z) = Some 4%nat) by reflexivity. rewrite I3.
  change (skipn (2 + 4 + 1) c) with ((x :: a) ++ bs "]>>").
  rewrite array_long by assumption. reflexivity.
Qed.

Lemma name_lost k n : word k -> word n -> k <> n ->
  parseDictionary (bs "<</" ++ k ++ bs " /" ++ n ++ bs ">>") = [(k, VStr []); (n, VStr [])].
Proof.
  intros Hk Hn Hne.
  assert (E : bs "<</" ++ k ++ bs " /" ++ n ++ bs ">>" = [] ++ dict_text [(k, bs " "); (n, [])] ++ []).
  { unfold dict_text. cbn [flat_map fst snd app]. rewrite !app_nil_r, <- !app_assoc. reflexivity. }
  rewrite E, dict_parsed; try reflexivity.
  - cbn [fold_left fst snd]. change (trim is_space (bs " ")) with (@nil byte). change (trim is_space []) with (@nil byte).
    change (dict_value []) with (VStr []). cbn [kset]. replace (bytes_eqb n k) with false; [reflexivity|].
    symmetry. destruct (bytes_eqb n k) eqn:Q; [|reflexivity]. apply bytes_eqb_eq in Q. congruence.
  - constructor; [|constructor; [|constructor]]; cbn [fst snd].
    + split; [exact Hk|]. split; [intros [Q|[]]; discriminate Q|reflexivity].
    + split; [exact Hn|]. split; [intros []|exact I].
Qed.

Lemma signature_dropped deflate xs i j :
  BuildPDFFromXFAStreams deflate (xs ++ [(bs "signature", i); (bs "sourceSet", j)]) = BuildPDFFromXFAStreams deflate xs.
Proof.
  unfold BuildPDFFromXFAStreams. do 2 f_equal. unfold kept_streams.
  assert (G : forall k l, k <> bs "signature" -> k <> bs "sourceSet" -> kget k (l ++ [(bs "signature", i); (bs "sourceSet", j)]) = kget k l).
  { intros k l H1 H2. induction l as [|[a b] l IH]; cbn [app kget].
    - destruct (bytes_eqb k (bs "signature")) eqn:E; [apply bytes_eqb_eq in E; contradiction|].
      destruct (bytes_eqb k (bs "sourceSet")) eqn:E2; [apply bytes_eqb_eq in E2; contradiction|reflexivity].
    - rewrite IH. reflexivity. }
  unfold built_names. cbn [flat_map]. rewrite !G by discriminate. reflexivity.
Qed.

(** ** What is written for a value that was read *)
Lemma value_int x : 0 <= x < 2 ^ 63 -> formatValue (dict_value (decZ x)) = decZ x.
Proof. intros H. unfold dict_value. rewrite ReadProofs.atoi_decZ by exact H. reflexivity. Qed.
Lemma value_ref t : atoi t = None -> suffixb (bs " R") t = true -> formatValue (dict_value t) = t.
Proof. intros H1 H2. unfold dict_value. rewrite H1. cbn [formatValue]. rewrite H2, orb_true_r. reflexivity. Qed.
Lemma value_quoted t : ~ In "/"%byte t -> atoi t = None -> suffixb (bs " R") t = false -> formatValue (dict_value t) = bs "(" ++ t ++ bs ")".
Proof.
  intros H0 H1 H2. unfold dict_value. rewrite H1. cbn [formatValue]. rewrite H2, orb_false_r.
  destruct (prefixb (bs "/") t) eqn:E; [|reflexivity]. exfalso. apply prefixb_spec in E. destruct E as [r ->]. apply H0. left. reflexivity.
Qed.
Theorem values_kept t : ~ In "/"%byte t ->
  formatValue (dict_value t) =
    match atoi t with Some z => decZ z | None => if suffixb (bs " R") t then t else bs "(" ++ t ++ bs ")" end.
Proof.
  intros H. destruct (atoi t) eqn:E; [unfold dict_value; rewrite E; reflexivity|].
  destruct (suffixb (bs " R") t) eqn:S; [apply value_ref; assumption|apply value_quoted; assumption].
Qed.
