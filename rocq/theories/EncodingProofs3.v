From Verif Require Import TextProofs XrefProofs Util Scan Utf8 FontModel FontSpec FontProofs4 EncodingModel EncodingSpec EncodingProofs.
From Verif Require ReadProofs ManipProofs2.
Local Open Scope Z_scope.

(* ---------------------------------------------------------------- *)
(** Differences *)
Definition slash (n : bytes) : bytes := bs "/" ++ n.
Definition tail_ok (t : bytes) : Prop := t = [] \/ exists u, t = " "%byte :: u.
Lemma fields_names ns : forall w t, w <> [] -> (forall b, In b w -> is_space b = false) -> Forall name_ok ns -> tail_ok t ->
  fields is_space (w ++ flat_map (fun n => bs " /" ++ n) ns ++ t) = w :: map slash ns ++ fields is_space t.
Proof.
  induction ns as [|n ns IH]; intros w t Hw Hs F T.
  - cbn [flat_map map app]. destruct T as [->|[u ->]].
    + rewrite app_nil_r. apply fields_last; assumption.
    + rewrite fields_word by (try assumption; reflexivity). rewrite fields_skip by reflexivity. reflexivity.
  - inversion F as [|x y [N1 N2] F']; subst. cbn [flat_map map]. rewrite <- !app_assoc. change (bs " /") with (" "%byte :: bs "/"). cbn [app].
    rewrite fields_word by (try assumption; reflexivity). f_equal. cbn [map app]. change (bs "/" ++ n ++ ?x) with (slash n ++ x).
    apply (IH (slash n)); try assumption; [discriminate|]. intros b Hb. unfold slash in Hb. apply in_app_or in Hb. destruct Hb as [Hb|Hb].
    + destruct Hb as [<-|[]]. reflexivity.
    + rewrite forallb_forall in N2. specialize (N2 _ Hb). apply andb_true_iff in N2. destruct N2 as [N2 _]. now apply negb_true_iff in N2.
Qed.
Definition tokens (g : Z * list bytes) : list bytes := decZ (fst g) :: map slash (snd g).
Lemma fields_group g t : group_ok g -> tail_ok t -> fields is_space (diff_group g ++ t) = tokens g ++ fields is_space t.
Proof.
  intros [H F] T. unfold diff_group, tokens. rewrite <- app_assoc. cbn [app]. apply fields_names; try assumption.
  - apply decZ_nonnil. lia.
  - apply decZ_no_space. lia.
Qed.
Lemma fields_groups l : Forall group_ok l -> fields is_space (join (bs " ") (map diff_group l)) = flat_map tokens l.
Proof.
  induction l as [|g l IH]; intros F; [reflexivity|]. inversion F as [|x y H F']; subst. destruct l as [|g' l].
  - cbn [map join flat_map]. rewrite <- (app_nil_r (diff_group g)) at 1. rewrite fields_group by (try assumption; now left). reflexivity.
  - change (join (bs " ") (map diff_group (g :: g' :: l))) with (diff_group g ++ " "%byte :: join (bs " ") (map diff_group (g' :: l))).
    rewrite fields_group by (try assumption; right; eauto). cbn [flat_map]. rewrite fields_skip by reflexivity. rewrite IH by assumption. reflexivity.
Qed.
Definition add_entry (m : zmap Z) (e : Z * bytes) : zmap Z :=
  let r := glyphNameToUnicode (snd e) in if r =? 0 then m else mset (fst e) r m.
Lemma names_fold ns : forall c m,
  fold_left diff_token (map slash ns) (c, m) = (c + Z.of_nat (length ns), fold_left add_entry (combine (zrange c (c + Z.of_nat (length ns) - 1)) ns) m).
Proof.
  induction ns as [|n ns IH]; intros c m.
  - cbn [map fold_left length]. f_equal; [lia|]. rewrite combine_nil. reflexivity.
  - assert (zrange c (c + Z.of_nat (length (n :: ns)) - 1) = c :: zrange (c + 1) (c + 1 + Z.of_nat (length ns) - 1)) as ->.
    { unfold zrange. replace (Z.to_nat (c + Z.of_nat (length (n :: ns)) - 1 + 1 - c)) with (S (length ns)) by (cbn [length]; lia).
      replace (Z.to_nat (c + 1 + Z.of_nat (length ns) - 1 + 1 - (c + 1))) with (length ns) by lia.
      cbn [seq map]. f_equal; [lia|]. rewrite <- seq_shift, map_map. apply map_ext. intros k. lia. }
    cbn [map fold_left combine]. unfold diff_token at 2. change (prefixb (bs "/") (slash n)) with true. cbv iota.
    change (trim_prefix (bs "/") (slash n)) with n. rewrite IH. f_equal. cbn [length]. lia.
Qed.
Lemma group_fold g st : group_ok g ->
  fold_left diff_token (tokens g) st = (fst g + Z.of_nat (length (snd g)), fold_left add_entry (diff_entries [g]) (snd st)).
Proof.
  intros [H F]. destruct st as [c m]. unfold tokens. cbn [fold_left]. unfold diff_token at 2.
  assert (prefixb (bs "/") (decZ (fst g)) = false) as ->.
  { pose proof (decZ_digits (fst g) ltac:(lia)) as D. pose proof (decZ_nonnil (fst g) ltac:(lia)) as N. destruct (decZ (fst g)) as [|x y]; [congruence|].
    cbn [forallb] in D. apply andb_true_iff in D. destruct D as [D _]. destruct x; try discriminate; reflexivity. }
  rewrite ReadProofs.atoi_decZ by lia. rewrite names_fold. cbn [fst snd]. f_equal. unfold diff_entries. cbn [flat_map]. rewrite app_nil_r. reflexivity.
Qed.
Lemma groups_fold l : Forall group_ok l -> forall st, snd (fold_left diff_token (flat_map tokens l) st) = fold_left add_entry (diff_entries l) (snd st).
Proof.
  induction 1 as [|g l H F IH]; intros st; [reflexivity|]. cbn [flat_map]. rewrite fold_left_app, IH, group_fold by exact H. cbn [snd].
  change (diff_entries (g :: l)) with (combine (zrange (fst g) (fst g + Z.of_nat (length (snd g)) - 1)) (snd g) ++ diff_entries l).
  rewrite fold_left_app. unfold diff_entries at 2. cbn [flat_map]. rewrite app_nil_r. reflexivity.
Qed.
Lemma entries_get l : forall m c, mget c (fold_left add_entry l m) =
  match List.find (fun e => (fst e =? c) && negb (glyphNameToUnicode (snd e) =? 0)) (rev l) with Some e => Some (glyphNameToUnicode (snd e)) | None => mget c m end.
Proof.
  induction l as [|e l IH]; intros m c; [reflexivity|]. cbn [fold_left]. rewrite IH, find_rev_cons. destruct (List.find _ (rev l)); [reflexivity|].
  unfold add_entry. destruct (glyphNameToUnicode (snd e) =? 0) eqn:E; cbn [negb].
  - rewrite andb_false_r. reflexivity.
  - rewrite andb_true_r, mget_mset. rewrite Z.eqb_sym. destruct (fst e =? c); reflexivity.
Qed.
Lemma trim_brackets j : trim is_space (bs "[" ++ j ++ bs "]") = bs "[" ++ j ++ bs "]".
Proof.
  unfold trim. assert (drop_while is_space (bs "[" ++ j ++ bs "]") = bs "[" ++ j ++ bs "]") as -> by reflexivity.
  unfold rtrim. rewrite app_assoc, rev_app_distr. change (rev (bs "]") ++ ?x) with ("]"%byte :: x). cbn [drop_while]. change (is_space "]") with false. cbv iota.
  rewrite <- (rev_involutive ((bs "[" ++ j) ++ bs "]")). rewrite (rev_app_distr (bs "[" ++ j)), (rev_app_distr (bs "[")). reflexivity.
Qed.
Lemma differences_ok l d c : Forall group_ok l ->
  mget c (differences (ParseDifferencesArray (diff_text l) d)) = match diff_char l c with Some r => Some r | None => mget c (differences d) end.
Proof.
  intros F. unfold ParseDifferencesArray, diff_text, set_differences. cbn [differences]. rewrite trim_brackets.
  assert (trim_suffix (bs "]") (trim_prefix (bs "[") (bs "[" ++ join (bs " ") (map diff_group l) ++ bs "]")) = join (bs " ") (map diff_group l)) as ->.
  { unfold trim_prefix. rewrite prefixb_app. change (skipn (length (bs "[")) (bs "[" ++ ?x)) with x. apply ManipProofs2.trim_suffix_app. }
  rewrite fields_groups, groups_fold by exact F. cbn [snd]. rewrite entries_get. unfold diff_char. destruct (List.find _ (rev (diff_entries l))); reflexivity.
Qed.

(* ---------------------------------------------------------------- *)
(** Glyph names *)
Lemma kget_key {A} k (l : list (bytes * A)) v : kget k l = Some v -> In k (map fst l).
Proof. induction l as [|[a b] l IH]; cbn [kget map fst In]; [discriminate|]. destruct (bytes_eqb k a) eqn:E; [apply bytes_eqb_eq in E; auto|auto]. Qed.
Definition hexname (p : bytes) (w : nat) (k : bytes) : bool := prefixb p k && (length k =? length p + w)%nat && forallb upper_hex (skipn (length p) k).
Lemma hexname_of p w n : length (pad_hex w n) = w -> hexname p w (p ++ pad_hex w n) = true.
Proof.
  intros L. unfold hexname. rewrite prefixb_app, app_length, L, Nat.eqb_refl. cbn [andb].
  rewrite skipn_app, skipn_all, Nat.sub_diag. cbn [skipn app]. apply pad_hex_upper.
Qed.
Lemma no_name p w n : length (pad_hex w n) = w -> forallb (fun k => negb (hexname p w k)) (map fst adobeGlyphList) = true ->
  kget (p ++ pad_hex w n) adobeGlyphList = None.
Proof.
  intros L H. destruct (kget _ _) eqn:E; [|reflexivity]. apply kget_key in E. rewrite forallb_forall in H. specialize (H _ E).
  rewrite hexname_of in H by exact L. discriminate.
Qed.
Lemma pad_len w n : (n < 16 ^ N.of_nat w)%N -> (1 <= w)%nat -> length (pad_hex w n) = w.
Proof.
  intros H Hw. unfold pad_hex. rewrite app_length, repeat_length. assert (length (hexN n) <= w)%nat; [|lia].
  unfold hexN. etransitivity; [apply (hex_aux_len _ n [] w); [exact H|lia]|]. cbn [length]. lia.
Qed.
Lemma uni_name n : (n < 65536)%N -> glyphNameToUnicode (bs "uni" ++ pad_hex 4 n) = Z.of_N n.
Proof.
  intros H. assert (length (pad_hex 4 n) = 4%nat) as L by (apply pad_len; [exact H|lia]). unfold glyphNameToUnicode.
  rewrite no_name by (try exact L; vm_compute; reflexivity). rewrite prefixb_app, app_length, L. change ((length (bs "uni") + 4 =? 7)%nat) with true. cbn [andb].
  change (skipn 3 (bs "uni" ++ ?x)) with x. rewrite parse_pad by lia. reflexivity.
Qed.
Lemma u_name w n : w = 4%nat \/ w = 5%nat -> (n < 16 ^ N.of_nat w)%N -> glyphNameToUnicode (bs "u" ++ pad_hex w n) = Z.of_N n.
Proof.
  intros Hw H. assert (length (pad_hex w n) = w) as L by (apply pad_len; [exact H|lia]).
  assert (n < 2147483648)%N as Hn. { destruct Hw; subst w; [change (16 ^ N.of_nat 4)%N with 65536%N in H|change (16 ^ N.of_nat 5)%N with 1048576%N in H]; lia. }
  unfold glyphNameToUnicode. rewrite no_name by (try exact L; destruct Hw; subst w; vm_compute; reflexivity).
  rewrite !prefixb_app, !app_length, L. change (length (bs "u")) with 1%nat.
  assert ((1 + w =? 7)%nat = false) as -> by (apply Nat.eqb_neq; lia). rewrite andb_false_r.
  assert (((1 + w =? 5) || (1 + w =? 6))%nat = true) as -> by (destruct Hw; subst w; reflexivity). cbn [andb].
  change (skipn 1 (bs "u" ++ ?x)) with x. rewrite parse_pad by exact Hn. reflexivity.
Qed.

(* ---------------------------------------------------------------- *)
(** Base encodings *)
Definition codes_ok (f : Z -> Z) (m : zmap Z) (p : byte -> bool) : bool :=
  forallb (fun n => let b := n2b (N.of_nat n) in let c := Z.of_nat n in
    negb (p b) || ((match mget c m with Some r => r | None => c end =? f c) && (0 <=? f c) && valid_rune (Z.to_N (f c)))) (seq 0 256).
Lemma codes_each f m p : codes_ok f m p = true -> forall b, p b = true ->
  byte_char (mkDec [] m []) (Z.of_N (b2n b)) = f (Z.of_N (b2n b)) /\ is_char (f (Z.of_N (b2n b))).
Proof.
  intros H b Hb. unfold codes_ok in H. rewrite forallb_forall in H. pose proof (b2n_bound b).
  specialize (H (N.to_nat (b2n b))). rewrite N2Nat.id, n2b_b2n, Hb in H.
  assert (In (N.to_nat (b2n b)) (seq 0 256)) as Hi by (apply in_seq; lia). specialize (H Hi). cbv zeta in H. rewrite N_nat_Z in H. cbn [negb orb] in H.
  apply andb_true_iff in H. destruct H as [H H3]. apply andb_true_iff in H. destruct H as [H1 H2]. apply Z.eqb_eq in H1. apply Z.leb_le in H2.
  unfold byte_char. cbn [toUnicode differences baseEncoding mget]. split; [exact H1|]. split; assumption.
Qed.
Lemma decode_base f m p s : codes_ok f m p = true -> forallb p s = true -> Decode (mkDec [] m []) s = text_of (map f (byte_codes s)).
Proof.
  intros H F. rewrite forallb_forall in F. rewrite <- write_text.
  - unfold Decode, byte_codes. induction s as [|b s IH]; [reflexivity|]. cbn [map flat_map]. rewrite <- IH by (intros x Hx; apply F; now right).
    rewrite (proj1 (codes_each f m p H b (F b (or_introl eq_refl)))). reflexivity.
  - apply Forall_forall. intros c Hc. unfold byte_codes in Hc. rewrite map_map in Hc. apply in_map_iff in Hc. destruct Hc as (b & <- & Hb).
    apply (codes_each f m p H b (F b Hb)).
Qed.
