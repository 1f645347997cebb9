(** Proofs for the reader: object streams and cross-reference streams. *)
From Verif Require Import Scan WriterModel WriterProofs ParseModel ParseSpec ParseProofs XrefProofs ReadProofs ReaderSpec ReaderProofs.
Local Open Scope Z_scope.

Lemma skip_one_eol_any a e t : stream_eol e -> skip_one_eol (a ++ e ++ t) (length a) = (length a + length e)%nat.
Proof.
  intros [->| ->]; unfold skip_one_eol.
  - assert (nth_error (a ++ [x0a] ++ t) (length a) = Some x0a) as H.
    { rewrite nth_error_app2 by apply Nat.le_refl. rewrite Nat.sub_diag. reflexivity. }
    rewrite H. change (beqb x0a x0d) with false. cbv iota. rewrite H. change (beqb x0a x0a) with true. cbn [length]. cbv iota. lia.
  - assert (nth_error (a ++ [x0d; x0a] ++ t) (length a) = Some x0d) as H.
    { rewrite nth_error_app2 by apply Nat.le_refl. rewrite Nat.sub_diag. reflexivity. }
    assert (nth_error (a ++ [x0d; x0a] ++ t) (S (length a)) = Some x0a) as H2.
    { rewrite nth_error_app2 by lia. replace (S (length a) - length a)%nat with 1%nat by lia. reflexivity. }
    rewrite H. change (beqb x0d x0d) with true. cbv iota. rewrite H2. change (beqb x0a x0a) with true. cbv iota. cbn [length]. lia.
Qed.

Lemma read_objstm_with inflate dec f pre eol sn count first raw raw' data post n i :
  f = pre ++ objstm_with eol sn count first raw ++ post -> stream_eol eol ->
  0 <= sn -> 0 <= count -> 0 <= first < 2 ^ 63 -> flen raw < 2 ^ 63 ->
  (forall j, (j < length pre)%nat -> m_num0obj sn (skipn j f) = None) ->
  decrypted dec sn raw raw' -> inflate raw' = Some data ->
  GetObjectFromStream inflate dec f n sn i = object_in_stream n i first data.
Proof.
  intros Hf He Hs Hc Hfi Hr Hno Hdec Hi. unfold GetObjectFromStream.
  assert (find (m_num0obj sn) f = Some (length pre, tt)) as ->.
  { rewrite Hf in *. rewrite find_app by exact Hno. unfold objstm_with. repeat rewrite <- app_assoc.
    rewrite (find_at0 _ _ tt); [f_equal; f_equal; lia|].
    unfold m_num0obj. rewrite lit_app. reflexivity. }
  rewrite Hf, skipn_app_exact. unfold objstm_with.
  set (hd := decZ sn ++ bs " 0 obj" ++ nl).
  set (dict := bs "<</Type /ObjStm /N " ++ decZ count ++ bs " /First " ++ decZ first ++ bs " /Length " ++ decZ (flen raw)).
  set (tl := raw ++ nl ++ bs "endstream" ++ nl ++ bs "endobj" ++ nl ++ post).
  replace ((decZ sn ++ _) ++ post) with (hd ++ dict ++ bs ">>" ++ nl ++ bs "stream" ++ eol ++ tl)
    by (unfold hd, dict, tl; repeat rewrite <- app_assoc; reflexivity).
  assert (0 <= flen raw) as Hr0 by (unfold flen; lia).
  assert (index (bs "<<") (hd ++ dict ++ bs ">>" ++ nl ++ bs "stream" ++ eol ++ tl) = Some (length hd)) as ->.
  { assert (exists D, dict = bs "<<" ++ D) as [D ->] by (unfold dict; eexists; reflexivity).
    rewrite <- app_assoc. apply index_at. unfold hd.
    apply nostart_app; [apply nostart_decZ; [exact Hs|reflexivity]|apply nostartb_ok; reflexivity]. }
  rewrite skipn_app_exact.
  assert (forall c q, is_digit c = false ->
    nostartb (c :: q) (bs "<</Type /ObjStm /N ") = true -> nostartb (c :: q) (bs " /First ") = true ->
    nostartb (c :: q) (bs " /Length ") = true -> nostart (c :: q) dict) as Hnd.
  { intros c q Hcd H1 H2 H3. unfold dict.
    repeat apply nostart_app; try (apply nostartb_ok; assumption); apply nostart_decZ; try exact Hcd; lia. }
  assert (index (bs ">>") (dict ++ bs ">>" ++ nl ++ bs "stream" ++ eol ++ tl) = Some (length dict)) as ->.
  { apply index_at. apply (Hnd ">"%byte (bs ">")); reflexivity. }
  assert (firstn (length dict + 2) (dict ++ bs ">>" ++ nl ++ bs "stream" ++ eol ++ tl) = dict ++ bs ">>") as ->.
  { rewrite app_assoc. apply firstn_len_app. rewrite app_length. reflexivity. }
  assert (value_of (find (m_key (bs "/Length")) (dict ++ bs ">>")) = Some (decZ (flen raw))) as ->.
  { unfold dict. change (bs " /Length ") with (bs " " ++ bs "/Length" ++ bs " ").
    replace ((bs "<</Type /ObjStm /N " ++ decZ count ++ bs " /First " ++ decZ first ++ (bs " " ++ bs "/Length" ++ bs " ") ++ decZ (flen raw)) ++ bs ">>")
      with ((bs "<</Type /ObjStm /N " ++ decZ count ++ bs " /First " ++ decZ first ++ bs " ") ++ bs "/Length" ++ bs " " ++ decZ (flen raw) ++ bs ">>")
      by (repeat rewrite <- app_assoc; reflexivity).
    erewrite find_at; [reflexivity| |].
    - apply (nostart_nofire _ (bs "/Length")); [apply m_key_lit|].
      repeat apply nostart_app; try (apply nostartb_ok; reflexivity); apply nostart_decZ; try reflexivity; lia.
    - apply m_key_here; [apply XrefProofs.decZ_nonnil; lia|apply decZ_digits; lia|reflexivity]. }
  assert (index (bs "stream") (dict ++ bs ">>" ++ nl ++ bs "stream" ++ eol ++ tl) = Some (length dict + 3)%nat) as ->.
  { replace (dict ++ bs ">>" ++ nl ++ bs "stream" ++ eol ++ tl) with ((dict ++ bs ">>" ++ nl) ++ bs "stream" ++ eol ++ tl)
      by (repeat rewrite <- app_assoc; reflexivity).
    rewrite index_at; [rewrite !app_length; reflexivity|].
    apply nostart_app; [|apply nostartb_ok; reflexivity]. apply (Hnd "s"%byte (bs "tream")); reflexivity. }
  set (a := hd ++ dict ++ bs ">>" ++ nl ++ bs "stream").
  assert (hd ++ dict ++ bs ">>" ++ nl ++ bs "stream" ++ eol ++ tl = a ++ eol ++ tl) as Ea
    by (unfold a; repeat rewrite <- app_assoc; reflexivity).
  assert (length hd + (length dict + 3) + 6 = length a)%nat as La.
  { unfold a. rewrite !app_length. change (length (bs ">>")) with 2%nat. change (length nl) with 1%nat.
    change (length (bs "stream")) with 6%nat. lia. }
  rewrite Ea, La, skip_one_eol_any by exact He.
  rewrite atoi_clip_decZ by lia.
  assert (skipn (length a + length eol) (a ++ eol ++ tl) = tl) as Hsk.
  { rewrite app_assoc. apply skipn_len_app. apply app_length. }
  replace (flen (a ++ eol ++ tl) <? Z.of_nat (length a + length eol) + flen raw) with false.
  2:{ symmetry. apply Z.ltb_ge. unfold flen, tl. rewrite !app_length. lia. }
  assert (firstn (Z.to_nat (flen raw)) tl = raw) as Efr
    by (unfold tl, flen; rewrite Nat2Z.id; apply firstn_len_app; reflexivity).
  rewrite Hsk, !Efr. unfold tl.
  match goal with |- rbind ?x ?k = _ => assert (x = Ok raw') as -> end.
  { unfold decrypted in Hdec. destruct dec; [exact Hdec|rewrite Hdec; reflexivity]. }
  cbn [rbind]. rewrite Hi.
  assert (firstn (length dict + 3) (dict ++ bs ">>" ++ nl ++ bs "stream" ++ eol ++ raw ++ nl ++ bs "endstream" ++ nl ++ bs "endobj" ++ nl ++ post)
          = dict ++ bs ">>" ++ nl) as ->.
  { set (r := bs "stream" ++ _). replace (dict ++ bs ">>" ++ nl ++ r) with ((dict ++ bs ">>" ++ nl) ++ r)
      by (repeat rewrite <- app_assoc; reflexivity).
    apply firstn_len_app. rewrite !app_length. reflexivity. }
  assert (value_of (find (m_key (bs "/N")) (dict ++ bs ">>" ++ nl)) = Some (decZ count)) as ->.
  { unfold dict. change (bs "<</Type /ObjStm /N ") with (bs "<</Type /ObjStm " ++ bs "/N" ++ bs " ").
    repeat rewrite <- app_assoc. erewrite find_at; [reflexivity| |].
    - apply (nostart_nofire _ (bs "/N")); [apply m_key_lit|]. apply nostartb_ok; reflexivity.
    - apply m_key_here; [apply XrefProofs.decZ_nonnil; lia|apply decZ_digits; lia|reflexivity]. }
  assert (value_of (find (m_key (bs "/First")) (dict ++ bs ">>" ++ nl)) = Some (decZ first)) as ->.
  { unfold dict. change (bs " /First ") with (bs " " ++ bs "/First" ++ bs " ").
    replace ((bs "<</Type /ObjStm /N " ++ decZ count ++ (bs " " ++ bs "/First" ++ bs " ") ++ decZ first ++ bs " /Length " ++ decZ (flen raw)) ++ bs ">>" ++ nl)
      with ((bs "<</Type /ObjStm /N " ++ decZ count ++ bs " ") ++ bs "/First" ++ bs " " ++ decZ first ++ bs " /Length " ++ decZ (flen raw) ++ bs ">>" ++ nl)
      by (repeat rewrite <- app_assoc; reflexivity).
    erewrite find_at; [reflexivity| |].
    - apply (nostart_nofire _ (bs "/First")); [apply m_key_lit|].
      repeat apply nostart_app; try (apply nostartb_ok; reflexivity); apply nostart_decZ; try reflexivity; lia.
    - apply m_key_here; [apply XrefProofs.decZ_nonnil; lia|apply decZ_digits; lia|reflexivity]. }
  rewrite atoi_clip_decZ by lia. reflexivity.
Qed.

Lemma conforming_read_with inflate dec f pre eol sn objs raw raw' post n d i :
  f = pre ++ objstm_with eol sn (Z.of_nat (length objs)) (conforming_first objs) raw ++ post -> stream_eol eol ->
  (forall j, (j < length pre)%nat -> m_num0obj sn (skipn j f) = None) ->
  decrypted dec sn raw raw' -> inflate raw' = Some (conforming_objstm objs) ->
  nth_error objs i = Some (n, d) -> tidy d ->
  0 <= sn -> flen raw < 2 ^ 63 ->
  (forall o, In o objs -> 0 <= fst o < 2 ^ 63) -> flen (conforming_objstm objs) < 2 ^ 63 ->
  GetObjectFromStream inflate dec f n sn (Z.of_nat i) = Ok d.
Proof.
  intros Hf He Hno Hd Hi Hn Ht Hs Hr Ho Hl.
  rewrite (read_objstm_with inflate dec f pre eol sn (Z.of_nat (length objs)) (conforming_first objs) raw raw' (conforming_objstm objs) post n (Z.of_nat i));
    try assumption; try lia.
  - apply conforming_object; assumption.
  - unfold conforming_first. assert (flen (objstm_index 0 objs) <= flen (conforming_objstm objs)) by (unfold flen, conforming_objstm; rewrite app_length; lia).
    unfold flen in *. lia.
Qed.

(** Cross-reference streams *)
Lemma be_length w z : length (be w z) = w.
Proof. apply bigEndian_length. Qed.
Lemma be64_be w z : fits w z -> be64 (be w z) = z.
Proof.
  intros [[H0 H1] H2]. unfold be. rewrite be64_bigEndian; [lia| |lia].
  apply N2Z.inj_lt. rewrite N2Z.inj_pow, Z2N.id by lia. rewrite nat_N_Z. exact H1.
Qed.
Lemma row_text_length w1 w2 w3 e : length (xref_row_text w1 w2 w3 e) = (w1 + w2 + w3)%nat.
Proof. destruct e; cbn [xref_row_text]; rewrite !app_length, !be_length; lia. Qed.

Definition entry_of (e : xref_row) : xentry :=
  match e with EFree _ _ => XFree | EAt a _ => XDirect a | EIn a b => XComp a b end.
Lemma parse_row w1 w2 w3 e : (1 <= w1)%nat -> xref_row_ok w2 w3 e -> parse_xentry w1 w2 w3 (xref_row_text w1 w2 w3 e) = entry_of e.
Proof.
  intros Hw H. unfold parse_xentry.
  assert (forall t, 0 <= t <= 2 -> fits w1 t) as Ft.
  { intros t Ht. split; [split; [lia|]|change (2 ^ 63) with 9223372036854775808; lia].
    apply Z.lt_le_trans with (256 ^ 1); [change (256 ^ 1) with 256; lia|]. apply Z.pow_le_mono_r; lia. }
  assert (forall t a b, firstn w1 (be w1 t ++ be w2 a ++ be w3 b) = be w1 t /\
     firstn w2 (skipn w1 (be w1 t ++ be w2 a ++ be w3 b)) = be w2 a /\
     firstn w3 (skipn (w1 + w2) (be w1 t ++ be w2 a ++ be w3 b)) = be w3 b) as Hsplit.
  { intros t a b. split; [apply firstn_len_app, be_length|]. split.
    - rewrite skipn_len_app by apply be_length. apply firstn_len_app, be_length.
    - rewrite app_assoc, skipn_len_app by (rewrite app_length, !be_length; reflexivity). rewrite firstn_all2 by (rewrite be_length; lia). reflexivity. }
  destruct e as [a b|a b|a b]; cbn [xref_row_text entry_of xref_row_ok] in *.
  - destruct (Hsplit 0 a b) as (-> & -> & ->). rewrite be64_be by (apply Ft; lia). reflexivity.
  - destruct H as (Ha & Hp & Hb). destruct (Hsplit 1 a b) as (-> & -> & ->).
    rewrite (be64_be w1) by (apply Ft; lia). change (1 =? 0) with false. change (1 =? 1) with true. cbv iota.
    rewrite be64_be by exact Ha. replace (0 <? a) with true by lia. reflexivity.
  - destruct H as (Ha & Hb). destruct (Hsplit 2 a b) as (-> & -> & ->).
    rewrite (be64_be w1) by (apply Ft; lia). change (2 =? 0) with false. change (2 =? 1) with false. change (2 =? 2) with true. cbv iota.
    rewrite !be64_be by assumption. reflexivity.
Qed.

Lemma number_rows w1 w2 w3 subs : number_entries (map (fun s => (fst s, Z.of_nat (length (snd s)))) subs)
    (map (xref_row_text w1 w2 w3) (flat_map snd subs)) =
  map (fun r => (fst r, xref_row_text w1 w2 w3 (snd r))) (stream_rows subs).
Proof.
  induction subs as [|[first rows] subs IH]; [reflexivity|].
  cbn [map flat_map number_entries fst snd]. unfold stream_rows in *. cbn [flat_map fst snd]. rewrite map_app. rewrite map_app.
  assert (Z.to_nat (Z.min (Z.of_nat (length rows)) (Z.of_nat (length (map (xref_row_text w1 w2 w3) rows ++ map (xref_row_text w1 w2 w3) (flat_map snd subs))))) = length rows) as ->
    by (rewrite app_length, map_length; lia).
  rewrite firstn_len_app, skipn_len_app by apply map_length. rewrite IH. f_equal.
  unfold numbered. rewrite <- (map_length (xref_row_text w1 w2 w3) rows) at 1. rewrite map_length.
  generalize (map (fun i => first + Z.of_nat i) (seq 0 (length rows))). clear.
  induction rows as [|r rows IH]; intros [|k l]; try reflexivity. cbn [map combine fst snd]. f_equal. apply IH.
Qed.

Lemma xref_data_chunks w1 w2 w3 subs rest : (0 < w1 + w2 + w3)%nat -> (length rest < w1 + w2 + w3)%nat ->
  chunks (length (xref_data w1 w2 w3 subs ++ rest)) (w1 + w2 + w3) (xref_data w1 w2 w3 subs ++ rest) =
  map (xref_row_text w1 w2 w3) (flat_map snd subs).
Proof.
  intros Hp Hr.
  assert (xref_data w1 w2 w3 subs = concat (map (xref_row_text w1 w2 w3) (flat_map snd subs))) as ->.
  { unfold xref_data. induction subs as [|s subs IH]; [reflexivity|]. cbn [flat_map map]. rewrite IH, map_app, concat_app. f_equal.
    apply flat_map_concat_map. }
  assert (forall e, In e (map (xref_row_text w1 w2 w3) (flat_map snd subs)) -> length e = (w1 + w2 + w3)%nat) as Hk.
  { intros e He. apply in_map_iff in He. destruct He as (x & <- & _). apply row_text_length. }
  apply chunks_concat; try assumption.
  rewrite app_length. pose proof (concat_length_ge _ (w1 + w2 + w3) Hp Hk). lia.
Qed.

Lemma xref_maps_rows w1 w2 w3 l : (1 <= w1)%nat -> (forall r, In r l -> xref_row_ok w2 w3 (snd r)) ->
  xref_maps w1 w2 w3 (map (fun r => (fst r, xref_row_text w1 w2 w3 (snd r))) l) =
  (rev (flat_map (fun r => match snd r with EAt a _ => [(fst r, a)] | _ => [] end) l),
   rev (flat_map (fun r => match snd r with EIn a b => [(fst r, (a, b))] | _ => [] end) l)).
Proof.
  intros Hw. unfold xref_maps.
  set (step := fun (m : zmap Z * zmap (Z * Z)) (ne : Z * bytes) => _).
  set (g1 := fun r : Z * xref_row => match snd r with EAt a _ => [(fst r, a)] | _ => [] end).
  set (g2 := fun r : Z * xref_row => match snd r with EIn a b => [(fst r, (a, b))] | _ => [] end).
  assert (forall l m, (forall r, In r l -> xref_row_ok w2 w3 (snd r)) ->
    fold_left step (map (fun r => (fst r, xref_row_text w1 w2 w3 (snd r))) l) m =
    (rev (flat_map g1 l) ++ fst m, rev (flat_map g2 l) ++ snd m)) as H.
  { clear l. induction l as [|r l IH]; intros m Hl; [destruct m; reflexivity|].
    cbn [map fold_left flat_map]. rewrite IH by (intros; apply Hl; right; assumption).
    unfold step at 1 2. cbn [fst snd]. rewrite parse_row by (try assumption; apply Hl; left; reflexivity).
    rewrite !rev_app_distr. unfold g1 at 3, g2 at 3.
    destruct (snd r) as [a b|a b|a b]; cbn [entry_of fst snd rev app]; rewrite <- ?app_assoc; reflexivity. }
  intros Hl. rewrite (H l ([], []) Hl). cbn [fst snd]. rewrite !app_nil_r. reflexivity.
Qed.

Lemma index_pairs (subs : list (Z * list xref_row)) : (forall s, In s subs -> 0 <= fst s < 2 ^ 63 /\ Z.of_nat (length (snd s)) < 2 ^ 63) ->
  pairs_of (fields is_space (index_text subs)) = map (fun s => (fst s, Z.of_nat (length (snd s)))) subs.
Proof.
  induction subs as [|s subs IH]; intros H; [reflexivity|]. destruct (H s (or_introl eq_refl)) as [H1 H2].
  unfold index_text in *. cbn [flat_map]. rewrite <- !app_assoc.
  match goal with |- context [?a ++ bs " " ++ ?b ++ bs " " ++ ?c] => change (a ++ bs " " ++ b ++ bs " " ++ c) with (a ++ " "%byte :: b ++ " "%byte :: c) end.
  rewrite fields_word; [|apply XrefProofs.decZ_nonnil; lia|apply decZ_no_space; lia|reflexivity].
  rewrite fields_word; [|apply XrefProofs.decZ_nonnil; lia|apply decZ_no_space; lia|reflexivity].
  cbn [pairs_of map]. rewrite !atoi_any_decZ by lia. rewrite IH by (intros; apply H; right; assumption). reflexivity.
Qed.

Lemma number_none subs : number_entries subs [] = [].
Proof.
  induction subs as [|[a c] subs IH]; [reflexivity|]. cbn [number_entries length].
  replace (Z.to_nat (Z.min c (Z.of_nat 0))) with 0%nat by lia. cbn [seq map combine skipn app]. exact IH.
Qed.

Lemma index_text_nostart c q subs : is_digit c = false -> c <> " "%byte ->
  (forall s : Z * list xref_row, In s subs -> 0 <= fst s) -> nostart (c :: q) (index_text subs).
Proof.
  intros Hc Hs H. unfold index_text. apply nostart_flat_map. intros s Hi. specialize (H s Hi).
  assert (nostart (c :: q) (bs " ")) as Hsp.
  { apply (nostart_class (fun b => beqb b " ")); [reflexivity|apply beqb_false; exact Hs]. }
  apply nostart_app; [apply nostart_decZ; assumption|]. apply nostart_app; [exact Hsp|].
  apply nostart_app; [apply nostart_decZ; [lia|assumption]|exact Hsp].
Qed.

Lemma take_while_upto (f : byte -> bool) g c r : forallb f g = true -> f c = false -> take_while f (g ++ c :: r) = g.
Proof.
  intros Hg Hc. induction g as [|b g IH]; cbn [app take_while].
  - rewrite Hc. reflexivity.
  - cbn [forallb] in Hg. apply andb_true_iff in Hg. destruct Hg as [-> Hg]. rewrite (IH Hg). reflexivity.
Qed.

Lemma m_index_here g r : g <> [] -> forallb (fun b => negb (beqb b "]")) g = true ->
  m_index (bs "/Index [" ++ g ++ bs "]" ++ r) = Some g.
Proof.
  intros Hn Hg. unfold m_index.
  change (bs "/Index [" ++ ?x) with (bs "/Index" ++ bs " [" ++ x). rewrite lit_app. cbn [obind].
  match goal with |- context [ws0 (bs " [" ++ ?x)] => change (ws0 (bs " [" ++ x)) with (bs "[" ++ x) end.
  rewrite lit_app. cbn [obind]. change (g ++ bs "]" ++ r) with (g ++ "]"%byte :: r).
  rewrite take_while_upto by (try exact Hg; reflexivity). destruct g as [|b g]; [congruence|].
  rewrite skipn_app_exact. reflexivity.
Qed.

Lemma read_indexed inflate sn size w1 w2 w3 subs extra comp pre post f data :
  f = pre ++ xref_stream_text sn size w1 w2 w3 subs extra comp ++ post ->
  0 <= sn < 2 ^ 63 -> 0 <= size < 2 ^ 63 ->
  Z.of_nat w1 < 2 ^ 63 -> Z.of_nat w2 < 2 ^ 63 -> Z.of_nat w3 < 2 ^ 63 ->
  subs <> [] -> (forall s, In s subs -> 0 <= fst s < 2 ^ 63 /\ Z.of_nat (length (snd s)) < 2 ^ 63) ->
  (xref_head_length sn size w1 w2 w3 subs <= 500)%nat ->
  contains (bs "stream") extra = false ->
  match comp with [] => False | b :: _ => is_blank b = false end -> contains (bs "endstream") comp = false ->
  inflate (comp ++ nl) = Some data ->
  read_xref_stream inflate f (flen pre) =
  Ok (mkXStream (Z.of_nat w1) (Z.of_nat w2) (Z.of_nat w3) (map (fun s => (fst s, Z.of_nat (length (snd s)))) subs) data (take 500 (from (flen pre) f))).
Proof.
  intros Hf Hn Hz Hw1 Hw2 Hw3 Hne Hsubs Hlen Hex Hb He Hi. unfold read_xref_stream.
  set (head := decZ sn ++ bs " 0 obj" ++ nl).
  set (D := bs "<</Type /XRef /Size " ++ decZ size ++ bs " /W [" ++ decZ (Z.of_nat w1) ++ bs " " ++
    decZ (Z.of_nat w2) ++ bs " " ++ decZ (Z.of_nat w3) ++ bs "] /Index [" ++ index_text subs ++ bs "]").
  set (tail := extra ++ bs ">>" ++ nl ++ bs "stream" ++ nl ++ comp ++ nl ++ bs "endstream" ++ post).
  assert (from (flen pre) f = head ++ D ++ tail) as Hs.
  { unfold from, flen. rewrite Nat2Z.id, Hf, skipn_app_exact. unfold xref_stream_text, head, D, tail. repeat rewrite <- app_assoc. reflexivity. }
  cbv zeta. rewrite Hs.
  assert (length head + length D <= 500)%nat as Lh.
  { rewrite <- app_length. refine (Nat.le_trans _ _ _ _ Hlen). unfold xref_head_length, head, D.
    apply Nat.eq_le_incl. f_equal. rewrite <- !app_assoc. reflexivity. }
  assert (take 500 (head ++ D ++ tail) = head ++ D ++ take (500 - N.of_nat (length head) - N.of_nat (length D)) tail) as Ht.
  { rewrite take_app_l by lia. f_equal. rewrite take_app_l by lia. reflexivity. }
  rewrite Ht. set (tl5 := take _ tail) in *.
  assert (found (find m_any0obj (head ++ D ++ tl5)) = true) as ->.
  { unfold head. repeat rewrite <- app_assoc. erewrite find_at0 by (apply m_any0obj_here; lia). reflexivity. }
  cbn [rbind negb].
  assert (nostart (bs "<<") head) as Nh.
  { unfold head. apply nostart_app; [apply nostart_decZ; [lia|reflexivity]|apply nostartb_ok; reflexivity]. }
  assert (exists D', D = bs "<<" ++ D') as [D' HD] by (unfold D; eexists; reflexivity).
  assert (index (bs "<<") (head ++ D ++ tail) = Some (length head)) as ->.
  { rewrite HD, <- app_assoc. apply index_at. exact Nh. }
  replace (length (head ++ D ++ tl5) <? length head)%nat with false
    by (symmetry; apply Nat.ltb_ge; rewrite app_length; lia).
  rewrite skipn_app_exact.
  assert (value_of (find (m_key (bs "/Size")) (D ++ tl5)) = Some (decZ size)) as ->.
  { unfold D. change (bs "<</Type /XRef /Size ") with (bs "<</Type /XRef " ++ bs "/Size" ++ bs " ").
    repeat rewrite <- app_assoc. erewrite find_at; [reflexivity| |].
    - apply (nostart_nofire _ (bs "/Size")); [apply m_key_lit|]. apply nostartb_ok; reflexivity.
    - apply m_key_here; [apply XrefProofs.decZ_nonnil; lia|apply decZ_digits; lia|reflexivity]. }
  assert (value_of (find m_w (D ++ tl5)) = Some (decZ (Z.of_nat w1), decZ (Z.of_nat w2), decZ (Z.of_nat w3))) as ->.
  { unfold D. change (bs " /W [") with (bs " " ++ bs "/W [").
    change (bs "] /Index [") with (bs "]" ++ bs " /Index ["). repeat rewrite <- app_assoc.
    match goal with |- context [find m_w (?a ++ ?b ++ ?c ++ bs "/W [" ++ ?r)] =>
      replace (a ++ b ++ c ++ bs "/W [" ++ r) with ((a ++ b ++ c) ++ bs "/W [" ++ r)
        by (repeat rewrite <- app_assoc; reflexivity) end.
    erewrite find_at; [reflexivity| |].
    - apply (nostart_nofire _ (bs "/W")); [apply m_w_lit|].
      apply nostart_app; [apply nostartb_ok; reflexivity|]. apply nostart_app; [apply nostart_decZ; [lia|reflexivity]|apply nostartb_ok; reflexivity].
    - apply m_w_here; lia. }
  assert (value_of (find m_index (D ++ tl5)) = Some (index_text subs)) as ->.
  { unfold D. change (bs "] /Index [") with (bs "] " ++ bs "/Index ["). repeat rewrite <- app_assoc.
    match goal with |- context [find m_index (?a ++ ?b ++ ?c ++ ?d ++ ?e ++ ?g ++ ?h ++ ?i ++ ?j ++ bs "/Index [" ++ ?r)] =>
      replace (a ++ b ++ c ++ d ++ e ++ g ++ h ++ i ++ j ++ bs "/Index [" ++ r) with ((a ++ b ++ c ++ d ++ e ++ g ++ h ++ i ++ j) ++ bs "/Index [" ++ r)
        by (repeat rewrite <- app_assoc; reflexivity) end.
    erewrite find_at; [reflexivity| |].
    - apply (nostart_nofire _ (bs "/Index")); [apply m_index_lit|].
      repeat (apply nostart_app; [first [apply nostart_decZ; [lia|reflexivity]|apply nostartb_ok; reflexivity]|]). apply nostartb_ok; reflexivity.
    - apply m_index_here.
      + destruct subs as [|s subs]; [congruence|]. unfold index_text. cbn [flat_map]. pose proof (XrefProofs.decZ_nonnil (fst s) ltac:(specialize (Hsubs s (or_introl eq_refl)); lia)).
        destruct (decZ (fst s)); [congruence|discriminate].
      + unfold index_text. clear - Hsubs. induction subs as [|s subs IH]; [reflexivity|]. cbn [flat_map].
        specialize (IH ltac:(intros; apply Hsubs; right; assumption)). specialize (Hsubs s (or_introl eq_refl)).
        rewrite !forallb_app, IH.
        assert (forall z, 0 <= z -> forallb (fun b => negb (beqb b "]")) (decZ z) = true) as Hd.
        { intros z Hz. apply forallb_forall. intros b Hb. pose proof (decZ_digits z Hz) as Hdd. rewrite forallb_forall in Hdd. specialize (Hdd b Hb).
          rewrite beqb_false; [reflexivity|]. intros ->. discriminate. }
        rewrite !Hd by lia. reflexivity. }
  rewrite skipn_app_exact.
  assert (nostart (bs "stream") (D ++ extra ++ bs ">>" ++ nl)) as NS.
  { apply nostart_app.
    - unfold D. change (bs "stream") with ("s"%byte :: bs "tream").
      do 9 (apply nostart_app; [first [apply nostart_decZ; [lia|reflexivity]|apply nostartb_ok; reflexivity]|]).
      apply nostart_app; [|apply nostartb_ok; reflexivity]. apply index_text_nostart; [reflexivity|discriminate|]. intros s Hin. specialize (Hsubs s Hin). lia.
    - change (bs ">>" ++ nl) with ([">"%byte] ++ bs ">" ++ nl). rewrite app_assoc. apply nostart_app; [|apply nostartb_ok; reflexivity].
      apply nostart_sep; [exact Hex| |discriminate]. intros Hin; cbn in Hin; intuition discriminate. }
  assert (index (bs "stream") (D ++ tail) = Some (length (D ++ extra ++ bs ">>" ++ nl))) as ->.
  { unfold tail. match goal with |- index _ (?a ++ ?b ++ ?c ++ ?d ++ ?r) = _ => replace (a ++ b ++ c ++ d ++ r) with ((a ++ b ++ c ++ d) ++ r) by (repeat rewrite <- app_assoc; reflexivity) end.
    apply index_at. exact NS. }
  replace (skipn (length head + length (D ++ extra ++ bs ">>" ++ nl) + 6) (head ++ D ++ tail)) with (nl ++ comp ++ nl ++ bs "endstream" ++ post).
  2:{ unfold tail. symmetry. set (r := nl ++ comp ++ _).
      replace (head ++ D ++ extra ++ bs ">>" ++ nl ++ bs "stream" ++ r) with ((head ++ (D ++ extra ++ bs ">>" ++ nl) ++ bs "stream") ++ r)
        by (repeat rewrite <- app_assoc; reflexivity).
      apply skipn_len_app. rewrite (app_length head), (app_length (D ++ _)). change (length (bs "stream")) with 6%nat. lia. }
  assert (drop_while is_blank (nl ++ comp ++ nl ++ bs "endstream" ++ post) = comp ++ nl ++ bs "endstream" ++ post) as ->.
  { cbn [nl app drop_while]. change (is_blank x0a) with true. cbv iota. apply drop_blank_head.
    destruct comp as [|b comp']; [destruct Hb|exact Hb]. }
  assert (index (bs "endstream") (comp ++ nl ++ bs "endstream" ++ post) = Some (length (comp ++ nl))) as ->.
  { rewrite (app_assoc comp). apply index_at. apply nostart_sep; [exact He| |discriminate].
    cbn. intuition discriminate. }
  rewrite (app_assoc comp nl), firstn_len_app by reflexivity. rewrite Hi.
  rewrite index_pairs by exact Hsubs. rewrite !atoi_clip_decZ by lia. reflexivity.
Qed.

Lemma indexed_stream inflate sn size w1 w2 w3 subs extra comp pre post f rest :
  f = pre ++ xref_stream_text sn size w1 w2 w3 subs extra comp ++ post ->
  0 <= sn < 2 ^ 63 -> 0 <= size < 2 ^ 63 ->
  (1 <= w1)%nat -> Z.of_nat w1 < 2 ^ 63 -> Z.of_nat w2 < 2 ^ 63 -> Z.of_nat w3 < 2 ^ 63 ->
  subs <> [] -> (forall s, In s subs -> 0 <= fst s < 2 ^ 63 /\ Z.of_nat (length (snd s)) < 2 ^ 63 /\ Forall (xref_row_ok w2 w3) (snd s)) ->
  (xref_head_length sn size w1 w2 w3 subs <= 500)%nat ->
  contains (bs "stream") extra = false -> contains (bs "/DecodeParms") (take 500 (from (flen pre) f)) = false ->
  match comp with [] => False | b :: _ => is_blank b = false end -> contains (bs "endstream") comp = false ->
  inflate (comp ++ nl) = Some (xref_data w1 w2 w3 subs ++ rest) -> (length rest < w1 + w2 + w3)%nat ->
  ParseXRefStreamFull inflate f (flen pre) = Ok (rev (stream_offsets subs), rev (stream_members subs)).
Proof.
  intros Hf Hn Hz H1 Hw1 Hw2 Hw3 Hne Hsubs Hlen Hex Hdp Hb He Hi Hr. unfold ParseXRefStreamFull.
  rewrite (read_indexed inflate sn size w1 w2 w3 subs extra comp pre post f (xref_data w1 w2 w3 subs ++ rest) Hf Hn Hz Hw1 Hw2 Hw3 Hne);
    try assumption; [|intros s Hs; specialize (Hsubs s Hs); tauto].
  cbn [rbind xw1 xw2 xw3]. replace (Z.of_nat w1 + Z.of_nat w2 + Z.of_nat w3 =? 0) with false by lia.
  unfold apply_predictor. cbn [xstr]. rewrite (find_nolit m_decodeparms (bs "/DecodeParms")); [|apply m_decodeparms_lit|exact Hdp].
  cbn [value_of option_map xdata]. f_equal. rewrite !Nat2Z.id.
  assert (stream_entries (mkXStream (Z.of_nat w1) (Z.of_nat w2) (Z.of_nat w3) (map (fun s => (fst s, Z.of_nat (length (snd s)))) subs)
     (xref_data w1 w2 w3 subs ++ rest) (take 500 (from (flen pre) f))) (xref_data w1 w2 w3 subs ++ rest) =
     map (fun r => (fst r, xref_row_text w1 w2 w3 (snd r))) (stream_rows subs)) as ->.
  { unfold stream_entries. cbn [xw1 xw2 xw3 xsubs].
    replace (Z.to_nat (Z.of_nat w1 + Z.of_nat w2 + Z.of_nat w3)) with (w1 + w2 + w3)%nat by lia.
    pose proof (xref_data_chunks w1 w2 w3 subs rest ltac:(lia) Hr) as Hc.
    rewrite <- number_rows, <- Hc.
    destruct (flen (xref_data w1 w2 w3 subs ++ rest) <? Z.of_nat w1 + Z.of_nat w2 + Z.of_nat w3) eqn:El; [|reflexivity].
    assert (chunks (length (xref_data w1 w2 w3 subs ++ rest)) (w1 + w2 + w3) (xref_data w1 w2 w3 subs ++ rest) = []) as ->.
    { unfold flen in El. destruct (length (xref_data w1 w2 w3 subs ++ rest)) eqn:E0; [reflexivity|]. cbn [chunks]. rewrite E0.
      replace (S n <? w1 + w2 + w3)%nat with true by (symmetry; apply Nat.ltb_lt; lia). reflexivity. }
    rewrite number_none. reflexivity. }
  apply xref_maps_rows; [exact H1|].
  intros r Hr'. unfold stream_rows in Hr'. apply in_flat_map in Hr'. destruct Hr' as (s & Hs & Hrs).
  destruct (Hsubs s Hs) as (_ & _ & Hf'). rewrite Forall_forall in Hf'. apply Hf'.
  unfold numbered in Hrs. destruct r as [k e]. apply in_combine_r in Hrs. exact Hrs.
Qed.
