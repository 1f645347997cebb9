(** Proofs about cross-reference streams, predictors and object streams. *)
From Verif Require Import WriterModel WriterSpec WriterProofs ParseModel ParseSpec ParseProofs Scan.
Local Open Scope Z_scope.

(* ------------------------------------------------------------------ *)
(** Big-endian fields *)

Lemma be_num_app a b : be_num (a ++ b) = (be_num a * 256 ^ N.of_nat (length b) + be_num b)%N.
Proof.
  assert (forall s acc, fold_left (fun acc c => (acc * 256 + b2n c)%N) s acc = (acc * 256 ^ N.of_nat (length s) + be_num s)%N) as H.
  { unfold be_num. induction s as [|c s IH]; intros acc.
    - cbn. lia.
    - cbn [fold_left length]. rewrite IH, (IH (0 * 256 + b2n c)%N).
      rewrite Nat2N.inj_succ, N.pow_succ_r'. lia. }
  unfold be_num at 1. rewrite fold_left_app, H. reflexivity.
Qed.

Lemma bigEndian_length w v : length (bigEndian w v) = w.
Proof. revert v. induction w as [|w IH]; intros v; [reflexivity|]. cbn [bigEndian]. rewrite app_length, IH. cbn. lia. Qed.

Lemma be_num_bigEndian w v : (v < 256 ^ N.of_nat w)%N -> be_num (bigEndian w v) = v.
Proof.
  revert v. induction w as [|w IH]; intros v Hv.
  - cbn in Hv |- *. lia.
  - cbn [bigEndian]. rewrite be_num_app. cbn [length].
    rewrite Nat2N.inj_succ, N.pow_succ_r' in Hv.
    rewrite IH by (apply N.div_lt_upper_bound; lia).
    change (N.of_nat 1) with 1%N. rewrite N.pow_1_r. unfold be_num at 1. cbn [fold_left].
    rewrite b2n_n2b, N.mod_mod by lia. pose proof (N.div_mod v 256). lia.
Qed.

Lemma be64_bigEndian w v : (v < 256 ^ N.of_nat w)%N -> (v < 2 ^ 63)%N -> be64 (bigEndian w v) = Z.of_N v.
Proof.
  intros H1 H2. unfold be64. rewrite be_num_bigEndian by exact H1. unfold int64_of.
  assert (2 ^ 63 < 2 ^ 64)%N as Hc by (vm_compute; reflexivity).
  rewrite N.mod_small by lia. destruct (N.ltb_spec v (2 ^ 63)); lia.
Qed.

Lemma bytes_needed_fits fuel n : (n < 2 ^ N.of_nat fuel)%N -> (n < 256 ^ N.of_nat (bytes_needed fuel n))%N.
Proof.
  revert n. induction fuel as [|f IH]; intros n H.
  - cbn in H |- *. lia.
  - cbn [bytes_needed]. destruct (N.eqb_spec n 0) as [->|Hn].
    + cbn. lia.
    + rewrite Nat2N.inj_succ, N.pow_succ_r' in *.
      assert (n / 256 < 2 ^ N.of_nat f)%N as Hd by (apply N.div_lt_upper_bound; lia).
      specialize (IH _ Hd). pose proof (N.div_mod n 256). pose proof (N.mod_lt n 256). lia.
Qed.

Lemma size_nat_bound n : (n < 2 ^ N.of_nat (N.size_nat n))%N.
Proof.
  destruct n as [|p]; [cbn; lia|]. cbn [N.size_nat].
  assert (Npos p < 2 ^ N.of_nat (Pos.size_nat p))%N as H; [|exact H].
  induction p as [p IH|p IH|]; cbn [Pos.size_nat]; rewrite ?Nat2N.inj_succ, ?N.pow_succ_r'; [| |cbn; lia].
  - change (N.pos p~1) with (2 * N.pos p + 1)%N. lia.
  - change (N.pos p~0) with (2 * N.pos p)%N. lia.
Qed.

Lemma calc_fits v m : (v <= m)%N -> (v < 256 ^ N.of_nat (calculateBytesNeeded m))%N.
Proof.
  intros H. unfold calculateBytesNeeded. destruct (N.eqb_spec m 0) as [->|Hm]; [cbn; lia|].
  pose proof (bytes_needed_fits (N.size_nat m) m (size_nat_bound m)). lia.
Qed.

Lemma maxZ_ge l x : In x l -> x <= maxZ l.
Proof.
  induction l as [|y l IH]; [intros []|]. cbn [maxZ fold_right]. fold (maxZ l).
  intros [->|H]; [lia|]. specialize (IH H). lia.
Qed.

Lemma mget_in {A} n (m : zmap A) v : mget n m = Some v -> In (n, v) m.
Proof.
  induction m as [|[k u] m IH]; [discriminate|]. cbn [mget In]. destruct (Z.eqb_spec n k) as [->|].
  - intros H; injection H as ->. left. reflexivity.
  - intros H. right. apply IH. exact H.
Qed.

(** The widths hold every field. *)
Lemma widths_fit buflen positions sm w2 w3 :
  xs_widths buflen positions sm = (w2, w3) -> 0 <= buflen ->
  (Z.to_N buflen < 256 ^ N.of_nat w2)%N /\
  (forall i p, mget i positions = Some p -> Z.to_N p < 256 ^ N.of_nat w2)%N /\
  (forall i s k, mget i sm = Some (s, k) -> Z.to_N s < 256 ^ N.of_nat w2 /\ Z.to_N k < 256 ^ N.of_nat w3)%N.
Proof.
  unfold xs_widths. intros H Hb. injection H as <- <-.
  set (mo := Z.max _ _). set (ms := maxZ (map (fun p => fst (snd p)) sm)). set (mi := maxZ _).
  set (w2 := if (mo <? ms)%Z then calculateBytesNeeded (Z.to_N ms) else calculateBytesNeeded (Z.to_N mo)).
  assert (forall v, v <= mo \/ v <= ms -> (Z.to_N v < 256 ^ N.of_nat w2)%N) as Hw.
  { intros v Hv. unfold w2. destruct (Z.ltb_spec mo ms); apply calc_fits; lia. }
  split; [|split].
  - apply Hw. left. lia.
  - intros i p Hp. apply Hw. left. apply mget_in in Hp.
    pose proof (maxZ_ge (map snd positions) p) as Hm. specialize (Hm (in_map snd _ _ Hp)). lia.
  - intros i s k Hk. apply mget_in in Hk. split.
    + apply Hw. right. apply (maxZ_ge (map (fun p => fst (snd p)) sm) s). apply (in_map (fun p => fst (snd p)) _ _ Hk).
    + apply calc_fits.
      pose proof (maxZ_ge (map (fun p => snd (snd p)) sm) k (in_map (fun p => snd (snd p)) _ _ Hk)). lia.
Qed.

(* ------------------------------------------------------------------ *)
(** Cutting the data into entries *)

Lemma chunks_concat k : (0 < k)%nat -> forall l fuel rest,
  (forall e, In e l -> length e = k) -> (length rest < k)%nat -> (length l <= fuel)%nat ->
  chunks fuel k (concat l ++ rest) = l.
Proof.
  intros Hk. induction l as [|e l IH]; intros fuel rest Hl Hr Hf; cbn [concat app].
  - destruct fuel as [|fuel]; [reflexivity|]. cbn [chunks].
    replace (length rest <? k)%nat with true by (symmetry; apply Nat.ltb_lt; exact Hr). reflexivity.
  - destruct fuel as [|fuel]; [cbn in Hf; lia|]. cbn [chunks].
    assert (length e = k) as He by (apply Hl; left; reflexivity).
    rewrite <- app_assoc.
    replace (length (e ++ concat l ++ rest) <? k)%nat with false
      by (symmetry; apply Nat.ltb_ge; rewrite app_length; lia).
    rewrite firstn_app, firstn_all2, He, Nat.sub_diag by lia. cbn [firstn]. rewrite app_nil_r. f_equal.
    rewrite skipn_app, skipn_all2, He, Nat.sub_diag by lia. cbn [skipn app].
    apply IH; [intros e' H'; apply Hl; right; exact H'|exact Hr|cbn in Hf; lia].
Qed.

Fixpoint lookup_entry (n : Z) (l : list (Z * bytes)) : option bytes :=
  match l with
  | [] => None
  | (k, e) :: l' => if n =? k then Some e else lookup_entry n l'
  end.

Lemma xref_maps_spec w1 w2 w3 l n : NoDup (map fst l) ->
  mget n (fst (xref_maps w1 w2 w3 l)) =
    match lookup_entry n l with
    | Some e => match parse_xentry w1 w2 w3 e with XDirect off => Some off | _ => None end
    | None => None
    end /\
  mget n (snd (xref_maps w1 w2 w3 l)) =
    match lookup_entry n l with
    | Some e => match parse_xentry w1 w2 w3 e with XComp s i => Some (s, i) | _ => None end
    | None => None
    end.
Proof.
  unfold xref_maps.
  set (step := fun (m : zmap Z * zmap (Z * Z)) (ne : Z * bytes) =>
    match parse_xentry w1 w2 w3 (snd ne) with
    | XDirect off => (mset (fst ne) off (fst m), snd m)
    | XComp s i => (fst m, mset (fst ne) (s, i) (snd m))
    | _ => m
    end).
  assert (forall l m, NoDup (map fst l) ->
    mget n (fst (fold_left step l m)) =
      match lookup_entry n l with
      | Some e => match parse_xentry w1 w2 w3 e with XDirect off => Some off | _ => mget n (fst m) end
      | None => mget n (fst m)
      end /\
    mget n (snd (fold_left step l m)) =
      match lookup_entry n l with
      | Some e => match parse_xentry w1 w2 w3 e with XComp s i => Some (s, i) | _ => mget n (snd m) end
      | None => mget n (snd m)
      end) as H.
  { clear l. induction l as [|[k e] l IH]; intros m Hnd; [split; reflexivity|].
    cbn [map fst] in Hnd. inversion Hnd as [|a b Hni Hnd']; subst. cbn [fold_left lookup_entry].
    destruct (IH (step m (k, e)) Hnd') as [H1 H2]. rewrite H1, H2. clear H1 H2 IH.
    assert (n = k -> lookup_entry n l = None) as Hno.
    { intros ->. clear - Hni. induction l as [|[j e] l IH]; [reflexivity|]. cbn [lookup_entry map fst In] in *.
      destruct (Z.eqb_spec k j) as [->|]; [exfalso; apply Hni; left; reflexivity|]. apply IH. tauto. }
    destruct (Z.eqb_spec n k) as [->|Hne].
    - rewrite Hno by reflexivity. unfold step. cbn [snd fst].
      destruct (parse_xentry w1 w2 w3 e); cbn [fst snd mset mget]; rewrite ?Z.eqb_refl; split; reflexivity.
    - unfold step. cbn [snd fst]. apply Z.eqb_neq in Hne.
      destruct (parse_xentry w1 w2 w3 e); cbn [fst snd mset mget]; rewrite ?Hne; split; reflexivity. }
  intros Hnd. destruct (H l ([], []) Hnd) as [H1 H2]. rewrite H1, H2. cbn [fst snd mget].
  destruct (lookup_entry n l) as [e|]; [|split; reflexivity].
  destruct (parse_xentry w1 w2 w3 e); split; reflexivity.
Qed.

Lemma combine_seq_lookup first (es : list bytes) n :
  lookup_entry n (combine (map (fun i => first + Z.of_nat i) (seq 0 (length es))) es) =
  if (n <? first) then None else nth_error es (Z.to_nat (n - first)).
Proof.
  assert (forall es k, lookup_entry n (combine (map (fun i => first + Z.of_nat i) (seq k (length es))) es) =
     if (n <? first + Z.of_nat k) then None else nth_error es (Z.to_nat (n - first - Z.of_nat k))) as H.
  { clear es. induction es as [|e es IH]; intros k; cbn [length seq map combine lookup_entry].
    - destruct (n <? first + Z.of_nat k); [reflexivity|]. destruct (Z.to_nat _); reflexivity.
    - destruct (Z.eqb_spec n (first + Z.of_nat k)) as [->|Hne].
      + rewrite Z.ltb_irrefl. replace (Z.to_nat _) with 0%nat by lia. reflexivity.
      + rewrite IH. destruct (Z.ltb_spec n (first + Z.of_nat (S k))), (Z.ltb_spec n (first + Z.of_nat k)); try lia; try reflexivity.
        replace (Z.to_nat (n - first - Z.of_nat k)) with (S (Z.to_nat (n - first - Z.of_nat (S k)))) by lia. reflexivity. }
  rewrite H. rewrite Z.add_0_r, Z.sub_0_r. reflexivity.
Qed.

Lemma combine_seq_nodup first (es : list bytes) k :
  NoDup (map fst (combine (map (fun i => first + Z.of_nat i) (seq k (length es))) es)).
Proof.
  assert (map fst (combine (map (fun i => first + Z.of_nat i) (seq k (length es))) es) =
          map (fun i => first + Z.of_nat i) (seq k (length es))) as ->.
  { revert k. induction es as [|e es IH]; intros k; [reflexivity|]. cbn [length seq map combine fst]. rewrite IH. reflexivity. }
  apply FinFun.Injective_map_NoDup; [intros a b; lia|apply seq_NoDup].
Qed.

(* ------------------------------------------------------------------ *)
(** One entry *)

Lemma firstn_len_app {A} (a b : list A) k : length a = k -> firstn k (a ++ b) = a.
Proof. intros <-. rewrite firstn_app, firstn_all, Nat.sub_diag. cbn [firstn]. apply app_nil_r. Qed.
Lemma skipn_len_app {A} (a b : list A) k : length a = k -> skipn k (a ++ b) = b.
Proof. intros <-. apply skipn_app_exact. Qed.

Lemma parse_xref_entry w2 w3 t f2 f3 :
  (t < 256)%N -> (f2 < 256 ^ N.of_nat w2)%N -> (f3 < 256 ^ N.of_nat w3)%N -> (f2 < 2 ^ 63)%N -> (f3 < 2 ^ 63)%N ->
  parse_xentry 1 w2 w3 (xref_entry w2 w3 t f2 f3) =
  if (t =? 0)%N then XFree
  else if (t =? 1)%N then (if (0 <? f2)%N then XDirect (Z.of_N f2) else XNone)
  else if (t =? 2)%N then XComp (Z.of_N f2) (Z.of_N f3) else XNone.
Proof.
  intros Ht H2 H3 B2 B3. unfold parse_xentry, xref_entry. cbv zeta.
  change (n2b t :: bigEndian w2 f2 ++ bigEndian w3 f3) with ([n2b t] ++ bigEndian w2 f2 ++ bigEndian w3 f3).
  rewrite (firstn_len_app [n2b t]) by reflexivity.
  rewrite (skipn_len_app [n2b t]) by reflexivity.
  rewrite (firstn_len_app (bigEndian w2 f2)) by apply bigEndian_length.
  replace (skipn (1 + w2) _) with (bigEndian w3 f3).
  2:{ rewrite app_assoc. symmetry. apply skipn_len_app. rewrite app_length, bigEndian_length. reflexivity. }
  rewrite firstn_all2 by (rewrite bigEndian_length; lia).
  rewrite !be64_bigEndian by assumption.
  assert (be64 [n2b t] = Z.of_N t) as ->.
  { pose proof (be64_bigEndian 1 t) as H. cbn [bigEndian app] in H. rewrite N.mod_small in H by exact Ht.
    apply H; [exact Ht|]. assert (256 < 2 ^ 63)%N by (vm_compute; reflexivity). lia. }
  destruct (N.eqb_spec t 0), (Z.eqb_spec (Z.of_N t) 0); try lia; [reflexivity|].
  destruct (N.eqb_spec t 1), (Z.eqb_spec (Z.of_N t) 1); try lia.
  - destruct (N.ltb_spec 0 f2), (Z.ltb_spec 0 (Z.of_N f2)); try lia; reflexivity.
  - destruct (N.eqb_spec t 2), (Z.eqb_spec (Z.of_N t) 2); try lia; reflexivity.
Qed.

Lemma xref_entry_length w2 w3 t f2 f3 : length (xref_entry w2 w3 t f2 f3) = (1 + w2 + w3)%nat.
Proof. unfold xref_entry. cbn [length]. rewrite app_length, !bigEndian_length. lia. Qed.

(** The entries of the table written for [next] objects. *)
Definition xs_entries (next buflen : Z) (positions : zmap Z) (sm : zmap (Z * Z)) : list bytes :=
  let (w2, w3) := xs_widths buflen positions sm in
  xref_entry w2 w3 0 0 0 :: map (xs_entry w2 w3 positions sm) (range1 next) ++ [xref_entry w2 w3 1 (Z.to_N buflen) 0].

Lemma xs_data_concat next buflen positions sm :
  xs_data next buflen positions sm = concat (xs_entries next buflen positions sm).
Proof.
  unfold xs_data, xs_entries. destruct (xs_widths buflen positions sm) as [w2 w3].
  cbn [concat]. rewrite concat_app, flat_map_concat_map. cbn [concat]. rewrite app_nil_r. reflexivity.
Qed.

Lemma xs_entries_length next buflen positions sm : 1 <= next ->
  length (xs_entries next buflen positions sm) = Z.to_nat (next + 1).
Proof.
  intros H. unfold xs_entries. destruct (xs_widths buflen positions sm) as [w2 w3].
  cbn [length]. rewrite app_length, map_length. unfold range1. rewrite map_length, seq_length. cbn [length]. lia.
Qed.

Lemma xs_entries_each next buflen positions sm w2 w3 e :
  xs_widths buflen positions sm = (w2, w3) ->
  In e (xs_entries next buflen positions sm) -> length e = (1 + w2 + w3)%nat.
Proof.
  intros Hw. unfold xs_entries. rewrite Hw. intros [<-|H]; [apply xref_entry_length|].
  apply in_app_or in H. destruct H as [H|[<-|[]]]; [|apply xref_entry_length].
  apply in_map_iff in H. destruct H as [i [<- _]]. unfold xs_entry.
  destruct (mget i sm) as [[s k]|]; [apply xref_entry_length|]. destruct (mget i positions); apply xref_entry_length.
Qed.

Lemma xs_entries_nth next buflen positions sm w2 w3 i :
  xs_widths buflen positions sm = (w2, w3) -> 1 <= next ->
  nth_error (xs_entries next buflen positions sm) (Z.to_nat i) =
  if i <=? 0 then Some (xref_entry w2 w3 0 0 0)
  else if i <? next then Some (xs_entry w2 w3 positions sm i)
  else if i =? next then Some (xref_entry w2 w3 1 (Z.to_N buflen) 0) else None.
Proof.
  intros Hw Hn. unfold xs_entries. rewrite Hw.
  destruct (Z.leb_spec i 0) as [Hi|Hi]; [replace (Z.to_nat i) with 0%nat by lia; reflexivity|].
  replace (Z.to_nat i) with (S (Z.to_nat (i - 1))) by lia. cbn [nth_error].
  assert (length (map (xs_entry w2 w3 positions sm) (range1 next)) = Z.to_nat (next - 1)) as Hl.
  { rewrite map_length. unfold range1. rewrite map_length, seq_length. lia. }
  destruct (Z.ltb_spec i next) as [Hlt|Hge].
  - rewrite nth_error_app1 by lia. rewrite nth_error_map, range1_nth by lia. reflexivity.
  - rewrite nth_error_app2 by lia. rewrite Hl.
    destruct (Z.eqb_spec i next) as [->|Hne].
    + replace (_ - _)%nat with 0%nat by lia. reflexivity.
    + apply nth_error_None. cbn [length]. lia.
Qed.

(** What the reader makes of the data the writer produced. *)
Lemma xref_data_roundtrip next buflen positions sm w2 w3 rest i :
  xs_widths buflen positions sm = (w2, w3) ->
  1 <= next -> 0 < buflen < 2 ^ 63 ->
  (forall i p, mget i positions = Some p -> 0 < p < 2 ^ 63) ->
  (forall i s k, mget i sm = Some (s, k) -> 0 <= s < 2 ^ 63 /\ 0 <= k < 2 ^ 63) ->
  (length rest < 1 + w2 + w3)%nat ->
  let data := xs_data next buflen positions sm ++ rest in
  let m := xref_maps 1 w2 w3
             (number_entries [(0, next + 1)] (chunks (length data) (1 + w2 + w3) data)) in
  mget i (fst m) = (if (1 <=? i) && (i <? next) && negb (mem i sm) then mget i positions
                    else if i =? next then Some buflen else None) /\
  mget i (snd m) = (if (1 <=? i) && (i <? next) then mget i sm else None).
Proof.
  intros Hw Hn Hb Hp Hs Hr data m.
  destruct (widths_fit _ _ _ _ _ Hw ltac:(lia)) as (F1 & F2 & F3).
  assert (chunks (length data) (1 + w2 + w3) data = xs_entries next buflen positions sm) as Hc.
  { unfold data. rewrite xs_data_concat. apply chunks_concat; [lia| |exact Hr|].
    - intros e He. eapply xs_entries_each; eassumption.
    - rewrite app_length.
      assert (forall l : list bytes, (forall e, In e l -> length e = (1 + w2 + w3)%nat) -> (length l <= length (concat l))%nat) as Hle.
      { induction l as [|e l IH]; intros H; [cbn; lia|]. cbn [concat length]. rewrite app_length.
        rewrite (H e) by (left; reflexivity). specialize (IH ltac:(intros e' H'; apply H; right; exact H')). lia. }
      specialize (Hle (xs_entries next buflen positions sm)
        ltac:(intros e He; eapply xs_entries_each; eassumption)). eapply Nat.le_trans; [exact Hle|]. apply Nat.le_add_r. }
  assert (number_entries [(0, next + 1)] (xs_entries next buflen positions sm) =
    combine (map (fun i => 0 + Z.of_nat i) (seq 0 (length (xs_entries next buflen positions sm)))) (xs_entries next buflen positions sm)) as Hne.
  { cbn [number_entries]. rewrite xs_entries_length by exact Hn.
    replace (Z.to_nat (Z.min (next + 1) (Z.of_nat (Z.to_nat (next + 1))))) with (Z.to_nat (next + 1)) by lia.
    rewrite firstn_all2 by (rewrite xs_entries_length; lia). apply app_nil_r. }
  unfold m. rewrite Hc, Hne.
  destruct (xref_maps_spec 1 w2 w3 _ i (combine_seq_nodup 0 (xs_entries next buflen positions sm) 0)) as [M1 M2].
  rewrite M1, M2, combine_seq_lookup, Z.sub_0_r. clear M1 M2.
  assert (0 < 2 ^ 63)%N as B0 by (vm_compute; reflexivity).
  assert (forall w, 0 < 256 ^ N.of_nat w)%N as Bw by (intros w; pose proof (N.pow_nonzero 256 (N.of_nat w)); lia).
  assert (forall z, (0 <= z < 2 ^ 63)%Z -> (Z.to_N z < 2 ^ 63)%N) as BZ.
  { intros z [Hz1 Hz2]. apply N2Z.inj_lt. rewrite Z2N.id by exact Hz1. exact Hz2. }
  destruct (Z.ltb_spec i 0) as [Hi0|Hi0].
  { replace (1 <=? i) with false by lia. replace (i =? next) with false by lia. cbn [andb]. split; reflexivity. }
  rewrite (xs_entries_nth _ _ _ _ _ _ i Hw Hn).
  destruct (Z.leb_spec i 0) as [Hi1|Hi1].
  { replace (1 <=? i) with false by lia. replace (i =? next) with false by lia. cbn [andb].
    rewrite parse_xref_entry by (auto; lia). split; reflexivity. }
  replace (1 <=? i) with true by lia. cbn [andb].
  destruct (Z.ltb_spec i next) as [Hlt|Hge].
  - replace (i =? next) with false by lia. unfold xs_entry. unfold mem. cbn [andb].
    destruct (mget i sm) as [[s k]|] eqn:Es.
    + destruct (F3 i s k Es) as [G1 G2]. destruct (Hs i s k Es) as [S1 S2].
      rewrite parse_xref_entry by (auto; lia). cbn [N.eqb]. cbn [negb].
      split; [reflexivity|]. rewrite !Z2N.id by lia. reflexivity.
    + destruct (mget i positions) as [p|] eqn:Ep.
      * specialize (F2 i p Ep). specialize (Hp i p Ep).
        rewrite parse_xref_entry by (auto; lia || (apply BZ; lia)). cbn [N.eqb Pos.eqb negb].
        replace (0 <? Z.to_N p)%N with true by lia. rewrite Z2N.id by lia. split; reflexivity.
      * rewrite parse_xref_entry by (auto; lia). cbn [N.eqb negb]. split; reflexivity.
  - cbn [andb]. destruct (Z.eqb_spec i next) as [->|Hne2].
    + rewrite parse_xref_entry by (auto; lia || (apply BZ; lia)). cbn [N.eqb Pos.eqb].
      replace (0 <? Z.to_N buflen)%N with true by lia. rewrite Z2N.id by lia. split; reflexivity.
    + split; reflexivity.
Qed.

(* ------------------------------------------------------------------ *)
(** The whole stream object *)

Definition xref_dict_text (next : Z) (w2 w3 : nat) (len : Z) : bytes :=
  bs "<</Filter /FlateDecode /Length " ++ decZ len ++ bs " /Size " ++ decZ (next + 1) ++
  bs " /Type /XRef /W [1 " ++ decZ (Z.of_nat w2) ++ bs " " ++ decZ (Z.of_nat w3) ++ bs "] >>".

Lemma writeXRefStream_text deflate next buflen positions sm w2 w3 :
  xs_widths buflen positions sm = (w2, w3) ->
  writeXRefStream deflate next buflen positions sm =
  decZ next ++ bs " 0 obj" ++ nl ++
  xref_dict_text next w2 w3 (Z.of_nat (length (deflate (xs_data next buflen positions sm)))) ++
  nl ++ bs "stream" ++ nl ++ deflate (xs_data next buflen positions sm) ++ nl ++ bs "endstream" ++ nl ++ bs "endobj" ++ nl.
Proof.
  intros Hw. unfold writeXRefStream. rewrite Hw.
  set (comp := deflate _). generalize (Z.of_nat (length comp)). intros L.
  do 3 f_equal. rewrite app_assoc. rewrite (app_assoc (xref_dict_text _ _ _ _)). f_equal. f_equal.
  unfold xref_dict_text.
  transitivity (format_pairs
    [(bs "/Type", bs "/XRef"); (bs "/Size", decZ (next + 1));
     (bs "/W", bs "[" ++ bs "1" ++ bs " " ++ decZ (Z.of_nat w2) ++ bs " " ++ decZ (Z.of_nat w3) ++ bs "]");
     (bs "/Filter", bs "/FlateDecode"); (bs "/Length", decZ L)]).
  { unfold formatDictionary. cbn [map fst snd formatValue join].
    repeat rewrite <- app_assoc. reflexivity. }
  generalize (decZ (next + 1)) (decZ (Z.of_nat w2)) (decZ (Z.of_nat w3)) (decZ L). intros d1 d2 d3 d4.
  set (v := bs "[" ++ _). unfold format_pairs.
  transitivity (bs "<<" ++ flat_map (fun kv => slash_key (fst kv) ++ bs " " ++ snd kv ++ bs " ")
    [(bs "/Filter", bs "/FlateDecode"); (bs "/Length", d4); (bs "/Size", d1); (bs "/Type", bs "/XRef"); (bs "/W", v)] ++ bs ">>").
  { reflexivity. }
  unfold v. cbn [flat_map fst snd].
  repeat match goal with |- context [slash_key ?a] => let v := eval vm_compute in (slash_key a) in change (slash_key a) with v end.
  repeat rewrite <- app_assoc. reflexivity.
Qed.

Ltac sp := match goal with |- context [bs " " ++ ?x] => change (bs " " ++ x) with (" "%byte :: x) end.

Lemma m_key_lit key s : prefixb key s = false -> m_key key s = None.
Proof. intros H. unfold m_key. apply lit_none in H. rewrite H. reflexivity. Qed.
Lemma m_w_lit s : prefixb (bs "/W") s = false -> m_w s = None.
Proof. intros H. unfold m_w. apply lit_none in H. rewrite H. reflexivity. Qed.
Lemma m_index_lit s : prefixb (bs "/Index") s = false -> m_index s = None.
Proof. intros H. unfold m_index. apply lit_none in H. rewrite H. reflexivity. Qed.
Lemma m_decodeparms_lit s : prefixb (bs "/DecodeParms") s = false -> m_decodeparms s = None.
Proof. intros H. unfold m_decodeparms. apply lit_none in H. rewrite H. reflexivity. Qed.

Lemma decZ_digits z : 0 <= z -> forallb is_digit (decZ z) = true.
Proof. intros H. rewrite decZ_nonneg by exact H. apply dec_digits. Qed.
Lemma decZ_nonnil z : 0 <= z -> decZ z <> [].
Proof. intros H. rewrite decZ_nonneg by exact H. apply dec_nonnil. Qed.

Lemma m_key_here key d r :
  d <> [] -> forallb is_digit d = true -> (match r with [] => True | b :: _ => is_digit b = false end) ->
  m_key key (key ++ bs " " ++ d ++ r) = Some d.
Proof.
  intros Hn Hd Hr. unfold m_key. rewrite lit_app. cbn [obind]. change (bs " " ++ d ++ r) with (" "%byte :: d ++ r).
  rewrite ws1_space by (apply digits_head; auto using digit_not_ws). cbn [obind].
  rewrite digits1_app by assumption. reflexivity.
Qed.

Lemma m_w_here a b c r : 0 <= a -> 0 <= b -> 0 <= c ->
  m_w (bs "/W [" ++ decZ a ++ bs " " ++ decZ b ++ bs " " ++ decZ c ++ bs "]" ++ r) = Some (decZ a, decZ b, decZ c).
Proof.
  intros Ha Hb Hc. unfold m_w.
  change (bs "/W [" ++ ?x) with (bs "/W" ++ bs " [" ++ x). rewrite lit_app. cbn [obind].
  match goal with |- context [ws0 (bs " [" ++ ?x)] => change (ws0 (bs " [" ++ x)) with (bs "[" ++ x) end.
  rewrite lit_app. cbn [obind].
  assert (forall z x, 0 <= z -> ws0 (decZ z ++ x) = decZ z ++ x) as Hw.
  { intros z x Hz. unfold ws0. pose proof (decZ_nonnil z Hz). pose proof (decZ_digits z Hz) as Hd.
    destruct (decZ z) as [|y u]; [congruence|]. cbn [app drop_while]. cbn [forallb] in Hd. apply andb_true_iff in Hd.
    rewrite digit_not_ws by tauto. reflexivity. }
  rewrite Hw by exact Ha.
  rewrite digits1_app by (auto using decZ_nonnil, decZ_digits; reflexivity). cbn [obind]. sp.
  rewrite ws1_space by (apply digits_head; auto using decZ_nonnil, decZ_digits, digit_not_ws). cbn [obind].
  rewrite digits1_app by (auto using decZ_nonnil, decZ_digits; reflexivity). cbn [obind]. sp.
  rewrite ws1_space by (apply digits_head; auto using decZ_nonnil, decZ_digits, digit_not_ws). cbn [obind].
  rewrite digits1_app by (auto using decZ_nonnil, decZ_digits; reflexivity). cbn [obind]. reflexivity.
Qed.

Lemma m_any0obj_here z r : 0 <= z -> m_any0obj (decZ z ++ bs " 0 obj" ++ r) = Some (decZ z).
Proof.
  intros Hz. unfold m_any0obj.
  rewrite digits1_app by (auto using decZ_nonnil, decZ_digits; reflexivity). cbn [obind]. reflexivity.
Qed.

Lemma atoi_clip_decZ z : 0 <= z < 2 ^ 63 -> atoi_clip (decZ z) = z.
Proof.
  intros Hz. unfold atoi_clip. rewrite decZ_nonneg by lia. rewrite num_dec.
  change (Z.of_N int64_max) with (2 ^ 63 - 1). lia.
Qed.

Lemma decZ_length z k : 0 <= z -> z < 10 ^ Z.of_nat k -> (0 < k)%nat -> (length (decZ z) <= k)%nat.
Proof.
  intros H1 H2 H3. rewrite decZ_nonneg by exact H1. apply dec_length; [|exact H3].
  apply N2Z.inj_lt. rewrite N2Z.inj_pow, Z2N.id, nat_N_Z by exact H1. exact H2.
Qed.

Lemma decZ_length63 z : 0 <= z < 2 ^ 63 -> (length (decZ z) <= 19)%nat.
Proof. intros [H1 H2]. apply decZ_length; [exact H1| |lia]. change (10 ^ Z.of_nat 19) with 10000000000000000000. lia. Qed.

Lemma xref_dict_nostart p next w2 w3 L c q :
  p = c :: q -> is_digit c = false -> 0 <= L -> 0 <= next ->
  nostartb p (bs "<</Filter /FlateDecode /Length ") = true ->
  nostartb p (bs " /Size ") = true -> nostartb p (bs " /Type /XRef /W [1 ") = true ->
  nostartb p (bs " ") = true -> nostartb p (bs "] >>") = true ->
  nostart p (xref_dict_text next w2 w3 L).
Proof.
  intros -> Hc HL Hn H1 H2 H3 H4 H5. unfold xref_dict_text.
  repeat apply nostart_app; try (apply nostartb_ok; assumption); apply nostart_decZ; try exact Hc; lia.
Qed.

Lemma drop_blank_head s : match s with [] => True | b :: _ => is_blank b = false end -> drop_while is_blank s = s.
Proof. destruct s as [|b s]; [reflexivity|]. cbn [drop_while]. intros ->. reflexivity. Qed.

Lemma xref_dict_length next w2 w3 L : 0 <= next + 1 < 2 ^ 63 -> 0 <= L < 2 ^ 63 ->
  Z.of_nat w2 < 2 ^ 63 -> Z.of_nat w3 < 2 ^ 63 -> (length (xref_dict_text next w2 w3 L) <= 200)%nat.
Proof.
  intros H1 H2 H3 H4. unfold xref_dict_text. rewrite !app_length.
  pose proof (decZ_length63 L H2). pose proof (decZ_length63 (next + 1) H1).
  pose proof (decZ_length63 (Z.of_nat w2) ltac:(lia)). pose proof (decZ_length63 (Z.of_nat w3) ltac:(lia)).
  change (length (bs "<</Filter /FlateDecode /Length ")) with 31%nat.
  change (length (bs " /Size ")) with 7%nat. change (length (bs " /Type /XRef /W [1 ")) with 19%nat.
  change (length (bs " ")) with 1%nat. change (length (bs "] >>")) with 4%nat. lia.
Qed.

(** Reading the stream object that stands at [length pre]. *)
Lemma read_written_xref inflate next w2 w3 comp data pre post f :
  f = pre ++ decZ next ++ bs " 0 obj" ++ nl ++
      xref_dict_text next w2 w3 (Z.of_nat (length comp)) ++
      nl ++ bs "stream" ++ nl ++ comp ++ nl ++ bs "endstream" ++ nl ++ bs "endobj" ++ nl ++ post ->
  0 <= next -> next + 1 < 2 ^ 63 -> Z.of_nat (length comp) < 2 ^ 63 -> Z.of_nat w2 < 2 ^ 63 -> Z.of_nat w3 < 2 ^ 63 ->
  match comp with [] => False | b :: _ => is_blank b = false end ->
  contains (bs "endstream") comp = false ->
  inflate (comp ++ nl) = Some data ->
  contains (bs "/Index") (take 500 (from (flen pre) f)) = false ->
  read_xref_stream inflate f (flen pre) =
  Ok (mkXStream 1 (Z.of_nat w2) (Z.of_nat w3) [(0, next + 1)] data (take 500 (from (flen pre) f))).
Proof.
  intros Hf Hn Hn2 Hc Hw2 Hw3 Hb He Hi Hx. unfold read_xref_stream.
  assert (from (flen pre) f = (decZ next ++ bs " 0 obj" ++ nl) ++ xref_dict_text next w2 w3 (Z.of_nat (length comp)) ++
      nl ++ bs "stream" ++ nl ++ comp ++ nl ++ bs "endstream" ++ nl ++ bs "endobj" ++ nl ++ post) as Hs.
  { unfold from, flen. rewrite Nat2Z.id, Hf, skipn_app_exact. repeat rewrite <- app_assoc. reflexivity. }
  cbv zeta. rewrite Hs in Hx |- *.
  set (head := decZ next ++ bs " 0 obj" ++ nl) in *.
  set (D := xref_dict_text next w2 w3 (Z.of_nat (length comp))) in *.
  set (tail := nl ++ bs "stream" ++ nl ++ comp ++ nl ++ bs "endstream" ++ nl ++ bs "endobj" ++ nl ++ post) in *.
  assert (length head <= 27)%nat as Lh.
  { unfold head. rewrite !app_length. pose proof (decZ_length63 next ltac:(lia)).
    change (length (bs " 0 obj")) with 6%nat. change (length nl) with 1%nat. lia. }
  assert (length D <= 200)%nat as LD by (apply xref_dict_length; lia).
  assert (take 500 (head ++ D ++ tail) = head ++ D ++ take (500 - N.of_nat (length head) - N.of_nat (length D)) tail) as Ht.
  { rewrite take_app_l by lia. f_equal. rewrite take_app_l by lia. reflexivity. }
  rewrite Ht in Hx |- *. set (tl5 := take _ tail) in *.
  assert (found (find m_any0obj (head ++ D ++ tl5)) = true) as ->.
  { unfold head. repeat rewrite <- app_assoc. erewrite find_at0 by (apply m_any0obj_here; exact Hn). reflexivity. }
  cbn [rbind negb].
  assert (nostart (bs "<<") head) as Nh.
  { unfold head. apply nostart_app; [apply nostart_decZ; [exact Hn|reflexivity]|apply nostartb_ok; reflexivity]. }
  assert (exists D', D = bs "<<" ++ D') as [D' HD] by (unfold D, xref_dict_text; eexists; reflexivity).
  assert (index (bs "<<") (head ++ D ++ tail) = Some (length head)) as ->.
  { rewrite HD, <- app_assoc. apply index_at. exact Nh. }
  replace (length (head ++ D ++ tl5) <? length head)%nat with false
    by (symmetry; apply Nat.ltb_ge; rewrite app_length; lia).
  rewrite skipn_app_exact.
  assert (value_of (find (m_key (bs "/Size")) (D ++ tl5)) = Some (decZ (next + 1))) as ->.
  { unfold D, xref_dict_text. repeat rewrite <- app_assoc.
    rewrite (app_assoc (bs "<</Filter /FlateDecode /Length ")).
    change (bs " /Size ") with (bs " " ++ bs "/Size" ++ bs " "). repeat rewrite <- app_assoc.
    rewrite (app_assoc (decZ (Z.of_nat (length comp)))), (app_assoc (bs "<</Filter /FlateDecode /Length ")).
    erewrite find_at; [reflexivity| |].
    - apply (nostart_nofire _ (bs "/Size")); [apply m_key_lit|].
      apply nostart_app; [apply nostartb_ok; reflexivity|].
      apply nostart_app; [apply nostart_decZ; [lia|reflexivity]|apply nostartb_ok; reflexivity].
    - apply m_key_here; [apply decZ_nonnil; lia|apply decZ_digits; lia|reflexivity]. }
  assert (value_of (find m_w (D ++ tl5)) = Some (decZ 1, decZ (Z.of_nat w2), decZ (Z.of_nat w3))) as ->.
  { unfold D, xref_dict_text. 
    change (bs " /Type /XRef /W [1 ") with (bs " /Type /XRef " ++ bs "/W [" ++ decZ 1 ++ bs " ").
    change (bs "] >>") with (bs "]" ++ bs " >>"). repeat rewrite <- app_assoc.
    match goal with |- context [find m_w (?a ++ ?b ++ ?c ++ ?d ++ ?e ++ bs "/W [" ++ ?r)] =>
      replace (a ++ b ++ c ++ d ++ e ++ bs "/W [" ++ r) with ((a ++ b ++ c ++ d ++ e) ++ bs "/W [" ++ r)
        by (repeat rewrite <- app_assoc; reflexivity) end.
    erewrite find_at; [reflexivity| |].
    - apply (nostart_nofire _ (bs "/W")); [apply m_w_lit|].
      repeat apply nostart_app; try (apply nostartb_ok; reflexivity); apply nostart_decZ; try reflexivity; lia.
    - apply m_w_here; lia. }
  assert (value_of (find m_index (D ++ tl5)) = None) as ->.
  { rewrite (find_nolit m_index (bs "/Index")); [reflexivity|apply m_index_lit|].
    rewrite contains_nostart in Hx; [exact Hx|].
    unfold head. apply nostart_app; [apply nostart_decZ; [exact Hn|reflexivity]|apply nostartb_ok; reflexivity]. }
  rewrite skipn_app_exact.
  assert (index (bs "stream") (D ++ tail) = Some (S (length D))) as ->.
  { unfold tail. rewrite (app_assoc D). rewrite index_at.
    - rewrite app_length. cbn [length nl]. f_equal. lia.
    - apply nostart_app; [|apply nostartb_ok; reflexivity].
      apply (xref_dict_nostart _ _ _ _ _ "s"%byte (bs "tream")); try reflexivity; lia. }
  replace (skipn (length head + S (length D) + 6) (head ++ D ++ tail)) with
    (nl ++ comp ++ nl ++ bs "endstream" ++ nl ++ bs "endobj" ++ nl ++ post).
  2:{ unfold tail. symmetry. set (r := nl ++ comp ++ _).
      replace (head ++ D ++ nl ++ bs "stream" ++ r) with ((head ++ D ++ nl ++ bs "stream") ++ r)
        by (repeat rewrite <- app_assoc; reflexivity).
      apply skipn_len_app. rewrite !app_length. change (length nl) with 1%nat. change (length (bs "stream")) with 6%nat. lia. }
  assert (drop_while is_blank (nl ++ comp ++ nl ++ bs "endstream" ++ nl ++ bs "endobj" ++ nl ++ post) =
          comp ++ nl ++ bs "endstream" ++ nl ++ bs "endobj" ++ nl ++ post) as ->.
  { cbn [nl app drop_while]. change (is_blank x0a) with true. cbv iota. apply drop_blank_head.
    destruct comp as [|b comp']; [destruct Hb|exact Hb]. }
  assert (index (bs "endstream") (comp ++ nl ++ bs "endstream" ++ nl ++ bs "endobj" ++ nl ++ post) = Some (length (comp ++ nl))) as ->.
  { rewrite (app_assoc comp). apply index_at. apply nostart_sep; [exact He| |discriminate].
    cbn. intuition discriminate. }
  rewrite (app_assoc comp nl), firstn_len_app by reflexivity. rewrite Hi.
  rewrite !atoi_clip_decZ by lia. reflexivity.
Qed.

Lemma size_nat_le n k : (n < 2 ^ N.of_nat k)%N -> (N.size_nat n <= k)%nat.
Proof.
  destruct n as [|p]; [cbn; lia|]. cbn [N.size_nat]. revert k.
  induction p as [p IH|p IH|]; intros k H; destruct k as [|k]; cbn [Pos.size_nat];
    rewrite ?Nat2N.inj_succ, ?N.pow_succ_r' in H; try (cbn in H; lia); try lia.
  - specialize (IH k). change (N.pos p~1) with (2 * N.pos p + 1)%N in H. lia.
  - specialize (IH k). change (N.pos p~0) with (2 * N.pos p)%N in H. lia.
Qed.

Lemma bytes_needed_le fuel n : (bytes_needed fuel n <= fuel)%nat.
Proof. revert n. induction fuel as [|f IH]; intros n; cbn [bytes_needed]; [lia|]. destruct (n =? 0)%N; [lia|]. specialize (IH (n / 256)%N). lia. Qed.

Lemma calc_small n : (calculateBytesNeeded n <= S (N.size_nat n))%nat.
Proof.
  unfold calculateBytesNeeded. destruct (n =? 0)%N; [lia|]. pose proof (bytes_needed_le (N.size_nat n) n). lia.
Qed.

Lemma maxZ_bound l b : 0 <= b -> (forall x, In x l -> x <= b) -> maxZ l <= b.
Proof.
  intros Hb. induction l as [|y l IH]; intros H; cbn [maxZ fold_right]; [exact Hb|]. fold (maxZ l).
  specialize (H y (or_introl eq_refl)) as Hy. specialize (IH (fun x Hx => H x (or_intror Hx))). lia.
Qed.

Lemma widths_small buflen positions sm w2 w3 :
  xs_widths buflen positions sm = (w2, w3) -> 0 <= buflen < 2 ^ 63 ->
  (forall p, In p positions -> snd p < 2 ^ 63) ->
  (forall e, In e sm -> fst (snd e) < 2 ^ 63 /\ snd (snd e) < 2 ^ 63) ->
  Z.of_nat w2 < 100 /\ Z.of_nat w3 < 100.
Proof.
  unfold xs_widths. intros H Hb Hp Hs. injection H as <- <-.
  assert (forall z, z < 2 ^ 64 -> (calculateBytesNeeded (Z.to_N z) <= 65)%nat) as Hc.
  { intros z Hz. pose proof (calc_small (Z.to_N z)). pose proof (size_nat_le (Z.to_N z) 64) as Hn.
    assert (Z.to_N z < 2 ^ N.of_nat 64)%N as Hl.
    { apply N2Z.inj_lt. rewrite N2Z.inj_pow. change (Z.of_N 2 ^ Z.of_N (N.of_nat 64)) with (2 ^ 64). lia. }
    specialize (Hn Hl). lia. }
  assert (maxZ (map snd positions) <= 2 ^ 63) as H1.
  { apply maxZ_bound; [lia|]. intros x Hx. apply in_map_iff in Hx. destruct Hx as [p [<- Hx]]. specialize (Hp p Hx). lia. }
  assert (maxZ (map (fun p => fst (snd p)) sm) <= 2 ^ 63) as H2.
  { apply maxZ_bound; [lia|]. intros x Hx. apply in_map_iff in Hx. destruct Hx as [p [<- Hx]]. specialize (Hs p Hx). lia. }
  assert (maxZ (map (fun p => snd (snd p)) sm) <= 2 ^ 63) as H3.
  { apply maxZ_bound; [lia|]. intros x Hx. apply in_map_iff in Hx. destruct Hx as [p [<- Hx]]. specialize (Hs p Hx). lia. }
  pose proof (Hc (maxZ (map (fun p => fst (snd p)) sm)) ltac:(lia)).
  pose proof (Hc (maxZ (map (fun p => snd (snd p)) sm)) ltac:(lia)).
  pose proof (Hc (Z.max (maxZ (map snd positions)) (buflen + 200)) ltac:(lia)).
  split; [|lia]. destruct (_ <? _); lia.
Qed.

(** C10: the bytes written at the end of [pre], read back. *)
Lemma xref_stream_roundtrip deflate inflate next positions sm pre post f :
  f = pre ++ writeXRefStream deflate next (flen pre) positions sm ++ post ->
  let comp := deflate (xs_data next (flen pre) positions sm) in
  1 <= next < 2 ^ 62 -> 0 < flen pre < 2 ^ 63 ->
  (forall p, In p positions -> 0 < snd p < 2 ^ 63) ->
  (forall e, In e sm -> 0 <= fst (snd e) < 2 ^ 63 /\ 0 <= snd (snd e) < 2 ^ 63) ->
  Z.of_nat (length comp) < 2 ^ 63 ->
  match comp with [] => False | b :: _ => is_blank b = false end ->
  contains (bs "endstream") comp = false ->
  inflate (comp ++ nl) = Some (xs_data next (flen pre) positions sm) ->
  contains (bs "/Index") (take 500 (from (flen pre) f)) = false ->
  contains (bs "/DecodeParms") (take 500 (from (flen pre) f)) = false ->
  exists m s, ParseXRefStreamFull inflate f (flen pre) = Ok (m, s) /\
    forall i,
      mget i m = (if (1 <=? i) && (i <? next) && negb (mem i sm) then mget i positions
                  else if i =? next then Some (flen pre) else None) /\
      mget i s = (if (1 <=? i) && (i <? next) then mget i sm else None).
Proof.
  intros Hf comp Hn Hp Hpos Hsm Hc Hb He Hi Hx Hd.
  destruct (xs_widths (flen pre) positions sm) as [w2 w3] eqn:Hw.
  destruct (widths_small _ _ _ _ _ Hw ltac:(lia)) as [W2 W3].
  { intros p H. apply Hpos. exact H. }
  { intros e H. specialize (Hsm e H). lia. }
  rewrite (writeXRefStream_text _ _ _ _ _ _ _ Hw) in Hf. fold comp in Hf.
  unfold ParseXRefStreamFull.
  rewrite (read_written_xref inflate next w2 w3 comp (xs_data next (flen pre) positions sm) pre post f); try assumption; try lia.
  2:{ rewrite Hf. repeat rewrite <- app_assoc. reflexivity. }
  cbn [rbind xw1 xw2 xw3].
  replace (1 + Z.of_nat w2 + Z.of_nat w3 =? 0) with false by lia.
  assert (apply_predictor (mkXStream 1 (Z.of_nat w2) (Z.of_nat w3) [(0, next + 1)] (xs_data next (flen pre) positions sm)
            (take 500 (from (flen pre) f))) = xs_data next (flen pre) positions sm) as ->.
  { unfold apply_predictor. cbn [xstr xdata].
    rewrite (find_nolit m_decodeparms (bs "/DecodeParms")); [reflexivity|apply m_decodeparms_lit|exact Hd]. }
  unfold stream_entries. cbn [xw1 xw2 xw3 xsubs].
  set (data := xs_data next (flen pre) positions sm).
  replace (flen data <? 1 + Z.of_nat w2 + Z.of_nat w3) with false.
  2:{ symmetry. apply Z.ltb_ge. unfold flen, data, xs_data. rewrite Hw, app_length, xref_entry_length. lia. }
  replace (Z.to_nat (1 + Z.of_nat w2 + Z.of_nat w3)) with (1 + w2 + w3)%nat by lia.
  change (Z.to_nat 1) with 1%nat. rewrite !Nat2Z.id.
  match goal with |- context [Ok ?t] => set (r := t) end.
  exists (fst r), (snd r). split; [destruct r; reflexivity|]. intros i.
  pose proof (xref_data_roundtrip next (flen pre) positions sm w2 w3 [] i Hw) as H.
  rewrite app_nil_r in H. fold data in H. unfold r. apply H; try lia; try (cbn [length]; lia).
  - intros j p Hj. apply mget_in in Hj. apply (Hpos _ Hj).
  - intros j s k Hj. apply mget_in in Hj. apply (Hsm _ Hj).
Qed.

(* ------------------------------------------------------------------ *)
(** PNG predictors (C20) *)

Lemma sub_undo b l : n2b (b2n (minus256 (b2n b) (b2n l)) + b2n l) = b.
Proof.
  unfold minus256. apply b2n_inj. rewrite b2n_n2b, b2n_n2b. pose proof (b2n_bound b). pose proof (b2n_bound l).
  rewrite N.add_mod_idemp_l by lia. replace (b2n b + 256 - b2n l + b2n l)%N with (b2n b + 1 * 256)%N by lia.
  rewrite N.mod_add by lia. apply N.mod_small. exact H.
Qed.

Lemma row_sub_undo row : forall left, row_sub left (png_sub left row) = row.
Proof.
  induction row as [|b r IH]; intros left; [reflexivity|]. cbn [png_sub row_sub].
  rewrite sub_undo, IH. reflexivity.
Qed.

Lemma row_up_undo row : forall prev, length prev = length row -> row_up prev (png_up prev row) = row.
Proof.
  induction row as [|b r IH]; intros [|p prev] H; try reflexivity; try discriminate. cbn [png_up row_up].
  rewrite sub_undo, IH by (injection H as H; exact H). reflexivity.
Qed.

Lemma png_up_length prev row : length prev = length row -> length (png_up prev row) = length row.
Proof. revert prev. induction row as [|b r IH]; intros [|p prev] H; try reflexivity; try discriminate. cbn. rewrite IH; auto. Qed.
Lemma png_sub_length l row : length (png_sub l row) = length row.
Proof. revert l. induction row as [|b r IH]; intros l; [reflexivity|]. cbn. rewrite IH. reflexivity. Qed.

Lemma png_filter_length t prev row : (tag_value t <= 2)%N -> length prev = length row -> length (png_filter t prev row) = S (length row).
Proof.
  intros Ht Hl. destruct t; cbn in Ht; try lia; cbn [png_filter length]; rewrite ?png_sub_length, ?png_up_length by exact Hl; reflexivity.
Qed.

Lemma undo_row_filter t prev row : (tag_value t <= 2)%N -> length prev = length row -> undo_row prev (png_filter t prev row) = row.
Proof.
  intros Ht Hl. destruct t; cbn in Ht; try lia; cbn [png_filter undo_row].
  - reflexivity.
  - change (b2n (n2b (tag_value TSub)) =? 1)%N with true. cbv iota. apply row_sub_undo.
  - change (b2n (n2b (tag_value TUp)) =? 1)%N with false. change (b2n (n2b (tag_value TUp)) =? 2)%N with true. cbv iota.
    apply row_up_undo. exact Hl.
Qed.

Lemma undo_rows_filter columns : forall rows prev,
  length prev = columns ->
  (forall tr, In tr rows -> (tag_value (fst tr) <= 2)%N /\ length (snd tr) = columns) ->
  undo_rows prev (png_rows prev rows) = concat (map snd rows).
Proof.
  induction rows as [|[t row] rows IH]; intros prev Hp H; [reflexivity|].
  destruct (H (t, row) (or_introl eq_refl)) as [Ht Hl]. cbn [fst snd] in Ht, Hl.
  cbn [png_rows undo_rows map concat snd]. rewrite undo_row_filter by (try exact Ht; congruence).
  f_equal. apply IH; [exact Hl|]. intros tr Htr. apply H. right. exact Htr.
Qed.

Lemma png_rows_each columns : forall rows prev e,
  length prev = columns ->
  (forall tr, In tr rows -> (tag_value (fst tr) <= 2)%N /\ length (snd tr) = columns) ->
  In e (png_rows prev rows) -> length e = S columns.
Proof.
  induction rows as [|[t row] rows IH]; intros prev e Hp H; [intros []|].
  destruct (H (t, row) (or_introl eq_refl)) as [Ht Hl]. cbn [fst snd] in Ht, Hl.
  cbn [png_rows In]. intros [<-|He].
  - rewrite png_filter_length by (try exact Ht; congruence). congruence.
  - eapply IH; [exact Hl| |exact He]. intros tr Htr. apply H. right. exact Htr.
Qed.

Lemma concat_length_ge {A} (l : list (list A)) k : (0 < k)%nat -> (forall e, In e l -> length e = k) -> (length l <= length (concat l))%nat.
Proof.
  intros Hk. induction l as [|e l IH]; intros H; [cbn; lia|]. cbn [concat length]. rewrite app_length.
  rewrite (H e (or_introl eq_refl)). specialize (IH (fun x Hx => H x (or_intror Hx))). lia.
Qed.

Lemma predictor_undone columns rows rest :
  (forall tr, In tr rows -> (tag_value (fst tr) <= 2)%N /\ length (snd tr) = columns) ->
  (length rest <= columns)%nat ->
  undo_predictor columns (png_encode columns rows ++ rest) = concat (map snd rows).
Proof.
  intros H Hr. unfold undo_predictor, png_encode.
  assert (forall e, In e (png_rows (repeat x00 columns) rows) -> length e = S columns) as He.
  { intros e. apply png_rows_each; [apply repeat_length|exact H]. }
  rewrite chunks_concat.
  - apply (undo_rows_filter columns); [apply repeat_length|exact H].
  - lia.
  - exact He.
  - lia.
  - rewrite app_length. pose proof (concat_length_ge _ (S columns) ltac:(lia) He) as Hl.
    eapply Nat.le_trans; [exact Hl|apply Nat.le_add_r].
Qed.

Lemma apply_predictor_rows s p pr co columns rows rest :
  value_of (find m_decodeparms (xstr s)) = Some p ->
  value_of (find (m_key (bs "/Predictor")) p) = Some pr ->
  value_of (find (m_key (bs "/Columns")) p) = Some co ->
  10 <= atoi_clip pr <= 15 -> atoi_clip co = Z.of_nat columns ->
  xdata s = png_encode columns rows ++ rest -> rows <> [] ->
  (forall tr, In tr rows -> (tag_value (fst tr) <= 2)%N /\ length (snd tr) = columns) ->
  (length rest <= columns)%nat ->
  apply_predictor s = concat (map snd rows).
Proof.
  intros H1 H2 H3 Hp Hc Hd Hne H Hr. unfold apply_predictor. rewrite H1, H2, H3, Hc.
  replace (10 <=? atoi_clip pr) with true by lia. replace (atoi_clip pr <=? 15) with true by lia. cbn [andb].
  assert (columns < length (xdata s))%nat as Hl.
  { rewrite Hd, app_length. unfold png_encode. destruct rows as [|[t row] rows]; [congruence|]. cbn [png_rows concat].
    destruct (H (t, row) (or_introl eq_refl)) as [Ht Hlr]. cbn [fst snd] in Ht, Hlr.
    rewrite app_length, png_filter_length by (try exact Ht; rewrite repeat_length; congruence). lia. }
  unfold flen. replace (Z.to_nat (Z.min (Z.of_nat columns) (Z.of_nat (length (xdata s))))) with columns by lia.
  rewrite Hd. apply predictor_undone; assumption.
Qed.

(* ------------------------------------------------------------------ *)
(** Objects inside a stream (C21) *)

Lemma fields_aux_word f w : forall cur s, (forall b, In b w -> f b = false) ->
  fields_aux f (w ++ s) cur = fields_aux f s (rev w ++ cur).
Proof.
  induction w as [|b w IH]; intros cur s H; [reflexivity|].
  cbn [app fields_aux rev]. rewrite (H b (or_introl eq_refl)), IH by (intros x Hx; apply H; right; exact Hx).
  rewrite <- app_assoc. reflexivity.
Qed.

Lemma fields_word f w c s : w <> [] -> (forall b, In b w -> f b = false) -> f c = true ->
  fields f (w ++ c :: s) = w :: fields f s.
Proof.
  intros Hn Hw Hc. unfold fields. rewrite fields_aux_word by exact Hw. rewrite app_nil_r. cbn [fields_aux]. rewrite Hc.
  destruct (rev w) as [|x r] eqn:E.
  - exfalso. apply Hn. rewrite <- (rev_involutive w), E. reflexivity.
  - rewrite <- E, rev_involutive. reflexivity.
Qed.

Lemma fields_last f w : w <> [] -> (forall b, In b w -> f b = false) -> fields f w = [w].
Proof.
  intros Hn Hw. unfold fields. rewrite <- (app_nil_r w) at 1. rewrite fields_aux_word by exact Hw. rewrite app_nil_r. cbn [fields_aux].
  destruct (rev w) as [|x r] eqn:E.
  - exfalso. apply Hn. rewrite <- (rev_involutive w), E. reflexivity.
  - rewrite <- E, rev_involutive. reflexivity.
Qed.

Lemma fields_skip f c s : f c = true -> fields f (c :: s) = fields f s.
Proof. intros H. unfold fields. cbn [fields_aux]. rewrite H. reflexivity. Qed.

Lemma decZ_no_space z : 0 <= z -> forall b, In b (decZ z) -> is_space b = false.
Proof.
  intros Hz b Hb. apply digit_not_space. pose proof (decZ_digits z Hz) as H. rewrite forallb_forall in H. apply H. exact Hb.
Qed.

Lemma atoi_any_decZ z : 0 <= z < 2 ^ 63 -> atoi_any (decZ z) = z.
Proof.
  intros Hz. pose proof (decZ_nonnil z ltac:(lia)) as Hn. pose proof (decZ_digits z ltac:(lia)) as Hd.
  unfold atoi_any. destruct (decZ z) as [|c r] eqn:E; [congruence|].
  pose proof Hd as Hd'. cbn [forallb] in Hd'. apply andb_true_iff in Hd'. destruct Hd' as [Hc _].
  destruct (digit_not_sign c Hc) as [-> ->]. cbn [orb]. rewrite Hd, <- E. apply atoi_clip_decZ. exact Hz.
Qed.

Fixpoint entries_of (off : Z) (objs : list (Z * bytes)) : list (Z * Z) :=
  match objs with
  | [] => []
  | (n, d) :: objs' => (n, off) :: entries_of (off + Z.of_nat (length d) + 1) objs'
  end.

Lemma index_fields objs : forall off,
  0 <= off -> off + flen (objstm_body objs) < 2 ^ 63 ->
  (forall o, In o objs -> 0 <= fst o < 2 ^ 63) ->
  pairs_of (fields is_space (objstm_index off objs)) = entries_of off objs.
Proof.
  induction objs as [|[n d] objs IH]; intros off Ho Hb Hn; [reflexivity|].
  cbn [objstm_index entries_of].
  assert (0 <= n < 2 ^ 63) as Hn0 by (apply (Hn (n, d)); left; reflexivity).
  assert (Z.of_nat (length d) + 1 + flen (objstm_body objs) = flen (objstm_body ((n, d) :: objs))) as Hl.
  { unfold flen, objstm_body. cbn [flat_map snd]. rewrite !app_length. cbn [length]. lia. }
  assert (0 <= flen (objstm_body objs)) as Hz by (unfold flen; lia).
  change (bs " " ++ decZ off ++ ?r) with (" "%byte :: decZ off ++ r).
  rewrite fields_word; [|apply decZ_nonnil; lia|apply decZ_no_space; lia|reflexivity].
  change (bs " " ++ ?r) with (" "%byte :: r).
  rewrite fields_word; [|apply decZ_nonnil; lia|apply decZ_no_space; lia|reflexivity].
  cbn [pairs_of]. rewrite IH; [|lia|lia|intros o Hin; apply Hn; right; exact Hin].
  rewrite !atoi_any_decZ by lia. reflexivity.
Qed.

Lemma entries_nth objs : forall i off n d,
  nth_error objs i = Some (n, d) ->
  nth_error (entries_of off objs) i = Some (n, off + flen (objstm_body (firstn i objs))).
Proof.
  induction objs as [|[k e] objs IH]; intros [|i] off n d H; try discriminate.
  - cbn in H. injection H as -> ->. cbn. f_equal. f_equal. lia.
  - cbn in H. cbn [entries_of nth_error firstn]. rewrite (IH i _ n d H). f_equal. f_equal.
    unfold flen, objstm_body. cbn [flat_map snd]. rewrite !app_length. cbn [length]. lia.
Qed.

Lemma entries_length objs : forall off, length (entries_of off objs) = length objs.
Proof. induction objs as [|[k e] objs IH]; intros off; [reflexivity|]. cbn. rewrite IH. reflexivity. Qed.

Lemma body_split objs : forall i n d, nth_error objs i = Some (n, d) ->
  objstm_body objs = objstm_body (firstn i objs) ++ d ++ [x0a] ++ objstm_body (skipn (S i) objs).
Proof.
  induction objs as [|[k e] objs IH]; intros [|i] n d H; try discriminate.
  - cbn in H. injection H as -> ->. cbn [firstn skipn]. unfold objstm_body. cbn [flat_map app snd]. rewrite <- app_assoc. reflexivity.
  - cbn in H. cbn [firstn skipn]. unfold objstm_body in *. cbn [flat_map snd]. rewrite (IH i n d H). rewrite !app_assoc. reflexivity.
Qed.

Lemma rtrim_tidy f u b t : f b = false -> forallb f t = true -> rtrim f ((u ++ [b]) ++ t) = u ++ [b].
Proof.
  intros Hb Ht. unfold rtrim. rewrite rev_app_distr, rev_app_distr. cbn [rev app].
  assert (forallb f (rev t) = true) as Hr.
  { rewrite forallb_forall in *. intros x Hx. apply Ht. apply in_rev. exact Hx. }
  rewrite drop_while_app by (cbn; auto). cbn [rev]. rewrite rev_involutive. reflexivity.
Qed.

Lemma conforming_object objs i n d :
  nth_error objs i = Some (n, d) -> tidy d ->
  (forall o, In o objs -> 0 <= fst o < 2 ^ 63) -> flen (conforming_objstm objs) < 2 ^ 63 ->
  object_in_stream n (Z.of_nat i) (conforming_first objs) (conforming_objstm objs) = Ok d.
Proof.
  intros Hi Ht Hn Hl. unfold object_in_stream, conforming_first.
  assert (flen (conforming_objstm objs) = flen (objstm_index 0 objs) + flen (objstm_body objs)) as Hlen.
  { unfold conforming_objstm, flen. rewrite app_length. lia. }
  assert (0 <= flen (objstm_index 0 objs)) as Hz by (unfold flen; lia).
  assert (0 <= flen (objstm_body objs)) as Hz2 by (unfold flen; lia).
  replace (flen (conforming_objstm objs) <? flen (objstm_index 0 objs)) with false by lia. cbv zeta.
  assert (firstn (Z.to_nat (flen (objstm_index 0 objs))) (conforming_objstm objs) = objstm_index 0 objs) as ->.
  { unfold conforming_objstm, flen. rewrite Nat2Z.id. apply firstn_len_app. reflexivity. }
  rewrite index_fields by (assumption || lia).
  rewrite entries_length.
  assert (i < length objs)%nat as Hil by (apply nth_error_Some; congruence).
  replace (Z.of_nat (length objs) <=? Z.of_nat i) with false by lia.
  replace (Z.of_nat i <? 0) with false by lia. rewrite Nat2Z.id.
  rewrite (entries_nth _ _ _ _ _ Hi). cbn [fst snd]. rewrite Z.eqb_refl. cbn [snd]. rewrite Z.add_0_l.
  pose proof (body_split _ _ _ _ Hi) as Hs.
  set (A := objstm_body (firstn i objs)) in *. set (B := objstm_body (skipn (S i) objs)) in *.
  assert (flen (objstm_body objs) = flen A + flen d + 1 + flen B) as HL.
  { rewrite Hs. unfold flen. rewrite !app_length. cbn [length]. lia. }
  assert (0 <= flen A /\ 0 <= flen B) as [HA HB] by (unfold flen; lia).
  assert (0 < flen d) as Hd. { destruct Ht as (u & b & -> & _). unfold flen. rewrite app_length. cbn [length]. lia. }
  assert (match nth_error (entries_of 0 objs) (S i) with
          | Some nx => flen (objstm_index 0 objs) + snd nx
          | None => flen (conforming_objstm objs)
          end = flen (objstm_index 0 objs) + flen A + flen d + 1) as ->.
  { destruct (nth_error objs (S i)) as [[n' d']|] eqn:E.
    - rewrite (entries_nth _ _ _ _ _ E). cbn [snd].
      assert (firstn (S i) objs = firstn i objs ++ [(n, d)]) as ->.
      { clear - Hi. revert i Hi. induction objs as [|o objs IH]; intros [|i] Hi; try discriminate.
        - cbn in Hi. injection Hi as ->. reflexivity.
        - cbn in Hi. cbn [firstn app]. f_equal. apply IH. exact Hi. }
      assert (objstm_body (firstn i objs ++ [(n, d)]) = A ++ d ++ [x0a]) as ->.
      { unfold A, objstm_body. rewrite flat_map_app. cbn [flat_map snd]. rewrite app_nil_r. reflexivity. }
      unfold flen. rewrite !app_length. cbn [length]. lia.
    - apply nth_error_None in E. 
      assert (nth_error (entries_of 0 objs) (S i) = None) as -> by (apply nth_error_None; rewrite entries_length; exact E).
      assert (B = []) as HB0. { unfold B. rewrite skipn_all2 by exact E. reflexivity. }
      rewrite Hlen, HL, HB0. unfold flen. cbn [length]. lia. }
  replace (flen (conforming_objstm objs) <=? flen (objstm_index 0 objs) + flen A) with false by lia.
  replace (flen (conforming_objstm objs) <? flen (objstm_index 0 objs) + flen A + flen d + 1) with false by lia.
  cbn [orb].
  replace (flen (objstm_index 0 objs) + flen A <? 0) with false by lia.
  replace (flen (objstm_index 0 objs) + flen A + flen d + 1 <? flen (objstm_index 0 objs) + flen A) with false by lia.
  cbn [orb]. f_equal. unfold trim_right_blank, sub.
  replace (Z.to_nat (flen (objstm_index 0 objs) + flen A + flen d + 1) - Z.to_nat (flen (objstm_index 0 objs) + flen A))%nat
    with (length (d ++ [x0a])) by (rewrite app_length; cbn [length]; unfold flen in *; lia).
  unfold conforming_objstm. rewrite Hs, app_assoc.
  rewrite skipn_len_app by (rewrite app_length; unfold flen; lia).
  rewrite app_assoc. rewrite firstn_len_app by reflexivity.
  destruct Ht as (u & b & -> & Hb). apply rtrim_tidy; [exact Hb|reflexivity].
Qed.

Lemma m_num0obj_lit n s : prefixb (decZ n) s = false -> m_num0obj n s = None.
Proof. intros H. unfold m_num0obj. apply lit_none in H. rewrite H. reflexivity. Qed.

Lemma skip_one_eol_nl a t : skip_one_eol (a ++ nl ++ t) (length a) = S (length a).
Proof.
  unfold skip_one_eol.
  assert (nth_error (a ++ nl ++ t) (length a) = Some x0a) as H.
  { rewrite nth_error_app2 by apply Nat.le_refl. rewrite Nat.sub_diag. reflexivity. }
  rewrite H. change (beqb x0a x0d) with false. cbv iota. rewrite H. reflexivity.
Qed.

Lemma read_objstm inflate f pre sn count first raw data post n i :
  f = pre ++ objstm_object sn count first raw ++ post ->
  0 <= sn -> 0 <= count -> 0 <= first < 2 ^ 63 -> flen raw < 2 ^ 63 ->
  (forall j, (j < length pre)%nat -> m_num0obj sn (skipn j f) = None) ->
  inflate raw = Some data ->
  GetObjectFromStream inflate None f n sn i = object_in_stream n i first data.
Proof.
  intros Hf Hs Hc Hfi Hr Hno Hi. unfold GetObjectFromStream.
  assert (find (m_num0obj sn) f = Some (length pre, tt)) as ->.
  { rewrite Hf in *. rewrite find_app by exact Hno. unfold objstm_object. repeat rewrite <- app_assoc.
    rewrite (find_at0 _ _ tt); [f_equal; f_equal; lia|].
    unfold m_num0obj. rewrite lit_app. reflexivity. }
  rewrite Hf, skipn_app_exact. unfold objstm_object.
  set (hd := decZ sn ++ bs " 0 obj" ++ nl).
  set (dict := bs "<</Type /ObjStm /N " ++ decZ count ++ bs " /First " ++ decZ first ++ bs " /Length " ++ decZ (flen raw)).
  set (tl := raw ++ nl ++ bs "endstream" ++ nl ++ bs "endobj" ++ nl ++ post).
  replace ((decZ sn ++ _) ++ post) with (hd ++ dict ++ bs ">>" ++ nl ++ bs "stream" ++ nl ++ tl)
    by (unfold hd, dict, tl; repeat rewrite <- app_assoc; reflexivity).
  assert (0 <= flen raw) as Hr0 by (unfold flen; lia).
  assert (index (bs "<<") (hd ++ dict ++ bs ">>" ++ nl ++ bs "stream" ++ nl ++ tl) = Some (length hd)) as ->.
  { assert (exists D, dict = bs "<<" ++ D) as [D ->] by (unfold dict; eexists; reflexivity).
    rewrite <- app_assoc. apply index_at. unfold hd.
    apply nostart_app; [apply nostart_decZ; [exact Hs|reflexivity]|apply nostartb_ok; reflexivity]. }
  rewrite skipn_app_exact.
  assert (forall c q, is_digit c = false ->
    nostartb (c :: q) (bs "<</Type /ObjStm /N ") = true -> nostartb (c :: q) (bs " /First ") = true ->
    nostartb (c :: q) (bs " /Length ") = true -> nostart (c :: q) dict) as Hnd.
  { intros c q Hcd H1 H2 H3. unfold dict.
    repeat apply nostart_app; try (apply nostartb_ok; assumption); apply nostart_decZ; try exact Hcd; lia. }
  assert (index (bs ">>") (dict ++ bs ">>" ++ nl ++ bs "stream" ++ nl ++ tl) = Some (length dict)) as ->.
  { apply index_at. apply (Hnd ">"%byte (bs ">")); reflexivity. }
  assert (firstn (length dict + 2) (dict ++ bs ">>" ++ nl ++ bs "stream" ++ nl ++ tl) = dict ++ bs ">>") as ->.
  { rewrite app_assoc. apply firstn_len_app. rewrite app_length. reflexivity. }
  assert (value_of (find (m_key (bs "/Length")) (dict ++ bs ">>")) = Some (decZ (flen raw))) as ->.
  { unfold dict. change (bs " /Length ") with (bs " " ++ bs "/Length" ++ bs " ").
    replace ((bs "<</Type /ObjStm /N " ++ decZ count ++ bs " /First " ++ decZ first ++ (bs " " ++ bs "/Length" ++ bs " ") ++ decZ (flen raw)) ++ bs ">>")
      with ((bs "<</Type /ObjStm /N " ++ decZ count ++ bs " /First " ++ decZ first ++ bs " ") ++ bs "/Length" ++ bs " " ++ decZ (flen raw) ++ bs ">>")
      by (repeat rewrite <- app_assoc; reflexivity).
    erewrite find_at; [reflexivity| |].
    - apply (nostart_nofire _ (bs "/Length")); [apply m_key_lit|].
      repeat apply nostart_app; try (apply nostartb_ok; reflexivity); apply nostart_decZ; try reflexivity; lia.
    - apply m_key_here; [apply decZ_nonnil; lia|apply decZ_digits; lia|reflexivity]. }
  assert (index (bs "stream") (dict ++ bs ">>" ++ nl ++ bs "stream" ++ nl ++ tl) = Some (length dict + 3)%nat) as ->.
  { replace (dict ++ bs ">>" ++ nl ++ bs "stream" ++ nl ++ tl) with ((dict ++ bs ">>" ++ nl) ++ bs "stream" ++ nl ++ tl)
      by (repeat rewrite <- app_assoc; reflexivity).
    rewrite index_at; [rewrite !app_length; reflexivity|].
    apply nostart_app; [|apply nostartb_ok; reflexivity]. apply (Hnd "s"%byte (bs "tream")); reflexivity. }
  assert (skip_one_eol (hd ++ dict ++ bs ">>" ++ nl ++ bs "stream" ++ nl ++ tl) (length hd + (length dict + 3) + 6) =
          (length hd + length dict + 10)%nat) as ->.
  { set (a := hd ++ dict ++ bs ">>" ++ nl ++ bs "stream").
    replace (hd ++ dict ++ bs ">>" ++ nl ++ bs "stream" ++ nl ++ tl) with (a ++ nl ++ tl)
      by (unfold a; repeat rewrite <- app_assoc; reflexivity).
    replace (length hd + (length dict + 3) + 6)%nat with (length a).
    2:{ unfold a. rewrite !app_length. change (length (bs ">>")) with 2%nat. change (length nl) with 1%nat.
        change (length (bs "stream")) with 6%nat. lia. }
    rewrite skip_one_eol_nl. unfold a. rewrite !app_length. change (length (bs ">>")) with 2%nat. change (length nl) with 1%nat.
    change (length (bs "stream")) with 6%nat. lia. }
  rewrite atoi_clip_decZ by lia.
  assert (skipn (length hd + length dict + 10) (hd ++ dict ++ bs ">>" ++ nl ++ bs "stream" ++ nl ++ tl) = tl) as Hsk.
  { replace (hd ++ dict ++ bs ">>" ++ nl ++ bs "stream" ++ nl ++ tl) with ((hd ++ dict ++ bs ">>" ++ nl ++ bs "stream" ++ nl) ++ tl)
      by (repeat rewrite <- app_assoc; reflexivity).
    apply skipn_len_app. rewrite !app_length. change (length (bs ">>")) with 2%nat. change (length nl) with 1%nat.
    change (length (bs "stream")) with 6%nat. lia. }
  replace (flen (hd ++ dict ++ bs ">>" ++ nl ++ bs "stream" ++ nl ++ tl) <? Z.of_nat (length hd + length dict + 10) + flen raw) with false.
  2:{ symmetry. apply Z.ltb_ge. unfold flen, tl. rewrite !app_length. change (length (bs ">>")) with 2%nat. change (length nl) with 1%nat.
      change (length (bs "stream")) with 6%nat. lia. }
  rewrite Hsk. unfold tl. unfold flen at 1. rewrite Nat2Z.id, firstn_len_app by reflexivity. cbn [rbind]. rewrite Hi.
  assert (firstn (length dict + 3) (dict ++ bs ">>" ++ nl ++ bs "stream" ++ nl ++ raw ++ nl ++ bs "endstream" ++ nl ++ bs "endobj" ++ nl ++ post)
          = dict ++ bs ">>" ++ nl) as ->.
  { set (r := bs "stream" ++ _). replace (dict ++ bs ">>" ++ nl ++ r) with ((dict ++ bs ">>" ++ nl) ++ r)
      by (repeat rewrite <- app_assoc; reflexivity).
    apply firstn_len_app. rewrite !app_length. reflexivity. }
  assert (value_of (find (m_key (bs "/N")) (dict ++ bs ">>" ++ nl)) = Some (decZ count)) as ->.
  { unfold dict. change (bs "<</Type /ObjStm /N ") with (bs "<</Type /ObjStm " ++ bs "/N" ++ bs " ").
    repeat rewrite <- app_assoc. erewrite find_at; [reflexivity| |].
    - apply (nostart_nofire _ (bs "/N")); [apply m_key_lit|]. apply nostartb_ok; reflexivity.
    - apply m_key_here; [apply decZ_nonnil; lia|apply decZ_digits; lia|reflexivity]. }
  assert (value_of (find (m_key (bs "/First")) (dict ++ bs ">>" ++ nl)) = Some (decZ first)) as ->.
  { unfold dict. change (bs " /First ") with (bs " " ++ bs "/First" ++ bs " ").
    replace ((bs "<</Type /ObjStm /N " ++ decZ count ++ (bs " " ++ bs "/First" ++ bs " ") ++ decZ first ++ bs " /Length " ++ decZ (flen raw)) ++ bs ">>" ++ nl)
      with ((bs "<</Type /ObjStm /N " ++ decZ count ++ bs " ") ++ bs "/First" ++ bs " " ++ decZ first ++ bs " /Length " ++ decZ (flen raw) ++ bs ">>" ++ nl)
      by (repeat rewrite <- app_assoc; reflexivity).
    erewrite find_at; [reflexivity| |].
    - apply (nostart_nofire _ (bs "/First")); [apply m_key_lit|].
      repeat apply nostart_app; try (apply nostartb_ok; reflexivity); apply nostart_decZ; try reflexivity; lia.
    - apply m_key_here; [apply decZ_nonnil; lia|apply decZ_digits; lia|reflexivity]. }
  rewrite atoi_clip_decZ by lia. reflexivity.
Qed.

Lemma conforming_read inflate f pre sn objs raw post n d i :
  f = pre ++ objstm_object sn (Z.of_nat (length objs)) (conforming_first objs) raw ++ post ->
  (forall j, (j < length pre)%nat -> m_num0obj sn (skipn j f) = None) ->
  inflate raw = Some (conforming_objstm objs) ->
  nth_error objs i = Some (n, d) -> tidy d ->
  0 <= sn -> flen raw < 2 ^ 63 ->
  (forall o, In o objs -> 0 <= fst o < 2 ^ 63) -> flen (conforming_objstm objs) < 2 ^ 63 ->
  GetObjectFromStream inflate None f n sn (Z.of_nat i) = Ok d.
Proof.
  intros Hf Hno Hi Hn Ht Hs Hr Ho Hl.
  rewrite (read_objstm inflate f pre sn (Z.of_nat (length objs)) (conforming_first objs) raw (conforming_objstm objs) post n (Z.of_nat i));
    try assumption; try lia.
  - apply conforming_object; assumption.
  - unfold conforming_first. assert (flen (objstm_index 0 objs) <= flen (conforming_objstm objs)) by (unfold flen, conforming_objstm; rewrite app_length; lia).
    unfold flen in *. lia.
Qed.
