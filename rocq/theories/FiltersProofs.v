(** Proofs about core/parse/filters.go. *)
From Verif Require Import Base FiltersModel FiltersSpec.
Local Open Scope N_scope.

(* ---------------------------------------------------------------- *)
(** ASCIIHex *)

Lemma hex_nibble_value b : hex_nibble b = hex_value b.
Proof.
  unfold hex_nibble, hex_value.
  destruct ((48 <=? b2n b) && (b2n b <=? 57)); [reflexivity|].
  destruct ((65 <=? b2n b) && (b2n b <=? 70)) eqn:E1; [f_equal; lia|].
  destruct ((97 <=? b2n b) && (b2n b <=? 102)) eqn:E2; [f_equal; lia|reflexivity].
Qed.

(** What remains to be read after a first nibble [v]. *)
Definition hex_pend (v : N) (body : bytes) : option bytes :=
  match body with
  | [] => Some [n2b (16 * v)]
  | c :: r => match hex_value c, hex_pairs r with
              | Some y, Some r' => Some (n2b (16 * v + y) :: r')
              | _, _ => None
              end
  end.

Lemma hex_pairs_cons a body :
  hex_pairs (a :: body) = match hex_value a with Some v => hex_pend v body | None => None end.
Proof.
  destruct body as [|b r]; cbn [hex_pairs hex_pend]; destruct (hex_value a); reflexivity.
Qed.

Lemma hex_body_cons b s :
  hex_body (b :: s) =
  if b2n b =? 62 then [] else if is_ws b then hex_body s else b :: hex_body s.
Proof.
  unfold hex_body. cbn [take_while].
  destruct (b2n b =? 62); cbn [negb filter]; [reflexivity|].
  destruct (is_ws b); reflexivity.
Qed.

Definition lift (acc : bytes) (o : option bytes) : result bytes :=
  match o with Some r => Ok (acc ++ r) | None => Err end.

Lemma ws_not_gt b : is_ws b = true -> (b2n b =? 62) = false.
Proof. unfold is_ws. lia. Qed.

Lemma hex_loop_spec s : forall acc,
  hex_loop s None acc = lift (rev acc) (hex_pairs (hex_body s)) /\
  forall v, hex_loop s (Some v) acc = lift (rev acc) (hex_pend v (hex_body s)).
Proof.
  induction s as [|b s IH]; intros acc.
  - cbn [hex_loop]. split.
    + cbn. rewrite app_nil_r. reflexivity.
    + intros v. cbn [hex_body take_while filter hex_pend lift rev].
      rewrite N.mul_comm. reflexivity.
  - cbn [hex_loop]. rewrite hex_body_cons.
    destruct (is_ws b) eqn:Ew.
    { rewrite (ws_not_gt b Ew). apply IH. }
    destruct (b2n b =? 62) eqn:Eg.
    { split.
      - cbn. rewrite app_nil_r. reflexivity.
      - intros v. cbn [hex_pend lift rev]. rewrite N.mul_comm. reflexivity. }
    rewrite hex_nibble_value, hex_pairs_cons.
    split.
    + destruct (hex_value b) as [v|]; [|reflexivity]. apply IH.
    + intros h. cbn [hex_pend]. destruct (hex_value b) as [v|]; [|reflexivity].
      destruct (IH (n2b (h * 16 + v) :: acc)) as [-> _].
      destruct (hex_pairs (hex_body s)) as [r|]; [|reflexivity].
      cbn [lift rev]. rewrite <- app_assoc. cbn [app].
      replace (h * 16 + v) with (16 * h + v) by lia. reflexivity.
Qed.

Lemma DecodeASCIIHex_spec s :
  DecodeASCIIHex s = match hex_pairs (hex_body s) with Some d => Ok d | None => Err end.
Proof.
  unfold DecodeASCIIHex. destruct (hex_loop_spec s []) as [-> _].
  destruct (hex_pairs (hex_body s)); reflexivity.
Qed.

Lemma hex_char_value v : v < 16 ->
  hex_value (hex_char v) = Some v /\ is_ws (hex_char v) = false /\ (b2n (hex_char v) =? 62) = false.
Proof.
  intros H. unfold hex_value, hex_char, is_ws.
  destruct (v <? 10) eqn:E; rewrite b2n_n2b_small by lia.
  - replace ((48 <=? 48 + v) && (48 + v <=? 57)) with true by lia.
    repeat split; [f_equal; lia|lia|lia].
  - replace ((48 <=? 55 + v) && (55 + v <=? 57)) with false by lia.
    replace ((65 <=? 55 + v) && (55 + v <=? 70)) with true by lia.
    repeat split; [f_equal; lia|lia|lia].
Qed.

Lemma hex_roundtrip d junk :
  DecodeASCIIHex (EncodeASCIIHex d ++ junk) = Ok d.
Proof.
  rewrite DecodeASCIIHex_spec. unfold EncodeASCIIHex. rewrite <- app_assoc.
  assert (hex_pairs (hex_body (flat_map (fun b => [hex_char (b2n b / 16); hex_char (b2n b mod 16)]) d
                                ++ ">"%byte :: junk)) = Some d) as Hd.
  2:{ cbn [app]. rewrite Hd. reflexivity. }
  induction d as [|b d IH]; [reflexivity|].
  cbn [flat_map app]. pose proof (b2n_bound b) as Hb.
  destruct (hex_char_value (b2n b / 16)) as (V1 & W1 & G1); [lia|].
  destruct (hex_char_value (b2n b mod 16)) as (V2 & W2 & G2); [lia|].
  rewrite hex_body_cons, G1, W1, hex_body_cons, G2, W2.
  cbn [hex_pairs]. rewrite V1, V2, IH.
  replace (16 * (b2n b / 16) + b2n b mod 16) with (b2n b) by lia.
  rewrite n2b_b2n. reflexivity.
Qed.

Lemma hex_body_ws s t : ws_insert s t -> hex_body t = hex_body s.
Proof.
  induction 1 as [|b s t H IH|b s t Hw H IH]; [reflexivity| |].
  - rewrite !hex_body_cons, IH. reflexivity.
  - rewrite hex_body_cons, (ws_not_gt b Hw), Hw. exact IH.
Qed.

Lemma hex_whitespace s t : ws_insert s t -> DecodeASCIIHex t = DecodeASCIIHex s.
Proof. intros H. rewrite !DecodeASCIIHex_spec, (hex_body_ws s t H). reflexivity. Qed.

(* ---------------------------------------------------------------- *)
(** ASCII85 *)

Definition a85_chars (t : list N) : bytes := map (fun d => n2b (d + 33)) t.

Definition a85_bod (s : bytes) : option bytes :=
  let body := filter (fun b => negb (is_ws b)) (take_while (fun b => negb (b2n b =? 126)) s) in
  match drop_while (fun b => negb (b2n b =? 126)) s with
  | [] => Some body
  | rest => if prefixb (bs "~>") rest then Some body else None
  end.

Lemma a85_bod_cons b s :
  a85_bod (b :: s) =
  if b2n b =? 126 then
    (if match s with c :: _ => b2n c =? 62 | [] => false end then Some [] else None)
  else if is_ws b then a85_bod s
  else match a85_bod s with Some x => Some (b :: x) | None => None end.
Proof.
  unfold a85_bod. cbn [take_while drop_while].
  destruct (b2n b =? 126) eqn:E; cbn [negb].
  - cbn [filter]. change (bs "~>") with ["~"; ">"]%byte. cbn [prefixb].
    replace (beqb "~" b) with true
      by (symmetry; apply beqb_eq, b2n_inj; symmetry; apply N.eqb_eq; exact E).
    cbn [andb]. destruct s as [|c s]; [reflexivity|].
    cbn [prefixb]. rewrite andb_true_r. unfold beqb. rewrite N.eqb_sym. reflexivity.
  - cbn [filter]. destruct (is_ws b); cbn [negb].
    + reflexivity.
    + destruct (drop_while _ s); [reflexivity|]. destruct (prefixb _ _); reflexivity.
Qed.

Lemma a85_digit_char d : d < 85 -> a85_digit (n2b (d + 33)) = Some d.
Proof.
  intros H. unfold a85_digit. rewrite b2n_n2b_small by lia.
  replace ((33 <=? d + 33) && (d + 33 <=? 117)) with true by lia. f_equal. lia.
Qed.

Lemma a85_char_not_z d : d < 85 -> (b2n (n2b (d + 33)) =? 122) = false.
Proof. intros H. rewrite b2n_n2b_small by lia. lia. Qed.

Lemma digits_lt (t : list N) : Forall (fun d => d < 85) t -> forall d, In d t -> d < 85.
Proof. intros H d Hd. rewrite Forall_forall in H. auto. Qed.

(** The spec on a prefix of digits and a first character that is not a digit. *)
Lemma a85_groups_bad t b r :
  Forall (fun d => d < 85) t -> (length t < 5)%nat -> t <> [] ->
  a85_digit b = None -> a85_groups (a85_chars t ++ b :: r) = None.
Proof.
  intros Ht Hl Hn Hb.
  destruct t as [|d1 [|d2 [|d3 [|d4 [|d5 t]]]]]; cbn [length] in Hl; try lia; [congruence| | | |];
    cbn [a85_chars map app a85_groups];
    repeat match goal with H : Forall _ (_ :: _) |- _ => inversion H; subst; clear H end;
    rewrite a85_char_not_z by assumption; rewrite ?a85_digit_char by assumption; rewrite Hb; reflexivity.
Qed.

Lemma a85_groups_tail t :
  Forall (fun d => d < 85) t -> (length t < 5)%nat ->
  a85_groups (a85_chars t) = Some (a85_tail t).
Proof.
  intros Ht Hl.
  destruct t as [|d1 [|d2 [|d3 [|d4 [|d5 t]]]]]; cbn [length] in Hl; try lia; [reflexivity| | | |];
    cbn [a85_chars map a85_groups];
    repeat match goal with H : Forall _ (_ :: _) |- _ => inversion H; subst; clear H end;
    rewrite a85_char_not_z by assumption; rewrite ?a85_digit_char by assumption; reflexivity.
Qed.

Lemma a85_groups_five t r :
  Forall (fun d => d < 85) t -> length t = 5%nat ->
  a85_groups (a85_chars t ++ r) =
  match a85_groups r with Some x => Some (decodeASCII85Tuple t ++ x) | None => None end.
Proof.
  intros Ht Hl.
  destruct t as [|d1 [|d2 [|d3 [|d4 [|d5 [|d6 t]]]]]]; cbn [length] in Hl; try lia.
  cbn [a85_chars map app a85_groups];
    repeat match goal with H : Forall _ (_ :: _) |- _ => inversion H; subst; clear H end.
  rewrite a85_char_not_z by assumption; rewrite ?a85_digit_char by assumption.
  destruct (a85_groups r); reflexivity.
Qed.

Lemma a85_digit_none b : (b2n b <? 33) || (117 <? b2n b) = true -> a85_digit b = None.
Proof. intros H. unfold a85_digit. replace ((33 <=? b2n b) && (b2n b <=? 117)) with false by lia. reflexivity. Qed.

Lemma a85_groups_bad0 b r : a85_digit b = None -> (b2n b =? 122) = false ->
  a85_groups (b :: r) = None.
Proof. intros H1 H2. cbn [a85_groups]. rewrite H2, H1. reflexivity. Qed.

Lemma a85_loop_spec s : forall t acc,
  Forall (fun d => d < 85) t -> (length t < 5)%nat ->
  a85_loop s t acc =
  match a85_bod s with
  | Some body => lift (rev acc) (a85_groups (a85_chars t ++ body))
  | None => Err
  end.
Proof.
  induction s as [|b s IH]; intros t acc Ht Hl.
  - cbn [a85_loop]. cbn [a85_bod take_while drop_while filter].
    change (a85_bod []) with (Some (@nil byte)). cbn match.
    rewrite app_nil_r, a85_groups_tail by assumption. reflexivity.
  - rewrite a85_bod_cons. cbn [a85_loop].
    destruct (is_ws b) eqn:Ew.
    { replace (b2n b =? 126) with false by (unfold is_ws in Ew; lia). apply IH; assumption. }
    destruct (b2n b =? 126) eqn:E126.
    { cbn [andb].
      destruct (match s with c :: _ => b2n c =? 62 | [] => false end).
      - cbn match. rewrite app_nil_r, a85_groups_tail by assumption. reflexivity.
      - replace (b2n b =? 122) with false by lia.
        replace ((b2n b <? 33) || (117 <? b2n b)) with true by lia. reflexivity. }
    cbn [andb].
    destruct (b2n b =? 122) eqn:Ez.
    { destruct t as [|d t].
      - rewrite IH by (auto; cbn; lia). destruct (a85_bod s) as [body|]; [|reflexivity].
        cbn [a85_chars map app a85_groups]. rewrite Ez.
        destruct (a85_groups body) as [x|]; [|reflexivity].
        unfold lift. rewrite rev_append_rev, rev_app_distr, rev_involutive, <- app_assoc. reflexivity.
      - destruct (a85_bod s) as [body|]; [|reflexivity].
        rewrite a85_groups_bad; [reflexivity|assumption|assumption|discriminate|].
        apply a85_digit_none. lia. }
    destruct ((b2n b <? 33) || (117 <? b2n b)) eqn:Er.
    { destruct (a85_bod s) as [body|]; [|reflexivity].
      destruct t as [|d t].
      - cbn [a85_chars map app]. rewrite a85_groups_bad0; [reflexivity|apply a85_digit_none; exact Er|exact Ez].
      - rewrite a85_groups_bad; [reflexivity|assumption|assumption|discriminate|].
        apply a85_digit_none. exact Er. }
    assert (Forall (fun d => d < 85) (t ++ [b2n b - 33])) as Ht'.
    { apply Forall_app. split; [exact Ht|]. constructor; [lia|constructor]. }
    assert (a85_chars (t ++ [b2n b - 33]) = a85_chars t ++ [b]) as Hc.
    { unfold a85_chars. rewrite map_app. cbn [map]. f_equal. f_equal.
      replace (b2n b - 33 + 33) with (b2n b) by lia. apply n2b_b2n. }
    destruct (Nat.eqb (length (t ++ [b2n b - 33])) 5) eqn:E5.
    + apply Nat.eqb_eq in E5. rewrite IH by (auto; cbn; lia).
      destruct (a85_bod s) as [body|]; [|reflexivity].
      change (a85_chars t ++ b :: body) with (a85_chars t ++ ([b] ++ body)).
      rewrite app_assoc, <- Hc, (a85_groups_five (t ++ [b2n b - 33])) by assumption.
      cbn [a85_chars map app].
      destruct (a85_groups body) as [x|]; [|reflexivity].
      cbn [lift]. rewrite rev_append_rev, rev_app_distr, rev_involutive, <- app_assoc. reflexivity.
    + apply Nat.eqb_neq in E5. rewrite app_length in E5. cbn [length] in E5.
      rewrite IH; [|assumption|rewrite app_length; cbn [length]; lia].
      destruct (a85_bod s) as [body|]; [|reflexivity].
      rewrite Hc, <- app_assoc. reflexivity.
Qed.

Lemma DecodeASCII85_spec s :
  DecodeASCII85 s =
  match a85_body s with
  | Some body => match a85_groups body with Some d => Ok d | None => Err end
  | None => Err
  end.
Proof.
  change (a85_body s) with (a85_bod (if prefixb (bs "<~") s then skipn 2 s else s)).
  unfold DecodeASCII85.
  rewrite a85_loop_spec by (auto; cbn; lia).
  destruct (a85_bod _) as [body|]; [|reflexivity].
  cbn [a85_chars map app rev]. destruct (a85_groups body); reflexivity.
Qed.

(** Digits of a 32-bit value. *)
Lemma base85_split v : v < 4294967296 ->
  v / 52200625 mod 85 * 52200625 + v / 614125 mod 85 * 614125 + v / 7225 mod 85 * 7225
  + v / 85 mod 85 * 85 + v mod 85 = v /\
  v / 52200625 < 85.
Proof.
  intros H.
  assert (v / 52200625 < 85) as H4 by (apply N.div_lt_upper_bound; lia).
  replace (v / 52200625) with (v / 85 / 85 / 85 / 85) in * by (rewrite !N.div_div by lia; reflexivity).
  replace (v / 614125) with (v / 85 / 85 / 85) by (rewrite !N.div_div by lia; reflexivity).
  replace (v / 7225) with (v / 85 / 85) by (rewrite !N.div_div by lia; reflexivity).
  pose proof (N.div_mod v 85 ltac:(lia)) as E1.
  set (q1 := v / 85) in *.
  pose proof (N.div_mod q1 85 ltac:(lia)) as E2. set (q2 := q1 / 85) in *.
  pose proof (N.div_mod q2 85 ltac:(lia)) as E3. set (q3 := q2 / 85) in *.
  pose proof (N.div_mod q3 85 ltac:(lia)) as E4. set (q4 := q3 / 85) in *.
  rewrite (N.mod_small q4 85) by exact H4.
  set (r1 := v mod 85) in *. set (r2 := q1 mod 85) in *. set (r3 := q2 mod 85) in *.
  set (r4 := q3 mod 85) in *. clearbody q1 q2 q3 q4 r1 r2 r3 r4.
  split; [lia|exact H4].
Qed.

Lemma mod85 x : x mod 85 < 85.
Proof. apply N.mod_lt. lia. Qed.

Lemma word_bound b0 b1 b2 b3 :
  b0 < 256 -> b1 < 256 -> b2 < 256 -> b3 < 256 -> a85_word b0 b1 b2 b3 < 4294967296.
Proof. unfold a85_word. lia. Qed.

Lemma be32_word b0 b1 b2 b3 :
  be32 (a85_word (b2n b0) (b2n b1) (b2n b2) (b2n b3)) = [b0; b1; b2; b3].
Proof.
  pose proof (b2n_bound b0). pose proof (b2n_bound b1). pose proof (b2n_bound b2). pose proof (b2n_bound b3).
  unfold be32, a85_word.
  repeat f_equal; apply b2n_inj; rewrite b2n_n2b; lia.
Qed.

Lemma a85_digits_chars v : v < 4294967296 ->
  a85_digits v = a85_chars [v / 52200625 mod 85; v / 614125 mod 85; v / 7225 mod 85; v / 85 mod 85; v mod 85].
Proof. reflexivity. Qed.

Lemma digits_forall v :
  Forall (fun d => d < 85) [v / 52200625 mod 85; v / 614125 mod 85; v / 7225 mod 85; v / 85 mod 85; v mod 85].
Proof. repeat (constructor; [apply mod85|]). constructor. Qed.

Lemma a85_tuple_full v : v < 4294967296 ->
  decodeASCII85Tuple [v / 52200625 mod 85; v / 614125 mod 85; v / 7225 mod 85; v / 85 mod 85; v mod 85] = be32 v.
Proof.
  intros H. unfold decodeASCII85Tuple, a85_value.
  destruct (base85_split v H) as [-> _]. rewrite N.mod_small by exact H. reflexivity.
Qed.

(** Rounding of a partial group: replacing the low digits by 84 moves the
    value by less than the weight of the last kept digit. *)
Lemma partial1 b0 : 
  firstn 1 (decodeASCII85Tuple
    [a85_word (b2n b0) 0 0 0 / 52200625 mod 85; a85_word (b2n b0) 0 0 0 / 614125 mod 85; 84; 84; 84]) = [b0].
Proof.
  pose proof (b2n_bound b0) as H0. set (v := a85_word (b2n b0) 0 0 0).
  assert (v < 4294967296) as Hv by (unfold v, a85_word; lia).
  destruct (base85_split v Hv) as [E H4].
  unfold decodeASCII85Tuple, a85_value, be32. cbn [firstn]. f_equal.
  pose proof (mod85 (v / 7225)). pose proof (mod85 (v / 85)). pose proof (mod85 v).
  set (x := v / 52200625 mod 85 * 52200625 + v / 614125 mod 85 * 614125 + 84 * 7225 + 84 * 85 + 84).
  assert (v <= x < v + 614125) as Hx by (unfold x; lia).
  rewrite (N.mod_small x) by (unfold v, a85_word in *; lia).
  apply b2n_inj. rewrite b2n_n2b.
  replace (x / 16777216) with (b2n b0); [rewrite N.mod_small; lia|].
  apply N.div_unique with (x - v); [lia|]. unfold v, a85_word in *. lia.
Qed.

Lemma partial2 b0 b1 :
  firstn 2 (decodeASCII85Tuple
    [a85_word (b2n b0) (b2n b1) 0 0 / 52200625 mod 85; a85_word (b2n b0) (b2n b1) 0 0 / 614125 mod 85;
     a85_word (b2n b0) (b2n b1) 0 0 / 7225 mod 85; 84; 84]) = [b0; b1].
Proof.
  pose proof (b2n_bound b0) as H0. pose proof (b2n_bound b1) as H1.
  set (v := a85_word (b2n b0) (b2n b1) 0 0).
  assert (v < 4294967296) as Hv by (unfold v, a85_word; lia).
  destruct (base85_split v Hv) as [E H4].
  unfold decodeASCII85Tuple, a85_value, be32. cbn [firstn].
  pose proof (mod85 (v / 85)). pose proof (mod85 v).
  set (x := v / 52200625 mod 85 * 52200625 + v / 614125 mod 85 * 614125 + v / 7225 mod 85 * 7225 + 84 * 85 + 84).
  assert (v <= x < v + 7225) as Hx by (unfold x; lia).
  rewrite (N.mod_small x) by (unfold v, a85_word in *; lia).
  clearbody x. clear E H4.
  repeat f_equal; apply b2n_inj; rewrite b2n_n2b.
  - replace (x / 16777216) with (b2n b0); [rewrite N.mod_small; lia|].
    apply N.div_unique with (x - b2n b0 * 16777216); unfold v, a85_word in *; lia.
  - replace (x / 65536) with (b2n b0 * 256 + b2n b1).
    + rewrite N.add_comm, N.mod_add by lia. apply N.mod_small. lia.
    + apply N.div_unique with (x - v); unfold v, a85_word in *; lia.
Qed.

Lemma partial3 b0 b1 b2 :
  firstn 3 (decodeASCII85Tuple
    [a85_word (b2n b0) (b2n b1) (b2n b2) 0 / 52200625 mod 85; a85_word (b2n b0) (b2n b1) (b2n b2) 0 / 614125 mod 85;
     a85_word (b2n b0) (b2n b1) (b2n b2) 0 / 7225 mod 85; a85_word (b2n b0) (b2n b1) (b2n b2) 0 / 85 mod 85; 84]) = [b0; b1; b2].
Proof.
  pose proof (b2n_bound b0) as H0. pose proof (b2n_bound b1) as H1. pose proof (b2n_bound b2) as H2.
  set (v := a85_word (b2n b0) (b2n b1) (b2n b2) 0).
  assert (v < 4294967296) as Hv by (unfold v, a85_word; lia).
  destruct (base85_split v Hv) as [E H4].
  unfold decodeASCII85Tuple, a85_value, be32. cbn [firstn].
  pose proof (mod85 v).
  set (x := v / 52200625 mod 85 * 52200625 + v / 614125 mod 85 * 614125 + v / 7225 mod 85 * 7225 + v / 85 mod 85 * 85 + 84).
  assert (v <= x < v + 85) as Hx by (unfold x; lia).
  rewrite (N.mod_small x) by (unfold v, a85_word in *; lia).
  clearbody x. clear E H4.
  repeat f_equal; apply b2n_inj; rewrite b2n_n2b.
  - replace (x / 16777216) with (b2n b0); [rewrite N.mod_small; lia|].
    apply N.div_unique with (x - b2n b0 * 16777216); unfold v, a85_word in *; lia.
  - replace (x / 65536) with (b2n b0 * 256 + b2n b1).
    + rewrite N.add_comm, N.mod_add by lia. apply N.mod_small. lia.
    + apply N.div_unique with (x - (b2n b0 * 16777216 + b2n b1 * 65536)); unfold v, a85_word in *; lia.
  - replace (x / 256) with ((b2n b0 * 256 + b2n b1) * 256 + b2n b2).
    + rewrite N.add_comm, N.mod_add by lia. apply N.mod_small. lia.
    + apply N.div_unique with (x - v); unfold v, a85_word in *; lia.
Qed.

Lemma list_ind4 {A} (P : list A -> Prop) :
  P [] -> (forall a, P [a]) -> (forall a b, P [a; b]) -> (forall a b c, P [a; b; c]) ->
  (forall a b c d l, P l -> P (a :: b :: c :: d :: l)) -> forall l, P l.
Proof.
  intros H0 H1 H2 H3 H4.
  assert (forall n l, (length l <= n)%nat -> P l) as H.
  { induction n as [|n IH]; intros l Hl.
    - destruct l; [exact H0|cbn in Hl; lia].
    - destruct l as [|a [|b [|c [|d l]]]]; auto. apply H4, IH. cbn in Hl. lia. }
  intros l. apply (H (length l)). lia.
Qed.

Lemma a85_groups_enc d : a85_groups (a85_enc d) = Some d.
Proof.
  induction d as [|a|a b|a b c|a b c d l IH] using list_ind4.
  - reflexivity.
  - cbn [a85_enc]. pose proof (b2n_bound a).
    set (v := a85_word (b2n a) 0 0 0).
    change (firstn 2 (a85_digits v)) with (a85_chars [v / 52200625 mod 85; v / 614125 mod 85]).
    rewrite a85_groups_tail; [|repeat (constructor; [apply mod85|]); constructor|cbn; lia].
    f_equal. apply partial1.
  - cbn [a85_enc].
    set (v := a85_word (b2n a) (b2n b) 0 0).
    change (firstn 3 (a85_digits v)) with (a85_chars [v / 52200625 mod 85; v / 614125 mod 85; v / 7225 mod 85]).
    rewrite a85_groups_tail; [|repeat (constructor; [apply mod85|]); constructor|cbn; lia].
    f_equal. apply partial2.
  - cbn [a85_enc].
    set (v := a85_word (b2n a) (b2n b) (b2n c) 0).
    change (firstn 4 (a85_digits v)) with (a85_chars [v / 52200625 mod 85; v / 614125 mod 85; v / 7225 mod 85; v / 85 mod 85]).
    rewrite a85_groups_tail; [|repeat (constructor; [apply mod85|]); constructor|cbn; lia].
    f_equal. apply partial3.
  - cbn [a85_enc].
    pose proof (b2n_bound a). pose proof (b2n_bound b). pose proof (b2n_bound c). pose proof (b2n_bound d).
    pose proof (word_bound (b2n a) (b2n b) (b2n c) (b2n d)) as Hv.
    pose proof (be32_word a b c d) as Hw.
    set (v := a85_word (b2n a) (b2n b) (b2n c) (b2n d)) in *.
    specialize (Hv ltac:(assumption) ltac:(assumption) ltac:(assumption) ltac:(assumption)).
    destruct (v =? 0) eqn:E.
    + cbn [app a85_groups]. change (b2n "z" =? 122) with true. cbn match. rewrite IH.
      apply N.eqb_eq in E. rewrite E in Hw.
      change (be32 0) with [x00; x00; x00; x00] in Hw. injection Hw as <- <- <- <-. reflexivity.
    + rewrite a85_digits_chars by exact Hv.
      rewrite a85_groups_five; [|apply digits_forall|reflexivity].
      rewrite IH, a85_tuple_full, Hw by exact Hv. reflexivity.
Qed.

(** The characters produced by the encoder are neither white space nor '~'. *)
Definition a85_char_ok (b : byte) : bool := negb (is_ws b) && negb (b2n b =? 126).

Lemma a85_char_ok_digit d : a85_char_ok (n2b (d mod 85 + 33)) = true.
Proof.
  pose proof (mod85 d). unfold a85_char_ok, is_ws. rewrite b2n_n2b_small by lia. lia.
Qed.

Lemma a85_enc_ok d : forallb a85_char_ok (a85_enc d) = true.
Proof.
  assert (forall v, forallb a85_char_ok (a85_digits v) = true) as Hd.
  { intros v. unfold a85_digits. cbn [forallb]. rewrite !a85_char_ok_digit. reflexivity. }
  assert (forall k v, forallb a85_char_ok (firstn k (a85_digits v)) = true) as Hf.
  { intros k v. apply forallb_forall. intros x Hx.
    assert (In x (a85_digits v)) as Hin.
    { rewrite <- (firstn_skipn k (a85_digits v)). apply in_or_app. left. exact Hx. }
    specialize (Hd v). rewrite forallb_forall in Hd. auto. }
  induction d as [|a|a b|a b c|a b c d l IH] using list_ind4; cbn [a85_enc]; auto.
  rewrite forallb_app, IH, andb_true_r. destruct (_ =? 0); [reflexivity|apply Hd].
Qed.

Lemma a85_bod_ok s rest :
  forallb a85_char_ok s = true -> a85_bod (s ++ bs "~>" ++ rest) = Some s.
Proof.
  induction s as [|b s IH]; intros H; [reflexivity|].
  cbn [forallb] in H. apply andb_true_iff in H. destruct H as [Hb Hs].
  unfold a85_char_ok in Hb. apply andb_true_iff in Hb. destruct Hb as [H1 H2].
  cbn [app]. rewrite a85_bod_cons.
  apply negb_true_iff in H1, H2. rewrite H1, H2, IH by exact Hs. reflexivity.
Qed.

Lemma a85_roundtrip d junk : DecodeASCII85 (EncodeASCII85 d ++ junk) = Ok d.
Proof.
  rewrite DecodeASCII85_spec. unfold EncodeASCII85.
  rewrite <- !app_assoc.
  change (a85_body (bs "<~" ++ a85_enc d ++ bs "~>" ++ junk))
    with (a85_bod (if prefixb (bs "<~") (bs "<~" ++ a85_enc d ++ bs "~>" ++ junk)
                   then skipn 2 (bs "<~" ++ a85_enc d ++ bs "~>" ++ junk)
                   else bs "<~" ++ a85_enc d ++ bs "~>" ++ junk)).
  rewrite prefixb_app.
  change (skipn 2 (bs "<~" ++ a85_enc d ++ bs "~>" ++ junk)) with (a85_enc d ++ bs "~>" ++ junk).
  rewrite a85_bod_ok by apply a85_enc_ok. rewrite a85_groups_enc. reflexivity.
Qed.

(* ---------------------------------------------------------------- *)
(** RunLength *)

Lemma rl_loop_runs rs : forall f tail acc,
  forallb run_ok rs = true ->
  (length (flat_map run_bytes rs ++ tail) < f)%nat ->
  exists f', (length tail < f')%nat /\
  rl_loop f (flat_map run_bytes rs ++ tail) acc = rl_loop f' tail (acc ++ flat_map run_data rs).
Proof.
  induction rs as [|r rs IH]; intros f tail acc Hok Hf.
  - exists f. cbn [flat_map app] in *. rewrite app_nil_r. split; [exact Hf|reflexivity].
  - cbn [forallb] in Hok. apply andb_true_iff in Hok. destruct Hok as [Hr Hrs].
    cbn [flat_map] in *. rewrite <- app_assoc in *.
    destruct f as [|f]; [lia|].
    destruct r as [l|n b]; cbn [run_ok run_bytes run_data] in *.
    + cbn [app rl_loop].
      apply andb_true_iff in Hr. destruct Hr as [Hl1 Hl2].
      apply Nat.leb_le in Hl1, Hl2.
      rewrite b2n_n2b_small by lia.
      replace (N.of_nat (length l) - 1 =? 128) with false by lia.
      replace (N.of_nat (length l) - 1 <? 128) with true by lia.
      replace (N.to_nat (N.of_nat (length l) - 1 + 1)) with (length l) by lia.
      assert ((length (l ++ flat_map run_bytes rs ++ tail) <? length l)%nat = false) as ->.
      { rewrite app_length. apply Nat.ltb_ge. lia. }
      rewrite skipn_app, skipn_all, Nat.sub_diag. cbn [skipn app].
      rewrite firstn_app, firstn_all, Nat.sub_diag. cbn [firstn]. rewrite app_nil_r.
      cbn [app length] in Hf. rewrite app_length in Hf.
      destruct (IH f tail (acc ++ l) Hrs) as [f' [Hf' ->]]; [lia|].
      exists f'. split; [exact Hf'|]. rewrite <- app_assoc. reflexivity.
    + cbn [app rl_loop].
      apply andb_true_iff in Hr. destruct Hr as [Hl1 Hl2].
      apply Nat.leb_le in Hl1, Hl2.
      rewrite b2n_n2b_small by lia.
      replace (257 - N.of_nat n =? 128) with false by lia.
      replace (257 - N.of_nat n <? 128) with false by lia.
      replace (N.to_nat (257 - (257 - N.of_nat n))) with n by lia.
      cbn [app length] in Hf.
      destruct (IH f tail (acc ++ repeat b n) Hrs) as [f' [Hf' ->]]; [lia|].
      exists f'. split; [exact Hf'|]. rewrite <- app_assoc. reflexivity.
Qed.

Lemma rl_decode_complete data rs :
  rl_text data rs -> DecodeRunLength data = Ok (flat_map run_data rs).
Proof.
  intros [Hok [Hd|[junk Hd]]]; unfold DecodeRunLength; subst data.
  - rewrite <- (app_nil_r (flat_map run_bytes rs)) at 2.
    destruct (rl_loop_runs rs (S (length (flat_map run_bytes rs))) [] [] Hok) as [f' [Hf' ->]].
    { rewrite app_nil_r. lia. }
    destruct f' as [|f']; [cbn in Hf'; lia|]. reflexivity.
  - destruct (rl_loop_runs rs (S (length (flat_map run_bytes rs ++ n2b 128 :: junk))) (n2b 128 :: junk) [] Hok)
      as [f' [Hf' ->]]; [lia|].
    destruct f' as [|f']; [lia|]. reflexivity.
Qed.

Lemma run_literal_bytes l s1 :
  b2n l < 128 -> (N.to_nat (b2n l + 1) <= length s1)%nat ->
  run_ok (Literal (firstn (N.to_nat (b2n l + 1)) s1)) = true /\
  run_bytes (Literal (firstn (N.to_nat (b2n l + 1)) s1)) = l :: firstn (N.to_nat (b2n l + 1)) s1.
Proof.
  intros H1 H2. cbn [run_ok run_bytes].
  rewrite firstn_length_le by exact H2. split; [lia|].
  f_equal. apply b2n_inj. rewrite b2n_n2b_small by lia. lia.
Qed.

Lemma run_repeat_bytes l b :
  128 < b2n l ->
  run_ok (Repeat (N.to_nat (257 - b2n l)) b) = true /\
  run_bytes (Repeat (N.to_nat (257 - b2n l)) b) = [l; b].
Proof.
  intros H1. pose proof (b2n_bound l). cbn [run_ok run_bytes]. split; [lia|].
  f_equal. apply b2n_inj. rewrite b2n_n2b_small by lia. lia.
Qed.

Lemma rl_loop_sound f : forall s acc,
  (length s < f)%nat ->
  match rl_loop f s acc with
  | Ok d => exists rs, rl_text s rs /\ d = acc ++ flat_map run_data rs
  | Err => forall rs, ~ rl_text s rs
  | Panic => False
  end.
Proof.
  induction f as [|f IH]; intros s acc Hf; [lia|].
  cbn [rl_loop]. destruct s as [|l s1].
  - exists []. split; [|rewrite app_nil_r; reflexivity]. split; [reflexivity|left; reflexivity].
  - cbn [length] in Hf.
    destruct (b2n l =? 128) eqn:E128.
    { exists []. split; [|rewrite app_nil_r; reflexivity]. split; [reflexivity|right].
      exists s1. cbn [flat_map app]. f_equal. apply b2n_inj. rewrite b2n_n2b_small; lia. }
    pose proof (b2n_bound l) as Hl.
    (* shape of any run list that describes this text *)
    assert (forall rs, rl_text (l :: s1) rs -> exists r rs', rs = r :: rs' /\ run_ok r = true /\
              exists rest, l :: s1 = run_bytes r ++ rest /\ rl_text rest rs') as Hinv.
    { intros rs [Hok Hd]. destruct rs as [|r rs'].
      - exfalso. cbn [flat_map app] in Hd. destruct Hd as [Hd|[junk Hd]]; [discriminate|].
        injection Hd as -> _. rewrite b2n_n2b_small in E128; lia.
      - cbn [forallb] in Hok. apply andb_true_iff in Hok. destruct Hok as [Hr Hrs].
        exists r, rs'. repeat split; auto.
        cbn [flat_map] in Hd. destruct Hd as [Hd|[junk Hd]].
        + exists (flat_map run_bytes rs'). split; [exact Hd|]. split; [exact Hrs|left; reflexivity].
        + exists (flat_map run_bytes rs' ++ n2b 128 :: junk). rewrite app_assoc. split; [exact Hd|].
          split; [exact Hrs|right; eauto]. }
    destruct (b2n l <? 128) eqn:Elt.
    + destruct ((length s1 <? N.to_nat (b2n l + 1))%nat) eqn:Eshort.
      * intros rs Hrs. destruct (Hinv rs Hrs) as (r & rs' & -> & Hr & rest & Hd & _).
        apply Nat.ltb_lt in Eshort.
        destruct r as [q|n b]; cbn [run_ok run_bytes] in *; apply andb_true_iff in Hr; destruct Hr as [R1 R2];
          apply Nat.leb_le in R1, R2; cbn [app] in Hd; injection Hd as Hl' Hd.
        -- rewrite Hl' in Eshort. rewrite b2n_n2b_small in Eshort by lia.
           rewrite Hd, app_length in Eshort. lia.
        -- rewrite Hl' in Elt. rewrite b2n_n2b_small in Elt by lia. lia.
      * apply Nat.ltb_ge in Eshort.
        destruct (run_literal_bytes l s1 ltac:(lia) Eshort) as [Rok Rb].
        specialize (IH (skipn (N.to_nat (b2n l + 1)) s1) (acc ++ firstn (N.to_nat (b2n l + 1)) s1)).
        rewrite skipn_length in IH. specialize (IH ltac:(lia)).
        destruct (rl_loop f _ _) as [d| |].
        -- destruct IH as [rs [[Hok Hd] ->]].
           exists (Literal (firstn (N.to_nat (b2n l + 1)) s1) :: rs).
           split; [|cbn [flat_map run_data]; rewrite <- app_assoc; reflexivity].
           split; [cbn [forallb]; rewrite Rok, Hok; reflexivity|].
           cbn [flat_map]. rewrite Rb.
           pose proof (firstn_skipn (N.to_nat (b2n l + 1)) s1) as Hs1.
           destruct Hd as [Hd|[junk Hd]]; rewrite Hd in Hs1; [left|right; exists junk]; cbn [app];
             rewrite <- ?app_assoc; rewrite Hs1; reflexivity.
        -- intros rs Hrs. destruct (Hinv rs Hrs) as (r & rs' & -> & Hr & rest & Hd & Hrest).
           destruct r as [q|n b]; cbn [run_ok run_bytes] in *; apply andb_true_iff in Hr; destruct Hr as [R1 R2];
             apply Nat.leb_le in R1, R2; cbn [app] in Hd; injection Hd as Hl' Hd.
           ++ apply (IH rs'). rewrite Hl', b2n_n2b_small by lia.
              replace (N.to_nat (N.of_nat (length q) - 1 + 1)) with (length q) by lia.
              rewrite Hd, skipn_app, skipn_all, Nat.sub_diag. exact Hrest.
           ++ rewrite Hl' in Elt. rewrite b2n_n2b_small in Elt by lia. lia.
        -- exact IH.
    + destruct s1 as [|b s2].
      * intros rs Hrs. destruct (Hinv rs Hrs) as (r & rs' & -> & Hr & rest & Hd & _).
        destruct r as [q|n b]; cbn [run_ok run_bytes] in *; apply andb_true_iff in Hr; destruct Hr as [R1 R2];
          apply Nat.leb_le in R1, R2; cbn [app] in Hd; injection Hd as Hl' Hd.
        -- destruct q; [cbn in R1; lia|discriminate].
        -- discriminate.
      * destruct (run_repeat_bytes l b ltac:(lia)) as [Rok Rb].
        cbn [length] in Hf.
        specialize (IH s2 (acc ++ repeat b (N.to_nat (257 - b2n l))) ltac:(lia)).
        destruct (rl_loop f _ _) as [d| |].
        -- destruct IH as [rs [[Hok Hd] ->]].
           exists (Repeat (N.to_nat (257 - b2n l)) b :: rs).
           split; [|cbn [flat_map run_data]; rewrite <- app_assoc; reflexivity].
           split; [cbn [forallb]; rewrite Rok, Hok; reflexivity|].
           cbn [flat_map]. rewrite Rb.
           destruct Hd as [Hd|[junk Hd]]; rewrite Hd; [left|right; exists junk]; reflexivity.
        -- intros rs Hrs. destruct (Hinv rs Hrs) as (r & rs' & -> & Hr & rest & Hd & Hrest).
           destruct r as [q|n c]; cbn [run_ok run_bytes] in *; apply andb_true_iff in Hr; destruct Hr as [R1 R2];
             apply Nat.leb_le in R1, R2; cbn [app] in Hd.
           ++ injection Hd as Hl' Hd. rewrite Hl' in Elt. rewrite b2n_n2b_small in Elt by lia. lia.
           ++ injection Hd as Hl' Hb Hd. apply (IH rs'). rewrite Hd. exact Hrest.
        -- exact IH.
Qed.

Lemma rl_decode_iff data d :
  DecodeRunLength data = Ok d <-> exists rs, rl_text data rs /\ d = flat_map run_data rs.
Proof.
  split.
  - intros H. pose proof (rl_loop_sound (S (length data)) data [] ltac:(lia)) as Hs.
    unfold DecodeRunLength in H. rewrite H in Hs. exact Hs.
  - intros [rs [H ->]]. apply rl_decode_complete. exact H.
Qed.

Lemma rl_decode_no_panic data : DecodeRunLength data <> Panic.
Proof.
  intros H. pose proof (rl_loop_sound (S (length data)) data [] ltac:(lia)) as Hs.
  unfold DecodeRunLength in H. rewrite H in Hs. exact Hs.
Qed.

(** Encoder *)
Lemma rl_ext_spec m b s :
  (rl_ext m b s <= m)%nat /\ (rl_ext m b s <= length s)%nat /\
  firstn (rl_ext m b s) s = repeat b (rl_ext m b s).
Proof.
  revert s. induction m as [|m IH]; intros [|c s]; cbn [rl_ext length]; try (repeat split; lia || reflexivity).
  destruct (beqb b c) eqn:E; [|repeat split; lia || reflexivity].
  apply beqb_eq in E. subst c. destruct (IH s) as (H1 & H2 & H3).
  repeat split; [lia|lia|]. cbn [firstn repeat]. rewrite H3. reflexivity.
Qed.

Lemma rl_lit_spec m s :
  (rl_lit m s <= m)%nat /\ (rl_lit m s <= length s)%nat.
Proof.
  revert s. induction m as [|m IH]; intros s; cbn [rl_lit]; [lia|].
  destruct s as [|x [|y s]]; cbn [length]; [lia|lia|].
  destruct (beqb x y); [lia|]. destruct (IH (y :: s)) as [H1 H2]. cbn [length] in *. lia.
Qed.

Definition pair_head (s : bytes) : bool :=
  match s with x :: y :: _ => beqb x y | _ => false end.

Lemma rl_lit_stop m s :
  (rl_lit m s < m)%nat -> skipn (rl_lit m s) s = [] \/ pair_head (skipn (rl_lit m s) s) = true.
Proof.
  revert s. induction m as [|m IH]; intros s; cbn [rl_lit]; [lia|].
  destruct s as [|x s']; [left; reflexivity|].
  destruct s' as [|y s']; [left; reflexivity|].
  destruct (beqb x y) eqn:E.
  - intros _. right. cbn [skipn pair_head]. exact E.
  - intros H. cbn [skipn]. apply IH. lia.
Qed.

Lemma rl_lit_pos b s : rl_ext 127 b s = O -> (1 <= rl_lit 127 (b :: s))%nat.
Proof.
  destruct s as [|c s]; [cbn; lia|]. cbn [rl_ext rl_lit].
  destruct (beqb b c); [discriminate|lia].
Qed.

Lemma rl_enc_runs f : forall s, (length s <= f)%nat ->
  exists rs, forallb run_ok rs = true /\ rl_enc f s = flat_map run_bytes rs /\ flat_map run_data rs = s.
Proof.
  induction f as [|f IH]; intros s Hs.
  - destruct s; [|cbn in Hs; lia]. exists []. repeat split.
  - destruct s as [|b s]; [exists []; repeat split|].
    cbn [rl_enc]. cbn [length] in Hs.
    destruct (rl_ext_spec 127 b s) as (E1 & E2 & E3).
    destruct (2 <=? S (rl_ext 127 b s))%nat eqn:E.
    + apply Nat.leb_le in E.
      set (e := rl_ext 127 b s) in *. cbn [skipn].
      destruct (IH (skipn e s)) as (rs & R1 & R2 & R3); [rewrite skipn_length; lia|].
      exists (Repeat (S e) b :: rs). cbn [forallb run_ok flat_map run_bytes run_data].
      rewrite R1, R2, R3. repeat split.
      * replace ((2 <=? S e)%nat) with true by lia. replace ((S e <=? 128)%nat) with true by lia. reflexivity.
      * cbn [repeat app]. f_equal. rewrite <- E3. apply firstn_skipn.
    + apply Nat.leb_gt in E. assert (rl_ext 127 b s = O) as E0 by lia.
      pose proof (rl_lit_pos b s E0) as Hp.
      destruct (rl_lit_spec 127 (b :: s)) as (K1 & K2).
      set (k := rl_lit 127 (b :: s)) in *. cbn [length] in K2.
      destruct (IH (skipn k (b :: s))) as (rs & R1 & R2 & R3).
      { rewrite skipn_length. cbn [length]. lia. }
      assert (length (firstn k (b :: s)) = k) as Hfl by (rewrite firstn_length; cbn [length]; lia).
      exists (Literal (firstn k (b :: s)) :: rs).
      change (forallb run_ok (Literal (firstn k (b :: s)) :: rs))
        with ((1 <=? length (firstn k (b :: s)))%nat && (length (firstn k (b :: s)) <=? 128)%nat && forallb run_ok rs).
      change (flat_map run_bytes (Literal (firstn k (b :: s)) :: rs))
        with ((n2b (N.of_nat (length (firstn k (b :: s))) - 1) :: firstn k (b :: s)) ++ flat_map run_bytes rs).
      change (flat_map run_data (Literal (firstn k (b :: s)) :: rs))
        with (firstn k (b :: s) ++ flat_map run_data rs).
      rewrite R1, R2, R3, Hfl. split; [|split].
      * apply Nat.leb_le in Hp. rewrite Hp. replace (k <=? 128)%nat with true by lia. reflexivity.
      * reflexivity.
      * apply firstn_skipn.
Qed.

Lemma EncodeRunLength_eq d : EncodeRunLength d = rl_enc (length d) d ++ [n2b 128].
Proof. destruct d; reflexivity. Qed.

Lemma rl_roundtrip d junk : DecodeRunLength (EncodeRunLength d ++ junk) = Ok d.
Proof.
  rewrite EncodeRunLength_eq.
  destruct (rl_enc_runs (length d) d ltac:(lia)) as (rs & R1 & R2 & R3).
  rewrite (rl_decode_complete _ rs); [rewrite R3; reflexivity|].
  split; [exact R1|right; exists junk]. rewrite R2, <- app_assoc. reflexivity.
Qed.

Lemma rl_enc_size f : forall s, (length s <= f)%nat ->
  (length (rl_enc f s) <= length s + (length s + 2) / 3)%nat /\
  (pair_head s = true -> length (rl_enc f s) <= length s + length s / 3)%nat.
Proof.
  induction f as [|f IH]; intros s Hs.
  - destruct s; [cbn; split; [lia|intros; lia]|cbn in Hs; lia].
  - destruct s as [|b s]; [cbn; split; [lia|intros; lia]|].
    cbn [rl_enc]. cbn [length] in Hs.
    destruct (rl_ext_spec 127 b s) as (E1 & E2 & E3).
    destruct (2 <=? S (rl_ext 127 b s))%nat eqn:E.
    + apply Nat.leb_le in E.
      set (e := rl_ext 127 b s) in *. cbn [skipn length].
      destruct (IH (skipn e s)) as [I1 _]; [rewrite skipn_length; lia|].
      rewrite skipn_length in I1. split; [|intros _]; lia.
    + apply Nat.leb_gt in E. assert (rl_ext 127 b s = O) as E0 by lia.
      pose proof (rl_lit_pos b s E0) as Hp.
      destruct (rl_lit_spec 127 (b :: s)) as (K1 & K2).
      pose proof (rl_lit_stop 127 (b :: s)) as Hstop.
      set (k := rl_lit 127 (b :: s)) in *. cbn [length] in K2.
      destruct (IH (skipn k (b :: s))) as [I1 I2].
      { rewrite skipn_length. cbn [length]. lia. }
      assert (length (skipn k (b :: s)) = S (length s) - k)%nat as Hsl by (rewrite skipn_length; reflexivity).
      rewrite Hsl in *.
      cbn [length]. rewrite app_length.
      assert (length (firstn k (b :: s)) = k) as Hfl by (rewrite firstn_length; cbn [length]; lia).
      rewrite Hfl. split.
      * destruct (Nat.lt_ge_cases k 127) as [Hk|Hk].
        -- destruct (Hstop Hk) as [Hnil|Hpair].
           ++ assert (S (length s) - k = 0)%nat as Hz by (rewrite <- Hsl, Hnil; reflexivity).
              rewrite Hz in I1. change ((0 + 2) / 3)%nat with 0%nat in I1. lia.
           ++ specialize (I2 Hpair). lia.
        -- lia.
      * intros Hpair. exfalso. destruct s as [|c s]; [discriminate|].
        cbn [pair_head] in Hpair. cbn [rl_ext] in E0. rewrite Hpair in E0. discriminate.
Qed.

Lemma rl_size d : (length (EncodeRunLength d) <= length d + (length d + 2) / 3 + 1)%nat.
Proof.
  rewrite EncodeRunLength_eq, app_length. cbn [length].
  destruct (rl_enc_size (length d) d ltac:(lia)) as [H _]. lia.
Qed.

(* ---------------------------------------------------------------- *)
(** No panics, dispatch *)

Lemma hex_no_panic s : DecodeASCIIHex s <> Panic.
Proof. rewrite DecodeASCIIHex_spec. destruct (hex_pairs _); discriminate. Qed.

Lemma a85_no_panic s : DecodeASCII85 s <> Panic.
Proof.
  rewrite DecodeASCII85_spec. destruct (a85_body s); [|discriminate].
  destruct (a85_groups _); discriminate.
Qed.

(** Dispatch *)
Definition filter_table (flate : bytes -> result bytes) : list (bytes * (bytes -> result bytes)) :=
  [(bs "FlateDecode", flate); (bs "ASCIIHexDecode", DecodeASCIIHex);
   (bs "ASCII85Decode", DecodeASCII85); (bs "RunLengthDecode", DecodeRunLength);
   (bs "DCTDecode", DecodeDCTDecode)].

Lemma bytes_eqb_cons_slash n m : bytes_eqb ("/"%byte :: n) ("/"%byte :: m) = bytes_eqb n m.
Proof. reflexivity. Qed.

Lemma bytes_eqb_slash_other n m :
  prefixb (bs "/") n = false -> prefixb (bs "/") m = true -> bytes_eqb n m = false.
Proof.
  intros Hn Hm. destruct (bytes_eqb n m) eqn:E; [|reflexivity].
  apply bytes_eqb_eq in E. subst. congruence.
Qed.

Lemma filter_slash flate data n :
  prefixb (bs "/") n = false ->
  DecodeFilter flate data (bs "/" ++ n) = DecodeFilter flate data n.
Proof.
  intros Hn. unfold DecodeFilter.
  rewrite (bytes_eqb_slash_other n (bs "/FlateDecode") Hn eq_refl),
    (bytes_eqb_slash_other n (bs "/ASCIIHexDecode") Hn eq_refl),
    (bytes_eqb_slash_other n (bs "/ASCII85Decode") Hn eq_refl),
    (bytes_eqb_slash_other n (bs "/RunLengthDecode") Hn eq_refl),
    (bytes_eqb_slash_other n (bs "/DCTDecode") Hn eq_refl).
  change (bs "/" ++ n) with ("/"%byte :: n).
  change (bs "/FlateDecode") with ("/"%byte :: bs "FlateDecode").
  change (bs "/ASCIIHexDecode") with ("/"%byte :: bs "ASCIIHexDecode").
  change (bs "/ASCII85Decode") with ("/"%byte :: bs "ASCII85Decode").
  change (bs "/RunLengthDecode") with ("/"%byte :: bs "RunLengthDecode").
  change (bs "/DCTDecode") with ("/"%byte :: bs "DCTDecode").
  rewrite !(bytes_eqb_cons_slash n).
  cbn [orb].
  change (bytes_eqb ("/"%byte :: n) (bs "FlateDecode")) with false.
  change (bytes_eqb ("/"%byte :: n) (bs "ASCIIHexDecode")) with false.
  change (bytes_eqb ("/"%byte :: n) (bs "ASCII85Decode")) with false.
  change (bytes_eqb ("/"%byte :: n) (bs "RunLengthDecode")) with false.
  change (bytes_eqb ("/"%byte :: n) (bs "DCTDecode")) with false.
  rewrite !orb_false_r. reflexivity.
Qed.

Lemma filter_known flate data n dec :
  In (n, dec) (filter_table flate) -> DecodeFilter flate data n = dec data.
Proof.
  intros H. cbn [In filter_table] in H.
  repeat (destruct H as [H|H]; [injection H as <- <-; reflexivity|]). destruct H.
Qed.

Lemma filter_unknown flate data n :
  (forall m dec, In (m, dec) (filter_table flate) -> n <> m /\ n <> bs "/" ++ m) ->
  DecodeFilter flate data n = Err.
Proof.
  intros H.
  assert (forall m dec, In (m, dec) (filter_table flate) ->
     bytes_eqb n (bs "/" ++ m) || bytes_eqb n m = false) as Hf.
  { intros m dec Hin. destruct (H m dec Hin) as [H1 H2].
    destruct (bytes_eqb n (bs "/" ++ m)) eqn:E1; [apply bytes_eqb_eq in E1; congruence|].
    destruct (bytes_eqb n m) eqn:E2; [apply bytes_eqb_eq in E2; congruence|]. reflexivity. }
  unfold DecodeFilter.
  change (bs "/FlateDecode") with (bs "/" ++ bs "FlateDecode").
  change (bs "/ASCIIHexDecode") with (bs "/" ++ bs "ASCIIHexDecode").
  change (bs "/ASCII85Decode") with (bs "/" ++ bs "ASCII85Decode").
  change (bs "/RunLengthDecode") with (bs "/" ++ bs "RunLengthDecode").
  change (bs "/DCTDecode") with (bs "/" ++ bs "DCTDecode").
  rewrite (Hf (bs "FlateDecode") flate) by (cbn; auto).
  rewrite (Hf (bs "ASCIIHexDecode") DecodeASCIIHex) by (cbn; auto).
  rewrite (Hf (bs "ASCII85Decode") DecodeASCII85) by (cbn; auto).
  rewrite (Hf (bs "RunLengthDecode") DecodeRunLength) by (cbn; auto).
  rewrite (Hf (bs "DCTDecode") DecodeDCTDecode) by (cbn; auto 10).
  reflexivity.
Qed.

Lemma dct_passthrough data :
  DecodeDCTDecode data = (if prefixb [xff; xd8] data then Ok data else Err) /\
  EncodeDCTDecode data = DecodeDCTDecode data.
Proof.
  split; [|reflexivity]. unfold DecodeDCTDecode.
  destruct data as [|b0 [|b1 data]]; [reflexivity| |].
  - cbn [prefixb]. rewrite andb_false_r. reflexivity.
  - cbn [prefixb]. rewrite andb_true_r. unfold beqb.
    change (b2n xff) with 255. change (b2n xd8) with 216.
    rewrite (N.eqb_sym 255), (N.eqb_sym 216). reflexivity.
Qed.

(** The encoders produce text of the filter's alphabet. *)
Lemma hex_bad_char s a b t :
  s = a ++ b :: t -> ~ In ">"%byte a -> is_ws b = false -> b2n b <> 62 -> hex_value b = None ->
  DecodeASCIIHex s = Err.
Proof.
  intros -> Ha Hw Hgt Hv. rewrite DecodeASCIIHex_spec.
  assert (hex_body (a ++ b :: t) = filter (fun b => negb (is_ws b)) a ++ b :: hex_body t) as Hb.
  { revert Ha. induction a as [|x a IH]; intros Ha.
    - cbn [app filter]. rewrite hex_body_cons. replace (b2n b =? 62) with false by lia. rewrite Hw. reflexivity.
    - cbn [app]. rewrite hex_body_cons, IH by (intros Hc; apply Ha; right; exact Hc).
      destruct (N.eqb_spec (b2n x) 62) as [E|E].
      + exfalso. apply Ha. left. apply b2n_inj. exact E.
      + cbn [filter]. destruct (is_ws x); reflexivity. }
  rewrite Hb. clear Hb.
  assert (forall n x y, (length x <= n)%nat -> hex_pairs (x ++ b :: y) = None) as Hp.
  { clear -Hv. induction n as [|n IH]; intros x y Hl.
    - destruct x; [|cbn in Hl; lia]. cbn [app]. rewrite hex_pairs_cons, Hv. reflexivity.
    - destruct x as [|p [|q x]]; cbn [app].
      + rewrite hex_pairs_cons, Hv. reflexivity.
      + cbn [hex_pairs]. rewrite Hv. destruct (hex_value p); reflexivity.
      + cbn [hex_pairs]. cbn [length] in Hl. rewrite IH by lia.
        destruct (hex_value p), (hex_value q); reflexivity. }
  rewrite (Hp _ _ _ (Nat.le_refl _)). reflexivity.
Qed.

(** Conforming ASCII85 text: groups whose value does not fit in 32 bits are
    illegal (ISO 32000-1, 7.4.3). *)
Lemma a85_overflow_accepted :
  exists s d, DecodeASCII85 s = Ok d /\
    exists c1 c2 c3 c4 c5 r, s = [c1; c2; c3; c4; c5] ++ r /\
      2 ^ 32 <= (b2n c1 - 33) * 85 ^ 4 + (b2n c2 - 33) * 85 ^ 3 + (b2n c3 - 33) * 85 ^ 2
                + (b2n c4 - 33) * 85 + (b2n c5 - 33) /\
      Forall (fun c => 33 <= b2n c <= 117) [c1; c2; c3; c4; c5].
Proof.
  exists (bs "uuuuu~>"), [n2b 8; n2b 120; n2b 14; n2b 196].
  split; [vm_compute; reflexivity|].
  exists "u"%byte, "u"%byte, "u"%byte, "u"%byte, "u"%byte, (bs "~>").
  split; [reflexivity|]. split; [vm_compute; discriminate|].
  repeat constructor; vm_compute; discriminate.
Qed.

Lemma filter_dispatch flate data :
  DecodeFilter flate data (bs "FlateDecode") = flate data /\
  DecodeFilter flate data (bs "ASCIIHexDecode") = DecodeASCIIHex data /\
  DecodeFilter flate data (bs "ASCII85Decode") = DecodeASCII85 data /\
  DecodeFilter flate data (bs "RunLengthDecode") = DecodeRunLength data /\
  DecodeFilter flate data (bs "DCTDecode") = DecodeDCTDecode data.
Proof. repeat split. Qed.

Lemma filter_reject flate data n :
  ~ In n (map bs ["FlateDecode"; "/FlateDecode"; "ASCIIHexDecode"; "/ASCIIHexDecode";
                  "ASCII85Decode"; "/ASCII85Decode"; "RunLengthDecode"; "/RunLengthDecode";
                  "DCTDecode"; "/DCTDecode"]%string) ->
  DecodeFilter flate data n = Err.
Proof.
  intros H. apply filter_unknown. intros m dec Hin. cbn [In filter_table] in Hin.
  repeat (destruct Hin as [Hin|Hin]; [injection Hin as <- <-; split; intros ->; apply H; cbn [map In];
    repeat (first [left; reflexivity | right])|]). destruct Hin.
Qed.

Lemma rl_iff_err data :
  DecodeRunLength data = Err <-> forall rs, ~ rl_text data rs.
Proof.
  split.
  - intros H rs Hrs. rewrite (rl_decode_complete _ _ Hrs) in H. discriminate.
  - intros H. pose proof (rl_loop_sound (S (length data)) data [] ltac:(lia)) as Hs.
    unfold DecodeRunLength. destruct (rl_loop _ _ _) as [d| |]; [|reflexivity|destruct Hs].
    destruct Hs as [rs [Hrs _]]. destruct (H rs Hrs).
Qed.

Lemma hex_ws_roundtrip d t junk :
  ws_insert (EncodeASCIIHex d) t -> DecodeASCIIHex (t ++ junk) = Ok d.
Proof.
  intros H. rewrite (hex_whitespace (EncodeASCIIHex d ++ junk) (t ++ junk)); [apply hex_roundtrip|].
  induction H as [|b s t H IH|b s t Hw H IH]; cbn [app].
  - clear. induction junk; constructor; assumption.
  - constructor. exact IH.
  - apply wsi_ws; assumption.
Qed.
