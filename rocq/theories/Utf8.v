(** Go strings as sequences of runes: the UTF-8 coder and decoder that
    [for _, r := range s], [[]rune(s)], [string(r)] and [WriteRune] use (Go
    standard library, unicode/utf8; not part of /repo).  A rune is an [N]. *)
From Verif Require Export Util.
Local Open Scope N_scope.

Definition rune_error : N := 65533.

(** utf8.ValidRune *)
Definition valid_rune (r : N) : bool := (r <? 55296) || ((57344 <=? r) && (r <? 1114112)).

(** utf8.AppendRune: surrogates and values above 0x10FFFF give U+FFFD. *)
Definition encode_rune (r : N) : bytes :=
  let r := if valid_rune r then r else rune_error in
  if r <? 128 then [n2b r]
  else if r <? 2048 then [n2b (192 + r / 64); n2b (128 + r mod 64)]
  else if r <? 65536 then [n2b (224 + r / 4096); n2b (128 + r / 64 mod 64); n2b (128 + r mod 64)]
  else [n2b (240 + r / 262144); n2b (128 + r / 4096 mod 64); n2b (128 + r / 64 mod 64); n2b (128 + r mod 64)].

Definition in_range (lo hi : N) (b : byte) : bool := (lo <=? b2n b) && (b2n b <=? hi).
Definition cont (b : byte) : bool := in_range 128 191 b.

(** utf8.DecodeRune on a non-empty string: the rune and how many bytes it
    takes; (U+FFFD, 1) for anything that is not shortest-form UTF-8. *)
Definition decode_rune (s : bytes) : N * nat :=
  match s with
  | [] => (rune_error, 0%nat)
  | b0 :: s1 =>
      let n0 := b2n b0 in
      if n0 <? 128 then (n0, 1%nat)
      else match s1 with
      | [] => (rune_error, 1%nat)
      | b1 :: s2 =>
          if in_range 194 223 b0 && cont b1 then ((n0 - 192) * 64 + (b2n b1 - 128), 2%nat)
          else match s2 with
          | [] => (rune_error, 1%nat)
          | b2 :: s3 =>
              let lo := if n0 =? 224 then 160 else 128 in
              let hi := if n0 =? 237 then 159 else 191 in
              if in_range 224 239 b0 && in_range lo hi b1 && cont b2
              then ((n0 - 224) * 4096 + (b2n b1 - 128) * 64 + (b2n b2 - 128), 3%nat)
              else match s3 with
              | [] => (rune_error, 1%nat)
              | b3 :: _ =>
                  let lo := if n0 =? 240 then 144 else 128 in
                  let hi := if n0 =? 244 then 143 else 191 in
                  if in_range 240 244 b0 && in_range lo hi b1 && cont b2 && cont b3
                  then ((n0 - 240) * 262144 + (b2n b1 - 128) * 4096 + (b2n b2 - 128) * 64 + (b2n b3 - 128), 4%nat)
                  else (rune_error, 1%nat)
              end
          end
      end
  end.

(** [[]rune(s)] *)
Fixpoint runes_aux (skip : nat) (s : bytes) : list N :=
  match s with
  | [] => []
  | _ :: s' =>
      match skip with
      | S k => runes_aux k s'
      | O => let (r, k) := decode_rune s in r :: runes_aux (k - 1) s'
      end
  end.
Definition runes (s : bytes) : list N := runes_aux 0 s.

(** [string(rs)] *)
Definition utf8 (rs : list N) : bytes := flat_map encode_rune rs.

(** utf8.ValidString *)
Definition valid_utf8 (s : bytes) : Prop := exists rs, forallb valid_rune rs = true /\ s = utf8 rs.

Lemma in_range_n2b lo hi n : n < 256 -> in_range lo hi (n2b n) = (lo <=? n) && (n <=? hi).
Proof. intros H. unfold in_range. rewrite b2n_n2b_small by exact H. reflexivity. Qed.

Lemma decode_encode r s : valid_rune r = true ->
  decode_rune (encode_rune r ++ s) = (r, length (encode_rune r)).
Proof.
  intros V. unfold encode_rune. rewrite V. unfold valid_rune in V.
  destruct (r <? 128) eqn:E1.
  { apply N.ltb_lt in E1. cbn [app decode_rune length]. rewrite b2n_n2b_small by lia.
    apply N.ltb_lt in E1. rewrite E1. reflexivity. }
  apply N.ltb_ge in E1.
  destruct (r <? 2048) eqn:E2.
  { apply N.ltb_lt in E2. cbn [app decode_rune length].
    rewrite !b2n_n2b_small by lia.
    destruct (192 + r / 64 <? 128) eqn:E; [apply N.ltb_lt in E; lia|].
    unfold cont. rewrite !in_range_n2b by lia.
    replace ((194 <=? 192 + r / 64) && (192 + r / 64 <=? 223) && ((128 <=? 128 + r mod 64) && (128 + r mod 64 <=? 191))) with true.
    - f_equal. lia.
    - symmetry. rewrite !andb_true_iff, !N.leb_le. lia. }
  apply N.ltb_ge in E2.
  destruct (r <? 65536) eqn:E3.
  { apply N.ltb_lt in E3. cbn [app decode_rune length].
    rewrite !b2n_n2b_small by lia.
    destruct (224 + r / 4096 <? 128) eqn:E; [apply N.ltb_lt in E; lia|].
    unfold cont. rewrite !in_range_n2b by lia.
    replace ((194 <=? 224 + r / 4096) && (224 + r / 4096 <=? 223)) with false
      by (symmetry; apply andb_false_iff; right; apply N.leb_gt; lia).
    cbn [andb].
    assert (Hl : (if 224 + r / 4096 =? 224 then 160 else 128) <= 128 + r / 64 mod 64).
    { destruct (224 + r / 4096 =? 224) eqn:K; [apply N.eqb_eq in K; lia|lia]. }
    assert (Hh : 128 + r / 64 mod 64 <= (if 224 + r / 4096 =? 237 then 159 else 191)).
    { destruct (224 + r / 4096 =? 237) eqn:K; [apply N.eqb_eq in K|lia].
      apply orb_true_iff in V. rewrite andb_true_iff, N.leb_le, !N.ltb_lt in V. lia. }
    apply N.leb_le in Hl, Hh. rewrite Hl, Hh.
    replace ((224 <=? 224 + r / 4096) && (224 + r / 4096 <=? 239)) with true
      by (symmetry; apply andb_true_iff; rewrite !N.leb_le; lia).
    replace ((128 <=? 128 + r mod 64) && (128 + r mod 64 <=? 191)) with true
      by (symmetry; apply andb_true_iff; rewrite !N.leb_le; lia).
    cbn [andb]. f_equal. lia. }
  apply N.ltb_ge in E3.
  assert (Hr : r < 1114112).
  { apply orb_true_iff in V. rewrite andb_true_iff, N.leb_le, !N.ltb_lt in V. lia. }
  cbn [app decode_rune length].
  rewrite !b2n_n2b_small by lia.
  destruct (240 + r / 262144 <? 128) eqn:E; [apply N.ltb_lt in E; lia|].
  unfold cont. rewrite !in_range_n2b by lia.
  replace ((194 <=? 240 + r / 262144) && (240 + r / 262144 <=? 223)) with false
    by (symmetry; apply andb_false_iff; right; apply N.leb_gt; lia).
  replace ((224 <=? 240 + r / 262144) && (240 + r / 262144 <=? 239)) with false
    by (symmetry; apply andb_false_iff; right; apply N.leb_gt; lia).
  cbn [andb].
  assert (Hl : (if 240 + r / 262144 =? 240 then 144 else 128) <= 128 + r / 4096 mod 64).
  { destruct (240 + r / 262144 =? 240) eqn:K; [apply N.eqb_eq in K; lia|lia]. }
  assert (Hh : 128 + r / 4096 mod 64 <= (if 240 + r / 262144 =? 244 then 143 else 191)).
  { destruct (240 + r / 262144 =? 244) eqn:K; [apply N.eqb_eq in K; lia|lia]. }
  apply N.leb_le in Hl, Hh. rewrite Hl, Hh.
  replace ((240 <=? 240 + r / 262144) && (240 + r / 262144 <=? 244)) with true
    by (symmetry; apply andb_true_iff; rewrite !N.leb_le; lia).
  replace ((128 <=? 128 + r / 64 mod 64) && (128 + r / 64 mod 64 <=? 191)) with true
    by (symmetry; apply andb_true_iff; rewrite !N.leb_le; lia).
  replace ((128 <=? 128 + r mod 64) && (128 + r mod 64 <=? 191)) with true
    by (symmetry; apply andb_true_iff; rewrite !N.leb_le; lia).
  cbn [andb]. f_equal. lia.
Qed.

Lemma runes_skip a s : runes_aux (length a) (a ++ s) = runes_aux 0 s.
Proof. induction a as [|b a IH]; [reflexivity|exact IH]. Qed.

Lemma encode_nonnil r : encode_rune r <> [].
Proof. unfold encode_rune. destruct (_ <? 128); [discriminate|]. destruct (_ <? 2048); [discriminate|]. destruct (_ <? 65536); discriminate. Qed.

Lemma runes_encode r s : valid_rune r = true -> runes (encode_rune r ++ s) = r :: runes s.
Proof.
  intros V. unfold runes. pose proof (decode_encode r s V) as D.
  destruct (encode_rune r) as [|b e] eqn:E; [destruct (encode_nonnil r E)|].
  cbn [app runes_aux]. cbn [app] in D. rewrite D. cbn [length].
  replace (S (length e) - 1)%nat with (length e) by lia. rewrite runes_skip. reflexivity.
Qed.

Lemma runes_utf8_app rs s : forallb valid_rune rs = true -> runes (utf8 rs ++ s) = rs ++ runes s.
Proof.
  induction rs as [|r rs IH]; intros V; [reflexivity|].
  cbn [forallb] in V. apply andb_true_iff in V. destruct V as [V1 V2].
  cbn [utf8 flat_map app]. rewrite <- app_assoc, runes_encode by exact V1. f_equal. apply IH, V2.
Qed.

Lemma runes_utf8 rs : forallb valid_rune rs = true -> runes (utf8 rs) = rs.
Proof. intros V. rewrite <- (app_nil_r (utf8 rs)), runes_utf8_app, app_nil_r by exact V. reflexivity. Qed.

(** Plain ASCII *)
Definition is_ascii (b : byte) : bool := b2n b <? 128.
Lemma runes_ascii s : forallb is_ascii s = true -> runes s = map b2n s.
Proof.
  unfold runes. induction s as [|b s IH]; intros H; [reflexivity|].
  cbn [forallb] in H. apply andb_true_iff in H. destruct H as [H1 H2]. unfold is_ascii in H1.
  cbn [runes_aux decode_rune]. rewrite H1. cbn [map Nat.sub]. f_equal. apply IH, H2.
Qed.
Lemma utf8_ascii s : forallb is_ascii s = true -> utf8 (map b2n s) = s.
Proof.
  induction s as [|b s IH]; intros H; [reflexivity|].
  cbn [forallb] in H. apply andb_true_iff in H. destruct H as [H1 H2]. unfold is_ascii in H1.
  cbn [map utf8 flat_map]. unfold encode_rune, valid_rune. apply N.ltb_lt in H1.
  replace (b2n b <? 55296) with true by (symmetry; apply N.ltb_lt; lia). cbn [orb].
  apply N.ltb_lt in H1. rewrite H1. cbn [app]. rewrite n2b_b2n. f_equal. apply IH, H2.
Qed.
