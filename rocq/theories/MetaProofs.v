(** The Info dictionary written by SetMetadata is read back by parseInfoDict. *)
From Verif Require Import TextModel TextSpec TextProofs ContentProofs Scan.
Local Open Scope Z_scope.

Definition wordb (w : bytes) : bool := forallb is_word w && match w with [] => false | _ => true end.
Definition no_paren (v : bytes) : bool := forallb (fun b => negb (beqb b "(") && negb (beqb b ")")) v.
Definition segment (kv : bytes * bytes) : bytes := bs "/" ++ fst kv ++ bs " (" ++ snd kv ++ bs ") ".

Lemma word_not_ws b : is_word b = true -> is_ws b = false.
Proof. destruct b; (reflexivity || discriminate). Qed.
Lemma word_not_open b : is_word b = true -> beqb "(" b = false.
Proof. destruct b; (reflexivity || discriminate). Qed.

Lemma in_skipn_tail {A} j (a : list A) x : (j < length (a ++ [x]))%nat -> In x (skipn j (a ++ [x])).
Proof.
  rewrite app_length. cbn [length]. intros H. rewrite skipn_app_l by lia. apply in_or_app. right. left. reflexivity.
Qed.
Lemma skipn_incl {A} j (a : list A) x : In x (skipn j a) -> In x a.
Proof. intros H. rewrite <- (firstn_skipn j a). apply in_or_app. right. exact H. Qed.

(** Text without an opening parenthesis that ends in a closing one cannot hold
    the beginning of a field. *)
Lemma prefix_split {A} (u b p q : list A) : u ++ b = p ++ q -> (length u <= length p)%nat -> exists p2, p = u ++ p2 /\ b = p2 ++ q.
Proof.
  revert p. induction u as [|x u IH]; intros p E L; [exists p; auto|].
  destruct p as [|y p]; [cbn in L; lia|]. cbn [app] in E. injection E as -> E. cbn [length] in L.
  destruct (IH p E ltac:(lia)) as (p2 & -> & ->). exists p2. auto.
Qed.
Lemma value_blocks (u b p q : bytes) :
  ~ In "("%byte u -> In ")"%byte u -> ~ In ")"%byte p -> u ++ b = p ++ "("%byte :: q -> False.
Proof.
  intros H1 H2 H3 E. destruct (Nat.le_gt_cases (length u) (length p)) as [L|L].
  - destruct (prefix_split u b p _ E L) as (p2 & -> & _). apply H3, in_or_app. left. exact H2.
  - destruct (prefix_split p ("("%byte :: q) u b (eq_sym E) ltac:(lia)) as (p2 & -> & E2).
    destruct p2 as [|y p2]; [rewrite app_nil_r in L; lia|]. cbn [app] in E2. injection E2 as E3 _.
    apply H1, in_or_app. right. left. symmetry. exact E3.
Qed.
Lemma ws0_split r : exists a, r = a ++ ws0 r /\ forallb is_ws a = true.
Proof. exists (take_while is_ws r). split; [symmetry; apply take_drop_while|apply take_while_all]. Qed.
Lemma ws_no_close a : forallb is_ws a = true -> ~ In ")"%byte a.
Proof. intros H Hi. rewrite forallb_forall in H. specialize (H _ Hi). discriminate. Qed.
Lemma word_no_close a : forallb is_word a = true -> ~ In ")"%byte a.
Proof. intros H Hi. rewrite forallb_forall in H. specialize (H _ Hi). discriminate. Qed.

Lemma no_open v : no_paren v = true -> ~ In "("%byte (v ++ [")"%byte]).
Proof.
  intros H Hi. apply in_app_or in Hi. destruct Hi as [Hi|[Hi|[]]]; [|discriminate].
  unfold no_paren in H. rewrite forallb_forall in H. specialize (H _ Hi). discriminate.
Qed.

Lemma field_not_in_value w v : forallb is_word w = true -> no_paren v = true -> nofire (m_textfield (bs "/" ++ w)) (v ++ [")"%byte]).
Proof.
  intros Hw Hv b j Hj. destruct (m_textfield (bs "/" ++ w) _) as [g|] eqn:E; [exfalso|reflexivity].
  unfold m_textfield, obind in E. destruct (lit (bs "/" ++ w) _) as [r|] eqn:E1; [|discriminate].
  destruct (lit (bs "(") (ws0 r)) as [r2|] eqn:E2; [|discriminate]. clear E.
  apply lit_some in E1, E2. destruct (ws0_split r) as (a & Ea & Ha). rewrite E2 in Ea.
  rewrite skipn_app_l in E1 by lia. rewrite Ea in E1.
  apply (value_blocks (skipn j (v ++ [")"%byte])) b ((bs "/" ++ w) ++ a) r2).
  - intros Hi. apply skipn_incl in Hi. apply (no_open v Hv Hi).
  - apply in_skipn_tail. exact Hj.
  - intros Hi. apply in_app_or in Hi. destruct Hi as [Hi|Hi]; [|apply (ws_no_close a Ha Hi)].
    apply in_app_or in Hi. destruct Hi as [Hi|Hi]; [|apply (word_no_close w Hw Hi)].
    destruct Hi as [Hi|[]]; discriminate.
  - rewrite E1, <- (app_assoc (bs "/" ++ w) a). reflexivity.
Qed.

Definition no_slash (s : bytes) : bool := forallb (fun b => negb (beqb b "/")) s.
Lemma field_no_slash w s : no_slash s = true -> nofire (m_textfield (bs "/" ++ w)) s.
Proof.
  intros H. apply (nostart_nofire _ (bs "/" ++ w)).
  - intros t Ht. unfold m_textfield. apply lit_none in Ht. rewrite Ht. reflexivity.
  - change (bs "/" ++ w) with ("/"%byte :: w). apply (nostart_class (fun b => negb (beqb b "/"))); [exact H|reflexivity].
Qed.
Lemma word_no_slash w : forallb is_word w = true -> no_slash w = true.
Proof.
  intros H. apply forallb_forall. intros b Hb. rewrite forallb_forall in H. specialize (H b Hb).
  destruct b; (reflexivity || discriminate).
Qed.

Lemma field_other_key w k z : wordb w = true -> wordb k = true -> w <> k ->
  m_textfield (bs "/" ++ w) (bs "/" ++ k ++ bs " " ++ z) = None.
Proof.
  unfold wordb. rewrite !andb_true_iff. intros [Hw _] [Hk _] Hn.
  unfold m_textfield, obind. destruct (lit (bs "/" ++ w) _) as [r|] eqn:E1; [|reflexivity].
  apply lit_some in E1. rewrite <- app_assoc in E1. apply app_inv_head in E1.
  destruct (lit (bs "(") (ws0 r)) as [r2|] eqn:E2; [|reflexivity]. exfalso. apply lit_some in E2.
  apply Hn.
  assert (R : match r with [] => True | c :: _ => is_word c = false end).
  { destruct r as [|c r]; [trivial|]. destruct (is_word c) eqn:Ec; [|reflexivity].
    unfold ws0 in E2. cbn [drop_while] in E2. rewrite word_not_ws in E2 by exact Ec.
    change (bs "(" ++ r2) with ("("%byte :: r2) in E2. injection E2 as -> _. discriminate. }
  rewrite <- (take_while_break is_word w r Hw R).
  rewrite <- (take_while_break is_word k (bs " " ++ z) Hk eq_refl). symmetry. f_equal. exact E1.
Qed.

Lemma field_same_key w v z : no_paren v = true ->
  m_textfield (bs "/" ++ w) (bs "/" ++ w ++ bs " (" ++ v ++ bs ")" ++ z) = Some v.
Proof.
  intros Hv. unfold m_textfield, obind. rewrite app_assoc, lit_app.
  change (ws0 (bs " (" ++ v ++ bs ")" ++ z)) with (bs "(" ++ v ++ bs ")" ++ z). rewrite lit_app.
  assert (T : take_while (fun b => negb (beqb b ")")) (v ++ bs ")" ++ z) = v).
  { apply take_while_break; [|reflexivity]. apply forallb_forall. intros b Hb. unfold no_paren in Hv.
    rewrite forallb_forall in Hv. specialize (Hv b Hb). apply andb_true_iff in Hv. apply Hv. }
  cbv zeta. rewrite T, skipn_length_app, lit_app. reflexivity.
Qed.

Lemma segment_split kv : segment kv = bs "/" ++ fst kv ++ bs " " ++ bs "(" ++ snd kv ++ bs ")" ++ bs " ".
Proof. reflexivity. Qed.

Lemma field_segment w kv : wordb w = true -> wordb (fst kv) = true -> no_paren (snd kv) = true -> w <> fst kv ->
  nofire (m_textfield (bs "/" ++ w)) (segment kv).
Proof.
  intros Hw Hk Hv Hn.
  assert (Hw' : forallb is_word w = true) by (unfold wordb in Hw; apply andb_true_iff in Hw; apply Hw).
  assert (Hk' : forallb is_word (fst kv) = true) by (unfold wordb in Hk; apply andb_true_iff in Hk; apply Hk).
  assert (nofire (m_textfield (bs "/" ++ w)) (fst kv ++ bs " (" ++ (snd kv ++ [")"%byte]) ++ bs " ")) as N.
  { apply nofire_app; [apply field_no_slash, word_no_slash, Hk'|].
    apply nofire_app; [apply field_no_slash; reflexivity|].
    apply nofire_app; [apply field_not_in_value; assumption|apply field_no_slash; reflexivity]. }
  intros b [|j] Hj.
  - cbn [skipn]. rewrite segment_split, <- !app_assoc. apply field_other_key; assumption.
  - specialize (N b j). unfold segment. unfold segment in Hj. rewrite app_length in Hj. change (length (bs "/")) with 1%nat in Hj.
    replace ((fst kv ++ bs " (" ++ (snd kv ++ [")"%byte]) ++ bs " ")) with (fst kv ++ bs " (" ++ snd kv ++ bs ") ") in N
      by (rewrite <- app_assoc; reflexivity).
    cbn [skipn]. change (skipn (S j) ((bs "/" ++ fst kv ++ bs " (" ++ snd kv ++ bs ") ") ++ b)) with
      (skipn j ((fst kv ++ bs " (" ++ snd kv ++ bs ") ") ++ b)). apply N. lia.
Qed.

Lemma find_segments w l post : wordb w = true -> no_slash post = true ->
  Forall (fun kv => wordb (fst kv) = true /\ no_paren (snd kv) = true) l ->
  value_of (find (m_textfield (bs "/" ++ w)) (flat_map segment l ++ post)) = kget w l.
Proof.
  intros Hw Hp H. induction H as [|kv l [H1 H2] _ IH].
  - cbn [flat_map app kget]. rewrite <- (app_nil_r post), find_nofire by (apply field_no_slash, Hp). reflexivity.
  - cbn [flat_map kget]. rewrite <- app_assoc. destruct kv as [k v]. cbn [fst snd] in *.
    destruct (bytes_eqb w k) eqn:E.
    + apply bytes_eqb_eq in E. subst k. rewrite (find_at0 _ _ v); [reflexivity|].
      unfold segment. cbn [fst snd]. rewrite <- !app_assoc. apply (field_same_key w v (bs " " ++ flat_map segment l ++ post) H2).
    + apply bytes_eqb_neq in E. rewrite find_nofire by (apply field_segment; assumption).
      rewrite <- IH. destruct (find _ _) as [[i x]|]; reflexivity.
Qed.

(* ---------------------------------------------------------------- *)
(** All matches of the custom-field pattern. *)

Lemma all_custom_skip k s : all_custom k s = all_custom 0 (skipn k s).
Proof.
  revert s. induction k as [|k IH]; intros s; [reflexivity|].
  destruct s as [|b s]; [reflexivity|]. cbn [all_custom skipn]. apply IH.
Qed.
Lemma all_custom_no_slash a r : no_slash a = true -> all_custom 0 (a ++ r) = all_custom 0 r.
Proof.
  induction a as [|b a IH]; intros H; [reflexivity|]. cbn [no_slash forallb] in H. apply andb_true_iff in H. destruct H as [H1 H2].
  cbn [app all_custom].
  assert (m_custom (b :: a ++ r) = None) as ->; [|apply IH, H2].
  unfold m_custom, obind. assert (lit (bs "/") (b :: a ++ r) = None) as ->; [|reflexivity].
  apply lit_none. revert H1. destruct b; (reflexivity || discriminate).
Qed.
Lemma m_custom_segment k v r : wordb k = true -> no_paren v = true ->
  m_custom (segment (k, v) ++ r) = Some (k, v, bs " " ++ r).
Proof.
  unfold wordb. rewrite andb_true_iff. intros [Hk Hne] Hv. unfold segment. cbn [fst snd].
  unfold m_custom, obind. rewrite <- !app_assoc. rewrite lit_app. cbv zeta.
  rewrite (take_while_break is_word k (bs " (" ++ v ++ bs ") " ++ r) Hk eq_refl).
  destruct k as [|c k]; [discriminate|]. rewrite skipn_length_app.
  change (ws0 (bs " (" ++ v ++ bs ") " ++ r)) with (bs "(" ++ v ++ bs ") " ++ r). rewrite lit_app.
  assert (T : take_while (fun b => negb (beqb b ")")) (v ++ bs ") " ++ r) = v).
  { apply take_while_break; [|reflexivity]. apply forallb_forall. intros b Hb. unfold no_paren in Hv.
    rewrite forallb_forall in Hv. specialize (Hv b Hb). apply andb_true_iff in Hv. apply Hv. }
  rewrite T, skipn_length_app. change (bs ") " ++ r) with (bs ")" ++ bs " " ++ r). rewrite lit_app. reflexivity.
Qed.
Lemma all_custom_segments l post : no_slash post = true ->
  Forall (fun kv => wordb (fst kv) = true /\ no_paren (snd kv) = true) l ->
  all_custom 0 (flat_map segment l ++ post) = l.
Proof.
  intros Hp H. induction H as [|[k v] l [H1 H2] _ IH].
  - cbn [flat_map app]. rewrite <- (app_nil_r post), all_custom_no_slash by exact Hp. reflexivity.
  - cbn [flat_map fst snd] in *. rewrite <- app_assoc. set (rest := flat_map segment l ++ post) in *.
    pose proof (m_custom_segment k v rest H1 H2) as M.
    assert (L : exists b t, segment (k, v) ++ rest = b :: t) by (eexists; eexists; reflexivity).
    destruct L as (b & t & L). assert (L2 : (length (b :: t) = length (segment (k, v)) + length rest)%nat)
      by (rewrite <- L, app_length; reflexivity).
    assert (L3 : skipn (length (b :: t) - length (bs " " ++ rest) - 1) t = bs " " ++ rest).
    { assert (E : exists u, segment (k, v) = b :: u ++ bs " " /\ t = u ++ bs " " ++ rest).
      { exists (k ++ bs " (" ++ v ++ bs ")").
        assert (segment (k, v) = "/"%byte :: (k ++ bs " (" ++ v ++ bs ")") ++ bs " ") as S.
        { unfold segment. cbn [fst snd]. change (bs "/" ++ k ++ bs " (" ++ v ++ bs ") ") with
            ("/"%byte :: (k ++ bs " (" ++ v ++ bs ")" ++ bs " ")). rewrite <- !app_assoc. reflexivity. }
        rewrite S in L. remember (k ++ bs " (" ++ v ++ bs ")") as u0. cbn [app] in L. injection L as <- <-.
        split; [exact S|]. rewrite <- app_assoc. reflexivity. }
      destruct E as (u & Eu & Et). subst t. cbn [length]. rewrite !app_length.
      replace (S (length u + (length (bs " ") + length rest)) - (length (bs " ") + length rest) - 1)%nat with (length u) by lia.
      apply skipn_length_app. }
    rewrite L. rewrite L in M. cbn [all_custom]. rewrite M. rewrite all_custom_skip, L3.
    rewrite all_custom_no_slash by reflexivity. rewrite IH. reflexivity.
Qed.

(* ---------------------------------------------------------------- *)
(** The escaped value keeps the shape of the value. *)

Definition plain (v : bytes) : bool := forallb (fun b => negb (beqb b "(") && negb (beqb b ")") && negb (beqb b "\")) v.

Lemma escape_no_paren v : plain v = true -> no_paren (flat_map esc_byte v) = true.
Proof.
  unfold plain, no_paren. induction v as [|b v IH]; [reflexivity|]. cbn [forallb flat_map]. rewrite andb_true_iff. intros [H1 H2].
  rewrite forallb_app, IH by exact H2. rewrite andb_true_r. revert H1. destruct b; (reflexivity || discriminate).
Qed.
Lemma plain_no_backslash v : plain v = true -> no_backslash v = true.
Proof.
  unfold plain, no_backslash. intros H. apply forallb_forall. intros b Hb. rewrite forallb_forall in H. specialize (H b Hb).
  revert H. destruct b; (reflexivity || discriminate).
Qed.
Lemma escape_slash v : prefixb (bs "/") (flat_map esc_byte v) = prefixb (bs "/") v.
Proof. destruct v as [|b v]; [reflexivity|]. cbn [flat_map]. destruct b; reflexivity. Qed.
Lemma suffix_R v : suffixb (bs " R") v = true <-> exists u, v = u ++ bs " R".
Proof.
  unfold suffixb. rewrite andb_true_iff, Nat.leb_le, bytes_eqb_eq. split.
  - intros [H1 H2]. exists (firstn (length v - length (bs " R")) v). rewrite H2 at 2. symmetry. apply firstn_skipn.
  - intros (u & ->). rewrite app_length. split; [lia|].
    replace (length u + length (bs " R") - length (bs " R"))%nat with (length u) by lia. rewrite skipn_length_app. reflexivity.
Qed.
Lemma esc_byte_last b x : beqb x "n" = false -> beqb x "r" = false -> beqb x "t" = false -> beqb x "(" = false -> beqb x ")" = false ->
  beqb x "\" = false -> forall u, esc_byte b = u ++ [x] -> u = [] /\ b = x.
Proof.
  intros H1 H2 H3 H4 H5 H6 u. unfold esc_byte. destruct (esc_pair (b2n b)) as [c|] eqn:E.
  - intros Eu. exfalso. assert (c = x) as ->.
    { destruct u as [|y [|z u]]; cbn in Eu; [discriminate|injection Eu as _ ->; reflexivity|].
      injection Eu as _ _ Eu. destruct u; discriminate. }
    unfold esc_pair in E. repeat match type of E with (if ?c then _ else _) = _ => destruct c; [injection E as <-; discriminate|] end. discriminate.
  - intros Eu. destruct u as [|y u]; [injection Eu as ->; auto|]. injection Eu as _ Eu. destruct u; discriminate.
Qed.
Lemma escape_last v x u : beqb x "n" = false -> beqb x "r" = false -> beqb x "t" = false -> beqb x "(" = false -> beqb x ")" = false ->
  beqb x "\" = false -> flat_map esc_byte v = u ++ [x] -> exists v', v = v' ++ [x] /\ flat_map esc_byte v' = u.
Proof.
  intros H1 H2 H3 H4 H5 H6 E. destruct v as [|b v0] using rev_ind; [destruct u; discriminate|]. clear IHv0.
  rewrite flat_map_app in E. cbn [flat_map] in E. rewrite app_nil_r in E.
  destruct (esc_byte b) as [|y l] eqn:Eb using rev_ind.
  { exfalso. revert Eb. clear. destruct b; discriminate. } clear IHl.
  rewrite app_assoc in E. apply app_inj_tail in E. destruct E as [E ->].
  destruct (esc_byte_last b x H1 H2 H3 H4 H5 H6 l Eb) as [-> ->]. rewrite app_nil_r in E. eauto.
Qed.
Lemma escape_ref v : suffixb (bs " R") (flat_map esc_byte v) = true -> suffixb (bs " R") v = true.
Proof.
  rewrite !suffix_R. intros (u & E). change (bs " R") with ([" "%byte] ++ ["R"%byte]) in *. rewrite app_assoc in E.
  apply escape_last in E; try reflexivity. destruct E as (v1 & -> & E).
  apply escape_last in E; try reflexivity. destruct E as (v2 & -> & E). exists v2. rewrite app_assoc. reflexivity.
Qed.

Lemma simple_spec v : simple_value v = true ->
  no_paren (escapePDFStringForMetadata v) = true /\
  formatValue (VStr (escapePDFStringForMetadata v)) = bs "(" ++ escapePDFStringForMetadata v ++ bs ")" /\
  unescapePDFString (escapePDFStringForMetadata v) = v.
Proof.
  unfold simple_value. rewrite !andb_true_iff, !negb_true_iff. intros [[H1 H2] H3].
  split; [|split].
  - rewrite metadata_escape. apply escape_no_paren, H1.
  - cbn [formatValue]. rewrite metadata_escape, escape_slash, H2.
    destruct (suffixb _ (flat_map esc_byte v)) eqn:E; [apply escape_ref in E; congruence|reflexivity].
  - apply unescape_escape, plain_no_backslash, H1.
Qed.
Lemma escape_ascii v : forallb (fun b => (b2n b <? 128)%N) v = true -> escapePDFString v = escapePDFStringForMetadata v.
Proof.
  intros H. rewrite metadata_escape. unfold escapePDFString. rewrite runes_ascii by exact H.
  rewrite !flat_map_concat_map, map_map. f_equal. apply map_ext_in.
  intros b Hb. rewrite forallb_forall in H. specialize (H b Hb). unfold esc_rune, esc_byte.
  destruct (esc_pair (b2n b)); [reflexivity|]. revert H. clear. destruct b; (reflexivity || discriminate).
Qed.

(* ---------------------------------------------------------------- *)
(** The Info dictionary. *)

(** An entry "/word" with the escape of a simple value. *)
Definition good (kv : bytes * value) : Prop :=
  exists w v, kv = (bs "/" ++ w, VStr (escapePDFStringForMetadata v)) /\ wordb w = true /\ simple_value v = true.
Definition strip (kv : bytes * value) : bytes * bytes :=
  (skipn 1 (fst kv), match snd kv with VStr s => s | _ => [] end).

Lemma kset_Forall {A} (P : bytes * A -> Prop) k v m : Forall P m -> P (k, v) -> Forall P (kset k v m).
Proof.
  intros H Hp. induction H as [|[k' v'] m H1 H2 IH]; cbn [kset]; [constructor; [exact Hp|constructor]|].
  destruct (bytes_eqb k k'); constructor; assumption.
Qed.
Lemma date_spec fmtd d : pdf_date d = true -> formatPDFDate fmtd d = escapePDFStringForMetadata d /\ simple_value d = true /\ d <> [].
Proof.
  unfold pdf_date. rewrite !andb_true_iff. intros [[H1 H2] H3]. split; [|split; [exact H2|intros ->; discriminate]].
  unfold formatPDFDate. destruct d; [discriminate|]. rewrite H1. apply escape_ascii, H3.
Qed.

Lemma kget_put k k' v d : kget k (put k' v d) =
  if bytes_eqb k (bs k') then match v with [] => kget k d | _ => Some (VStr (escapePDFStringForMetadata v)) end else kget k d.
Proof. unfold put. destruct v as [|b v]; [destruct (bytes_eqb k (bs k')); reflexivity|]. rewrite kget_kset. reflexivity. Qed.

Definition put_custom (d : dict) (kv : bytes * bytes) : dict :=
  match fst kv, snd kv with
  | [], _ | _, [] => d
  | k, v => kset (slash_key k) (VStr (escapePDFStringForMetadata v)) d
  end.
Definition std_dict (m : metadata) : dict :=
  put "/ModDate" (mdModDate m) (put "/CreationDate" (mdCreationDate m) (put "/Producer" (mdProducer m)
    (put "/Creator" (mdCreator m) (put "/Keywords" (mdKeywords m) (put "/Subject" (mdSubject m)
      (put "/Author" (mdAuthor m) (put "/Title" (mdTitle m) []))))))).
Lemma info_dict_std fmtd now m : simple_meta m -> info_dict fmtd now m = fold_left put_custom (mdCustom m) (std_dict m).
Proof.
  intros (_ & _ & _ & _ & _ & _ & Hc & Hm & _). unfold info_dict. fold put_custom.
  destruct (date_spec fmtd _ Hm) as (E & _ & Hne).
  destruct (mdModDate m) as [|b d] eqn:Em; [congruence|].
  assert (put_date fmtd "/CreationDate" (mdCreationDate m) = put "/CreationDate" (mdCreationDate m)) as ->.
  { destruct Hc as [->|Hc]; [reflexivity|]. unfold put_date, put. destruct (date_spec fmtd _ Hc) as (-> & _ & _). reflexivity. }
  assert (put_date fmtd "/ModDate" (b :: d) = put "/ModDate" (b :: d)) as ->.
  { unfold put_date, put. rewrite E. reflexivity. }
  unfold std_dict. rewrite Em. reflexivity.
Qed.

Lemma good_put k w v d : bs k = bs "/" ++ w -> wordb w = true -> simple_value v = true -> Forall good d -> Forall good (put k v d).
Proof.
  intros E H1 H2 H. unfold put. destruct v as [|b v]; [exact H|]. apply kset_Forall; [exact H|].
  exists w, (b :: v). rewrite E. auto.
Qed.
Lemma put_nodup k v (d : dict) : NoDup (map fst d) -> NoDup (map fst (put k v d)).
Proof. unfold put. destruct v; [auto|apply kset_nodup]. Qed.
Lemma date_simple d : d = [] \/ pdf_date d = true -> simple_value d = true.
Proof. intros [->|H]; [reflexivity|]. apply (date_spec (fun x => x) d H). Qed.

Lemma std_good m : simple_meta m -> Forall good (std_dict m) /\ NoDup (map fst (std_dict m)).
Proof.
  intros (H1 & H2 & H3 & H4 & H5 & H6 & H7 & H8 & _). split.
  - unfold std_dict.
    apply (good_put _ (bs "ModDate")); [reflexivity..|apply date_simple; auto|].
    apply (good_put _ (bs "CreationDate")); [reflexivity..|apply date_simple; auto|].
    apply (good_put _ (bs "Producer")); [reflexivity..|assumption|].
    apply (good_put _ (bs "Creator")); [reflexivity..|assumption|].
    apply (good_put _ (bs "Keywords")); [reflexivity..|assumption|].
    apply (good_put _ (bs "Subject")); [reflexivity..|assumption|].
    apply (good_put _ (bs "Author")); [reflexivity..|assumption|].
    apply (good_put _ (bs "Title")); [reflexivity..|assumption|]. constructor.
  - unfold std_dict. repeat apply put_nodup. constructor.
Qed.

Definition custom_ok (kv : bytes * bytes) : Prop := custom_key (fst kv) = true /\ simple_value (snd kv) = true /\ snd kv <> [].
Lemma custom_word k : custom_key k = true -> wordb k = true /\ existsb (bytes_eqb k) standard_fields = false.
Proof.
  unfold custom_key, wordb. rewrite !andb_true_iff, negb_true_iff. intros [H1 H2]. destruct k; [discriminate|]. auto.
Qed.
Lemma slash_word k : wordb k = true -> slash_key k = bs "/" ++ k.
Proof.
  unfold wordb. rewrite andb_true_iff. intros [H1 H2]. destruct k as [|c k]; [discriminate|].
  unfold slash_key. cbn [forallb] in H1. apply andb_true_iff in H1. destruct H1 as [H1 _].
  assert (prefixb (bs "/") (c :: k) = false) as ->; [revert H1; destruct c; (reflexivity || discriminate)|reflexivity].
Qed.
Lemma put_custom_eq kv d : custom_ok kv ->
  put_custom d kv = kset (bs "/" ++ fst kv) (VStr (escapePDFStringForMetadata (snd kv))) d.
Proof.
  intros (H1 & _ & H3). destruct (custom_word _ H1) as [H4 _]. rewrite <- (slash_word _ H4).
  unfold put_custom. destruct kv as [[|c k] [|b v]]; cbn [fst snd] in *; try congruence; try discriminate; reflexivity.
Qed.
Lemma fold_custom_good l : Forall custom_ok l -> forall d, Forall good d -> NoDup (map fst d) ->
  Forall good (fold_left put_custom l d) /\ NoDup (map fst (fold_left put_custom l d)).
Proof.
  induction 1 as [|kv l H _ IH]; intros d Hd Hn; [auto|]. cbn [fold_left]. rewrite put_custom_eq by exact H.
  destruct H as (H1 & H2 & H3). destruct (custom_word _ H1) as [H4 _]. apply IH.
  - apply kset_Forall; [exact Hd|]. exists (fst kv), (snd kv). auto.
  - apply kset_nodup, Hn.
Qed.
Lemma kget_fold_custom l : Forall custom_ok l -> NoDup (map fst l) -> forall d w,
  kget (bs "/" ++ w) (fold_left put_custom l d) =
  match kget w l with Some v => Some (VStr (escapePDFStringForMetadata v)) | None => kget (bs "/" ++ w) d end.
Proof.
  induction 1 as [|kv l H _ IH]; intros Hn d w; [reflexivity|]. cbn [fold_left map] in *. apply NoDup_cons_iff in Hn. destruct Hn as [Hn1 Hn2].
  rewrite IH by exact Hn2. destruct kv as [k v]. rewrite put_custom_eq by exact H. cbn [kget fst snd] in *. rewrite kget_kset.
  change (bytes_eqb (bs "/" ++ w) (bs "/" ++ k)) with (bytes_eqb w k).
  destruct (bytes_eqb w k) eqn:E; [|reflexivity]. apply bytes_eqb_eq in E. subst k.
  destruct (kget w l) eqn:G; [|reflexivity]. exfalso. apply Hn1. clear - G.
  induction l as [|[k x] l IH]; cbn [kget map fst] in *; [discriminate|].
  destruct (bytes_eqb w k) eqn:E; [left; symmetry; apply bytes_eqb_eq, E|right; apply IH, G].
Qed.

Lemma kget_in {A} k (v : A) l : NoDup (map fst l) -> (kget k l = Some v <-> In (k, v) l).
Proof.
  induction l as [|[k' v'] l IH]; cbn [kget map fst]; intros H; [split; [discriminate|intros []]|].
  apply NoDup_cons_iff in H. destruct H as [H1 H2]. destruct (bytes_eqb k k') eqn:E.
  - apply bytes_eqb_eq in E. subst k'. split; [intros [= ->]; left; reflexivity|].
    intros [[= ->]|Hi]; [reflexivity|]. exfalso. apply H1. apply in_map_iff. exists (k, v). auto.
  - apply bytes_eqb_neq in E. rewrite IH by exact H2. split; [right; assumption|].
    intros [[= -> _]|Hi]; [congruence|exact Hi].
Qed.
Lemma kget_perm {A} k (l l' : list (bytes * A)) : NoDup (map fst l) -> Permutation l l' -> kget k l = kget k l'.
Proof.
  intros Hn HP. assert (Hn' : NoDup (map fst l')) by (eapply Permutation_NoDup; [apply Permutation_map, HP|exact Hn]).
  destruct (kget k l') as [v|] eqn:E.
  - apply kget_in; [exact Hn|]. apply kget_in in E; [|exact Hn']. eapply Permutation_in; [symmetry; exact HP|exact E].
  - destruct (kget k l) as [v|] eqn:F; [|reflexivity]. apply kget_in in F; [|exact Hn].
    eapply Permutation_in in F; [|exact HP]. apply (kget_in _ _ _ Hn') in F. congruence.
Qed.

(** A dictionary of good entries is printed as its segments in some order. *)
Lemma format_segments d : Forall good d -> NoDup (map fst d) ->
  exists l, formatDictionary d = bs "<<" ++ flat_map segment l ++ bs ">>" /\
    Forall (fun kv => wordb (fst kv) = true /\ no_paren (snd kv) = true) l /\ NoDup (map fst l) /\
    forall w, kget w l = match kget (bs "/" ++ w) d with Some (VStr s) => Some s | _ => None end.
Proof.
  intros Hg Hn.
  assert (G : forall kv, In kv d -> exists w v, kv = (bs "/" ++ w, VStr (escapePDFStringForMetadata v)) /\ wordb w = true /\ simple_value v = true)
    by (rewrite Forall_forall in Hg; exact Hg).
  exists (map (fun kv => (skipn 1 (fst kv), removelast (skipn 1 (snd kv)))) (sortK (map (fun kv => (fst kv, formatValue (snd kv))) d))).
  set (F := fun kv : bytes * value => (fst kv, formatValue (snd kv))).
  set (S := fun kv : bytes * bytes => (skipn 1 (fst kv), removelast (skipn 1 (snd kv)))).
  assert (FS : forall kv, In kv d -> S (F kv) = strip kv).
  { intros kv Hi. destruct (G kv Hi) as (w & v & -> & Hw & Hv). unfold S, F, strip. cbn [fst snd].
    destruct (simple_spec v Hv) as (_ & -> & _). f_equal. cbn [skipn app]. change (bs ")") with [")"%byte].
    change (skipn 1 (bs "(" ++ escapePDFStringForMetadata v ++ [")"%byte])) with (escapePDFStringForMetadata v ++ [")"%byte]).
    apply removelast_last. }
  assert (P : Permutation (map S (sortK (map F d))) (map strip d)).
  { rewrite (Permutation_map S (sortK_perm (map F d))), map_map.
    erewrite map_ext_in; [reflexivity|]. exact FS. }
  assert (Nk : map fst (map strip d) = map (skipn 1) (map fst d)) by (rewrite !map_map; reflexivity).
  assert (Nd : NoDup (map fst (map strip d))).
  { rewrite Nk. clear - G Hn. induction d as [|kv d IH]; cbn [map] in *; [constructor|].
    apply NoDup_cons_iff in Hn. destruct Hn as [H1 H2]. constructor; [|apply IH; [exact H2|intros; apply G; right; assumption]].
    intros Hi. apply H1. apply in_map_iff in Hi. destruct Hi as (x & E & Hx). apply in_map_iff in Hx. destruct Hx as (y & Ey & Hy).
    destruct (G kv (or_introl eq_refl)) as (w & v & -> & _). destruct (G y (or_intror Hy)) as (w' & v' & -> & _).
    cbn [fst] in *. subst x. cbn [skipn app bs] in E. apply in_map_iff. eexists; split; [|exact Hy]. cbn [fst]. f_equal. exact E. }
  split; [|split; [|split]].
  - unfold formatDictionary, format_pairs. fold F. f_equal. f_equal.
    rewrite !flat_map_concat_map, map_map. f_equal. apply map_ext_in. intros kv Hi.
    apply (Permutation_in _ (sortK_perm _)), in_map_iff in Hi. destruct Hi as (kv0 & <- & Hi).
    destruct (G kv0 Hi) as (w & v & -> & Hw & Hv). pose proof (FS _ Hi) as E.
    unfold segment. change (skipn 1 (fst (F (bs "/" ++ w, VStr (escapePDFStringForMetadata v)))), removelast (skipn 1 (snd (F (bs "/" ++ w, VStr (escapePDFStringForMetadata v))))))
      with (S (F (bs "/" ++ w, VStr (escapePDFStringForMetadata v)))). rewrite E. unfold strip, F. cbn [fst snd].
    destruct (simple_spec v Hv) as (_ & -> & _). change (skipn 1 (bs "/" ++ w)) with w.
    change (slash_key (bs "/" ++ w)) with (bs "/" ++ w). rewrite <- !app_assoc. reflexivity.
  - rewrite Forall_forall. intros kv Hi. apply (Permutation_in _ P), in_map_iff in Hi. destruct Hi as (kv0 & <- & Hi).
    destruct (G kv0 Hi) as (w & v & -> & Hw & Hv). unfold strip. cbn [fst snd]. change (skipn 1 (bs "/" ++ w)) with w.
    split; [exact Hw|apply (simple_spec v Hv)].
  - eapply Permutation_NoDup; [symmetry; apply Permutation_map, P|exact Nd].
  - intros w. rewrite (kget_perm _ _ _ (Permutation_NoDup (Permutation_map fst (Permutation_sym P)) Nd) P).
    clear - G. induction d as [|kv d IH]; [reflexivity|]. destruct (G kv (or_introl eq_refl)) as (w' & v & -> & _).
    cbn [map]. unfold strip at 1. cbn [kget fst snd]. change (skipn 1 (bs "/" ++ w')) with w'.
    change (bytes_eqb (bs "/" ++ w) (bs "/" ++ w')) with (bytes_eqb w w'). destruct (bytes_eqb w w'); [reflexivity|].
    apply IH. intros; apply G; right; assumption.
Qed.

(** The custom map read back. *)
Definition keep_custom (m : list (bytes * bytes)) (kv : bytes * bytes) : list (bytes * bytes) :=
  if existsb (bytes_eqb (fst kv)) standard_fields then m else kset (fst kv) (unescapePDFString (snd kv)) m.
Lemma kget_keep l : NoDup (map fst l) -> forall m w,
  kget w (fold_left keep_custom l m) =
  if existsb (bytes_eqb w) standard_fields then kget w m
  else match kget w l with Some v => Some (unescapePDFString v) | None => kget w m end.
Proof.
  induction l as [|[k v] l IH]; intros Hn m w; cbn [fold_left kget]; [destruct (existsb _ _); reflexivity|].
  cbn [map fst] in Hn. apply NoDup_cons_iff in Hn. destruct Hn as [Hn1 Hn2]. rewrite IH by exact Hn2.
  unfold keep_custom. cbn [fst snd]. destruct (bytes_eqb w k) eqn:E.
  - apply bytes_eqb_eq in E. subst k. destruct (existsb (bytes_eqb w) standard_fields) eqn:Es; [reflexivity|].
    rewrite kget_kset, bytes_eqb_refl. destruct (kget w l) eqn:G; [|reflexivity]. exfalso. apply Hn1.
    apply (kget_in w b l Hn2) in G. apply in_map_iff. exists (w, b). auto.
  - destruct (existsb (bytes_eqb k) standard_fields) eqn:Es; [reflexivity|]. rewrite kget_kset, E. reflexivity.
Qed.

Lemma kget_std_none m w : forallb (fun k => negb (bytes_eqb w k)) standard_fields = true -> kget (bs "/" ++ w) (std_dict m) = None.
Proof.
  intros H. unfold standard_fields in H. cbn [map forallb] in H. rewrite !andb_true_iff, !negb_true_iff in H.
  destruct H as (H1 & H2 & H3 & H4 & H5 & H6 & H7 & H8 & _).
  unfold std_dict. rewrite !kget_put.
  change (bytes_eqb (bs "/" ++ w) (bs "/ModDate")) with (bytes_eqb w (bs "ModDate")).
  change (bytes_eqb (bs "/" ++ w) (bs "/CreationDate")) with (bytes_eqb w (bs "CreationDate")).
  change (bytes_eqb (bs "/" ++ w) (bs "/Producer")) with (bytes_eqb w (bs "Producer")).
  change (bytes_eqb (bs "/" ++ w) (bs "/Creator")) with (bytes_eqb w (bs "Creator")).
  change (bytes_eqb (bs "/" ++ w) (bs "/Keywords")) with (bytes_eqb w (bs "Keywords")).
  change (bytes_eqb (bs "/" ++ w) (bs "/Subject")) with (bytes_eqb w (bs "Subject")).
  change (bytes_eqb (bs "/" ++ w) (bs "/Author")) with (bytes_eqb w (bs "Author")).
  change (bytes_eqb (bs "/" ++ w) (bs "/Title")) with (bytes_eqb w (bs "Title")).
  rewrite H1, H2, H3, H4, H5, H6, H7, H8. reflexivity.
Qed.
Lemma not_standard w : existsb (bytes_eqb w) standard_fields = false -> forallb (fun k => negb (bytes_eqb w k)) standard_fields = true.
Proof.
  intros H. apply forallb_forall. intros k Hk. apply negb_true_iff. destruct (bytes_eqb w k) eqn:E; [|reflexivity].
  rewrite <- H. symmetry. apply existsb_exists. eauto.
Qed.

Lemma info_round fmtd now m pre post : simple_meta m -> no_slash pre = true -> no_slash post = true ->
  let m' := parseInfoDict (pre ++ formatDictionary (info_dict fmtd now m) ++ post) in
  mdTitle m' = mdTitle m /\ mdAuthor m' = mdAuthor m /\ mdSubject m' = mdSubject m /\ mdKeywords m' = mdKeywords m /\
  mdCreator m' = mdCreator m /\ mdProducer m' = mdProducer m /\ mdCreationDate m' = mdCreationDate m /\
  mdModDate m' = mdModDate m /\ forall k, kget k (mdCustom m') = kget k (mdCustom m).
Proof.
  intros Hs Hpre Hpost. pose proof Hs as (H1 & H2 & H3 & H4 & H5 & H6 & H7 & H8 & Hc & Hcn).
  rewrite (info_dict_std fmtd now m Hs). destruct (std_good m Hs) as [G1 G2].
  destruct (fold_custom_good _ Hc _ G1 G2) as [G3 G4].
  destruct (format_segments _ G3 G4) as (l & Ef & Hl & Hnd & Hget).
  rewrite Ef. set (s := pre ++ _).
  assert (Es : s = (pre ++ bs "<<") ++ flat_map segment l ++ (bs ">>" ++ post)) by (unfold s; rewrite <- !app_assoc; reflexivity).
  assert (N1 : no_slash (pre ++ bs "<<") = true) by (unfold no_slash in *; rewrite forallb_app, Hpre; reflexivity).
  assert (N2 : no_slash (bs ">>" ++ post) = true) by (unfold no_slash in *; rewrite forallb_app, Hpost; reflexivity).
  assert (TF : forall w, wordb w = true -> text_field (bs "/" ++ w) s =
    match kget (bs "/" ++ w) (fold_left put_custom (mdCustom m) (std_dict m)) with Some (VStr v) => unescapePDFString v | _ => [] end).
  { intros w Hw. unfold text_field. rewrite Es.
    assert (value_of (find (m_textfield (bs "/" ++ w)) ((pre ++ bs "<<") ++ flat_map segment l ++ bs ">>" ++ post)) = kget w l) as ->.
    { rewrite find_nofire by (apply field_no_slash; exact N1).
      rewrite <- (find_segments w l _ Hw N2 Hl). destruct (find _ _) as [[i x]|]; reflexivity. }
    rewrite Hget. destruct (kget _ _) as [[]|]; reflexivity. }
  assert (ST : forall w v, In w standard_fields -> wordb w = true -> simple_value v = true ->
     kget (bs "/" ++ w) (std_dict m) = match v with [] => None | _ => Some (VStr (escapePDFStringForMetadata v)) end ->
     text_field (bs "/" ++ w) s = v).
  { intros w v Hi Hw Hv E. rewrite TF, (kget_fold_custom _ Hc Hcn) by exact Hw.
    assert (kget w (mdCustom m) = None) as ->.
    { destruct (kget w (mdCustom m)) as [x|] eqn:K; [|reflexivity]. apply (kget_in _ _ _ Hcn) in K.
      rewrite Forall_forall in Hc. specialize (Hc _ K). destruct Hc as (Hk & _). destruct (custom_word _ Hk) as [_ Hx]. cbn [fst] in Hx.
      assert (existsb (bytes_eqb w) standard_fields = true) by (apply existsb_exists; exists w; split; [exact Hi|apply bytes_eqb_refl]). congruence. }
    rewrite E. destruct v as [|b v]; [reflexivity|]. apply (simple_spec _ Hv). }
  cbn [parseInfoDict mdTitle mdAuthor mdSubject mdKeywords mdCreator mdProducer mdCreationDate mdModDate mdCustom].
  repeat split.
  - apply (ST (bs "Title")); [vm_compute; tauto|reflexivity|assumption|]. unfold std_dict. rewrite !kget_put. reflexivity.
  - apply (ST (bs "Author")); [vm_compute; tauto|reflexivity|assumption|]. unfold std_dict. rewrite !kget_put. destruct (mdAuthor m); reflexivity.
  - apply (ST (bs "Subject")); [vm_compute; tauto|reflexivity|assumption|]. unfold std_dict. rewrite !kget_put. destruct (mdSubject m); reflexivity.
  - apply (ST (bs "Keywords")); [vm_compute; tauto|reflexivity|assumption|]. unfold std_dict. rewrite !kget_put. destruct (mdKeywords m); reflexivity.
  - apply (ST (bs "Creator")); [vm_compute; tauto|reflexivity|assumption|]. unfold std_dict. rewrite !kget_put. destruct (mdCreator m); reflexivity.
  - apply (ST (bs "Producer")); [vm_compute; tauto|reflexivity|assumption|]. unfold std_dict. rewrite !kget_put. destruct (mdProducer m); reflexivity.
  - apply (ST (bs "CreationDate")); [vm_compute; tauto|reflexivity|apply date_simple; auto|]. unfold std_dict. rewrite !kget_put. destruct (mdCreationDate m); reflexivity.
  - apply (ST (bs "ModDate")); [vm_compute; tauto|reflexivity|apply date_simple; auto|]. unfold std_dict. rewrite !kget_put. destruct (mdModDate m); reflexivity.
  - intros k. fold keep_custom.
    assert (all_custom 0 s = l) as ->.
    { rewrite Es, all_custom_no_slash by exact N1. apply all_custom_segments; assumption. }
    rewrite kget_keep by exact Hnd. cbn [kget]. rewrite Hget, (kget_fold_custom _ Hc Hcn).
    destruct (existsb (bytes_eqb k) standard_fields) eqn:Es'.
    + destruct (kget k (mdCustom m)) as [x|] eqn:K; [|reflexivity]. apply (kget_in _ _ _ Hcn) in K.
      rewrite Forall_forall in Hc. specialize (Hc _ K). destruct Hc as (Hk & _). destruct (custom_word _ Hk) as [_ Hx].
      cbn [fst] in Hx. congruence.
    + destruct (kget k (mdCustom m)) as [x|] eqn:K.
      * f_equal. apply (kget_in _ _ _ Hcn) in K. rewrite Forall_forall in Hc. specialize (Hc _ K).
        destruct Hc as (_ & Hk & _). apply (simple_spec _ Hk).
      * rewrite kget_std_none by (apply not_standard, Es'). reflexivity.
Qed.

Lemma set_metadata_spec fmtd now m w :
  let '(n, w') := SetMetadata fmtd now m w in
  n = nextObjNum w /\ infoRef w' = Some n /\
  mget n (objects w') = Some (mkObj (Some (formatDictionary (info_dict fmtd now m))) None None).
Proof.
  unfold SetMetadata. cbn. rewrite Z.eqb_refl. auto.
Qed.

Lemma custom_keeps l : forall d v, Forall (fun kv : bytes * bytes => fst kv <> bs "ModDate" /\ fst kv <> bs "/ModDate") l ->
  kget (bs "/ModDate") d = Some v -> kget (bs "/ModDate") (fold_left put_custom l d) = Some v.
Proof.
  induction l as [|[k x] l IH]; intros d v H E; [exact E|]. inversion H as [|? ? [H1 H2] H3]; subst. cbn [fold_left].
  apply IH; [exact H3|]. unfold put_custom. cbn [fst snd] in *. destruct k as [|b k]; [exact E|]. destruct x as [|c x]; [exact E|].
  rewrite kget_kset. destruct (bytes_eqb (bs "/ModDate") (slash_key (b :: k))) eqn:K; [|exact E].
  exfalso. apply bytes_eqb_eq in K. unfold slash_key in K. destruct (prefixb (bs "/") (b :: k)); [now apply H2|].
  apply H1. change (bs "/ModDate") with (bs "/" ++ bs "ModDate") in K. now apply app_inv_head in K.
Qed.
Lemma default_date fmtd now m : mdModDate m = [] ->
  Forall (fun kv => fst kv <> bs "ModDate" /\ fst kv <> bs "/ModDate") (mdCustom m) ->
  kget (bs "/ModDate") (info_dict fmtd now m) = Some (VStr (formatPDFDate fmtd now)).
Proof.
  intros E H. unfold info_dict. rewrite E. fold put_custom. apply custom_keeps; [exact H|]. rewrite kget_kset. reflexivity.
Qed.
