(** Proofs for the objects read when a document is rebuilt. *)
From Verif Require Import Util Scan XfaModel XfaSpec WriterProofs XrefProofs XfaProofs2 XfaProofs6.
From Verif Require ManipProofs ManipProofs2 ReadProofs.
Local Open Scope Z_scope.

Lemma matches_calm {A} (m : bytes -> option (A * bytes)) a b : nofire m a -> matches m (a ++ b) 0 = matches m b 0.
Proof.
  intros H. assert (G : forall j, (j < length a)%nat -> m (skipn j (a ++ b)) = None) by (intros j Hj; apply H, Hj). clear H.
  induction a as [|x a IH]; [reflexivity|]. cbn [app matches]. pose proof (G 0%nat ltac:(cbn [length]; lia)) as G0. cbn [skipn app] in G0. rewrite G0.
  apply IH. intros j Hj. apply (G (S j)). cbn [length]. lia.
Qed.

Lemma header_here n r : 0 <= n -> m_obj_header ((decZ n ++ bs " 0 obj") ++ r) = Some (decZ n, r).
Proof.
  intros Hn. unfold m_obj_header. rewrite <- app_assoc.
  rewrite digits1_app by (try apply decZ_nonnil; try apply decZ_digits; try lia; reflexivity). cbn [obind].
  change (bs " 0 obj" ++ r) with (" "%byte :: "0"%byte :: " "%byte :: bs "obj" ++ r).
  rewrite ws1_space by reflexivity. cbn [obind].
  change ("0"%byte :: " "%byte :: bs "obj" ++ r) with (bs "0" ++ " "%byte :: bs "obj" ++ r).
  rewrite digits1_app by (try discriminate; reflexivity). cbn [obind]. rewrite ws1_space by reflexivity. cbn [obind]. rewrite lit_app. reflexivity.
Qed.

Lemma nl_space : forallb is_space nl = true.
Proof. reflexivity. Qed.
Lemma trim_nl_both t : trim is_space t = t -> t <> [] -> trim is_space (nl ++ t ++ nl) = t.
Proof.
  intros Ht Hn.
  assert (H1 : match t with [] => True | c :: _ => is_space c = false end).
  { destruct t as [|c t]; [congruence|]. destruct (is_space c) eqn:E; [|reflexivity]. exfalso.
    unfold trim in Ht. cbn [drop_while] in Ht. rewrite E in Ht.
    assert (L : (length (rtrim is_space (drop_while is_space t)) <= length t)%nat).
    { unfold rtrim. rewrite rev_length.
      assert (D : forall s : bytes, (length (drop_while is_space s) <= length s)%nat) by (induction s as [|b s IH]; [apply Nat.le_refl|]; cbn [drop_while]; destruct (is_space b); cbn [length]; lia).
      etransitivity; [apply D|]. rewrite rev_length. apply D. }
    rewrite Ht in L. cbn [length] in L. lia. }
  unfold trim. rewrite drop_while_app; [|reflexivity|destruct t; [congruence|exact H1]].
  unfold trim in Ht. rewrite ReadProofs.drop_while_stop in Ht by (destruct t; [exact I|exact H1]).
  unfold rtrim in *. rewrite rev_app_distr. change (rev nl) with [x0a]. cbn [app drop_while]. change (is_space x0a) with true. cbv iota. exact Ht.
Qed.

Lemma object_parsed o r : plain_object o -> parse_object (nl ++ object_inside o ++ nl ++ bs "endobj" ++ r) = Ok (Some (parsed_object o)).
Proof.
  intros ([_ Hc] & HL & Ho). unfold parse_object.
  assert (E : nl ++ object_inside o ++ nl ++ bs "endobj" ++ r = (nl ++ object_inside o ++ nl) ++ bs "endobj" ++ r) by (rewrite <- !app_assoc; reflexivity).
  rewrite E. rewrite index_at by (apply nostart_app; [apply nostartb_ok; reflexivity|exact Hc]).
  rewrite ManipProofs.firstn_app_all.
  destruct o as [t|d data]; cbn [object_inside parsed_object] in *.
  - destruct Ho as (H1 & H2 & H3).
    assert (I : index (bs "stream") (nl ++ t ++ nl) = None).
    { rewrite <- (app_nil_r (nl ++ t ++ nl)). rewrite (index_nostart (bs "stream") (nl ++ t ++ nl)).
      - reflexivity.
      - apply nostart_app; [apply nostartb_ok; reflexivity|exact H3]. }
    rewrite I. unfold go_trim. rewrite trim_nl_both by assumption. destruct t; [congruence|reflexivity].
  - destruct Ho as (H1 & H2 & H3 & H4).
    set (D := dict_text d) in *. set (B := nl ++ (D ++ nl ++ bs "stream" ++ nl ++ data ++ nl ++ bs "endstream") ++ nl).
    assert (EB : B = (nl ++ D ++ nl) ++ bs "stream" ++ nl ++ data ++ nl ++ bs "endstream" ++ nl) by (unfold B; rewrite <- !app_assoc; reflexivity).
    assert (I : index (bs "stream") B = Some (length (nl ++ D ++ nl))).
    { rewrite EB. apply index_at. apply nostart_app; [apply nostartb_ok; reflexivity|]. apply nostart_app; [exact H2|apply nostartb_ok; reflexivity]. }
    rewrite I. cbv zeta.
    assert (F1 : firstn (length (nl ++ D ++ nl)) B = nl ++ D ++ nl) by (rewrite EB; apply ManipProofs.firstn_app_all).
    rewrite F1. assert (DP : parseDictionary (nl ++ D ++ nl) = fold_left (fun d e => kset (fst e) (dict_value (trim is_space (snd e))) d) d []) by (apply dict_parsed; [exact H1|reflexivity|reflexivity]).
    rewrite DP, H3.
    assert (S1 : skipn (length (nl ++ D ++ nl) + 6) B = nl ++ data ++ nl ++ bs "endstream" ++ nl).
    { rewrite EB, (app_assoc (nl ++ D ++ nl)). apply skipn_len_app. rewrite (app_length (nl ++ D ++ nl)). reflexivity. }
    rewrite S1.
    assert (TW : take_while is_eol (nl ++ data ++ nl ++ bs "endstream" ++ nl) = nl).
    { apply take_while_app; [reflexivity|]. destruct data as [|c z]; [destruct H4|exact H4]. }
    rewrite TW. change (length nl) with 1%nat.
    set (st := (length (nl ++ D ++ nl) + 6 + 1)%nat).
    assert (S2 : skipn st B = data ++ nl ++ bs "endstream" ++ nl).
    { rewrite EB. assert (Q : (nl ++ D ++ nl) ++ bs "stream" ++ nl ++ data ++ nl ++ bs "endstream" ++ nl = ((nl ++ D ++ nl) ++ bs "stream" ++ nl) ++ data ++ nl ++ bs "endstream" ++ nl) by (rewrite <- !app_assoc; reflexivity).
      rewrite Q. apply skipn_len_app. unfold st. rewrite (app_length (nl ++ D ++ nl)), (app_length (bs "stream")). change (length (bs "stream")) with 6%nat. change (length nl) with 1%nat. lia. }
    assert (LB : flen B = Z.of_nat st + flen data + 11).
    { pose proof (f_equal (@length byte) S2) as Q. rewrite skipn_length in Q. rewrite (app_length data) in Q.
      change (length (nl ++ bs "endstream" ++ nl)) with 11%nat in Q. unfold flen. unfold bytes in *. lia. }
    assert (0 <= flen data) by (unfold flen; lia).
    assert (HB : flen B < 2 ^ 62 + 2).
    { unfold B, flen in *. rewrite (app_length nl), (app_length (D ++ _)). change (length nl) with 1%nat. lia. }
    change (2 ^ 62 + 2) with 4611686018427387906 in HB. change (Z.of_N int64_max) with 9223372036854775807.
    replace (9223372036854775807 <? Z.of_nat st + flen data) with false by lia.
    replace (Z.of_nat st + flen data <=? flen B) with true by lia.
    replace (flen data <? 0) with false by lia. cbn [rbind]. do 2 f_equal.
    unfold go_trim. rewrite S2. unfold flen. rewrite Nat2Z.id, ManipProofs.firstn_app_all.
    rewrite (trim_white nl D nl "<"%byte (bs "<" ++ segs d ++ bs ">>") ">"%byte (bs "<<" ++ segs d ++ bs ">")); try reflexivity.
    unfold D, dict_text. fold (segs d). change (bs ">>") with (bs ">" ++ [">"%byte]). rewrite <- !app_assoc. reflexivity.
Qed.

Theorem objects_parsed pre post os : nofire m_obj_header pre -> nofire m_obj_header post ->
  Forall (fun p => 0 <= fst p < 2 ^ 63 /\ plain_object (snd p)) os ->
  parse_objects (matches m_obj_header (pre ++ file_text os ++ post) 0) [] =
  Ok (fold_left (fun m p => mset (fst p) (parsed_object (snd p)) m) os []).
Proof.
  intros Hpre Hpost Hos. rewrite matches_calm by exact Hpre.
  assert (G : forall acc, parse_objects (matches m_obj_header (file_text os ++ post) 0) acc = Ok (fold_left (fun m p => mset (fst p) (parsed_object (snd p)) m) os acc)).
  { induction Hos as [|[n o] os [Hn Ho] Hos IH]; intros acc.
    - cbn [file_text flat_map app fold_left]. rewrite <- (app_nil_r post), matches_calm by exact Hpost. reflexivity.
    - cbn [fst snd] in *. unfold file_text. cbn [flat_map fst snd]. fold (file_text os). rewrite <- !app_assoc.
      pose proof (header_here n (nl ++ object_inside o ++ nl ++ bs "endobj" ++ nl ++ file_text os ++ post) ltac:(lia)) as H.
      pose proof (matches_step m_obj_header (decZ n ++ bs " 0 obj") (nl ++ object_inside o ++ nl ++ bs "endobj" ++ nl ++ file_text os ++ post) (decZ n)) as S.
      rewrite <- !app_assoc in *. rewrite S.
      + cbn [parse_objects fold_left fst snd]. rewrite object_parsed by exact Ho. cbn [rbind].
        rewrite atoi_clip_decZ by (change (2 ^ 63) with 9223372036854775808 in Hn; unfold int64_max; lia).
        destruct Ho as [[Hc _] _].
        assert (N : nofire m_obj_header (nl ++ (object_inside o ++ nl) ++ bs "endobj" ++ nl)).
        { apply nofire_app; [|apply nofire_app; [exact Hc|]].
          - intros b j Hj. destruct j; [reflexivity|cbn in Hj; lia].
          - intros b j Hj. do 7 (destruct j; [reflexivity|]). cbn in Hj. lia. }
        pose proof (matches_calm _ _ (file_text os ++ post) N) as M. rewrite <- !app_assoc in M. rewrite M. apply IH.
      + destruct (decZ n) eqn:E; [exfalso; apply (decZ_nonnil n); [lia|exact E]|discriminate].
      + exact H. }
  apply G.
Qed.

(** ** Copying the objects *)
Definition allocated (w : writer) : Prop := forall m o a, mget m (objects w) = Some o -> oDict o = Some a -> exists d, mget a (dicts w) = Some d.
Definition copied_text (o : pobj) : option bytes :=
  match poStream o with
  | Some s => Some (stream_written (match poDict o with Some d => d | None => [] end) s)
  | None => poContent o
  end.
Lemma stored_frame w w' n t : mget n (objects w') = mget n (objects w) ->
  (forall o a, mget n (objects w) = Some o -> oDict o = Some a -> mget a (dicts w') = mget a (dicts w)) -> stored_text w n t -> stored_text w' n t.
Proof.
  intros H1 H2 (o & Ho & Ht). exists o. rewrite H1. split; [exact Ho|]. destruct (oStream o); [|exact Ht].
  destruct (oDict o) as [a|] eqn:E; [|exact Ht]. rewrite (H2 o a Ho E). exact Ht.
Qed.

Lemma copy_step deflate objs w n : allocated w -> let w' := copy_object deflate objs w n in
  allocated w' /\ (forall m t, m <> n -> stored_text w m t -> stored_text w' m t) /\
  (forall o t, mget n objs = Some o -> copied_text o = Some t -> stored_text w' n t).
Proof.
  intros A. cbv zeta. unfold copy_object. destruct (mget n objs) as [o|] eqn:E; [|split; [exact A|]; split; [auto|intros; discriminate]].
  destruct (poStream o) as [s|] eqn:Es.
  - set (d := match poDict o with Some d => d | None => [] end). set (a := fresh (dicts w)).
    unfold SetStreamObject. replace (mget a (dicts (set_dicts w (mset a d (dicts w))))) with (Some d) by (symmetry; apply mget_mset_eq).
    assert (SD : stream_data deflate (Some s) false = (Some s, false)) by (destruct s; reflexivity). rewrite SD.
    set (w1 := set_dicts (set_objects _ _) _).
    assert (O1 : objects w1 = mset n (mkObj None (Some s) (Some a)) (objects w)) by reflexivity.
    assert (D1 : dicts w1 = mset a (stream_dict d (Some s) false) (mset a d (dicts w))) by reflexivity.
    assert (W : forall w2, objects w2 = objects w1 -> dicts w2 = dicts w1 ->
      allocated w2 /\ (forall m t, m <> n -> stored_text w m t -> stored_text w2 m t) /\ (forall o0 t, Some o = Some o0 -> copied_text o0 = Some t -> stored_text w2 n t)).
    { intros w2 O2 D2. rewrite O1 in O2. rewrite D1 in D2. split; [|split].
      - intros m o' b Hm Hb. rewrite O2, mget_mset in Hm. rewrite D2, !mget_mset. destruct (Z.eqb_spec b a) as [->|Hba]; [eauto|].
        destruct (Z.eqb_spec m n) as [->|Hmn]; [injection Hm as <-; cbn [oDict] in Hb; congruence|]. eapply A; eassumption.
      - intros m t Hm. apply stored_frame.
        + rewrite O2, mget_mset_neq by exact Hm. reflexivity.
        + intros o' b Ho' Hb. rewrite D2, !mget_mset. destruct (Z.eqb_spec b a) as [->|Hba]; [|reflexivity].
          destruct (A m o' a Ho' Hb) as [x Hx]. unfold a in Hx. rewrite fresh_not_in in Hx. discriminate Hx.
      - intros o0 t Q Ht. injection Q as <-. unfold copied_text in Ht. rewrite Es in Ht. fold d in Ht. injection Ht as <-.
        exists (mkObj None (Some s) (Some a)). rewrite O2, mget_mset_eq. split; [reflexivity|]. cbn [oStream oDict]. rewrite D2, mget_mset_eq. reflexivity. }
    match goal with |- context [if ?c then _ else _] => destruct c end; apply W; reflexivity.
  - destruct (poContent o) as [c|] eqn:Ec.
    + unfold SetObject. set (w1 := set_objects _ _).
      assert (O1 : objects w1 = mset n (mkObj (Some c) None None) (objects w)) by reflexivity.
      assert (D1 : dicts w1 = dicts w) by reflexivity.
      assert (W : forall w2, objects w2 = objects w1 -> dicts w2 = dicts w1 ->
        allocated w2 /\ (forall m t, m <> n -> stored_text w m t -> stored_text w2 m t) /\ (forall o0 t, Some o = Some o0 -> copied_text o0 = Some t -> stored_text w2 n t)).
      { intros w2 O2 D2. rewrite O1 in O2. rewrite D1 in D2. split; [|split].
        - intros m o' b Hm Hb. rewrite O2, mget_mset in Hm. rewrite D2. destruct (Z.eqb_spec m n) as [->|Hmn]; [injection Hm as <-; discriminate Hb|]. eapply A; eassumption.
        - intros m t Hm. apply stored_frame; [rewrite O2, mget_mset_neq by exact Hm; reflexivity|]. intros. rewrite D2. reflexivity.
        - intros o0 t Q Ht. injection Q as <-. unfold copied_text in Ht. rewrite Es, Ec in Ht. injection Ht as <-.
          exists (mkObj (Some c) None None). rewrite O2, mget_mset_eq. split; reflexivity. }
      match goal with |- context [if ?c then _ else _] => destruct c end; apply W; reflexivity.
    + split; [exact A|]. split; [auto|]. intros o0 t Q Ht. injection Q as <-. unfold copied_text in Ht. rewrite Es, Ec in Ht. discriminate Ht.
Qed.
Lemma copy_all deflate objs ks : forall w, allocated w ->
  let w' := fold_left (copy_object deflate objs) ks w in
  (forall n t, ~ In n ks -> stored_text w n t -> stored_text w' n t) /\
  (forall n o t, In n ks -> mget n objs = Some o -> copied_text o = Some t -> stored_text w' n t).
Proof.
  induction ks as [|k ks IH]; intros w A; cbn [fold_left]; [split; [auto|intros n o t []]|].
  destruct (copy_step deflate objs w k A) as (A1 & F1 & S1). destruct (IH _ A1) as (F2 & S2). split.
  - intros n t Hn Ht. cbn [In] in Hn. apply F2; [tauto|]. apply F1; [intros ->; tauto|exact Ht].
  - intros n o t Hn Ho Ht. destruct (in_dec Z.eq_dec n ks) as [Hi|Hi]; [eapply S2; eassumption|].
    destruct Hn as [->|Hn]; [|contradiction]. apply F2; [exact Hi|]. eapply S1; eassumption.
Qed.

Lemma objects_read os n o : NoDup (map fst os) -> In (n, o) os ->
  mget n (fold_left (fun m p => mset (fst p) (parsed_object (snd p)) m) os []) = Some (parsed_object o).
Proof.
  generalize (@nil (Z * pobj)). induction os as [|[m p] os IH]; intros acc Hd Hi; [destruct Hi|]. cbn [map fst fold_left snd] in *. inversion Hd as [|x y D1 D2]; subst.
  destruct Hi as [Q|Hi]; [|apply IH; assumption]. injection Q as -> ->.
  assert (G : forall l acc, ~ In n (map fst l) -> mget n (fold_left (fun m p => mset (fst p) (parsed_object (snd p)) m) l acc) = mget n acc).
  { clear. induction l as [|[m p] l IH]; intros acc H; [reflexivity|]. cbn [map fst In fold_left snd] in *. rewrite IH by tauto. apply mget_mset_neq. intros Q. apply H. left. auto. }
  rewrite G by exact D1. apply mget_mset_eq.
Qed.

Lemma updates_other deflate m n us : (forall u, In u us -> kget (fst u) m <> Some n) -> forall objs,
  mget n (fold_left (update_stream deflate m) us objs) = mget n objs.
Proof.
  induction us as [|u us IH]; intros H objs; [reflexivity|]. cbn [fold_left]. rewrite IH by (intros v Hv; apply H; right; exact Hv).
  unfold update_stream. destruct (kget (fst u) m) as [k|] eqn:E; [|reflexivity]. destruct (mget k objs) as [o|]; [|reflexivity].
  apply mget_mset_neq. intros ->. apply (H u (or_introl eq_refl)). exact E.
Qed.
Lemma updates_one deflate m n us u o : forall objs, In u us -> kget (fst u) m = Some n -> (forall v, In v us -> kget (fst v) m = Some n -> v = u) ->
  NoDup us -> mget n objs = Some o ->
  mget n (fold_left (update_stream deflate m) us objs) =
    Some (mkPO (poContent o) (Some (deflate (snd u)))
      (Some (kset (bs "Length") (VInt (flen (deflate (snd u)))) (kset (bs "Filter") (VStr (bs "/FlateDecode")) (match poDict o with Some d => d | None => [] end))))).
Proof.
  induction us as [|v us IH]; intros objs Hi Hu Hone Hd Ho; [destruct Hi|]. cbn [fold_left]. inversion Hd as [|x y D1 D2]; subst.
  destruct Hi as [->|Hi].
  - rewrite updates_other.
    + unfold update_stream. rewrite Hu, Ho. apply mget_mset_eq.
    + intros v Hv Q. assert (v = u) by (apply Hone; [right; exact Hv|exact Q]). subst v. contradiction.
  - apply IH; try assumption; [intros w Hw; apply Hone; right; exact Hw|].
    unfold update_stream. destruct (kget (fst v) m) as [k|] eqn:E; [|exact Ho]. destruct (mget k objs) as [o'|]; [|exact Ho].
    rewrite mget_mset_neq; [exact Ho|]. intros ->. assert (v = u) by (apply Hone; [left; reflexivity|exact E]). subst v. contradiction.
Qed.

Theorem rebuilt deflate inflate get order pre post os updates m f :
  is_order order -> nofire m_obj_header pre -> nofire m_obj_header post ->
  Forall (fun p => 0 <= fst p < 2 ^ 63 /\ plain_object (snd p)) os -> NoDup (map fst os) ->
  f = pre ++ file_text os ++ post ->
  (findStartXRef f <= 0 \/ ParseXRefStreamFull inflate f (findStartXRef f) = Err) ->
  findXFAStreamMap get f = Ok m -> NoDup updates ->
  exists w, BuildFromOriginal deflate inflate get order f updates = Ok w /\
  (forall n o, In (n, o) os -> (forall u, In u updates -> kget (fst u) m <> Some n) -> stored_text w n (rewritten o)) /\
  (forall n o u, In (n, o) os -> In u updates -> kget (fst u) m = Some n -> (forall v, In v updates -> kget (fst v) m = Some n -> v = u) ->
     stored_text w n (rewritten_with deflate (snd u) o)).
Proof.
  intros Hord Hpre Hpost Hos Hnd Ef Hx Hm Hu. unfold BuildFromOriginal, parseAllObjects. assert (OP : parse_objects (matches m_obj_header f 0) [] = Ok (fold_left (fun m p => mset (fst p) (parsed_object (snd p)) m) os [])) by (rewrite Ef; apply objects_parsed; assumption).
  rewrite OP. cbn [rbind].
  set (objs := fold_left (fun m p => mset (fst p) (parsed_object (snd p)) m) os []).
  assert (P : (if 0 <? findStartXRef f then match ParseXRefStreamFull inflate f (findStartXRef f) with
       | Ok (_, s) => add_from_streams inflate f s (mkeys s) objs | Err => Ok objs | Panic => Panic end else Ok objs) = Ok objs).
  { destruct Hx as [Hx|Hx]; [replace (0 <? findStartXRef f) with false by lia; reflexivity|]. rewrite Hx. destruct (0 <? findStartXRef f); reflexivity. }
  rewrite P. cbn [rbind]. rewrite Hm. cbn [rbind].
  set (objs' := fold_left (update_stream deflate m) updates objs).
  destruct (copy_all deflate objs' (order (mkeys objs')) NewPDFWriter) as [_ C].
  { intros k o a Hk. discriminate Hk. }
  set (w := fold_left (copy_object deflate objs') (order (mkeys objs')) NewPDFWriter) in *.
  assert (K : forall n o t, mget n objs' = Some o -> copied_text o = Some t -> stored_text w n t).
  { intros n o t Ho Ht. apply (C n o t); [|exact Ho|exact Ht]. eapply Permutation.Permutation_in; [apply Permutation.Permutation_sym, Hord|]. apply mkeys_in. eauto. }
  eexists. split; [reflexivity|].
  assert (R : forall n t, stored_text w n t ->
    stored_text (let w0 := if 0 <? trailer_num (bs "/Root") f then SetRoot (trailer_num (bs "/Root") f) w else w in
                 if 0 <? trailer_num (bs "/Info") f then SetInfo (trailer_num (bs "/Info") f) w0 else w0) n t).
  { intros n t Ht. cbv zeta. destruct (0 <? trailer_num (bs "/Root") f), (0 <? trailer_num (bs "/Info") f); exact Ht. }
  split.
  - intros n o Hi Hn. apply R. apply (K n (parsed_object o)); [|destruct o; reflexivity].
    unfold objs'. rewrite updates_other by exact Hn. apply objects_read; assumption.
  - intros n o u Hi Hu1 Hu2 Hu3. apply R.
    eapply K; [unfold objs'; eapply updates_one; try eassumption; apply objects_read; eassumption|].
    unfold copied_text. cbn [poStream poDict]. f_equal. unfold rewritten_with. destruct o; reflexivity.
Qed.
