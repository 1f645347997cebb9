(** Proofs about forms: filling fields and rebuilding object streams. *)
From Verif Require Import Util Scan Utf8 WriterModel ParseModel ManipModel TextModel FormsModel FormsSpec WriterSpec ParseSpec ParseProofs WriterProofs XrefProofs FormsProofs FormsProofs2 FormsProofs3 ReadProofs ManipProofs.
Local Open Scope Z_scope.

(* ---------------- ReplaceFieldObject ---------------- *)
Lemma objhead_lit n g s : prefixb (decZ n ++ bs " ") s = false ->
  (forall r, s <> decZ n ++ r \/ match r with b :: _ => is_ws b = false | [] => True end) -> m_objhead n g s = None.
Proof.
  intros H1 H2. unfold m_objhead. destruct (lit (decZ n) s) as [r|] eqn:E; [|reflexivity]. cbn [obind].
  apply lit_some in E. destruct (H2 r) as [H|H]; [congruence|]. destruct r as [|b r]; [reflexivity|].
  cbn [ws1]. rewrite H. reflexivity.
Qed.

Lemma replace_field f pre n g body post new :
  0 <= n -> 0 <= g -> f = pre ++ (decZ n ++ bs " " ++ decZ g ++ bs " obj") ++ body ++ bs "endobj" ++ post ->
  (forall i, (i < length pre)%nat -> m_objhead n g (skipn i f) = None) ->
  contains (bs "endobj") body = false ->
  ReplaceFieldObject f n g new =
  Ok (pre ++ (decZ n ++ bs " " ++ decZ g ++ bs " obj") ++ nl ++ new ++ bs "
endobj
" ++ post).
Proof.
  intros Hn Hg Ef Hpre Hb. unfold ReplaceFieldObject.
  set (hd := decZ n ++ bs " " ++ decZ g ++ bs " obj") in *.
  assert (Hm : m_objhead n g (hd ++ body ++ bs "endobj" ++ post) = Some (body ++ bs "endobj" ++ post)).
  { unfold hd, m_objhead. rewrite <- !app_assoc, lit_app. cbn [obind].
    change (bs " " ++ decZ g ++ ?r) with (" "%byte :: decZ g ++ r).
    rewrite ws1_space by (apply digits_head; [apply decZ_nonnil; exact Hg|apply decZ_digits; exact Hg|exact digit_not_ws]).
    cbn [obind]. rewrite lit_app. cbn [obind]. change (bs " obj" ++ ?r) with (" "%byte :: bs "obj" ++ r).
    rewrite ws1_space by reflexivity. cbn [obind]. apply lit_app. }
  assert (Hf : find (m_objhead n g) f = Some (length pre, body ++ bs "endobj" ++ post)).
  { rewrite Ef. rewrite (Util.find_app (m_objhead n g) pre).
    - rewrite (find_at0 _ _ _ Hm). f_equal. f_equal. lia.
    - intros j Hj. rewrite <- Ef. apply Hpre. exact Hj. }
  rewrite Hf.
  assert (Hi : index (bs "endobj") (body ++ bs "endobj" ++ post) = Some (length body)).
  { apply index_some. split; [rewrite skipn_app_exact; apply prefixb_app|]. split; [rewrite app_length; lia|].
    intros j Hj. rewrite contains_false in Hb. specialize (Hb j ltac:(lia)).
    rewrite skipn_app_l by lia. assert (L : (1 <= length (skipn j body))%nat) by (rewrite skipn_length; lia).
    remember (skipn j body) as u eqn:Eu. clear - Hb L.
    destruct u as [|b1 u]; [cbn [length] in L; lia|].
    do 5 (destruct u as [|? u]; [simpl; repeat match goal with |- context [beqb ?x ?y] => destruct (beqb x y) eqn:?; simpl; try reflexivity; try discriminate end|]).
    cbn in Hb |- *. exact Hb. }
  rewrite Hi. f_equal.
  assert (L : (length f - length (body ++ bs "endobj" ++ post))%nat = length (pre ++ hd)).
  { rewrite Ef, !app_length. lia. }
  rewrite L. rewrite Ef, (app_assoc pre hd), ManipProofs.firstn_app_all, <- !app_assoc. f_equal. f_equal. f_equal. f_equal.
  f_equal. rewrite (app_assoc body). change 6%nat with (length (bs "endobj")). rewrite <- app_length. rewrite skipn_app_exact. reflexivity.
Qed.

(* ---------------- updateFieldContent ---------------- *)
Lemma v_lit s : prefixb (bs "/V") s = false -> m_v s = None.
Proof. intros H. unfold m_v. apply lit_none in H. rewrite H. reflexivity. Qed.
Lemma before_v a r : contains (bs "/V") a = false -> forall j, (j < length a)%nat ->
  prefixb (bs "/V") (skipn j (a ++ bs "/V" ++ r)) = false.
Proof.
  intros H j Hj. rewrite contains_false in H. specialize (H j ltac:(lia)). rewrite skipn_app_l by lia.
  assert (L : (1 <= length (skipn j a))%nat) by (rewrite skipn_length; lia).
  remember (skipn j a) as u eqn:Eu. clear - H L.
  destruct u as [|b1 u]; [cbn [length] in L; lia|].
  destruct u as [|b2 u]; [simpl; destruct (beqb "/" b1); reflexivity|]. simpl in H |- *. exact H.
Qed.

Lemma replace_expand_skip m tpl s k : replace_expand m tpl s k = replace_expand m tpl (skipn k s) 0.
Proof. revert k. induction s as [|b s IH]; intros [|k]; try reflexivity. cbn [replace_expand skipn]. apply IH. Qed.
Lemma replace_expand_before m tpl a r : (forall j, (j < length a)%nat -> m (skipn j (a ++ r)) = None) ->
  replace_expand m tpl (a ++ r) 0 = a ++ replace_expand m tpl r 0.
Proof.
  induction a as [|b a IH]; intros H; [reflexivity|]. cbn [app replace_expand].
  pose proof (H 0%nat ltac:(cbn [length]; lia)) as H0. cbn [skipn app] in H0. rewrite H0. f_equal. apply IH.
  intros j Hj. apply (H (S j)). cbn [length]. lia.
Qed.
Lemma replace_expand_none m tpl a : (forall j, (j < length a)%nat -> m (skipn j a) = None) -> replace_expand m tpl a 0 = a.
Proof.
  intros H. rewrite <- (app_nil_r a) at 1. rewrite replace_expand_before; [cbn; apply app_nil_r|]. rewrite app_nil_r. exact H.
Qed.
Lemma expand_plain whole t : forallb (fun b => negb (beqb b "$")) t = true -> forall k, (length t < k)%nat -> expand k whole t = t.
Proof.
  induction t as [|b t IH]; intros H k Hk; (destruct k as [|k]; [lia|]); [reflexivity|].
  cbn [forallb] in H. apply andb_true_iff in H as [H1 H2]. cbn [expand]. rewrite H1. f_equal. apply IH; [exact H2|cbn [length] in Hk; lia].
Qed.

Lemma update_existing a old b ft v :
  contains (bs "/V") a = false -> contains (bs "/V") b = false ->
  forallb (fun c => negb (beqb c ")")) old = true ->
  forallb (fun c => negb (beqb c "$")) (escapeFieldValue (formatFieldValue v ft)) = true ->
  updateFieldContent (a ++ bs "/V (" ++ old ++ bs ")" ++ b) ft v =
  Ok (a ++ bs "/V (" ++ escapeFieldValue (formatFieldValue v ft) ++ bs ")" ++ b).
Proof.
  intros Ha Hb Ho Hd.
  assert (Hm : m_v (bs "/V (" ++ old ++ bs ")" ++ b) = Some b).
  { unfold m_v. change (bs "/V (" ++ ?r) with (bs "/V" ++ bs " (" ++ r). rewrite lit_app. cbn [obind].
    change (ws0 (bs " (" ++ ?r)) with ("("%byte :: r). cbn iota.
    change (beqb "(" "(") with true. cbn iota. change (bs ")" ++ b) with (")"%byte :: b).
    rewrite until_app by exact Ho. rewrite skipn_app_exact. exact (lit_app (bs ")") b). }
  assert (Hpre : forall j, (j < length a)%nat -> m_v (skipn j (a ++ bs "/V (" ++ old ++ bs ")" ++ b)) = None).
  { intros j Hj. apply v_lit. exact (before_v a (bs " (" ++ old ++ bs ")" ++ b) Ha j Hj). }
  unfold updateFieldContent. rewrite (Util.find_app m_v a _ Hpre), (find_at0 _ _ _ Hm). unfold found.
  f_equal. rewrite replace_expand_before by exact Hpre. f_equal.
  change (bs "/V (" ++ old ++ bs ")" ++ b) with ("/"%byte :: bs "V (" ++ old ++ bs ")" ++ b).
  cbn [replace_expand]. change ("/"%byte :: bs "V (" ++ old ++ bs ")" ++ b) with (bs "/V (" ++ old ++ bs ")" ++ b).
  rewrite Hm. rewrite expand_plain; [|unfold new_v; rewrite !forallb_app, Hd; reflexivity|lia].
  unfold new_v. rewrite <- !app_assoc. f_equal. f_equal. f_equal.
  rewrite replace_expand_skip.
  replace (length (bs "/V (" ++ old ++ bs ")" ++ b) - length b - 1)%nat with (length (bs "V (" ++ old ++ bs ")"))
    by (rewrite !app_length; change (length (bs "/V (")) with 4%nat; change (length (bs "V (")) with 3%nat; lia).
  rewrite !app_assoc, skipn_app_exact. apply replace_expand_none. intros j Hj. apply v_lit. rewrite contains_false in Hb. apply Hb. lia.
Qed.

Lemma update_absent a b ft v :
  contains (bs "/V") (a ++ bs ">>" ++ b) = false ->
  (forall j, (0 < j)%nat -> (j <= length (bs ">>" ++ b))%nat -> prefixb (bs ">>") (skipn j (bs ">>" ++ b)) = false) ->
  updateFieldContent (a ++ bs ">>" ++ b) ft v =
  Ok (a ++ bs "/V (" ++ escapeFieldValue (formatFieldValue v ft) ++ bs ") " ++ bs ">>" ++ b).
Proof.
  intros H1 H2. unfold updateFieldContent.
  rewrite (find_nolit m_v (bs "/V") _ v_lit H1). cbn [found].
  rewrite (last_index_at (bs ">>") a b H2). f_equal.
  rewrite firstn_app_all, skipn_app_exact. unfold new_v. rewrite <- !app_assoc. reflexivity.
Qed.

(** A whole field *)
Lemma fill_field inflate dec f a t pre body post old x y v :
  GetObject inflate dec f (aNum a) = Ok t -> 0 <= aNum a -> 0 <= aGen a ->
  f = pre ++ (decZ (aNum a) ++ bs " " ++ decZ (aGen a) ++ bs " obj") ++ body ++ bs "endobj" ++ post ->
  (forall i, (i < length pre)%nat -> m_objhead (aNum a) (aGen a) (skipn i f) = None) ->
  contains (bs "endobj") body = false ->
  t = x ++ bs "/V (" ++ old ++ bs ")" ++ y -> contains (bs "/V") x = false -> contains (bs "/V") y = false ->
  forallb (fun c => negb (beqb c ")")) old = true ->
  forallb (fun c => negb (beqb c "$")) (escapeFieldValue (formatFieldValue v (aFT a))) = true ->
  FillFieldValue inflate dec f a v =
  Ok (pre ++ (decZ (aNum a) ++ bs " " ++ decZ (aGen a) ++ bs " obj") ++ nl ++
      (x ++ bs "/V (" ++ escapeFieldValue (formatFieldValue v (aFT a)) ++ bs ")" ++ y) ++ bs "
endobj
" ++ post).
Proof.
  intros Hg Hn Hgn Ef Hpre Hb Et Hx Hy Ho Hd. unfold FillFieldValue. rewrite Hg. cbn [rbind].
  rewrite Et, update_existing by assumption. cbn [rbind].
  apply (replace_field f pre (aNum a) (aGen a) body post); assumption.
Qed.

(* ---------------- rebuildStreamContent ---------------- *)
Lemma stream_objects_spec objs : forall pre first data off acc,
  flen pre = first + off -> 0 <= first -> 0 <= off ->
  data = pre ++ objstm_body objs -> Forall (fun o => tidy (snd o)) objs ->
  NoDup (map fst objs) ->
  exists m, stream_objects first data (entries_of off objs) acc = Ok m /\
    (forall n d, In (n, d) objs -> mget n m = Some d).
Proof.
  induction objs as [|[n d] objs IH]; intros pre first data off acc Hp Hf Ho Hd Ht Hnd.
  - exists acc. split; [reflexivity|]. intros ? ? [].
  - inversion Ht as [|q1 q2 Td Tr]; subst q1 q2. inversion Hnd as [|q1 q2 Ni Nd]; subst q1 q2.
    cbn [map fst] in *.
    change (entries_of off ((n, d) :: objs)) with ((n, off) :: entries_of (off + Z.of_nat (length d) + 1) objs).
    cbn [stream_objects].
    assert (Lp : flen (pre ++ d ++ nl) = first + (off + Z.of_nat (length d) + 1)).
    { unfold flen in *. rewrite !app_length. change (length nl) with 1%nat. lia. }
    assert (Ed : data = (pre ++ d ++ nl) ++ objstm_body objs).
    { rewrite Hd. unfold objstm_body. cbn [flat_map snd]. change nl with [x0a]. rewrite <- !app_assoc. reflexivity. }
    set (e := match entries_of (off + Z.of_nat (length d) + 1) objs with (_, off') :: _ => first + off' | [] => flen data end).
    assert (Ee : e = flen pre + flen d + 1).
    { unfold e. destruct objs as [|[n' d'] objs']; cbn [entries_of].
      - rewrite Ed. unfold objstm_body. cbn [flat_map]. rewrite app_nil_r. unfold flen in *. rewrite !app_length. change (length nl) with 1%nat. lia.
      - unfold flen in *. lia. }
    assert (Es : first + off = flen pre) by lia.
    assert (Dl : flen data = flen pre + flen d + 1 + flen (objstm_body objs)).
    { rewrite Ed. unfold flen. rewrite !app_length. change (length nl) with 1%nat. lia. }
    assert (0 <= flen (objstm_body objs) /\ 0 <= flen d /\ 0 <= flen pre) as (Z1 & Z2 & Z3) by (unfold flen; lia).
    rewrite Es, Ee.
    replace (flen pre <? 0) with false by lia. replace (flen pre + flen d + 1 <? flen pre) with false by lia.
    replace (flen data <? flen pre + flen d + 1) with false by lia. cbn [orb].
    assert (Sub : trim_right_blank (sub (Z.to_nat (flen pre)) (Z.to_nat (flen pre + flen d + 1)) data) = d).
    { unfold trim_right_blank, sub.
      replace (Z.to_nat (flen pre + flen d + 1) - Z.to_nat (flen pre))%nat with (length (d ++ nl))
        by (rewrite app_length; change (length nl) with 1%nat; unfold flen in *; lia).
      rewrite Ed, <- !app_assoc. rewrite skipn_len_app by (unfold flen; lia).
      rewrite (app_assoc d), firstn_len_app by reflexivity.
      destruct Td as (u & b & Eud & Hb). cbn [snd] in Eud. rewrite Eud. apply rtrim_tidy; [exact Hb|reflexivity]. }
    rewrite Sub.
    destruct (IH (pre ++ d ++ nl) first data (off + Z.of_nat (length d) + 1) (mset n d acc)) as (m & Em & Hm); try assumption; try lia.
    exists m. split; [exact Em|].
    intros k c [Heq|Hin]; [|apply Hm; exact Hin]. injection Heq as <- <-.
    (* [n] does not come again *)
    clear - Em Ni. revert Em. generalize (off + Z.of_nat (length d) + 1) as o. intros o Em.
    assert (G : forall es acc m, stream_objects first data es acc = Ok m -> ~ In n (map fst es) -> mget n m = mget n acc).
    { clear. induction es as [|[k o] es IH]; intros acc m H Hn; cbn [stream_objects] in H; [injection H as ->; reflexivity|].
      match type of H with (if ?c then _ else _) = _ => destruct c; [discriminate|] end.
      rewrite (IH _ _ H) by (intros X; apply Hn; right; exact X). rewrite mget_mset.
      destruct (Z.eqb_spec n k) as [->|]; [exfalso; apply Hn; left; reflexivity|reflexivity]. }
    rewrite (G _ _ _ Em).
    + rewrite mget_mset, Z.eqb_refl. reflexivity.
    + assert (K : forall o, map fst (entries_of o objs) = map fst objs).
      { clear. induction objs as [|[k c] objs IH]; intros o; [reflexivity|]. cbn [entries_of map fst]. rewrite IH. reflexivity. }
      rewrite K. exact Ni.
Qed.

Lemma mget_app {A} n (a b : zmap A) : mget n (a ++ b) = match mget n a with Some x => Some x | None => mget n b end.
Proof. induction a as [|[k x] a IH]; [reflexivity|]. cbn [app mget]. destruct (n =? k); [reflexivity|exact IH]. Qed.

Lemma layout_spec ups m objs : (forall n d, In (n, d) objs -> mget n m = Some d) -> forall off,
  layout (ups ++ m) (map fst objs) off = (objstm_index off (updated ups objs), objstm_body (updated ups objs)).
Proof.
  intros H. induction objs as [|[n d] objs IH]; intros off; [reflexivity|].
  cbn [map fst layout updated]. rewrite IH by (intros; apply H; right; assumption).
  assert (E : def [] (mget n (ups ++ m)) = match mget n ups with Some c => c | None => d end).
  { rewrite mget_app. destruct (mget n ups); [reflexivity|]. rewrite (H n d) by (left; reflexivity). reflexivity. }
  rewrite E. unfold objstm_body. cbn [updated map flat_map fst snd]. rewrite <- app_assoc. reflexivity.
Qed.

Lemma rebuild_content objs ups :
  Forall (fun o => tidy (snd o)) objs -> NoDup (map fst objs) ->
  (forall o, In o objs -> 0 <= fst o < 2 ^ 63) -> flen (conforming_objstm objs) < 2 ^ 63 ->
  rebuildStreamContent (mkObjStm (Some (Z.of_nat (length objs))) (Some (conforming_first objs)) (conforming_objstm objs)) ups
  = Ok (objstm_body (updated ups objs), objstm_index 0 (updated ups objs)).
Proof.
  intros Ht Hnd Hn Hl. unfold rebuildStreamContent, conforming_first. cbn [osN osFirst osData].
  assert (flen (conforming_objstm objs) = flen (objstm_index 0 objs) + flen (objstm_body objs)) as Hlen.
  { unfold conforming_objstm, flen. rewrite app_length. lia. }
  assert (0 <= flen (objstm_index 0 objs)) as Hz by (unfold flen; lia).
  assert (0 <= flen (objstm_body objs)) as Hz2 by (unfold flen; lia).
  replace (flen (conforming_objstm objs) <? flen (objstm_index 0 objs)) with false by lia. cbv zeta.
  assert (firstn (Z.to_nat (flen (objstm_index 0 objs))) (conforming_objstm objs) = objstm_index 0 objs) as ->.
  { unfold conforming_objstm, flen. rewrite Nat2Z.id. apply firstn_len_app. reflexivity. }
  rewrite index_fields by (assumption || lia).
  rewrite Nat2Z.id. rewrite firstn_all2 by (rewrite entries_length; lia).
  destruct (stream_objects_spec objs (objstm_index 0 objs) (flen (objstm_index 0 objs)) (conforming_objstm objs) 0 [])
    as (m & Em & Hm); try assumption; try lia; try reflexivity.
  rewrite Em. cbn [rbind].
  assert (K : forall o, map fst (entries_of o objs) = map fst objs).
  { clear. induction objs as [|[k c] objs IH]; intros o; [reflexivity|]. cbn [entries_of map fst]. rewrite IH. reflexivity. }
  rewrite K, (layout_spec ups m objs Hm). reflexivity.
Qed.

(** For the examples: the texts of a writer without streams. *)
Definition content_all (P : bytes -> Prop) (e : Z * obj) : Prop :=
  oStream (snd e) = None /\ match oContent (snd e) with Some c => P c | None => P [] end.
Lemma stored_all w (P : bytes -> Prop) : Forall (content_all P) (objects w) -> forall n t, stored_text w n t -> P t.
Proof.
  intros H n t (o & Ho & Ht). assert (K : content_all P (n, o)).
  { revert Ho. induction H as [|[k y] m H1 H2 IH]; [discriminate|]. cbn [mget]. destruct (Z.eqb_spec n k) as [->|].
    - intros E. injection E as <-. exact H1.
    - exact IH. }
  destruct K as [K1 K2]. cbn [snd] in *. rewrite K1 in Ht. destruct (oContent o); subst t; exact K2.
Qed.
Lemma numbers_all w (P : Z -> Prop) : Forall (fun e => P (fst e)) (objects w) -> forall n, mem n (objects w) = true -> P n.
Proof.
  intros H n. unfold mem. induction H as [|[k y] m H1 H2 IH]; [discriminate|]. cbn [mget]. destruct (Z.eqb_spec n k) as [->|].
  - intros _. exact H1.
  - exact IH.
Qed.

(* ---------------- the schema ---------------- *)
Lemma schema_question fs i f : nth_error fs i = Some f ->
  exists q, nth_error (ToFormSchema fs) i = Some q /\ qName q = aT (f_attrs f) /\ qLabel q = aTU (f_attrs f) /\
    qRequired q = Z.testbit (aFf (f_attrs f)) required_bit /\ qReadOnly q = Z.testbit (aFf (f_attrs f)) read_only_bit /\
    qDefault q = aDV (f_attrs f) /\ qOptions q = aOpt (f_attrs f) /\
    (0 < aMaxLen (f_attrs f) -> qMaxLength q = Some (aMaxLen (f_attrs f))).
Proof.
  intros H. exists (ToQuestion (f_attrs f)). split; [unfold ToFormSchema; rewrite nth_error_map, H; reflexivity|].
  unfold ToQuestion. cbn [qName qLabel qRequired qReadOnly qDefault qOptions qMaxLength].
  split; [reflexivity|]. split; [reflexivity|]. split; [apply FormsProofs.bit2|]. split; [apply FormsProofs.bit1|].
  split; [reflexivity|]. split; [reflexivity|]. intros L. apply Z.ltb_lt in L. rewrite L. reflexivity.
Qed.
Lemma schema_ids fs : NoDup (map (fun f => aNum (f_attrs f)) fs) ->
  Forall (fun f => 0 <= aNum (f_attrs f)) fs -> NoDup (map qID (ToFormSchema fs)).
Proof.
  intros H Hp. unfold ToFormSchema. rewrite map_map. cbn [ToQuestion qID].
  induction fs as [|f fs IH]; [constructor|]. cbn [map] in *. inversion H as [|x y H1 H2]; subst. inversion Hp as [|x y P1 P2]; subst.
  constructor; [|apply IH; assumption]. intros Hin. apply H1. apply in_map_iff in Hin. destruct Hin as (g & Eg & Hg).
  apply in_map_iff. exists g. split; [|exact Hg]. apply app_inv_head in Eg.
  rewrite Forall_forall in P2. specialize (P2 g Hg). cbn beta in P2, P1. rewrite !decZ_nonneg in Eg by assumption.
  apply dec_inj in Eg. lia.
Qed.

Lemma built_types n name rect opts calls :
  qType (ToQuestion (built n (run_flags (AddTextField name rect) calls))) = RText /\
  qType (ToQuestion (built n (run_flags (AddCheckbox name rect) calls))) = RCheckbox /\
  qType (ToQuestion (built n (run_flags (AddRadioButton name rect) calls))) = RRadio /\
  qType (ToQuestion (built n (run_flags (AddButton name rect) calls))) = RButton /\
  qType (ToQuestion (built n (run_flags (AddChoiceField name rect opts) calls))) = RSelect.
Proof.
  assert (T : forall d, qType (ToQuestion (built n (run_flags d calls))) =
    mapFieldTypeWithFlags (dType d) (dFlags (run_flags d calls)) /\
    Z.testbit (dFlags (run_flags d calls)) 15 = Z.testbit (dFlags d) 15 /\ Z.testbit (dFlags (run_flags d calls)) 16 = Z.testbit (dFlags d) 16).
  { intros d. destruct (FormsProofs.run_flags_spec calls d) as (_ & _ & K & E).
    split; [rewrite E; reflexivity|]. split; apply K; discriminate. }
  unfold mapFieldTypeWithFlags in T.
  destruct (T (AddTextField name rect)) as (A1 & _). destruct (T (AddCheckbox name rect)) as (A2 & B2 & _).
  destruct (T (AddRadioButton name rect)) as (A3 & B3 & C3). destruct (T (AddButton name rect)) as (A4 & B4 & C4).
  destruct (T (AddChoiceField name rect opts)) as (A5 & _).
  rewrite A1, A2, A3, A4, A5. rewrite !FormsProofs.bit15, !FormsProofs.bit16. rewrite B2, B3, C3, B4, C4. repeat split; reflexivity.
Qed.
Lemma flatten_field_same inflate dec f a b : FlattenField inflate dec f a = Ok b -> b = f.
Proof. unfold FlattenField. destruct (GetObject inflate dec f (aNum a)); [|discriminate..]. intros H. injection H as <-. reflexivity. Qed.
