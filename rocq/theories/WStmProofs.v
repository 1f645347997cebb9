From Verif Require Import Util Scan WriterModel ParseModel ParseSpec ParseProofs WriterProofs XrefProofs FormsSpec FormsProofs2 WStmSpec.
Local Open Scope Z_scope.

Definition words2 (p : Z * Z) : list bytes := [decZ (fst p); decZ (snd p)].
Lemma header_words l : objstm_header l = join (bs " ") (flat_map words2 l).
Proof.
  induction l as [|p l IH]; [reflexivity|]. unfold objstm_header in *. destruct l as [|q l]; [reflexivity|].
  change (map ?f (p :: q :: l)) with (f p :: map f (q :: l)).
  change (flat_map words2 (p :: q :: l)) with (decZ (fst p) :: decZ (snd p) :: flat_map words2 (q :: l)).
  cbn [map join flat_map words2 app] in *. rewrite IH. rewrite <- !app_assoc. reflexivity.
Qed.
Lemma index_words_offsets l : forall off, index_words off l = flat_map words2 (objstm_offsets (Z.of_nat off) l).
Proof.
  induction l as [|[n d] l IH]; intros off; [reflexivity|]. cbn [index_words objstm_offsets flat_map words2 app fst snd]. rewrite IH. do 4 f_equal. lia.
Qed.
Lemma numeral_decZ z : 0 <= z -> numeral (decZ z).
Proof.
  intros H. split; [apply decZ_nonnil, H|]. pose proof (decZ_digits z H) as D. rewrite forallb_forall in *. intros b I. specialize (D b I). revert D. clear. destruct b; vm_compute; congruence.
Qed.
Lemma offsets_entries l : forall off, objstm_offsets off l = entries_of off l.
Proof. induction l as [|[n d] l IH]; intros off; [reflexivity|]. cbn [objstm_offsets entries_of]. rewrite IH. reflexivity. Qed.
Lemma pairs_words l : Forall (fun p : Z * Z => 0 <= fst p < 2 ^ 63 /\ 0 <= snd p < 2 ^ 63) l -> pairs_of (flat_map words2 l) = l.
Proof.
  induction 1 as [|[a b] l (Ha & Hb) _ IH]; [reflexivity|]. cbn [flat_map words2 app pairs_of fst snd] in *. rewrite !atoi_any_decZ by assumption. rewrite IH. reflexivity.
Qed.
Lemma words_numerals l : Forall (fun p : Z * Z => 0 <= fst p < 2 ^ 63 /\ 0 <= snd p < 2 ^ 63) l -> Forall numeral (flat_map words2 l).
Proof. induction 1 as [|[a b] l (Ha & Hb) _ IH]; [constructor|]. cbn [flat_map words2 app fst snd] in *. repeat constructor; try (apply numeral_decZ; lia); exact IH. Qed.
Lemma body_length l : Z.of_nat (list_sum (map (fun o : Z * bytes => S (length (snd o))) l)) = flen (objstm_body l).
Proof. unfold flen, objstm_body. f_equal. induction l as [|o l IH]; [reflexivity|]. cbn [flat_map]. rewrite !app_length. cbn [length]. change (list_sum (map (fun o : Z * bytes => S (length (snd o))) (o :: l))) with (S (length (snd o)) + list_sum (map (fun o : Z * bytes => S (length (snd o))) l))%nat. rewrite IH. unfold bytes in *. lia. Qed.
Lemma joined_body l : l <> [] -> S (length (objects_text l)) = list_sum (map (fun o : Z * bytes => S (length (snd o))) l).
Proof.
  unfold objects_text. induction l as [|o l IH]; [congruence|]. intros _. destruct l as [|p l]; [cbn; lia|].
  change (map snd (o :: p :: l)) with (snd o :: map (@snd Z bytes) (p :: l)). change (join (bs " ") (snd o :: map snd (p :: l))) with (snd o ++ bs " " ++ join (bs " ") (map snd (p :: l))).
  rewrite !app_length. specialize (IH ltac:(discriminate)). change (length (bs " ")) with 1%nat.
  change (list_sum (map ?f (o :: p :: l))) with (f o + list_sum (map f (p :: l)))%nat. unfold bytes in *. lia.
Qed.
Lemma entries_bounded l : forall off, 0 <= off -> (forall o, In o l -> 0 <= fst o < 2 ^ 63) -> off + flen (objstm_body l) <= 2 ^ 63 ->
  Forall (fun p : Z * Z => 0 <= fst p < 2 ^ 63 /\ 0 <= snd p < 2 ^ 63) (entries_of off l).
Proof.
  induction l as [|[n d] l IH]; intros off Ho Hn Hb; [constructor|]. cbn [entries_of].
  assert (E : Z.of_nat (length d) + 1 + flen (objstm_body l) = flen (objstm_body ((n, d) :: l))).
  { unfold flen, objstm_body. cbn [flat_map snd]. rewrite !app_length. cbn [length]. lia. }
  assert (0 <= flen (objstm_body l)) by (unfold flen; lia).
  constructor.
  - cbn [fst snd]. split; [apply (Hn (n, d)); left; reflexivity|lia].
  - apply IH; [lia|intros o I; apply Hn; right; exact I|lia].
Qed.
Lemma index_length_header l : index_length l = length (objstm_header (objstm_offsets 0 l)).
Proof. unfold index_length. rewrite index_words_offsets, header_words. reflexivity. Qed.
Lemma entries_begins l i off n d : nth_error l i = Some (n, d) -> nth_error (entries_of off l) i = Some (n, off + Z.of_nat (begins l i)).
Proof. intros H. rewrite (entries_nth _ _ _ _ _ H). unfold begins. rewrite body_length. reflexivity. Qed.

Lemma shifted_read l i n d : nth_error l i = Some (n, d) -> (forall o, In o l -> 0 <= fst o < 2 ^ 63) ->
  let (h, data) := objstm_data l in Z.of_nat (index_length l) + flen data < 2 ^ 63 ->
  object_in_stream n (Z.of_nat i) (flen h) data = read_late (index_length l) l i.
Proof.
  intros Hi Hn. unfold objstm_data. rewrite index_length_header. set (k := objstm_header (objstm_offsets 0 l)). set (start := Z.of_nat (length k) + 1). set (h := objstm_header (objstm_offsets start l)).
  change (join (bs " ") (map snd l)) with (objects_text l). intros Hl.
  assert (Hne : l <> []) by (intros ->; destruct i; discriminate).
  assert (Hil : (i < length l)%nat) by (apply nth_error_Some; congruence).
  pose proof (joined_body l Hne) as HJ. pose proof (body_length l) as HB.
  assert (HL : flen (h ++ bs " " ++ objects_text l) = flen h + 1 + flen (objects_text l)) by (unfold flen; rewrite !app_length; change (length (bs " ")) with 1%nat; lia).
  rewrite HL in Hl.
  assert (0 <= flen h) by (unfold flen; lia).
  assert (0 <= flen (objects_text l)) by (unfold flen; lia).
  assert (HJ' : flen (objects_text l) + 1 = flen (objstm_body l)) by (unfold flen in *; lia).
  unfold object_in_stream.
  replace (flen (h ++ bs " " ++ objects_text l) <? flen h) with false by lia. cbv zeta.
  assert (firstn (Z.to_nat (flen h)) (h ++ bs " " ++ objects_text l) = h) as ->.
  { unfold flen. rewrite Nat2Z.id. apply firstn_len_app. reflexivity. }
  assert (Hb : Forall (fun p : Z * Z => 0 <= fst p < 2 ^ 63 /\ 0 <= snd p < 2 ^ 63) (entries_of start l)).
  { apply entries_bounded; [lia|exact Hn|unfold start; lia]. }
  assert (pairs_of (fields is_space h) = entries_of start l) as ->.
  { unfold h. rewrite header_words, offsets_entries, fields_join by (apply words_numerals, Hb). apply pairs_words, Hb. }
  rewrite entries_length.
  replace (Z.of_nat (length l) <=? Z.of_nat i) with false by lia.
  replace (Z.of_nat i <? 0) with false by lia. rewrite Nat2Z.id.
  rewrite (entries_begins _ _ _ _ _ Hi). cbn [fst snd]. rewrite Z.eqb_refl. cbn [snd].
  unfold read_late. set (t := objects_text l) in *. set (b := begins l i).
  set (e := match nth_error (entries_of start l) (S i) with Some nx => flen h + snd nx | None => flen (h ++ bs " " ++ t) end).
  assert (He : e = flen h + 1 + Z.of_nat (if (S i <? length l)%nat then length k + begins l (S i) else length t)).
  { unfold e. destruct (Nat.ltb_spec (S i) (length l)) as [L|L].
    - destruct (nth_error l (S i)) as [[n' d']|] eqn:E; [|apply nth_error_None in E; lia].
      rewrite (entries_begins _ _ _ _ _ E). cbn [snd]. unfold start. lia.
    - assert (nth_error (entries_of start l) (S i) = None) as -> by (apply nth_error_None; rewrite entries_length; exact L). rewrite HL. unfold flen. lia. }
  clearbody e. subst e. set (e := if (S i <? length l)%nat then (length k + begins l (S i))%nat else length t).
  rewrite HL. unfold start.
  assert (Hse : (length k + b < length t -> length k + b <= e)%nat).
  { intros Q. unfold e. destruct (Nat.ltb_spec (S i) (length l)) as [L|L]; [|lia].
    destruct (nth_error l (S i)) as [[n' d']|] eqn:E; [|apply nth_error_None in E; lia].
    unfold b, begins. assert (firstn (S i) l = firstn i l ++ [(n, d)]) as ->.
    { clear - Hi. revert i Hi. induction l as [|o l IH]; intros [|i] Hi; try discriminate.
      - cbn in Hi. injection Hi as ->. reflexivity.
      - cbn in Hi. cbn [firstn app]. f_equal. apply IH. exact Hi. }
    rewrite map_app, list_sum_app. apply Nat.add_le_mono_l, Nat.le_add_r. }
  replace (flen h + 1 + flen t <=? flen h + (Z.of_nat (length k) + 1 + Z.of_nat b)) with (length t <=? length k + b)%nat.
  2: { unfold flen. destruct (Nat.leb_spec (length t) (length k + b)); destruct (Z.leb_spec (Z.of_nat (length h) + 1 + Z.of_nat (length t)) (Z.of_nat (length h) + (Z.of_nat (length k) + 1 + Z.of_nat b))); lia. }
  replace (flen h + 1 + flen t <? flen h + 1 + Z.of_nat e) with (length t <? e)%nat.
  2: { unfold flen. destruct (Nat.ltb_spec (length t) e); destruct (Z.ltb_spec (Z.of_nat (length h) + 1 + Z.of_nat (length t)) (Z.of_nat (length h) + 1 + Z.of_nat e)); lia. }
  destruct (Nat.leb_spec (length t) (length k + b)) as [|Hs]; [reflexivity|]. cbn [orb]. destruct (length t <? e)%nat eqn:Ee; [reflexivity|]. specialize (Hse Hs).
  replace (flen h + (Z.of_nat (length k) + 1 + Z.of_nat b) <? 0) with false by lia.
  replace (flen h + 1 + Z.of_nat e <? flen h + (Z.of_nat (length k) + 1 + Z.of_nat b)) with false by lia. cbn [orb].
  do 2 f_equal. unfold sub. replace (Z.to_nat (flen h + (Z.of_nat (length k) + 1 + Z.of_nat b))) with (length (h ++ bs " ") + (length k + b))%nat by (rewrite app_length; change (length (bs " ")) with 1%nat; unfold flen; lia).
  replace (Z.to_nat (flen h + 1 + Z.of_nat e)) with (length (h ++ bs " ") + e)%nat by (rewrite app_length; change (length (bs " ")) with 1%nat; unfold flen; lia).
  rewrite app_assoc. rewrite skipn_app. rewrite skipn_all2 by lia. cbn [app]. replace (length (h ++ bs " ") + (length k + b) - length (h ++ bs " "))%nat with (length k + b)%nat by lia. f_equal. lia.
Qed.
Lemma index_from_in l : forall s k i n d, nth_error l i = Some (n, d) -> In (n, (s, k + Z.of_nat i)) (index_from k s l).
Proof.
  induction l as [|[n0 d0] l IH]; intros s k [|i] n d H; try discriminate.
  - cbn in H. injection H as -> ->. left. do 2 f_equal. lia.
  - cbn in H. right. replace (k + Z.of_nat (S i)) with (k + 1 + Z.of_nat i) by lia. eapply IH, H.
Qed.
Lemma eligible_in w order o : In o (eligible w order) -> exists z, mget (fst o) (objects w) = Some (mkObj (Some (snd o)) None z).
Proof.
  unfold eligible. intros H. apply in_flat_map in H as (n & _ & H). destruct (mget n (objects w)) as [[[c|] [?|] z]|] eqn:E; try contradiction. destruct H as [<-|[]]. eauto.
Qed.
Theorem stream_read_late (inflate : bytes -> option bytes) deflate order w idx w' : (forall x, inflate (deflate x) = Some x) ->
  createObjectStreams deflate order w = (Some idx, w') ->
  0 <= nextObjNum w -> (forall n, mget n (objects w) <> None -> 0 <= n < 2 ^ 63) ->
  exists l data first a dict, l <> [] /\ (forall o, In o l -> exists z, mget (fst o) (objects w) = Some (mkObj (Some (snd o)) None z)) /\
    mget (nextObjNum w) (objects w') = Some (mkObj None (Some (deflate data)) (Some a)) /\ mget a (dicts w') = Some dict /\
    kget (bs "/First") dict = Some (VInt first) /\ kget (bs "/N") dict = Some (VInt (Z.of_nat (length l))) /\
    (Z.of_nat (index_length l) + flen data < 2 ^ 63 -> flen (deflate data) < 2 ^ 63 ->
     forall i n d, nth_error l i = Some (n, d) -> In (n, (nextObjNum w, Z.of_nat i)) idx /\
       forall f pre post, f = pre ++ objstm_object (nextObjNum w) (Z.of_nat (length l)) first (deflate data) ++ post ->
         (forall j, (j < length pre)%nat -> m_num0obj (nextObjNum w) (skipn j f) = None) ->
         GetObjectFromStream inflate None f n (nextObjNum w) (Z.of_nat i) = read_late (index_length l) l i).
Proof.
  intros Hz Hc Hs Hn. unfold createObjectStreams in Hc. destruct (useObjectStream w); [|discriminate]. cbn [negb] in Hc.
  pose proof (eligible_in w order) as He. destruct (eligible w order) as [|o0 l0]; [discriminate|]. set (l := o0 :: l0) in *.
  pose proof (shifted_read l) as HS. destruct (objstm_data l) as [h data] eqn:Ed. injection Hc as <- <-.
  exists l, data, (Z.of_nat (length h)), (WriterModel.fresh (dicts w)). eexists. split; [discriminate|]. split; [exact He|].
  split; [cbn [objects set_next set_dicts set_objects]; rewrite mget_mset, Z.eqb_refl; reflexivity|].
  split; [cbn [dicts set_next set_dicts set_objects]; rewrite mget_mset, Z.eqb_refl; reflexivity|].
  split; [reflexivity|split; [reflexivity|]].
  intros Hl Hr i n d Hi. split; [change (Z.of_nat i) with (0 + Z.of_nat i); apply (index_from_in l (nextObjNum w) 0 i n d Hi)|].
  intros f pre post Hf Hno. assert (Hh : flen h <= flen data).
  { unfold objstm_data in Ed. injection Ed as <- <-. unfold flen. rewrite !app_length. lia. }
  rewrite (read_objstm inflate f pre (nextObjNum w) (Z.of_nat (length l)) (Z.of_nat (length h)) (deflate data) data post n (Z.of_nat i)); try assumption; try lia.
  - change (Z.of_nat (length h)) with (flen h). apply (HS i n d Hi); [|exact Hl].
    intros o Ho. destruct (He o Ho) as (z & Hm). apply Hn. congruence.
  - change (flen h) with (Z.of_nat (length h)) in Hh. unfold flen in *. lia.
  - apply Hz.
Qed.
Lemma rtrim_length f s : (length (rtrim f s) <= length s)%nat.
Proof.
  unfold rtrim. rewrite rev_length, <- (rev_length s). generalize (rev s). intros t. induction t as [|b t IH]; [apply le_n|]. cbn [drop_while length]. destruct (f b); [lia|apply le_n].
Qed.
Theorem last_lost k l i n d : nth_error l i = Some (n, d) -> length l = S i -> (0 < k)%nat -> read_late k l i <> Ok d.
Proof.
  intros Hi Hl Hk. assert (Hne : l <> []) by (intros ->; destruct i; discriminate). unfold read_late. rewrite Hl. replace (S i <? S i)%nat with false by (symmetry; apply Nat.ltb_irrefl).
  destruct ((length (objects_text l) <=? k + begins l i)%nat || (length (objects_text l) <? length (objects_text l))%nat) eqn:E; [discriminate|].
  apply orb_false_iff in E as (E & _). apply Nat.leb_gt in E. intros Q. injection Q as Q. apply (f_equal (@length byte)) in Q. pose proof (rtrim_length is_blank (sub (k + begins l i) (length (objects_text l)) (objects_text l))) as R.
  unfold trim_right_blank in Q. rewrite Q in R. unfold sub in R. rewrite firstn_length, skipn_length in R.
  pose proof (joined_body l Hne) as HJ. assert (begins l i + S (length d) = S (length (objects_text l)))%nat.
  { rewrite HJ. unfold begins. replace l with (firstn i l ++ [(n, d)]) at 2.
    - rewrite map_app, list_sum_app. cbn [map list_sum fold_right snd]. rewrite Nat.add_0_r. reflexivity.
    - rewrite <- (firstn_skipn i l) at 2. f_equal. clear - Hi Hl. revert i Hi Hl. induction l as [|o l IH]; intros [|i] Hi Hl; try discriminate.
      + cbn in *. injection Hi as ->. destruct l; [reflexivity|discriminate].
      + cbn in *. apply IH; [exact Hi|lia]. }
  unfold bytes in *. lia.
Qed.
Theorem short_lost k l i : (length (objects_text l) <= k)%nat -> read_late k l i = Err.
Proof. intros H. unfold read_late. replace (length (objects_text l) <=? k + begins l i)%nat with true; [reflexivity|]. symmetry. apply Nat.leb_le. lia. Qed.
Lemma index_length_pos l : l <> [] -> (forall o, In o l -> 0 <= fst o) -> (0 < index_length l)%nat.
Proof.
  intros H Hn. unfold index_length. destruct l as [|[n d] l]; [congruence|]. cbn [index_words]. pose proof (decZ_nonnil n (Hn (n, d) (or_introl eq_refl))) as Q.
  destruct (decZ n) as [|c r]; [congruence|]. cbn [join app length]. lia.
Qed.
Theorem last_never l i n d : nth_error l i = Some (n, d) -> length l = S i -> (forall o, In o l -> 0 <= fst o) ->
  read_late (index_length l) l i <> Ok d.
Proof. intros Hi Hl Hn. eapply last_lost; [exact Hi|exact Hl|apply index_length_pos; [intros ->; destruct i; discriminate|exact Hn]]. Qed.
