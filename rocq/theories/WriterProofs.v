From Verif Require Import WriterModel WriterSpec.
Local Open Scope Z_scope.

(* ---------------------------------------------------------------- *)
(** C06: registry *)

Definition latest_result (n : Z) (evs : list event) : result bytes :=
  match latest n evs with Some b => Ok b | None => Err end.

Definition reg_inv (w : writer) (evs : list event) : Prop :=
  (forall n, WGetObject n w = latest_result n evs) /\
  (forall n, In n (map ev_num evs) -> n < nextObjNum w) /\
  (forall n, mget n (objects w) <> None <-> In n (map ev_num evs)) /\
  fresh_numbers evs.

Lemma stream_data_fst deflate data cmp : fst (stream_data deflate data cmp) = stored_bytes deflate data cmp.
Proof. destruct data as [[|b r]|]; cbn; try reflexivity. destruct cmp; reflexivity. Qed.

Lemma WGet_mset n k o w h nx :
  WGetObject n (set_next (set_dicts (set_objects w (mset k o (objects w))) h) nx) =
  if n =? k then match oContent o with Some c => Ok c | None => match oStream o with Some s => Ok s | None => Err end end
  else WGetObject n w.
Proof.
  unfold WGetObject. cbn [objects set_next set_dicts set_objects]. rewrite mget_mset.
  destruct (n =? k); reflexivity.
Qed.

Lemma WGet_set n k o w :
  WGetObject n (set_objects w (mset k o (objects w))) =
  if n =? k then match oContent o with Some c => Ok c | None => match oStream o with Some s => Ok s | None => Err end end
  else WGetObject n w.
Proof.
  unfold WGetObject. cbn [objects set_objects]. rewrite mget_mset. destruct (n =? k); reflexivity.
Qed.

Lemma reg_step (w w' : writer) evs k o b added bnum :
  reg_inv w evs ->
  objects w' = mset k o (objects w) ->
  (match oContent o with Some c => Some c | None => oStream o end) = b ->
  (added = true -> k = nextObjNum w) ->
  nextObjNum w <= nextObjNum w' -> k < nextObjNum w' ->
  reg_inv w' (mkEvent added k b bnum :: evs).
Proof.
  intros (H1 & H2 & H3 & H4) Hobj Hb Hadd Hle Hlt. split; [|split; [|split]].
  - intros n. unfold latest_result. cbn [latest ev_num ev_bytes].
    unfold WGetObject. rewrite Hobj, mget_mset. rewrite (Z.eqb_sym k n).
    destruct (Z.eqb_spec n k) as [->|Hne].
    + rewrite <- Hb. destruct (oContent o); [reflexivity|]. destruct (oStream o); reflexivity.
    + specialize (H1 n). unfold WGetObject, latest_result in H1. exact H1.
  - intros n [<-|Hn]; cbn [ev_num]; [lia|]. specialize (H2 n Hn). lia.
  - intros n. split.
    + intros Hn. rewrite Hobj, mget_mset in Hn. cbn [map ev_num In].
      destruct (Z.eqb_spec n k) as [Heq|Hne]; [left; symmetry; exact Heq|right; apply H3; exact Hn].
    + intros Hn. rewrite Hobj, mget_mset. cbn [map ev_num In] in Hn.
      destruct (Z.eqb_spec n k) as [Heq|Hne]; [discriminate|].
      destruct Hn as [Hn|Hn]; [congruence|]. apply H3. exact Hn.
  - cbn [fresh_numbers ev_added ev_num]. split; [|exact H4]. intros Ha Hin. specialize (H2 _ Hin).
    rewrite (Hadd Ha) in H2. lia.
Qed.

Lemma reg_call deflate c w w' evs e :
  reg_inv w evs -> do_call deflate c w = Ok (w', e) -> reg_inv w' (e ++ evs).
Proof.
  intros Hinv. destruct c as [d|content|a data cmp|n content|n a data cmp]; cbn [do_call].
  - intros H; injection H as <- <-. exact Hinv.
  - unfold AddObject. intros H; injection H as <- <-. cbn [app].
    eapply reg_step; [exact Hinv|reflexivity| |reflexivity|cbn; lia|cbn; lia].
    cbn. destruct content; reflexivity.
  - unfold AddStreamObject. destruct (mget a (dicts w)) as [d|]; [|discriminate].
    pose proof (stream_data_fst deflate data cmp) as Hsd.
    destruct (stream_data deflate data cmp) as [sd cc]. cbn [fst] in Hsd. subst sd.
    intros H; injection H as <- <-. cbn [app].
    eapply reg_step; [exact Hinv|reflexivity|reflexivity|reflexivity|cbn; lia|cbn; lia].
  - unfold SetObject. intros H; injection H as <- <-. cbn [app].
    eapply (reg_step w _ evs n (mkObj content None None)); [exact Hinv| | |discriminate| |].
    + destruct (nextObjNum w <=? n); reflexivity.
    + cbn. destruct content; reflexivity.
    + destruct (nextObjNum w <=? n) eqn:E; cbn; lia.
    + destruct (nextObjNum w <=? n) eqn:E; cbn; lia.
  - unfold SetStreamObject. destruct (mget a (dicts w)) as [d|]; [|discriminate].
    pose proof (stream_data_fst deflate data cmp) as Hsd.
    destruct (stream_data deflate data cmp) as [sd cc]. cbn [fst] in Hsd. subst sd.
    intros H; injection H as <- <-. cbn [app].
    eapply (reg_step w _ evs n (mkObj None (stored_bytes deflate data cmp) (Some a))); [exact Hinv| | |discriminate| |].
    + destruct (nextObjNum w <=? n); reflexivity.
    + reflexivity.
    + destruct (nextObjNum w <=? n) eqn:E; cbn; lia.
    + destruct (nextObjNum w <=? n) eqn:E; cbn; lia.
Qed.

Lemma reg_calls deflate cs : forall w evs w' evs',
  reg_inv w evs -> do_calls deflate cs w evs = Ok (w', evs') -> reg_inv w' evs'.
Proof.
  induction cs as [|c cs IH]; intros w evs w' evs' Hinv; cbn [do_calls].
  - intros H; injection H as <- <-. exact Hinv.
  - destruct (do_call deflate c w) as [[w1 e]| |] eqn:E; [|discriminate|discriminate].
    apply IH. eapply reg_call; eassumption.
Qed.

Lemma reg_init : reg_inv NewPDFWriter [].
Proof.
  split; [|split; [|split]].
  - reflexivity.
  - intros n [].
  - intros n. split; [intros H; exfalso; apply H; reflexivity|intros []].
  - exact I.
Qed.

Lemma registry deflate cs w evs :
  do_calls deflate cs NewPDFWriter [] = Ok (w, evs) ->
  fresh_numbers evs /\
  (forall n, WGetObject n w = match latest n evs with Some b => Ok b | None => Err end) /\
  (forall n, In n (map ev_num evs) -> n < NextObjectNumber w).
Proof.
  intros H. destruct (reg_calls deflate cs _ _ _ _ reg_init H) as (H1 & H2 & _ & H4). auto.
Qed.

(* ---------------------------------------------------------------- *)
(** Stream lengths *)

Definition len_inv (w : writer) (evs : list event) : Prop :=
  (forall a l, latest_length a evs = Some l ->
    exists d, mget a (dicts w) = Some d /\ kget (bs "Length") d = Some (VInt l)) /\
  (forall a, latest_length a evs <> None -> mget a (dicts w) <> None).

Lemma fresh_not_in (h : zmap dict) : mget (fresh h) h = None.
Proof.
  apply mget_none. intros Hin.
  assert (forall x, In x (map fst h) -> x < fresh h) as Hlt.
  { clear. induction h as [|[k v] h IH]; intros x; cbn [map fst In fresh fold_right]; [intros []|].
    fold (fresh h). intros [->|Hx]; [lia|]. specialize (IH x Hx). lia. }
  specialize (Hlt _ Hin). lia.
Qed.

Lemma stream_dict_length d sd c : kget (bs "Length") (stream_dict d sd c) = Some (VInt (blen sd)).
Proof. unfold stream_dict. rewrite kget_kset, bytes_eqb_refl. reflexivity. Qed.

Lemma len_step_stream w w' evs a d k added sd c :
  len_inv w evs -> mget a (dicts w) = Some d ->
  dicts w' = mset a (stream_dict d sd c) (dicts w) ->
  len_inv w' (mkEvent added k sd (Some a) :: evs).
Proof.
  intros [H1 H2] Ha Hd. split.
  - intros x l. cbn [latest_length ev_dict ev_bytes]. rewrite Hd, mget_mset, (Z.eqb_sym a x).
    destruct (Z.eqb_spec x a) as [->|Hne].
    + intros H; injection H as <-. exists (stream_dict d sd c). split; [reflexivity|]. apply stream_dict_length.
    + intros H. apply H1 in H. exact H.
  - intros x. cbn [latest_length ev_dict]. rewrite Hd, mget_mset, (Z.eqb_sym a x).
    destruct (Z.eqb_spec x a); [discriminate|]. apply H2.
Qed.

Lemma len_call deflate c w w' evs e :
  len_inv w evs -> do_call deflate c w = Ok (w', e) -> len_inv w' (e ++ evs).
Proof.
  intros Hinv. destruct c as [d|content|a data cmp|n content|n a data cmp]; cbn [do_call].
  - intros H; injection H as <- <-. destruct Hinv as [H1 H2].
    assert (forall x, latest_length x evs <> None -> (x =? fresh (dicts w)) = false) as Hne.
    { intros x Hx. apply Z.eqb_neq. intros ->. apply (H2 _ Hx). apply fresh_not_in. }
    split; cbn [app dicts set_dicts].
    + intros x l Hl. rewrite mget_mset, Hne by (rewrite Hl; discriminate). apply H1. exact Hl.
    + intros x Hx. rewrite mget_mset, Hne by exact Hx. apply H2. exact Hx.
  - unfold AddObject. intros H; injection H as <- <-. exact Hinv.
  - unfold AddStreamObject. destruct (mget a (dicts w)) as [d|] eqn:Ea; [|discriminate].
    pose proof (stream_data_fst deflate data cmp) as Hsd.
    destruct (stream_data deflate data cmp) as [sd cc]. cbn [fst] in Hsd. subst sd.
    intros H; injection H as <- <-. eapply len_step_stream; [exact Hinv|exact Ea|reflexivity].
  - unfold SetObject. intros H; injection H as <- <-. cbn [app]. destruct (nextObjNum w <=? n); exact Hinv.
  - unfold SetStreamObject. destruct (mget a (dicts w)) as [d|] eqn:Ea; [|discriminate].
    pose proof (stream_data_fst deflate data cmp) as Hsd.
    destruct (stream_data deflate data cmp) as [sd cc]. cbn [fst] in Hsd. subst sd.
    intros H; injection H as <- <-. eapply len_step_stream; [exact Hinv|exact Ea|].
    destruct (nextObjNum w <=? n); reflexivity.
Qed.

Lemma len_calls deflate cs : forall w evs w' evs',
  len_inv w evs -> do_calls deflate cs w evs = Ok (w', evs') -> len_inv w' evs'.
Proof.
  induction cs as [|c cs IH]; intros w evs w' evs' Hinv; cbn [do_calls].
  - intros H; injection H as <- <-. exact Hinv.
  - destruct (do_call deflate c w) as [[w1 e]| |] eqn:E; [|discriminate|discriminate].
    apply IH. eapply len_call; eassumption.
Qed.

Lemma stream_lengths deflate cs w evs a l :
  do_calls deflate cs NewPDFWriter [] = Ok (w, evs) ->
  latest_length a evs = Some l ->
  exists d, mget a (dicts w) = Some d /\ kget (bs "Length") d = Some (VInt l).
Proof.
  intros H. assert (len_inv NewPDFWriter []) as Hi by (split; cbn; [discriminate|intros a0 Hc; exfalso; apply Hc; reflexivity]).
  destruct (len_calls deflate cs _ _ _ _ Hi H) as [H1 _]. apply H1.
Qed.

(* ---------------------------------------------------------------- *)
(** C09: dictionary output does not depend on iteration order *)

Lemma format_pairs_perm l1 l2 :
  NoDup (map fst l1) -> Permutation l1 l2 -> format_pairs l1 = format_pairs l2.
Proof. intros Hnd HP. unfold format_pairs. rewrite (sortK_perm_eq _ _ Hnd HP). reflexivity. Qed.

Lemma map_fst_fmt (d : dict) (f : value -> bytes) :
  map fst (map (fun kv => (fst kv, f (snd kv))) d) = map fst d.
Proof. rewrite map_map. apply map_ext. reflexivity. Qed.

Fixpoint same_value_format v v' (H : same_value v v') : formatValue v = formatValue v'.
Proof.
  destruct H as [v|l l' Hl|d d1 d' Hd HP Hnd].
  - reflexivity.
  - cbn [formatValue]. f_equal. f_equal. f_equal.
    induction Hl as [|x y l l' Hxy Hl IH]; [reflexivity|].
    cbn [map]. rewrite (same_value_format _ _ Hxy), IH. reflexivity.
  - cbn [formatValue].
    assert (map (fun kv => (fst kv, formatValue (snd kv))) d =
            map (fun kv => (fst kv, formatValue (snd kv))) d1) as E.
    { clear HP Hnd. induction Hd as [|x y l l' Hxy Hl IH]; [reflexivity|].
      cbn [map]. rewrite IH. destruct Hxy as [Hk Hv]. rewrite Hk, (same_value_format _ _ Hv). reflexivity. }
    rewrite E. apply format_pairs_perm; [|apply Permutation_map; exact HP].
    rewrite <- E, map_fst_fmt. exact Hnd.
Qed.

Lemma formatDictionary_VDict d : formatDictionary d = formatValue (VDict d).
Proof. reflexivity. Qed.

Lemma mkeys_update_catalog w n :
  mget n (objects (updateCatalogWithOutlines w)) <> None <-> mget n (objects w) <> None.
Proof.
  unfold updateCatalogWithOutlines.
  destruct (outlinesRef w) as [out|]; [|reflexivity].
  destruct (rootRef w) as [root|]; [|reflexivity].
  destruct (root =? 0); [reflexivity|].
  destruct (mget root (objects w)) as [o|] eqn:Eo; [|reflexivity].
  assert (forall o', mget n (mset root o' (objects w)) <> None <-> mget n (objects w) <> None) as Hm.
  { intros o'. rewrite mget_mset. destruct (Z.eqb_spec n root) as [->|]; [|reflexivity].
    rewrite Eo. split; discriminate. }
  destruct (oDict o) as [a|].
  - destruct (mget a (dicts w)); [|reflexivity]. apply Hm.
  - set (s := match oContent o with Some c => c | None => [] end).
    destruct (contains (bs "/Type") s && contains (bs "/Pages") s); [apply Hm|].
    destruct (contains (bs "/Outlines") s); [reflexivity|].
    destruct (last_index (bs ">>") s) as [[|i]|]; [reflexivity|apply Hm|reflexivity].
Qed.

Lemma update_catalog_fields w :
  useXRefStream (updateCatalogWithOutlines w) = useXRefStream w /\
  useObjectStream (updateCatalogWithOutlines w) = useObjectStream w /\
  nextObjNum (updateCatalogWithOutlines w) = nextObjNum w /\
  pdfVersion (updateCatalogWithOutlines w) = pdfVersion w /\
  rootRef (updateCatalogWithOutlines w) = rootRef w /\
  infoRef (updateCatalogWithOutlines w) = infoRef w /\
  encryptRef (updateCatalogWithOutlines w) = encryptRef w /\
  fileID (updateCatalogWithOutlines w) = fileID w.
Proof.
  unfold updateCatalogWithOutlines.
  destruct (outlinesRef w) as [out|]; [|repeat split].
  destruct (rootRef w) as [root|] eqn:Er; [|rewrite Er; repeat split].
  destruct (root =? 0); [rewrite Er; repeat split|].
  destruct (mget root (objects w)) as [o|]; [|rewrite Er; repeat split].
  destruct (oDict o) as [a|].
  - destruct (mget a (dicts w)); [|rewrite Er; repeat split]. cbn. rewrite Er. repeat split.
  - set (s := match oContent o with Some c => c | None => [] end).
    destruct (contains (bs "/Type") s && contains (bs "/Pages") s); [cbn; rewrite Er; repeat split|].
    destruct (contains (bs "/Outlines") s); [rewrite Er; repeat split|].
    destruct (last_index (bs ">>") s) as [[|i]|]; cbn; rewrite Er; repeat split.
Qed.

Lemma createObjectStreams_off deflate order w :
  useObjectStream w = false -> createObjectStreams deflate order w = (None, w).
Proof. intros H. unfold createObjectStreams. rewrite H. reflexivity. Qed.

Lemma write_order deflate o1 o2 enc w :
  is_order o1 -> is_order o2 -> useObjectStream w = false ->
  Write deflate o1 enc w = Write deflate o2 enc w.
Proof.
  intros H1 H2 Hs. unfold Write.
  destruct (update_catalog_fields w) as (_ & Hu & _). rewrite Hs in Hu.
  rewrite !createObjectStreams_off by exact Hu. cbv zeta.
  rewrite (sortZ_perm_eq (o1 _) (o2 (mkeys (objects (updateCatalogWithOutlines w))))); [reflexivity|].
  rewrite (H1 _), (H2 _). reflexivity.
Qed.

Lemma write_objs_heap objs sm h pos nums :
  snd (write_objs None objs sm h pos nums) = h.
Proof.
  revert pos. induction nums as [|n nums IH]; intros pos; [reflexivity|].
  cbn [write_objs]. destruct (mget n objs) as [o|]; [|apply IH].
  destruct (mem n sm); [apply IH|].
  assert (snd (obj_body None h n o) = h) as Hb.
  { unfold obj_body. destruct (oStream o); [reflexivity|]. destruct (oContent o); reflexivity. }
  destruct (obj_body None h n o) as [body h']. cbn [snd] in Hb. subst h'. cbv zeta.
  specialize (IH (pos + Z.of_nat (length (obj_text n body)))).
  destruct (write_objs None objs sm h _ nums) as [[rest ps] h2]. exact IH.
Qed.

Lemma write_again deflate order w :
  useObjectStream w = false -> useXRefStream w = false -> outlinesRef w = None ->
  snd (Write deflate order None w) = w.
Proof.
  intros Hs Hx Ho. unfold Write.
  assert (updateCatalogWithOutlines w = w) as -> by (unfold updateCatalogWithOutlines; rewrite Ho; reflexivity).
  rewrite createObjectStreams_off by exact Hs. cbv zeta.
  pose proof (write_objs_heap (objects w) [] (dicts w) (Z.of_nat (length (pdf_header (pdfVersion w))))
    (sortZ (order (mkeys (objects w))))) as Hh.
  destruct (write_objs None (objects w) [] (dicts w) _ _) as [[body ps] h]. cbn [snd] in Hh. subst h.
  rewrite Hx. cbn [snd]. destruct w. reflexivity.
Qed.

(* ---------------------------------------------------------------- *)
(** C07: positions *)

Definition body_of enc h n o : bytes := fst (obj_body enc h n o).

Lemma write_objs_spec enc objs h pos nums body ps h' :
  write_objs enc objs [] h pos nums = (body, ps, h') ->
  NoDup nums -> 0 <= pos ->
  (forall n, In n nums -> mget n objs <> None) ->
  (forall n, ~ In n nums -> mget n ps = None) /\
  (forall n, In n nums -> exists o hn pre post,
      mget n objs = Some o /\
      mget n ps = Some (pos + Z.of_nat (length pre)) /\
      body = pre ++ obj_text n (body_of enc hn n o) ++ post /\
      (enc = None -> hn = h)).
Proof.
  revert h pos body ps h'. induction nums as [|n nums IH]; intros h pos body ps h' H Hnd Hpos Hk.
  - cbn [write_objs] in H. injection H as <- <- <-. split; [intros; reflexivity|intros n []].
  - cbn [write_objs] in H.
    inversion Hnd as [|x y Hni Hnd']; subst.
    destruct (mget n objs) as [o|] eqn:Eo; [|exfalso; apply (Hk n); [left; reflexivity|exact Eo]].
    cbn [mem mget] in H. unfold mem in H. cbn [mget] in H.
    destruct (obj_body enc h n o) as [bd h1] eqn:Eb. cbv zeta in H.
    destruct (write_objs enc objs [] h1 (pos + Z.of_nat (length (obj_text n bd))) nums) as [[rest ps'] h2] eqn:Er.
    injection H as <- <- <-.
    assert (enc = None -> h1 = h) as Hh1.
    { intros ->. unfold obj_body in Eb. destruct (oStream o); [|destruct (oContent o)]; injection Eb as _ <-; reflexivity. }
    destruct (IH h1 _ rest ps' h2 Er Hnd' ltac:(lia)) as [I1 I2].
    { intros m Hm. apply Hk. right. exact Hm. }
    split.
    + intros m Hm. cbn [mget]. destruct (Z.eqb_spec m n) as [->|Hne].
      * exfalso. apply Hm. left. reflexivity.
      * apply I1. intros Hc. apply Hm. right. exact Hc.
    + intros m [<-|Hm].
      * exists o, h, [], rest. cbn [mget app length]. rewrite Z.eqb_refl. rewrite Z.add_0_r.
        unfold body_of. rewrite Eb. repeat split; auto.
      * destruct (I2 m Hm) as (o' & hn & pre & post & E1 & E2 & E3 & E4).
        exists o', hn, (obj_text n bd ++ pre), post. repeat split; auto.
        -- cbn [mget]. destruct (Z.eqb_spec m n) as [->|Hne]; [contradiction|].
           rewrite E2. f_equal. rewrite app_length. lia.
        -- rewrite E3. rewrite <- app_assoc. reflexivity.
        -- intros He. rewrite (E4 He). apply Hh1. exact He.
Qed.

Lemma skipn_app_exact {A} (a b : list A) : skipn (length a) (a ++ b) = b.
Proof. rewrite skipn_app, skipn_all, Nat.sub_diag. reflexivity. Qed.

Lemma occurs_intro out pre s post p :
  out = pre ++ s ++ post -> p = Z.of_nat (length pre) -> occurs_at out p s.
Proof.
  intros -> ->. split; [lia|]. rewrite Nat2Z.id, skipn_app_exact. apply prefixb_app.
Qed.

Lemma occurs_prefix out p s t : occurs_at out p (s ++ t) -> occurs_at out p s.
Proof.
  intros [H1 H2]. split; [exact H1|]. apply prefixb_spec in H2. destruct H2 as [r Hr].
  rewrite Hr, <- app_assoc. apply prefixb_app.
Qed.

(** A flat_map of equally long pieces can be indexed. *)
Lemma flat_map_fixed {A} (f : A -> bytes) k (l : list A) i x :
  (forall y, In y l -> length (f y) = k) ->
  nth_error l i = Some x ->
  exists pre post, flat_map f l = pre ++ f x ++ post /\ length pre = (k * i)%nat.
Proof.
  revert i. induction l as [|y l IH]; intros i Hk Hi; [destruct i; discriminate|].
  destruct i as [|i]; cbn [nth_error] in Hi.
  - injection Hi as ->. exists [], (flat_map f l). split; [reflexivity|cbn [length]; lia].
  - destruct (IH i) as (pre & post & E1 & E2); [intros z Hz; apply Hk; right; exact Hz|exact Hi|].
    exists (f y ++ pre), post. cbn [flat_map]. rewrite E1, <- app_assoc. split; [reflexivity|].
    rewrite app_length, E2, (Hk y); [lia|left; reflexivity].
Qed.

Lemma range1_nth n i : 1 <= i < n -> nth_error (range1 n) (Z.to_nat (i - 1)) = Some i.
Proof.
  intros H. unfold range1. rewrite nth_error_map, nth_error_nth' with (d := 0%nat).
  - rewrite seq_nth by lia. cbn [option_map]. f_equal. lia.
  - rewrite seq_length. lia.
Qed.

Lemma range1_in n i : In i (range1 n) <-> 1 <= i < n.
Proof.
  unfold range1. rewrite in_map_iff. split.
  - intros [k [<- Hk]]. apply in_seq in Hk. lia.
  - intros H. exists (Z.to_nat i). split; [lia|]. apply in_seq. lia.
Qed.

Lemma dec_length_bound n k : (n < 10 ^ N.of_nat k)%N -> (1 <= k)%nat -> (length (dec n) <= k)%nat.
Proof. intros H1 H2. apply dec_length; assumption. Qed.


Lemma occurs_app_l out p s q : occurs_at out p s -> occurs_at (out ++ q) p s.
Proof.
  intros [H1 H2]. split; [exact H1|]. apply prefixb_spec in H2. destruct H2 as [r Hr].
  destruct (Nat.le_gt_cases (length out) (Z.to_nat p)) as [Hle|Hgt].
  - rewrite skipn_all2 in Hr by exact Hle. symmetry in Hr. apply app_eq_nil in Hr. destruct Hr as [-> _]. reflexivity.
  - rewrite skipn_app. replace (Z.to_nat p - length out)%nat with 0%nat by lia. cbn [skipn].
    rewrite Hr, <- app_assoc. apply prefixb_app.
Qed.

Lemma write_table deflate order enc w out :
  is_order order -> useXRefStream w = false -> useObjectStream w = false ->
  fst (Write deflate order enc w) = out ->
  Z.of_nat (length out) < 10 ^ 10 ->
  exists x body, out = body ++ startxref_text x /\
    table_ok out x (nextObjNum w) (fun i => mem i (objects w))
      (fun i t => enc = None -> stored_text (updateCatalogWithOutlines w) i t).
Proof.
  intros Hord Hx Hs Hout Hlen. unfold Write in Hout.
  destruct (update_catalog_fields w) as (Ux & Us & Un & _).
  pose proof (mkeys_update_catalog w) as Hmem. set (w1 := updateCatalogWithOutlines w) in *.
  rewrite createObjectStreams_off in Hout by (rewrite Us; exact Hs). cbv zeta in Hout.
  remember (pdf_header (pdfVersion w1)) as head eqn:Ehead in Hout.
  destruct (write_objs enc (objects w1) [] (dicts w1) (Z.of_nat (length head))
              (sortZ (order (mkeys (objects w1))))) as [[body ps] h] eqn:Ew.
  rewrite Ux, Hx in Hout. cbn [fst] in Hout.
  destruct (write_objs_spec _ _ _ _ _ _ _ _ Ew) as [P1 P2].
  { apply sortZ_nodup. apply (Permutation_NoDup (Permutation_sym (Hord _))). apply mkeys_nodup. }
  { lia. }
  { intros n Hn. rewrite sortZ_in in Hn. apply (Permutation_in n (Hord _)) in Hn.
    apply mkeys_in in Hn. destruct Hn as [v Hv]. congruence. }
  assert (forall n, In n (sortZ (order (mkeys (objects w1)))) <-> mget n (objects w1) <> None) as Hin.
  { intros n. rewrite sortZ_in. split; intros H.
    - apply (Permutation_in n (Hord _)) in H. apply mkeys_in in H. destruct H as [v Hv]. congruence.
    - apply (Permutation_in n (Permutation_sym (Hord _))). apply mkeys_in.
      destruct (mget n (objects w1)) as [v|]; [eauto|congruence]. }
  assert (forall n p, mget n ps = Some p -> 0 <= p /\ p <= Z.of_nat (length (head ++ body))) as Hpos.
  { intros n p Hp. destruct (in_dec Z.eq_dec n (sortZ (order (mkeys (objects w1))))) as [Hi|Hi].
    - destruct (P2 n Hi) as (o & hn & pre & post & _ & E & Eb & _).
      rewrite E in Hp. injection Hp as <-. rewrite app_length.
      assert (length pre <= length body)%nat; [|lia].
      rewrite Eb, app_length. lia.
    - rewrite (P1 n Hi) in Hp. discriminate. }
  rewrite Un in Hout.
  set (X := Z.of_nat (length (head ++ body))) in *.
  assert (X < 10 ^ 10) as HX.
  { rewrite <- Hout in Hlen. rewrite app_length in Hlen. lia. }
  assert (forall i, length (table_entry ps i) = 20%nat) as H20.
  { intros i. unfold table_entry. destruct (mget i ps) as [p|] eqn:E; [|reflexivity].
    rewrite !app_length, dec_pad_length; [reflexivity| |lia].
    destruct (Hpos i p E). change (10 ^ N.of_nat 10)%N with 10000000000%N.
    change (10 ^ 10) with 10000000000 in HX. lia. }
  exists X, ((head ++ body) ++ xref_table (nextObjNum w) ps ++ trailer_text w1 (nextObjNum w)).
  split.
  { rewrite <- Hout, !app_assoc. reflexivity. }
  unfold table_ok. cbv zeta.
  set (hdr := bs "xref" ++ nl ++ bs "0 " ++ decZ (nextObjNum w) ++ nl).
  assert (xref_table (nextObjNum w) ps =
          hdr ++ (bs "0000000000 65535 f " ++ nl) ++ flat_map (table_entry ps) (range1 (nextObjNum w))) as Ext.
  { unfold xref_table, hdr. rewrite !app_assoc. reflexivity. }
  assert (forall pre s post, xref_table (nextObjNum w) ps = pre ++ s ++ post ->
            occurs_at out (X + Z.of_nat (length pre)) s) as Hocc.
  { intros pre s post E. eapply occurs_intro with (pre := (head ++ body) ++ pre).
    - rewrite <- Hout, E, <- !app_assoc. reflexivity.
    - rewrite !app_length. unfold X. rewrite app_length. lia. }
  split; [|split].
  - replace X with (X + Z.of_nat (length (@nil byte))) by (cbn; lia).
    eapply Hocc. rewrite Ext. reflexivity.
  - rewrite Z.mul_0_r, Z.add_0_r. eapply Hocc. rewrite Ext. reflexivity.
  - intros i Hi.
    destruct (flat_map_fixed (table_entry ps) 20 (range1 (nextObjNum w)) (Z.to_nat (i - 1)) i)
      as (pre & post & E1 & E2); [intros; apply H20|apply range1_nth; exact Hi|].
    assert (occurs_at out (X + Z.of_nat (length hdr) + 20 * i) (table_entry ps i)) as Hent.
    { replace (X + Z.of_nat (length hdr) + 20 * i)
        with (X + Z.of_nat (length (hdr ++ (bs "0000000000 65535 f " ++ nl) ++ pre))).
      - eapply Hocc. rewrite Ext, E1, <- !app_assoc. reflexivity.
      - rewrite !app_length, E2. change (length (bs "0000000000 65535 f ") + length nl)%nat with 20%nat. lia. }
    unfold mem. unfold table_entry in Hent.
    destruct (mget i (objects w)) as [o0|] eqn:Eo.
    + assert (In i (sortZ (order (mkeys (objects w1))))) as Hii by (apply Hin, Hmem; congruence).
      destruct (P2 i Hii) as (o & hn & pre' & post' & Eo' & Ep & Eb & Eh). rewrite Ep in Hent.
      exists (Z.of_nat (length head) + Z.of_nat (length pre')), (body_of enc hn i o). repeat split.
      * apply Hent.
      * apply Hent.
      * destruct (Hpos _ _ Ep) as [Hp1 Hp2]. apply dec_pad_length; [|lia].
        change (10 ^ N.of_nat 10)%N with 10000000000%N. change (10 ^ 10) with 10000000000 in HX. lia.
      * intros He. exists o. split; [exact Eo'|]. rewrite (Eh He). subst enc. unfold body_of, obj_body.
        destruct (oStream o) as [s|]; [cbn [fst]|destruct (oContent o); reflexivity].
        reflexivity.
      * lia.
      * eapply occurs_intro with (pre := head ++ pre').
        -- rewrite <- Hout, Eb. unfold obj_text. rewrite <- !app_assoc. reflexivity.
        -- rewrite app_length. lia.
    + rewrite P1 in Hent; [exact Hent|]. rewrite Hin, Hmem. congruence.
Qed.

(* ---------------------------------------------------------------- *)
(** Writing twice *)

Definition weq (w v : writer) : Prop :=
  (forall n, mget n (objects w) = mget n (objects v)) /\
  (forall a, mget a (dicts w) = mget a (dicts v)) /\
  nextObjNum w = nextObjNum v /\ rootRef w = rootRef v /\ infoRef w = infoRef v /\
  encryptRef w = encryptRef v /\ outlinesRef w = outlinesRef v /\ fileID w = fileID v /\
  pdfVersion w = pdfVersion v /\ useXRefStream w = useXRefStream v /\ useObjectStream w = useObjectStream v.

Lemma mkeys_ext {A} (m m' : zmap A) : (forall n, mget n m = mget n m') -> Permutation (mkeys m) (mkeys m').
Proof.
  intros H. apply NoDup_Permutation; try apply mkeys_nodup.
  intros x. rewrite !mkeys_in, H. reflexivity.
Qed.

Lemma write_objs_ext objs objs' h h' pos nums :
  (forall n, mget n objs = mget n objs') -> (forall a, mget a h = mget a h') ->
  fst (write_objs None objs [] h pos nums) = fst (write_objs None objs' [] h' pos nums).
Proof.
  intros Ho Hh. revert pos. induction nums as [|n nums IH]; intros pos; [reflexivity|].
  cbn [write_objs]. rewrite <- Ho. destruct (mget n objs) as [o|]; [|apply IH].
  destruct (mem n []); [apply IH|].
  assert (fst (obj_body None h n o) = fst (obj_body None h' n o) /\
          snd (obj_body None h n o) = h /\ snd (obj_body None h' n o) = h') as (E1 & E2 & E3).
  { unfold obj_body. destruct (oStream o) as [s|].
    - destruct (oDict o) as [a|]; [rewrite (Hh a)|]; auto.
    - destruct (oContent o); auto. }
  destruct (obj_body None h n o) as [b h1], (obj_body None h' n o) as [b' h1']. cbn [fst snd] in *. subst.
  specialize (IH (pos + Z.of_nat (length (obj_text n b')))).
  destruct (write_objs None objs [] h _ nums) as [[r p] q], (write_objs None objs' [] h' _ nums) as [[r' p'] q'].
  cbn [fst] in *. congruence.
Qed.

Lemma trailer_ext w v next : weq w v -> trailer_text w next = trailer_text v next.
Proof.
  intros (_ & _ & _ & Hr & Hi & He & _ & Hf & _). unfold trailer_text. rewrite Hr, Hi, He, Hf. reflexivity.
Qed.

Lemma write_ext deflate order w v :
  is_order order -> useXRefStream w = false -> useObjectStream w = false ->
  weq (updateCatalogWithOutlines w) (updateCatalogWithOutlines v) ->
  fst (Write deflate order None w) = fst (Write deflate order None v).
Proof.
  intros Hord Hx Hs He. unfold Write.
  destruct (update_catalog_fields w) as (Ux & Us & _).
  set (w1 := updateCatalogWithOutlines w) in *. set (v1 := updateCatalogWithOutlines v) in *.
  pose proof He as (E1 & E2 & E3 & _ & _ & _ & _ & _ & E9 & E10 & E11).
  rewrite !createObjectStreams_off by congruence. cbv zeta.
  assert (sortZ (order (mkeys (objects w1))) = sortZ (order (mkeys (objects v1)))) as Ek.
  { apply sortZ_perm_eq. rewrite (Hord _), (Hord _). apply mkeys_ext. exact E1. }
  rewrite Ek, E9.
  pose proof (write_objs_ext (objects w1) (objects v1) (dicts w1) (dicts v1)
                (Z.of_nat (length (pdf_header (pdfVersion v1)))) (sortZ (order (mkeys (objects v1)))) E1 E2) as Eb.
  destruct (write_objs None (objects w1) [] _ _ _) as [[b p] h],
    (write_objs None (objects v1) [] _ _ _) as [[b' p'] h']. cbn [fst] in Eb. injection Eb as -> ->.
  rewrite <- E10, Ux, Hx. cbn [fst]. rewrite E3, (trailer_ext w1 v1 _ He). reflexivity.
Qed.

Lemma kset_kset {A} k (v : A) m : kset k v (kset k v m) = kset k v m.
Proof.
  induction m as [|[k1 v1] m IH]; cbn [kset].
  - rewrite bytes_eqb_refl. reflexivity.
  - destruct (bytes_eqb k k1) eqn:E; cbn [kset]; rewrite ?E, ?bytes_eqb_refl; [reflexivity|].
    rewrite IH. reflexivity.
Qed.

Lemma weq_refl w : weq w w.
Proof. repeat split. Qed.

Lemma contains_app_mid a p b : contains p (a ++ p ++ b) = true.
Proof.
  unfold contains. destruct (index p (a ++ p ++ b)) as [i|] eqn:E; [reflexivity|].
  exfalso. rewrite index_none in E. specialize (E (length a)). rewrite skipn_app_exact, prefixb_app in E.
  rewrite app_length in E. specialize (E ltac:(lia)). discriminate.
Qed.

Lemma contains_true p s : contains p s = true <-> exists j, (j <= length s)%nat /\ prefixb p (skipn j s) = true.
Proof.
  unfold contains. destruct (index p s) as [i|] eqn:E.
  - split; [|reflexivity]. intros _. apply index_some in E. exists i. tauto.
  - split; [discriminate|]. intros [j [H1 H2]]. rewrite index_none in E. rewrite E in H2 by exact H1. discriminate.
Qed.

Lemma decZ_bytes x z : In x (decZ z) -> is_digit x = true \/ x = "-"%byte.
Proof.
  assert (forall n, In x (dec n) -> is_digit x = true) as Hd.
  { intros n. pose proof (dec_digits n) as H. rewrite forallb_forall in H. apply H. }
  destruct z as [|q|q]; cbn [decZ]; intros H; [left; eapply Hd; exact H|left; eapply Hd; exact H|].
  destruct H as [<-|H]; [right; reflexivity|left; eapply Hd; exact H].
Qed.

Lemma prefixb_short p a b : prefixb p a = false -> (length p <= length a)%nat -> prefixb p (a ++ b) = false.
Proof.
  revert a. induction p as [|x p IH]; intros [|y a]; cbn [prefixb app length]; try discriminate; try lia.
  intros H Hl. destruct (beqb x y); [|reflexivity]. cbn [andb] in *. apply IH; [exact H|lia].
Qed.

(** Text [x :: u] inserted into a string cannot create an occurrence of
    [x :: p] when [x] is neither in [p] nor in [u]. *)
Lemma contains_insert x p a u b :
  ~ In x p -> ~ In x u -> prefixb (x :: p) (x :: u ++ b) = false ->
  contains (x :: p) (a ++ (x :: u) ++ b) = true -> contains (x :: p) (a ++ b) = true.
Proof.
  intros Hp Hu H0 Hc. apply contains_true in Hc. destruct Hc as [j [Hj Hpre]].
  apply contains_true.
  destruct (Nat.lt_ge_cases j (length a)) as [Hlt|Hge].
  - exists j. split; [rewrite app_length; lia|].
    rewrite skipn_app in Hpre |- *. replace (j - length a)%nat with 0%nat in * by lia. cbn [skipn] in *.
    destruct (skipn j a) as [|y r] eqn:Er.
    { assert (length (skipn j a) = 0%nat) as Hl by (rewrite Er; reflexivity). rewrite skipn_length in Hl. lia. }
    cbn [app prefixb] in Hpre |- *. apply andb_true_iff in Hpre. destruct Hpre as [Hy Hr].
    rewrite prefixb_sep in Hr by exact Hp. rewrite Hy. cbn [andb].
    apply prefixb_spec in Hr. destruct Hr as [t ->]. rewrite <- app_assoc. apply prefixb_app.
  - rewrite skipn_app, skipn_all2 in Hpre by exact Hge. cbn [app] in Hpre.
    destruct (j - length a)%nat as [|k] eqn:Ek; [cbn [skipn] in Hpre; congruence|].
    cbn [skipn] in Hpre.
    destruct (Nat.lt_ge_cases k (length u)) as [Hk|Hk].
    + exfalso. rewrite skipn_app in Hpre. destruct (skipn k u) as [|y r] eqn:Er.
      { assert (length (skipn k u) = 0%nat) as Hl by (rewrite Er; reflexivity). rewrite skipn_length in Hl. lia. }
      cbn [app prefixb] in Hpre. apply andb_true_iff in Hpre. destruct Hpre as [Hy _].
      apply beqb_eq in Hy. subst y. apply Hu. rewrite <- (firstn_skipn k u), Er. apply in_app_iff. right. left. reflexivity.
    + exists (length a + (k - length u))%nat. split; [|].
      * rewrite !app_length in *. cbn [length] in Hj. lia.
      * rewrite skipn_app, skipn_all2 in Hpre by exact Hk. cbn [app] in Hpre.
        rewrite skipn_app, skipn_all2 by lia. cbn [app].
        replace (length a + (k - length u) - length a)%nat with (k - length u)%nat by lia. exact Hpre.
Qed.

Lemma update_catalog_twice w :
  weq (updateCatalogWithOutlines (updateCatalogWithOutlines w)) (updateCatalogWithOutlines w).
Proof.
  remember (updateCatalogWithOutlines w) as w1 eqn:E1.
  unfold updateCatalogWithOutlines in E1.
  destruct (outlinesRef w) as [out|] eqn:Eout;
    [|subst w1; unfold updateCatalogWithOutlines; rewrite Eout; apply weq_refl].
  destruct (rootRef w) as [root|] eqn:Eroot;
    [|subst w1; unfold updateCatalogWithOutlines; rewrite Eout, Eroot; apply weq_refl].
  destruct (root =? 0) eqn:E0;
    [subst w1; unfold updateCatalogWithOutlines; rewrite Eout, Eroot, E0; apply weq_refl|].
  destruct (mget root (objects w)) as [o|] eqn:Eo;
    [|subst w1; unfold updateCatalogWithOutlines; rewrite Eout, Eroot, E0, Eo; apply weq_refl].
  assert (forall d a, w1 =
     set_dicts (set_objects w (mset root (mkObj (Some (formatDictionary (kset (bs "/Outlines") (VStr (ref out)) d)))
       (oStream o) (Some a)) (objects w))) (mset a (kset (bs "/Outlines") (VStr (ref out)) d) (dicts w)) ->
     weq (updateCatalogWithOutlines w1) w1) as Hdict.
  { intros d a ->. unfold updateCatalogWithOutlines.
    cbn [outlinesRef rootRef objects dicts set_dicts set_objects]. rewrite Eout, Eroot, E0, !mget_mset_eq.
    cbn [oDict oStream]. rewrite !mget_mset_eq, kset_kset. unfold weq. cbn -[formatDictionary kset mset mget].
    repeat split; auto.
    - intros n. rewrite !mget_mset. destruct (n =? root); reflexivity.
    - intros n. rewrite !mget_mset. destruct (n =? a); reflexivity. }
  destruct (oDict o) as [a|] eqn:Ea.
  - destruct (mget a (dicts w)) as [d|] eqn:Ed.
    + apply (Hdict d a). exact E1.
    + subst w1. unfold updateCatalogWithOutlines. rewrite Eout, Eroot, E0, Eo, Ea, Ed. apply weq_refl.
  - cbv zeta in E1. set (s := match oContent o with Some c => c | None => [] end) in *.
    destruct (contains (bs "/Type") s && contains (bs "/Pages") s) eqn:Ec.
    + eapply Hdict. exact E1.
    + destruct (contains (bs "/Outlines") s) eqn:Eco.
      { subst w1. unfold updateCatalogWithOutlines. rewrite Eout, Eroot, E0, Eo, Ea. cbv zeta. fold s.
        rewrite Ec, Eco. apply weq_refl. }
      destruct (last_index (bs ">>") s) as [[|i]|] eqn:El.
      * subst w1. unfold updateCatalogWithOutlines. rewrite Eout, Eroot, E0, Eo, Ea. cbv zeta. fold s.
        rewrite Ec, Eco, El. apply weq_refl.
      * subst w1. unfold updateCatalogWithOutlines at 1.
        cbn [outlinesRef rootRef objects dicts set_dicts set_objects]. rewrite Eout, Eroot, E0, mget_mset_eq.
        cbn [oDict oStream oContent].
        set (s' := firstn (S i) s ++ bs "/Outlines " ++ ref out ++ bs " " ++ skipn (S i) s).
        assert (contains (bs "/Outlines") s' = true) as Hc.
        { unfold s'. change (bs "/Outlines ") with (bs "/Outlines" ++ bs " "). rewrite <- !app_assoc.
          apply contains_app_mid. }
        destruct (contains (bs "/Type") s' && contains (bs "/Pages") s') eqn:Ec'.
        2:{ rewrite Hc. apply weq_refl. }
        exfalso. apply andb_true_iff in Ec'. destruct Ec' as [T1 T2].
        assert (forall x, In x (bs "Outlines " ++ ref out ++ bs " ") -> x <> "/"%byte) as Hns.
        { intros x Hx. rewrite !in_app_iff in Hx. destruct Hx as [Hx|[Hx|Hx]].
          - cbn in Hx. intros ->. intuition discriminate.
          - unfold ref in Hx. apply in_app_iff in Hx. destruct Hx as [Hx|Hx].
            + intros ->. apply decZ_bytes in Hx. destruct Hx; discriminate.
            + cbn in Hx. intros ->. intuition discriminate.
          - cbn in Hx. intros ->. intuition discriminate. }
        assert (s = firstn (S i) s ++ skipn (S i) s) as Es by (symmetry; apply firstn_skipn).
        assert (forall p, ~ In "/"%byte p -> prefixb ("/"%byte :: p) (bs "/Outlines") = false ->
                  (length p < 9)%nat ->
                  contains ("/"%byte :: p) s' = true -> contains ("/"%byte :: p) s = true) as Hins.
        { intros p Hp Hp2 Hpl Hcp. rewrite Es. apply (contains_insert _ _ _ (bs "Outlines " ++ ref out ++ bs " ")).
          - exact Hp.
          - intros Hin. apply (Hns _ Hin). reflexivity.
          - change ("/"%byte :: (bs "Outlines " ++ ref out ++ bs " ") ++ skipn (S i) s)
              with (bs "/Outlines" ++ (bs " " ++ ref out ++ bs " ") ++ skipn (S i) s).
            apply prefixb_short; [exact Hp2|cbn [length]; cbn; lia].
          - assert (firstn (S i) s ++ ("/"%byte :: bs "Outlines " ++ ref out ++ bs " ") ++ skipn (S i) s = s') as E'.
            { unfold s'. rewrite <- !app_comm_cons, <- !app_assoc. reflexivity. }
            rewrite E'. exact Hcp. }
        assert (contains (bs "/Type") s = true) as R1.
        { apply Hins; [cbn; intuition discriminate|reflexivity|cbn; lia|exact T1]. }
        assert (contains (bs "/Pages") s = true) as R2.
        { apply Hins; [cbn; intuition discriminate|reflexivity|cbn; lia|exact T2]. }
        rewrite R1, R2 in Ec. discriminate.
      * subst w1. unfold updateCatalogWithOutlines. rewrite Eout, Eroot, E0, Eo, Ea. cbv zeta. fold s.
        rewrite Ec, Eco, El. apply weq_refl.
Qed.

Lemma write_twice deflate order w :
  is_order order -> useXRefStream w = false -> useObjectStream w = false ->
  fst (Write deflate order None (snd (Write deflate order None w))) = fst (Write deflate order None w).
Proof.
  intros Hord Hx Hs.
  destruct (update_catalog_fields w) as (Ux & Us & _).
  assert (snd (Write deflate order None w) = updateCatalogWithOutlines w) as ->.
  { unfold Write. set (w1 := updateCatalogWithOutlines w) in *.
    rewrite createObjectStreams_off by congruence. cbv zeta.
    pose proof (write_objs_heap (objects w1) [] (dicts w1) (Z.of_nat (length (pdf_header (pdfVersion w1))))
      (sortZ (order (mkeys (objects w1))))) as Hh.
    destruct (write_objs None (objects w1) [] (dicts w1) _ _) as [[body ps] h]. cbn [snd] in Hh. subst h.
    rewrite Ux, Hx. cbn [snd]. destruct w1. reflexivity. }
  apply write_ext; [exact Hord|congruence|congruence|]. apply update_catalog_twice.
Qed.

Lemma table_entry_too_long i p positions :
  mget i positions = Some p -> 10 ^ 10 <= p -> length (table_entry positions i) <> 20%nat.
Proof.
  intros Hp Hle. unfold table_entry. rewrite Hp, !app_length. change (length (bs " 00000 n ") + length nl)%nat with 10%nat.
  assert (11 <= length (dec_pad 10 (Z.to_N p)))%nat; [|lia].
  destruct (Nat.le_gt_cases 11 (length (dec_pad 10 (Z.to_N p)))) as [H|H]; [exact H|exfalso].
  pose proof (num_bound (dec_pad 10 (Z.to_N p)) (dec_pad_digits _ _)) as Hb.
  rewrite num_dec_pad in Hb.
  assert (10 ^ N.of_nat (length (dec_pad 10 (Z.to_N p))) <= 10 ^ 10)%N as Hm by (apply N.pow_le_mono_r; lia).
  change (10 ^ 10)%N with 10000000000%N in Hm. change (10 ^ 10) with 10000000000 in Hle. lia.
Qed.

Lemma set_stream_text deflate n a d data cmp w w' :
  mget a (dicts w) = Some d ->
  SetStreamObject deflate n a (Some data) cmp w = Ok w' ->
  exists s d', stored_bytes deflate (Some data) cmp = Some s /\ mget a (dicts w') = Some d' /\
    kget (bs "Length") d' = Some (VInt (Z.of_nat (length s))) /\
    (forall k, k <> bs "Length" -> k <> bs "Filter" -> kget k d' = kget k d) /\
    stored_text w' n (formatDictionary d' ++ bs "
stream
" ++ s ++ bs "
endstream").
Proof.
  intros Hd. unfold SetStreamObject. rewrite Hd.
  pose proof (stream_data_fst deflate (Some data) cmp) as Hsd.
  destruct (stream_data deflate (Some data) cmp) as [sd c] eqn:Esd. cbn [fst] in Hsd. subst sd.
  assert (exists s, stored_bytes deflate (Some data) cmp = Some s) as [s Hs].
  { destruct data as [|b r]; cbn; eauto. }
  rewrite Hs. intros H; injection H as <-.
  exists s, (stream_dict d (Some s) c).
  split; [reflexivity|].
  assert (forall w0 : writer, objects w0 = mset n (mkObj None (Some s) (Some a)) (objects w) ->
    dicts w0 = mset a (stream_dict d (Some s) c) (dicts w) ->
    mget a (dicts w0) = Some (stream_dict d (Some s) c) /\
    kget (bs "Length") (stream_dict d (Some s) c) = Some (VInt (Z.of_nat (length s))) /\
    (forall k, k <> bs "Length" -> k <> bs "Filter" -> kget k (stream_dict d (Some s) c) = kget k d) /\
    stored_text w0 n (formatDictionary (stream_dict d (Some s) c) ++ bs "
stream
" ++ s ++ bs "
endstream")) as Hgen.
  { intros w0 Ho Hdi. split; [rewrite Hdi; apply mget_mset_eq|]. split; [apply stream_dict_length|]. split.
    - intros k Hk1 Hk2. unfold stream_dict. rewrite kget_kset.
      replace (bytes_eqb k (bs "Length")) with false by (symmetry; apply bytes_eqb_neq; exact Hk1).
      destruct c; [|reflexivity]. rewrite kget_kset.
      replace (bytes_eqb k (bs "Filter")) with false by (symmetry; apply bytes_eqb_neq; exact Hk2). reflexivity.
    - exists (mkObj None (Some s) (Some a)). rewrite Ho. split; [apply mget_mset_eq|].
      cbn [oStream oDict]. rewrite Hdi, mget_mset_eq. reflexivity. }
  destruct (nextObjNum w <=? n); apply Hgen; reflexivity.
Qed.
