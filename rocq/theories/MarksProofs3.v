(** Proofs about annotations.go, resources.go, images.go, extract.go and
    directory.go. *)
From Verif Require Import Scan ReadProofs MarksModel MarksSpec ManipSpec ManipProofs ManipProofs2 ManipProofs3 PageModel PageSpec
  XPagesSpec XPagesProofs XPagesProofs2 XPagesProofs3 XrefProofs ParseSpec MarksProofs.
From Verif Require CompareProofs3.
From Coq Require Import Lia ZArith.
Local Open Scope Z_scope.

(* -------------------- arrays of numbers -------------------- *)
Lemma ws0_skip g r : forallb ManipSpec.space_byte g = true -> starts_with is_ws r = false -> ws0 (g ++ r) = r.
Proof.
  intros Hg Hr. unfold ws0. induction g as [|b g IH].
  - cbn [app]. destruct r as [|c r]; [reflexivity|]. cbn [starts_with] in Hr. cbn [drop_while]. rewrite Hr. reflexivity.
  - cbn [forallb] in Hg. apply andb_true_iff in Hg. destruct Hg as [H1 H2]. cbn [app drop_while]. rewrite space_is_ws in H1. rewrite H1. apply IH, H2.
Qed.
Section annots.
Context (parse_float : bytes -> option float).
Lemma numbers_fields ws l : Forall2 (fun w x => numeral w /\ parse_float w = Some x) ws l ->
  flat_map (fun p => match parse_float p with Some x => [x] | None => [] end) (fields is_space (flat_map (fun w => w ++ bs " ") ws)) = l.
Proof.
  induction 1 as [|w x ws l [Hw Hp] _ IH]; [reflexivity|]. cbn [flat_map]. rewrite <- app_assoc.
  destruct (numeral_space w Hw) as [N1 N2].
  change (bs " " ++ flat_map (fun w => w ++ bs " ") ws) with (" "%byte :: flat_map (fun w => w ++ bs " ") ws).
  rewrite (fields_word is_space w " "%byte) by (try assumption; reflexivity). cbn [flat_map]. rewrite Hp, IH. reflexivity.
Qed.
Lemma array_value t key l : ManipSpec.key_name key -> array_says parse_float t key l -> extractArrayValue parse_float t key = l.
Proof.
  intros Hk (Hl & a & g & ws & b & -> & Ha & Hg & Hw). unfold extractArrayValue.
  rewrite (find_bracketed key a _ (flat_map (fun w => w ++ bs " ") ws) Hk Ha); [apply numbers_fields, Hw|].
  unfold m_bracketed. rewrite (proj2 (lit_some key _ _)) by reflexivity. cbn [obind Util.obind].
  rewrite (ws0_skip g) by (try assumption; reflexivity). rewrite (proj2 (lit_some (bs "[") _ _)) by reflexivity. cbn [obind Util.obind].
  set (s := flat_map (fun w => w ++ bs " ") ws).
  assert (Hs : forallb (fun b => negb (beqb b "]")) s = true).
  { unfold s. clear - Hw. induction Hw as [|w x ws l [[_ Hw] _] _ IH]; [reflexivity|]. cbn [flat_map]. rewrite !forallb_app, IH. cbn. rewrite !andb_true_r.
    apply forallb_forall. intros c Hc. rewrite forallb_forall in Hw. specialize (Hw c Hc). destruct c; try reflexivity; discriminate. }
  assert (T : take_while (fun b => negb (beqb b "]")) (s ++ bs "]" ++ b) = s /\ drop_while (fun b => negb (beqb b "]")) (s ++ bs "]" ++ b) = bs "]" ++ b).
  { clearbody s. clear - Hs. induction s as [|c s IH]; [split; reflexivity|]. cbn [forallb] in Hs. apply andb_true_iff in Hs. destruct Hs as [H1 H2].
    cbn [app take_while drop_while]. rewrite H1. destruct (IH H2) as [-> ->]. split; reflexivity. }
  destruct T as [-> ->]. destruct s as [|c s'] eqn:E.
  - exfalso. destruct Hw as [|w x ws l [[Hn _] _] _]; [congruence|]. unfold s in E. cbn [flat_map] in E.
    apply app_eq_nil in E. destruct E as [E _]. apply app_eq_nil in E. destruct E as [E _]. exact (Hn E).
  - rewrite (proj2 (lit_some (bs "]") _ b)) by reflexivity. reflexivity.
Qed.

Context (get : Z -> result bytes).
Lemma inner_parens u : inner (bs "(" ++ u ++ bs ")") = Ok u.
Proof.
  unfold inner, flen. rewrite !app_length. change (length (bs "(")) with 1%nat. change (length (bs ")")) with 1%nat.
  replace (Z.of_nat (1 + (length u + 1)) <? 2) with false by (symmetry; apply Z.ltb_ge; lia).
  change (skipn 1 (bs "(" ++ u ++ bs ")")) with (u ++ bs ")"). replace (1 + (length u + 1) - 2)%nat with (length u) by lia.
  rewrite firstn_app, firstn_all, Nat.sub_diag. cbn [firstn]. rewrite app_nil_r. reflexivity.
Qed.
Lemma types_table : annot_types = map (fun nm => (bs "/" ++ nm, map lower_byte nm)) annotation_names.
Proof. vm_compute. reflexivity. Qed.
Lemma type_ok st : type_named st (annot_type st).
Proof.
  unfold annot_type, type_named. destruct (kget st annot_types) as [y|] eqn:E.
  - left. apply CompareProofs3.kget_In in E. rewrite types_table in E. apply in_map_iff in E. destruct E as (nm & X & Hi).
    injection X as X1 X2. exists nm. split; [exact Hi|]. split; symmetry; assumption.
  - right. split.
    + intros nm Hn ->.
      assert (X : forall (l : list (bytes * bytes)) k v, In (k, v) l -> kget k l <> None).
      { clear. induction l as [|[k x] l IH]; [intros ? ? []|]. intros k0 v [H|H]; cbn [kget]; [injection H as -> ->; rewrite bytes_eqb_refl; discriminate|].
        destruct (bytes_eqb k0 k); [discriminate|eapply IH, H]. }
      refine (X annot_types _ (map lower_byte nm) _ E). rewrite types_table. apply in_map_iff. exists nm. split; [reflexivity|exact Hn].
    + unfold trim_prefix. destruct (prefixb (bs "/") st) eqn:P; [left|right; split; reflexivity].
      apply prefixb_spec in P. destruct P as [r ->]. reflexivity.
Qed.
Lemma annot_read n page t : get n = Ok t -> annot_object t ->
  exists a, extractAnnotation parse_float get n page = Ok (Some a) /\ annot_says parse_float n page t a.
Proof.
  intros Hg (st & Hne & Hst & Hu). unfold extractAnnotation, try_get. rewrite Hg. cbn [rbind].
  pose proof (says_value t (bs "/Subtype") st (key_lit (bs "Subtype") eq_refl) Hst) as V. rewrite V.
  destruct st as [|c st']; [congruence|]. remember (c :: st') as st eqn:Est.
  assert (U : exists uri, (if bytes_eqb (annot_type st) (bs "link") then link_uri get t else Ok []) = Ok uri /\
    (forall u, annot_type st = bs "link" -> says t (bs "/URI") (bs "(" ++ u ++ bs ")") -> unescaped u -> uri = u)).
  { destruct (bytes_eqb (annot_type st) (bs "link")) eqn:L.
    - unfold link_uri. destruct Hu as [Hu|[u Hu]].
      + pose proof (says_value t (bs "/URI") _ (key_lit (bs "URI") eq_refl) Hu) as VU. rewrite VU. exists []. split; [reflexivity|].
        intros u _ Hu' _. pose proof (says_value t (bs "/URI") _ (key_lit (bs "URI") eq_refl) Hu') as VU'. rewrite VU in VU'. discriminate.
      + pose proof (says_value t (bs "/URI") _ (key_lit (bs "URI") eq_refl) Hu) as VU. rewrite VU.
        pose proof (inner_parens u) as I. cbn [app] in I |- *.
        change (bs "(" ++ u ++ bs ")") with ("("%byte :: u ++ bs ")") in *. cbn iota.
        change (prefixb (bs "(") ("("%byte :: u ++ bs ")")) with (prefixb [] (u ++ bs ")")). 
        assert (prefixb [] (u ++ bs ")") = true) as -> by (destruct u; reflexivity). rewrite I. cbn [rmap]. eexists. split; [reflexivity|].
        intros u' _ Hu' N. pose proof (says_value t (bs "/URI") _ (key_lit (bs "URI") eq_refl) Hu') as VU'. rewrite VU in VU'.
        change (bs "(" ++ u' ++ bs ")") with ("("%byte :: u' ++ bs ")") in VU'. injection VU' as E. apply app_inv_tail in E. subst u'. apply unescape_id, N.
    - exists []. split; [reflexivity|]. intros u E. rewrite E in L. discriminate L. }
  destruct U as (uri & -> & HU). cbn [rmap]. eexists. split; [reflexivity|].
  unfold annot_says. cbn [xaID xaType xaPage xaRect xaContents xaTitle xaSubject xaColor xaBorder xaURI xaDest xaOpen xaIcon xaQuad].
  split; [reflexivity|]. split; [reflexivity|].
  split. { intros st2 H2. rewrite (says_value t (bs "/Subtype") _ (key_lit (bs "Subtype") eq_refl) H2) in V. rewrite V. apply type_ok. }
  split. { intros l H. rewrite (array_value t (bs "/Rect") l (key_lit (bs "Rect") eq_refl) H). reflexivity. }
  split. { intros v H N. apply text_says; [exact (key_lit (bs "Contents") eq_refl)|exact H|exact N]. }
  split. { intros v H N. apply text_says; [exact (key_lit (bs "T") eq_refl)|exact H|exact N]. }
  split. { intros v H N. apply text_says; [exact (key_lit (bs "Subj") eq_refl)|exact H|exact N]. }
  split. { intros r g b H. unfold annot_color. rewrite (array_value t (bs "/C") _ (key_lit (bs "C") eq_refl) H). reflexivity. }
  split. { intros r g b k H. unfold annot_color. rewrite (array_value t (bs "/C") _ (key_lit (bs "C") eq_refl) H). reflexivity. }
  split; [exact HU|].
  split. { intros v E H. rewrite E. cbn. apply says_value; [exact (key_lit (bs "Dest") eq_refl)|exact H]. }
  split. { intros v E H. rewrite E. cbn. apply says_value; [exact (key_lit (bs "Name") eq_refl)|exact H]. }
  split. { intros E H. rewrite E. rewrite (says_value t (bs "/Open") _ (key_lit (bs "Open") eq_refl) H). reflexivity. }
  intros x1 y1 x2 y2 x3 y3 x4 y4 E H.
  assert (existsb (bytes_eqb (annot_type st)) [bs "highlight"; bs "underline"; bs "strikeout"; bs "squiggly"] = true) as ->.
  { apply existsb_exists. exists (annot_type st). split; [exact E|apply bytes_eqb_refl]. }
  unfold annot_quad. rewrite (array_value t (bs "/QuadPoints") _ (key_lit (bs "QuadPoints") eq_refl) H). reflexivity.
Qed.
(** The annotations of a page: an array right after its key. *)
Lemma annots_read l v page : ref_array l v -> l <> [] -> (forall n, In n l -> get n = Err \/ exists t, get n = Ok t /\ annot_object t) ->
  exists as_, extractAnnotations parse_float get v page = Ok as_ /\
    Forall2 (fun n a => exists t, get n = Ok t /\ annot_says parse_float n page t a) (filter (fun n => is_ok (get n)) l) as_.
Proof.
  intros Hv Hl Hall. unfold extractAnnotations. pose proof (ref_texts_read _ _ (parse_ref_array l v Hv)) as P.
  destruct (parseObjectRefArray v) as [|r0 rs0] eqn:E0; [destruct l; [congruence|discriminate]|]. rewrite <- E0 in *. clear E0 Hv Hl.
  revert l P Hall. induction (parseObjectRefArray v) as [|r rs IH]; intros [|n l] P Hall; try discriminate.
  - exists []. split; [reflexivity|constructor].
  - cbn [map] in P. injection P as P1 P2. cbn [read_annots]. rewrite P1.
    destruct (IH l P2 (fun m Hm => Hall m (or_intror Hm))) as (as_ & R & F). rewrite R.
    destruct (Hall n (or_introl eq_refl)) as [G|(t & G & O)].
    + exists as_. unfold extractAnnotation at 1, try_get. rewrite G. cbn [rbind rmap filter]. rewrite G. split; [reflexivity|exact F].
    + destruct (annot_read n page t G O) as (a & Ea & Sa). rewrite Ea. cbn [rbind rmap]. exists (a :: as_). split; [reflexivity|].
      cbn [filter]. rewrite G. cbn [is_ok]. constructor; [exists t; split; assumption|exact F].
Qed.
End annots.
