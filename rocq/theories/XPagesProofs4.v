(** Proofs about content/extract/pages.go, part 4: a document built with the
    page builder is read back. *)
From Verif Require Import Scan WriterSpec ReadProofs XPagesModel XPagesSpec ManipProofs2 XrefProofs EncodingProofs PageModel PageProofs2 XPagesProofs
  XPagesProofs2 XPagesProofs3 ParseSpec ExtractSpec.
From Verif Require ManipSpec ManipProofs PageSpec PageProofs3 PageProofs EncodingProofs2 MetaProofs.
From Coq Require Import Lia ZArith Permutation.
Import PageSpec.
Local Open Scope Z_scope.

(* -------------------- the session -------------------- *)
Definition plain_writer (w : writer) : Prop :=
  useXRefStream w = false /\ useObjectStream w = false /\ encryptRef w = None /\ outlinesRef w = None /\ pdfVersion w = bs "1.7".
Definition font_entry_ok (w : writer) (tree : Z) (e : bytes * Z) : Prop :=
  (exists k, 0 <= k /\ fst e = bs "F" ++ decZ k) /\ exists name, font_word name /\ text_object w (snd e) (font_dict name) /\
  0 < snd e < nextObjNum w /\ snd e <> tree.
Definition pb_ok (w : writer) (tree : Z) (pb : page_builder) : Prop :=
  Forall (font_entry_ok w tree) (pbFonts pb) /\ NoDup (map fst (pbFonts pb)) /\ Forall entry_free (pbImages pb) /\
  numeral (pbWidth pb) /\ numeral (pbHeight pb).
Definition sess (s : session) : Prop :=
  let b := ssBuilder s in
  0 < nextObjNum (sbWriter b) /\ plain_writer (sbWriter b) /\
  Forall (pb_ok (sbWriter b) (sbPagesNum b)) (ssOpen s) /\ Forall (pb_ok (sbWriter b) (sbPagesNum b)) (ssDone s).

Lemma pb_ok_mono w w' tree tree' pb : extends w w' -> (tree' = tree \/ nextObjNum w <= tree') -> pb_ok w tree pb -> pb_ok w' tree' pb.
Proof.
  intros (E1 & E2 & E3) T (H1 & H2). split; [|exact H2].
  apply Forall_impl with (2 := H1). intros e (K & name & N1 & N2 & N3 & N4). split; [exact K|].
  exists name. split; [exact N1|]. split; [unfold text_object; rewrite E2 by lia; exact N2|]. split; [lia|]. destruct T as [->|T]; [exact N4|lia].
Qed.
Lemma Forall_pb_mono w w' tree tree' l : extends w w' -> (tree' = tree \/ nextObjNum w <= tree') -> Forall (pb_ok w tree) l -> Forall (pb_ok w' tree') l.
Proof. intros E T. apply Forall_impl. intros pb. apply pb_ok_mono; assumption. Qed.
Lemma Forall_replace {A} (P : A -> Prop) i a l : Forall P l -> P a -> Forall P (replace_nth i a l).
Proof.
  revert i. induction l as [|x l IH]; intros i H Ha; [destruct i; exact H|]. inversion H; subst. destruct i; cbn [replace_nth]; constructor; auto.
Qed.
Lemma plain_add_object c w : plain_writer w -> plain_writer (snd (AddObject c w)).
Proof. intros H. exact H. Qed.
Lemma plain_add_stream deflate d data cmp w : plain_writer w -> plain_writer (snd (add_stream deflate d data cmp w)).
Proof.
  intros H. unfold add_stream, AddStreamObject. cbn [dicts set_dicts]. rewrite mget_mset, Z.eqb_refl.
  destruct (stream_data deflate data cmp). exact H.
Qed.
Lemma edit_ok s i pb w : sess s -> extends (sbWriter (ssBuilder s)) w -> plain_writer w -> pb_ok w (sbPagesNum (ssBuilder s)) pb ->
  sess (mkSession (with_writer w (ssBuilder s)) (replace_nth i pb (ssOpen s)) (ssDone s)).
Proof.
  intros (H1 & H2 & H3 & H4) E P K. unfold sess. cbn [ssBuilder ssOpen ssDone with_writer sbWriter sbPagesNum].
  split; [destruct E; lia|]. split; [exact P|].
  split; [apply Forall_replace; [|exact K]|]; (eapply Forall_pb_mono; [exact E|left; reflexivity|assumption]).
Qed.
Lemma writer_ok s w : sess s -> extends (sbWriter (ssBuilder s)) w -> plain_writer w ->
  sess (mkSession (with_writer w (ssBuilder s)) (ssOpen s) (ssDone s)).
Proof.
  intros (H1 & H2 & H3 & H4) E P. unfold sess. cbn [ssBuilder ssOpen ssDone with_writer sbWriter sbPagesNum].
  split; [destruct E; lia|]. split; [exact P|]. split; (eapply Forall_pb_mono; [exact E|left; reflexivity|assumption]).
Qed.
Lemma open_ok s i pb : sess s -> nth_error (ssOpen s) i = Some pb -> pb_ok (sbWriter (ssBuilder s)) (sbPagesNum (ssBuilder s)) pb.
Proof. intros (_ & _ & H & _) E. rewrite Forall_forall in H. apply H. apply nth_error_In with i, E. Qed.

Lemma font_key_free k : 0 <= k -> name_free (bs "F" ++ decZ k).
Proof.
  intros H. split; [discriminate|]. pose proof (decZ_digits k H) as D. pose proof (decZ_nonnil k H) as N. split.
  - change (bs "F" ++ decZ k) with ("F"%byte :: decZ k). cbn [forallb]. change (is_word "F") with true. cbn [andb].
    rewrite forallb_forall in *. intros b Hb. unfold is_word. rewrite (D b Hb). reflexivity.
  - destruct (decZ k) as [|b s]; [contradiction|]. cbn [forallb] in D. apply andb_prop in D. destruct D as [D _].
    cbn. destruct b; try discriminate D; reflexivity.
Qed.
Lemma image_key_free k : 0 <= k -> name_free (bs "Im" ++ decZ k).
Proof.
  intros H. split; [discriminate|]. pose proof (decZ_digits k H) as D. split.
  - rewrite forallb_app. change (forallb is_word (bs "Im")) with true. cbn [andb].
    rewrite forallb_forall in *. intros b Hb. unfold is_word. rewrite (D b Hb). reflexivity.
  - reflexivity.
Qed.

Lemma kset_Forall {A} (P : bytes * A -> Prop) k v m : Forall P m -> P (k, v) -> Forall P (kset k v m).
Proof. apply MetaProofs.kset_Forall. Qed.
Lemma sess_step deflate ord c s : is_map_order ord -> bcall_ok c -> session_ok deflate s -> sess s -> sess (do_bcall deflate ord c s).
Proof.
  intros O Hc SO H. destruct c as [wd ht|i n|i n k|i n k|i t|i|t|d data cmp|l]; cbn [do_bcall]; cbn [bcall_ok] in Hc.
  - destruct H as (H1 & H2 & H3 & H4). unfold sess. cbn [ssBuilder ssOpen ssDone]. split; [exact H1|]. split; [exact H2|]. split; [|exact H4].
    apply Forall_app. split; [exact H3|]. apply Forall_cons; [|apply Forall_nil].
    split; [apply Forall_nil|]. split; [apply NoDup_nil|]. split; [apply Forall_nil|]. exact Hc.
  - destruct (nth_error (ssOpen s) i) as [pb|] eqn:E; [|exact H]. pose proof (open_ok s i pb H E) as K.
    unfold AddStandardFont. destruct (existsb _ _).
    + apply edit_ok; [exact H|apply extends_refl|apply H|exact K].
    + assert (X : extends (sbWriter (ssBuilder s)) (snd (AddObject (Some (font_dict n)) (sbWriter (ssBuilder s))))) by apply add_object_extends.
      destruct (AddObject (Some (font_dict n)) (sbWriter (ssBuilder s))) as [m w'] eqn:EA. cbn [snd] in X.
      assert (Em : m = nextObjNum (sbWriter (ssBuilder s)) /\ w' = snd (AddObject (Some (font_dict n)) (sbWriter (ssBuilder s)))) by (rewrite EA; unfold AddObject in EA; split; [congruence|reflexivity]).
      destruct Em as [Em Ew].
      assert (PW : plain_writer w') by (rewrite Ew; apply plain_add_object, H).
      apply edit_ok; [exact H|exact X|exact PW|].
      pose proof (pb_ok_mono _ _ _ _ _ X (or_introl eq_refl) K) as (K1 & K2 & K3).
      split; [|split; [apply kset_nodup, K2|exact K3]].
      cbn [pbFonts set_fonts]. apply kset_Forall; [exact K1|]. split.
      * exists (Z.of_nat (length (pbFonts pb)) + 1). split; [lia|reflexivity].
      * exists n. split; [exact Hc|]. cbn [snd]. split.
        { unfold text_object. rewrite Ew. cbn [AddObject snd objects set_next set_objects]. rewrite mget_mset, Em, Z.eqb_refl. reflexivity. }
        split.
        { rewrite Ew. cbn [AddObject snd nextObjNum set_next set_objects]. destruct H as [H _]. lia. }
        destruct SO as [W SO]. rewrite Em. destruct (ssDone s); [destruct SO as [-> _]; lia|destruct SO as [SO _]; lia].
  - contradiction.
  - destruct (nth_error (ssOpen s) i) as [pb|] eqn:E; [|exact H]. pose proof (open_ok s i pb H E) as (K1 & K2 & K3 & K4).
    apply edit_ok; [exact H|apply extends_refl|apply H|].
    split; [exact K1|]. split; [exact K2|]. split; [|exact K4]. cbn [PAddImage snd pbImages set_images]. apply kset_Forall; [exact K3|].
    destruct Hc as [Hn Hk]. split; [|exact Hk]. cbn [fst]. destruct n as [|b n].
    + change (unslash (bs "Im" ++ ?x)) with (bs "Im" ++ x). apply image_key_free. lia.
    + destruct Hn as [Hn|Hn]; [discriminate|exact Hn].
  - destruct (nth_error (ssOpen s) i) as [pb|] eqn:E; [|exact H]. pose proof (open_ok s i pb H E) as K.
    apply edit_ok; [exact H|apply extends_refl|apply H|exact K].
  - destruct (nth_error (ssOpen s) i) as [pb|] eqn:E; [|exact H]. pose proof (open_ok s i pb H E) as K.
    unfold FinalizePage.
    assert (R : exists p w1, (if sbPagesNum (ssBuilder s) =? 0 then reserve (sbWriter (ssBuilder s)) else (sbPagesNum (ssBuilder s), sbWriter (ssBuilder s))) = (p, w1)
      /\ extends (sbWriter (ssBuilder s)) w1 /\ plain_writer w1 /\ (p = sbPagesNum (ssBuilder s) \/ nextObjNum (sbWriter (ssBuilder s)) <= p)).
    { destruct (sbPagesNum (ssBuilder s) =? 0).
      - exists (nextObjNum (sbWriter (ssBuilder s))), (set_next (sbWriter (ssBuilder s)) (nextObjNum (sbWriter (ssBuilder s)) + 1)).
        split; [reflexivity|]. split; [split; [cbn; lia|split; auto]|]. split; [apply H|right; lia].
      - do 2 eexists. split; [reflexivity|]. split; [apply extends_refl|]. split; [apply H|left; reflexivity]. }
    destruct R as (p & w1 & -> & X1 & P1 & Hp).
    unfold Build.
    pose proof (add_stream_extends deflate [] (buffer (pbContent pb)) true w1) as X2.
    pose proof (plain_add_stream deflate [] (buffer (pbContent pb)) true w1 P1) as P2.
    destruct (add_stream deflate [] (buffer (pbContent pb)) true w1) as [c w2]. cbn [snd] in X2, P2.
    pose proof (add_object_extends (Some (page_dict ord p c pb)) w2) as X3.
    pose proof (plain_add_object (Some (page_dict ord p c pb)) w2 P2) as P3.
    destruct (AddObject (Some (page_dict ord p c pb)) w2) as [m w3]. cbn [snd] in X3, P3.
    pose proof (extends_trans _ _ _ X1 (extends_trans _ _ _ X2 X3)) as X.
    destruct H as (H1 & H2 & H3 & H4). unfold sess. cbn [ssBuilder ssOpen ssDone sbWriter sbPagesNum].
    split; [destruct X; lia|]. split; [exact P3|].
    split; [apply (Forall_pb_mono _ _ _ _ _ X Hp H3)|].
    apply Forall_app. split; [apply (Forall_pb_mono _ _ _ _ _ X Hp H4)|]. apply Forall_cons; [|apply Forall_nil]. apply (pb_ok_mono _ _ _ _ _ X Hp K).
  - apply writer_ok; [exact H|apply add_object_extends|apply plain_add_object, H].
  - apply writer_ok; [exact H|apply add_stream_extends|apply plain_add_stream, H].
  - contradiction.
Qed.
Lemma sess_calls deflate ord cs : is_map_order ord -> Forall bcall_ok cs -> sess (do_bcalls deflate ord cs).
Proof.
  intros O F. unfold do_bcalls.
  assert (G : forall cs s, Forall bcall_ok cs -> session_ok deflate s -> sess s -> sess (fold_left (fun s c => do_bcall deflate ord c s) cs s)).
  { intros l. induction l as [|c l IH]; intros s Fl S H; [exact H|]. inversion Fl; subst. cbn [fold_left].
    apply IH; [assumption|apply do_bcall_ok; assumption|apply (sess_step deflate); assumption]. }
  apply G; [exact F|split; [cbn; lia|split; reflexivity]|].
  split; [cbn; lia|]. split; [repeat split|]. split; apply Forall_nil.
Qed.
(** The writer when the document is finished. *)
Lemma finish_plain b : plain_writer (sbWriter b) -> plain_writer (sbWriter (finish b)).
Proof. intros H. unfold finish, SetObject. destruct (nextObjNum (sbWriter b) <=? sbPagesNum b); exact H. Qed.
Lemma finish_grows b : nextObjNum (sbWriter b) <= nextObjNum (sbWriter (finish b)).
Proof.
  unfold finish, SetObject. destruct (Z.leb_spec (nextObjNum (sbWriter b)) (sbPagesNum b)).
  - change (nextObjNum (sbWriter b) <= sbPagesNum b + 1 + 1). lia.
  - change (nextObjNum (sbWriter b) <= nextObjNum (sbWriter b) + 1). lia.
Qed.
Lemma finish_fonts b pb : pb_ok (sbWriter b) (sbPagesNum b) pb -> Forall (fun e => (exists k, 0 <= k /\ fst e = bs "F" ++ decZ k) /\
  exists name, font_word name /\ text_object (sbWriter (finish b)) (snd e) (font_dict name) /\ 0 < snd e < nextObjNum (sbWriter (finish b))) (pbFonts pb).
Proof.
  intros (H & _). apply Forall_impl with (2 := H). intros e (K & name & N1 & N2 & N3 & N4). split; [exact K|]. exists name. split; [exact N1|].
  unfold finish. cbn [AddObject sbWriter]. unfold SetObject.
  set (w := sbWriter b) in *.
  assert (M : forall n2 o2, n2 = nextObjNum w \/ n2 = sbPagesNum b + 1 ->
    nextObjNum w <= n2 -> mget (snd e) (mset n2 o2 (mset (sbPagesNum b) (mkObj (Some (pages_dict (sbPages b))) None None) (objects w))) = mget (snd e) (objects w)).
  { intros n2 o2 _ L. rewrite !mget_mset. replace (snd e =? n2) with false by (symmetry; apply Z.eqb_neq; lia).
    replace (snd e =? sbPagesNum b) with false by (symmetry; apply Z.eqb_neq; exact N4). reflexivity. }
  unfold text_object in *. destruct (Z.leb_spec (nextObjNum w) (sbPagesNum b)); cbn [sbWriter SetRoot objects nextObjNum set_next set_objects]; 
    split.
  - etransitivity; [eapply (M _ _); [right; reflexivity|lia]|exact N2].
  - change (0 < snd e < sbPagesNum b + 1 + 1). lia.
  - etransitivity; [eapply (M _ _); [left; reflexivity|lia]|exact N2].
  - change (0 < snd e < nextObjNum w + 1). lia.
Qed.

(* -------------------- the file -------------------- *)
Lemma ref_list_texts l : Forall (fun n => 0 <= n < 2 ^ 63) l -> ManipSpec.ref_list l (flat_map (fun n => decZ n ++ bs " 0 R ") l).
Proof.
  destruct l as [|n l]; intros H; [apply ManipSpec.rl_nil; reflexivity|].
  assert (G : forall l pre, forallb ManipSpec.space_byte pre = true -> Forall (fun n => 0 <= n < 2 ^ 63) l ->
    ManipSpec.ref_list l (pre ++ flat_map (fun n => decZ n ++ bs " 0 R ") l)).
  { clear. intros l. induction l as [|n l IH]; intros pre Hp H; [apply ManipSpec.rl_nil; rewrite app_nil_r; exact Hp|]. inversion H; subst.
    cbn [flat_map]. specialize (IH (bs " ") eq_refl H3).
    pose proof (ManipSpec.rl_cons n l pre (bs " ") (bs "0") (bs " ") (bs " " ++ flat_map (fun n => decZ n ++ bs " 0 R ") l) Hp H2) as X.
    rewrite <- !app_assoc in *. apply X; [split; [discriminate|reflexivity]|discriminate|reflexivity|split; [discriminate|reflexivity]|exact IH]. }
  apply (G (n :: l) []); [reflexivity|exact H].
Qed.
Lemma tree_shows n l : 0 <= n -> Forall (fun n => 0 <= n < 2 ^ 63) l -> shows_node (object_text n (kids_text l)) l.
Proof.
  intros Hn Hl. unfold object_text, kids_text. set (refs := flat_map (fun n => decZ n ++ bs " 0 R ") l).
  split.
  - left. unfold mentions.
    transitivity (contains (bs "/Type/Pages") ((decZ n ++ bs " 0 obj" ++ nl ++ bs "<<") ++ bs "/Type/Pages" ++
      bs "/Kids[" ++ refs ++ bs "]/Count " ++ decZ (Z.of_nat (length l)) ++ bs ">>" ++ nl ++ bs "endobj")).
    + f_equal. rewrite <- !app_assoc. reflexivity.
    + apply ManipProofs.contains_mid.
  - exists (decZ n ++ bs " 0 obj" ++ nl ++ bs "<</Type/Pages"), ("["%byte :: refs ++ ["]"%byte]),
      (bs "/Count " ++ decZ (Z.of_nat (length l)) ++ bs ">>" ++ nl ++ bs "endobj").
    split; [rewrite <- !app_assoc; cbn [app]; rewrite <- !app_assoc; reflexivity|].
    split; [exists refs; split; [reflexivity|apply ref_list_texts, Hl]|].
    split; (apply ReadProofs.nostart_contains; [discriminate|]; split_nostart; first [apply nostart_decZ; [lia|reflexivity]|apply nostartb_ok; reflexivity]).
Qed.
Lemma look_perm l l' k : Permutation l l' -> NoDup (map fst l) -> look (Some (standard_fonts l)) k = look (Some (standard_fonts l')) k.
Proof.
  intros P N. cbn [look]. unfold standard_fonts.
  assert (M : forall l : list (bytes * Z), map fst (map (fun e => (bs "/" ++ fst e, standard_decoder)) l) = map (app (bs "/")) (map fst l)).
  { intros x. rewrite !map_map. reflexivity. }
  assert (I : forall l : list (bytes * Z), NoDup (map fst l) -> NoDup (map fst (map (fun e => (bs "/" ++ fst e, standard_decoder)) l))).
  { intros x Hx. rewrite M. apply FinFun.Injective_map_NoDup; [|exact Hx]. intros a b Hab. injection Hab as Hab. exact Hab. }
  assert (N' : NoDup (map fst l')) by (eapply Permutation_NoDup; [apply Permutation_map, P|exact N]).
  destruct (kget k (map (fun e => (bs "/" ++ fst e, standard_decoder)) l)) as [d|] eqn:E; symmetry.
  - apply MetaProofs.kget_in; [apply I, N'|]. apply MetaProofs.kget_in in E; [|apply I, N].
    eapply Permutation_in; [apply Permutation_map, P|exact E].
  - destruct (kget k (map (fun e => (bs "/" ++ fst e, standard_decoder)) l')) as [d|] eqn:E'; [|reflexivity]. exfalso.
    apply MetaProofs.kget_in in E'; [|apply I, N']. eapply Permutation_in in E'; [|apply Permutation_map, Permutation_sym, P].
    apply MetaProofs.kget_in in E'; [congruence|apply I, N].
Qed.
Lemma pages_numbered rd one zero z i pbs ds : length pbs = length ds ->
  numbered i (map (fun x => page_read rd one zero z (dwWidth (snd x)) (dwHeight (snd x)) (standard_fonts (pbFonts (fst x))) (dwCalls (snd x)) 0) (combine pbs ds)) =
  pages_read rd one zero z (Z.of_nat i + 1) pbs ds.
Proof.
  revert i ds. induction pbs as [|pb pbs IH]; intros i [|d ds] L; try discriminate; [reflexivity|]. cbn [combine map numbered pages_read].
  f_equal. rewrite IH by (injection L; auto). f_equal. lia.
Qed.
Lemma combine_forall {A B C D} (P : A -> B -> Prop) (Q : A -> C -> Prop) (R : C -> D -> Prop) (f : A * B -> D) l1 l2 l3 :
  Forall2 P l1 l2 -> Forall2 Q l1 l3 -> (forall a b c, In a l1 -> P a b -> Q a c -> R c (f (a, b))) -> Forall2 R l3 (map f (combine l1 l2)).
Proof.
  intros H. revert l3. induction H as [|a b l1 l2 Hp H IH]; intros l3 H3 G; inversion H3; subst; cbn [combine map]; constructor.
  - apply G; [left; reflexivity|exact Hp|assumption].
  - apply IH; [assumption|]. intros a0 b0 c0 Hi. apply G. right. exact Hi.
Qed.
Lemma Forall2_len {A B} (P : A -> B -> Prop) l1 l2 : Forall2 P l1 l2 -> length l1 = length l2.
Proof. induction 1; cbn [length]; congruence. Qed.
Lemma in_forall2_r {A B} (P : A -> B -> Prop) l1 l2 b : Forall2 P l1 l2 -> In b l2 -> exists a, In a l1 /\ P a b.
Proof. induction 1; [intros []|]. intros [->|Hb]; [eexists; split; [left; reflexivity|assumption]|]. destruct IHForall2 as (a & H1 & H2); [exact Hb|]. exists a. split; [right|]; assumption. Qed.

Lemma Forall2_In_r {A B} (P : A -> B -> Prop) l1 l2 : Forall2 P l1 l2 -> Forall2 (fun a b => P a b /\ In b l2) l1 l2.
Proof.
  induction 1; constructor; [split; [assumption|left; reflexivity]|]. eapply Forall2_impl; [|exact IHForall2]. cbn beta. intros a b [H1 H2]. split; [exact H1|right; exact H2].
Qed.
Lemma font_entries_free w tree l : nextObjNum w < 2 ^ 63 -> Forall (font_entry_ok w tree) l -> Forall entry_free l.
Proof.
  intros B. apply Forall_impl. intros e ((k & Hk & E) & name & N1 & N2 & N3 & N4). split; [rewrite E; apply font_key_free, Hk|lia].
Qed.
Lemma free_perm l l' : Permutation l l' -> Forall entry_free l' -> Forall entry_free l.
Proof. intros P. apply Permutation_Forall, Permutation_sym, P. Qed.

Theorem built_read deflate order inflate crypt ord fmt parse_float rd one zero z calls s out drawn stack :
  do_bcalls deflate ord calls = s -> Forall bcall_ok calls -> ssDone s <> [] -> is_map_order ord -> is_order order ->
  (let w := sbWriter (finish (ssBuilder s)) in nextObjNum w <= 499 /\ forall n t, stored_text w n t -> readable t) ->
  fst (SBytes deflate order (ssBuilder s)) = out -> Z.of_nat (length out) < 10 ^ 10 ->
  number_ok fmt parse_float rd one -> number_ok fmt parse_float rd zero -> parse_float (bs "0") = Some z ->
  (forall x, inflate (deflate x ++ nl) = Some x) ->
  Forall2 (page_drawn deflate fmt parse_float rd one zero) (ssDone s) drawn -> (2 <= stack)%nat ->
  exists p, Open inflate crypt out = Ok p /\
    XExtractPages inflate parse_float (PGetObject inflate p) stack (pRoot p) = Ok (pages_read rd one zero z 1 (ssDone s) drawn).
Proof.
  intros Es Hc Hd Om Or [Hn Hr] Ho Hl O1 O0 Pz Hinf Hdr Hst.
  destruct (document_ok deflate ord calls s Om Es Hd) as (root & tree & pages & D1 & D2 & D3 & D4 & D5 & D6).
  pose proof (sess_calls deflate ord calls Om Hc) as S. rewrite Es in S. destruct S as (S1 & S2 & S3 & S4).
  pose proof (finish_plain _ S2) as (F1 & F2 & F3 & F4 & F5).
  assert (Hfin : Forall (fun pb => Forall (fun e => (exists k, 0 <= k /\ fst e = bs "F" ++ decZ k) /\
    exists name, font_word name /\ text_object (sbWriter (finish (ssBuilder s))) (snd e) (font_dict name) /\ 0 < snd e < nextObjNum (sbWriter (finish (ssBuilder s)))) (pbFonts pb)) (ssDone s)).
  { apply Forall_impl with (2 := S4). intros pb. apply finish_fonts. }
  cbv zeta in *.
  assert (Fin1 : nextObjNum (sbWriter (ssBuilder s)) < 2 ^ 63).
  { apply Z.le_lt_trans with 499; [|reflexivity]. apply Z.le_trans with (2 := Hn). apply finish_grows. }
  set (w := sbWriter (finish (ssBuilder s))) in *.
  assert (Eu : updateCatalogWithOutlines w = w) by (unfold updateCatalogWithOutlines; rewrite F4; reflexivity).
  assert (Ho' : fst (Write deflate order None w) = out).
  { rewrite <- Ho. unfold SBytes. fold w. destruct (Write deflate order None w). reflexivity. }
  rewrite Forall_forall in D6.
  assert (Hw : 1 <= nextObjNum w) by (specialize (D6 root (or_introl eq_refl)); cbn beta in D6; lia).
  destruct (read_back deflate order inflate crypt w out Or F1 F2 F3 (conj Hw Hn)) as (p & P1 & P2 & P3 & P4 & P5).
  { split; [rewrite F5; reflexivity|]. split; [rewrite F5; reflexivity|]. rewrite Eu. exact Hr. }
  { exact Ho'. } { exact Hl. }
  exists p. split; [exact P1|]. rewrite Eu in P4.
  assert (Hroot : 0 < root < nextObjNum w) by (apply (D6 root); left; reflexivity).
  assert (Htree : 0 < tree < nextObjNum w) by (apply (D6 tree); right; left; reflexivity).
  assert (Hpages : forall n, In n pages -> 0 < n < nextObjNum w) by (intros n Hi; apply (D6 n); right; right; exact Hi).
  destruct (P5 root D1 ltac:(lia)) as [-> _].
  assert (T : forall n t, 0 < n < nextObjNum w -> text_object w n t -> PGetObject inflate p n = Ok (object_text n t)).
  { intros n t Hb Ht. apply P4; [lia|]. exists (mkObj (Some t) None None). split; [exact Ht|]. reflexivity. }
  change (ref root) with (decZ root ++ bs " " ++ bs "0 R").
  assert (Big : forall n, 0 < n < nextObjNum w -> 0 <= n < 2 ^ 63) by (intros n Hb; change (2 ^ 63) with 9223372036854775808; lia).
  rewrite (pages_tree inflate parse_float (PGetObject inflate p) root (ManipSpec.PNode tree (map ManipSpec.PPage pages))
    (object_text root (bs "<</Type/Catalog/Pages " ++ decZ tree ++ bs " 0 R>>"))
    (map (fun x => page_read rd one zero z (dwWidth (snd x)) (dwHeight (snd x)) (standard_fonts (pbFonts (fst x))) (dwCalls (snd x)) 0) (combine (ssDone s) drawn))
    stack (bs " ") (bs "0 R") (decZ root ++ bs " 0 obj" ++ nl ++ bs "<</Type/Catalog") (bs " ") (bs " ") (bs "0 R>>" ++ nl ++ bs "endobj")).
  - rewrite pages_numbered by (apply Forall2_len with (1 := Hdr)). reflexivity.
  - apply Big, Hroot.
  - split; [discriminate|reflexivity].
  - apply T; assumption.
  - cbn [ManipSpec.pnum]. unfold object_text. rewrite <- !app_assoc. reflexivity.
  - apply ReadProofs.nostart_contains; [discriminate|]; split_nostart; first [apply nostart_decZ; [lia|reflexivity]|apply nostartb_ok; reflexivity].
  - split; [discriminate|reflexivity].
  - split; [discriminate|reflexivity].
  - apply Big, Htree.
  - cbn [reads_tree]. split.
    + eexists. split; [apply T; [exact Htree|exact D3]|].
      rewrite map_map. cbn [ManipSpec.pnum]. rewrite map_id. apply tree_shows; [lia|].
      rewrite Forall_forall. intros n Hi. apply Big, Hpages, Hi.
    + assert (G : forall l, (forall n, In n l -> exists x, PGetObject inflate p n = Ok x /\ shows_page x) ->
        fold_right (fun k P => reads_tree (PGetObject inflate p) k /\ P) True (map ManipSpec.PPage l)).
      { intros l. induction l as [|n l IH]; intros G; [exact I|]. cbn [map fold_right]. split; [apply (G n); left; reflexivity|apply IH; intros; apply G; right; assumption]. }
      apply G. intros n Hi. destruct (in_forall2_r _ _ _ n D4 Hi) as (pb & Hpb & c & fonts & images & Q1 & Q2 & Q3 & Q4 & Q5).
      rewrite Forall_forall in S4. destruct (S4 pb Hpb) as (K1 & K2 & K3 & K4 & K5).
      eexists. split; [apply T; [apply Hpages, Hi|exact Q3]|].
      pose proof (Hpages n Hi) as Hpn.
      apply (pg_shows n tree c (pbWidth pb) (pbHeight pb) fonts images); [lia|lia|apply Big, Q4|exact K4|exact K5| |].
      * apply (free_perm _ _ Q1), (font_entries_free _ _ _ Fin1 K1).
      * eapply Permutation_Forall; [apply Permutation_sym, Q2|exact K3].
  - apply Nat.le_trans with 2%nat; [|exact Hst]. cbn [ManipSpec.height]. apply le_n_S.
    clear. induction pages as [|n l IH]; cbn [map fold_right ManipSpec.height]; [lia|]. apply Nat.max_lub; [lia|exact IH].
  - cbn [ManipSpec.page_list].
    replace (flat_map ManipSpec.page_list (map ManipSpec.PPage pages)) with pages
      by (clear; induction pages as [|n l IH]; [reflexivity|cbn [map flat_map ManipSpec.page_list app]; f_equal; exact IH]).
    apply (combine_forall (page_drawn deflate fmt parse_float rd one zero) (fun pb n => page_object deflate w tree pb n /\ In n pages)) with (1 := Hdr).
    { apply Forall2_In_r, D4. }
    intros pb d n Hpb (R1 & R2 & R3 & R4 & R5) [(c & fonts & images & Q1 & Q2 & Q3 & Q4 & Q5) Hi]. cbn [fst snd].
    rewrite Forall_forall in S4, Hfin. destruct (S4 pb Hpb) as (K1 & K2 & K3 & K4 & K5). pose proof (Hfin pb Hpb) as Hfp. cbn beta in Hfp.
    eexists. split; [apply T; [apply Hpages, Hi|exact Q3]|].
    assert (Pf : Forall (fun e => extractFontDecoder inflate (PGetObject inflate p) (snd e) = Ok (Some standard_decoder)) fonts).
    { eapply Permutation_Forall; [apply Permutation_sym, Q1|]. apply Forall_impl with (2 := Hfp). intros e (_ & name & N1 & N2 & N3).
      apply (standard_font inflate parse_float _ (snd e) name N1); [lia|apply T; assumption]. }
    assert (Nd : NoDup (map fst fonts)) by (eapply Permutation_NoDup; [apply Permutation_map, Permutation_sym, Q1|exact K2]).
    fold (pg n tree c (pbWidth pb) (pbHeight pb) fonts images).
    rewrite (page_extracted inflate parse_float (PGetObject inflate p) deflate fmt rd one zero z (dwWidth d) (dwHeight d) n tree c (pbWidth pb) (pbHeight pb) fonts images
      (fun _ => standard_decoder) (dwCalls d)); try assumption.
    + f_equal. unfold page_read. f_equal. apply seen_ext. intros. apply texts_seen_ext.
      intros k. change (map (fun e => (bs "/" ++ fst e, standard_decoder)) fonts) with (standard_fonts fonts). apply look_perm; assumption.
    + apply Big, Hpages, Hi.
    + lia.
    + apply Big, Q4.
    + apply (free_perm _ _ Q1), (font_entries_free _ _ _ Fin1 K1).
    + eapply Permutation_Forall; [apply Permutation_sym, Q2|exact K3].
    + intros Hne. rewrite <- R3. apply R5, Hne.
    + rewrite <- R3. unfold content_object in Q5. destruct Q5 as (a & Q5). unfold holds_content.
      destruct (pbContent pb) as [|b0 t0] eqn:Ep.
      * apply P4; [lia|]. destruct Q5 as [Q5 Q6]. eexists. split; [exact Q5|]. reflexivity.
      * apply P4; [lia|]. destruct Q5 as [Q5 Q6]. eexists. split; [exact Q5|]. cbn [oStream oContent oDict]. rewrite Q6. reflexivity.
Qed.
