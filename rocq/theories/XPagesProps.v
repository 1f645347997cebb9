(** Reading the pages of a document: the theorems of C49 (extractor) and C74. *)
From Verif Require Import Scan WriterSpec XPagesModel XPagesSpec ParseSpec ExtractSpec PageModel XPagesProofs XPagesProofs4 XPagesProofs5.
From Verif Require Utf8 ManipSpec PageSpec PageProps ExtractProps WriterProps ExtractProofs.
Import PageSpec ManipSpec.
Local Open Scope Z_scope.

(* ---------------------------------------------------------------- *)
(** C49, extractor.  For every page tree whose node objects carry their kids
    next to the key: one page per leaf, from left to right, numbered from 1. *)
Theorem C49_extractor_pages_partial : forall inflate parse_float get root t stack, 0 <= root < 2 ^ 63 -> 0 <= pnum t < 2 ^ 63 ->
  names_tree get root (pnum t) -> reads_tree get t -> (height t <= stack)%nat -> (forall n, get n <> Panic) ->
  exists ps, XExtractPages inflate parse_float get stack (ref root) = Ok ps /\
    map xpNumber ps = map (fun k => Z.of_nat k + 1) (seq 0 (length ps)) /\
    Forall2 (fun n p => exists x q, get n = Ok x /\ extractPage inflate parse_float get x = Ok q /\ same_content p q) (page_list t) ps.
Proof. exact pages_of_tree. Qed.
Print Assumptions C49_extractor_pages_partial.

Definition ex_get (l : list (Z * bytes)) (n : Z) : result bytes := match mget n l with Some t => Ok t | None => Err end.
Definition ex_page (t : bytes) : bytes := bs "<</Type/Page/Parent 2 0 R/Contents 9 0 R" ++ t ++ bs ">>".
Definition ex_objects : list (Z * bytes) :=
  [(1, bs "<</Type/Catalog/Pages 2 0 R>>"); (2, bs "<</Type/Pages/Kids[3 0 R 4 0 R 5 0 R]/Count 4>>");
   (3, ex_page (bs "/Rotate 90")); (4, bs "<</Type /Pages/Kids[6 0 R
7 0 R]/Count 2/Parent 2 0 R>>"); (5, ex_page []); (6, ex_page (bs "/MediaBox[0.0000 0.0000 100.0000 700.0000]")); (7, ex_page [])].
Definition ex_tree : ptree := PNode 2 [PPage 3; PNode 4 [PPage 6; PPage 7]; PPage 5].
Definition ex_extract (l : list (Z * bytes)) (stack : nat) : result (list xpage) :=
  XExtractPages (fun x => Some x) ExtractProps.ex_parse (ex_get l) stack (ref 1).
Example C49_extractor_example : names_tree (ex_get ex_objects) 1 (pnum ex_tree) /\ reads_tree (ex_get ex_objects) ex_tree /\
  page_list ex_tree = [3; 6; 7; 5] /\
  rmap (map (fun p => (xpNumber p, xpRotation p, xpMedia p))) (ex_extract ex_objects 3) =
  Ok [(1, 90, None); (2, 0, Some (map fint [0; 0; 100; 700])); (3, 0, None); (4, 0, None)].
Proof.
  split; [|split; [|split; [reflexivity|vm_compute; reflexivity]]].
  - exists (bs "<</Type/Catalog"), (bs " "), (bs " "), (bs "0 R>>"). repeat split; discriminate.
  - assert (P : forall t, contains (bs "/Type/Pages") (ex_page t) = false -> contains (bs "/Type /Pages") (ex_page t) = false -> shows_page (ex_page t)).
    { intros t H1 H2. split; [exact H1|]. split; [exact H2|]. left. reflexivity. }
    cbn [reads_tree ex_tree map pnum fold_right]. split; [|split; [|split; [|split; [|exact I]]]].
    + eexists. split; [reflexivity|]. split; [left; reflexivity|]. exists (bs "<</Type/Pages"), (bs "[3 0 R 4 0 R 5 0 R]"), (bs "/Count 4>>").
      split; [reflexivity|]. split; [|split; reflexivity]. exists (bs "3 0 R 4 0 R 5 0 R"). split; [reflexivity|].
      apply (refs_cons 3 [4; 5] [] (bs " 4 0 R 5 0 R")); [reflexivity|split; [discriminate|reflexivity]|].
      apply (refs_cons 4 [5] (bs " ") (bs " 5 0 R")); [reflexivity|split; [discriminate|reflexivity]|].
      apply (refs_cons 5 [] (bs " ") []); [reflexivity|split; [discriminate|reflexivity]|].
      apply rl_nil. reflexivity.
    + eexists. split; [reflexivity|]. apply P; reflexivity.
    + split.
      * eexists. split; [reflexivity|]. split; [right; reflexivity|]. exists (bs "<</Type /Pages"), (bs "[6 0 R
7 0 R]"), (bs "/Count 2/Parent 2 0 R>>").
        split; [reflexivity|]. split; [|split; reflexivity]. exists (bs "6 0 R
7 0 R"). split; [reflexivity|].
        apply (refs_cons 6 [7] [] (bs "
7 0 R")); [reflexivity|split; [discriminate|reflexivity]|].
        apply (refs_cons 7 [] (bs "
") []); [reflexivity|split; [discriminate|reflexivity]|].
        apply rl_nil. reflexivity.
      * split; [|split; [|exact I]]; (eexists; split; [reflexivity|]; apply P; reflexivity).
    + eexists. split; [reflexivity|]. apply P; reflexivity.
Qed.

(** Termination is refuted: a node that is its own kid exhausts every stack. *)
Theorem C49_extractor_cyclic_refuted : forall inflate parse_float get n,
  (exists x l, get n = Ok x /\ shows_node x (n :: l)) -> forall stack, extractPagesFromTree inflate parse_float get stack n = Panic.
Proof. exact walk_cycle. Qed.
Print Assumptions C49_extractor_cyclic_refuted.
(** White space before the array of kids: the document has no pages. *)
Theorem C49_kids_space_refuted :
  ex_extract [(1, bs "<</Type/Catalog/Pages 2 0 R>>"); (2, bs "<</Type/Pages/Kids [3 0 R]/Count 1>>"); (3, ex_page [])] 3 = Ok [] /\
  rmap (map xpNumber) (ex_extract [(1, bs "<</Type/Catalog/Pages 2 0 R>>"); (2, bs "<</Type/Pages/Kids[3 0 R]/Count 1>>"); (3, ex_page [])] 3) = Ok [1].
Proof. vm_compute. split; reflexivity. Qed.
Print Assumptions C49_kids_space_refuted.

(* ---------------------------------------------------------------- *)
(** C74.  Whatever was drawn with the page builder -- any history of calls, with
    pages open at the same time and finalised in any order -- is read back from
    the file: one page for every finalised page, in order, with its size, its
    texts, shapes and images. *)
Theorem C74_read_back_partial : forall deflate order inflate crypt ord fmt parse_float rd one zero z calls s out drawn stack,
  do_bcalls deflate ord calls = s -> Forall bcall_ok calls -> ssDone s <> [] -> is_map_order ord -> is_order order ->
  (let w := sbWriter (finish (ssBuilder s)) in nextObjNum w <= 499 /\ forall n t, stored_text w n t -> ParseSpec.readable t) ->
  fst (SBytes deflate order (ssBuilder s)) = out -> Z.of_nat (length out) < 10 ^ 10 ->
  number_ok fmt parse_float rd one -> number_ok fmt parse_float rd zero -> parse_float (bs "0") = Some z ->
  (forall x, inflate (deflate x ++ nl) = Some x) ->
  Forall2 (page_drawn deflate fmt parse_float rd one zero) (ssDone s) drawn -> (2 <= stack)%nat ->
  exists p, Open inflate crypt out = Ok p /\
    XExtractPages inflate parse_float (PGetObject inflate p) stack (pRoot p) = Ok (pages_read rd one zero z 1 (ssDone s) drawn).
Proof. exact built_read. Qed.
Print Assumptions C74_read_back_partial.
(** Plain texts come back as they were drawn. *)
Theorem C74_texts : forall rd one zero z pbs ds i, length pbs = length ds -> Forall (fun d => Forall plain_call (dwCalls d)) ds ->
  map (fun p => (xpNumber p, map teText (xpTexts p))) (pages_read rd one zero z i pbs ds) =
  combine (map (fun k => i + Z.of_nat k) (seq 0 (length ds))) (map (fun d => texts_drawn (dwCalls d)) ds).
Proof. intros rd one zero z pbs ds i. apply pages_texts. Qed.
Print Assumptions C74_texts.

(** Two pages, finalised in the other order; a "compression" that adds a byte. *)
Definition ex_deflate (x : bytes) : bytes := "z"%byte :: x.
Definition ex_inflate (x : bytes) : option bytes := Some (removelast (tl x)).
Definition ex_parse (s : bytes) : option float :=
  if bytes_eqb s (bs "0") then Some ExtractProps.f0 else if bytes_eqb s (bs "700") then Some ExtractProps.f700 else ExtractProps.ex_parse s.
Definition ex_draw (t : bytes) : list (ccall float) :=
  [BeginText _; SetFont _ (bs "/F1") ExtractProps.f12'; SetTextPosition _ ExtractProps.f100 ExtractProps.f700; ShowText _ t; EndText _].
Definition ex_stream (t : bytes) : bytes := content_stream ExtractProps.ex_fmt ExtractProps.f1 ExtractProps.f0 (ex_draw t).
Definition ex_session : list bcall :=
  [BPage (bs "700") (bs "700"); BFont 0 (bs "Helvetica"); BPage (bs "0") (bs "700"); BContent 0 (ex_stream (bs "first"));
   BContent 1 (ex_stream (bs "second")); BFinalize 1; BFinalize 0].
Definition ex_done : session := do_bcalls ex_deflate (fun l => l) ex_session.
Definition ex_drawn : list drawing :=
  [mkDrawing ExtractProps.f0 ExtractProps.f700 (ex_draw (bs "second")); mkDrawing ExtractProps.f700 ExtractProps.f700 (ex_draw (bs "first"))].
Lemma ex_inverse x : ex_inflate (ex_deflate x ++ nl) = Some x.
Proof. unfold ex_inflate, ex_deflate. cbn [app tl]. f_equal. apply (removelast_last x x0a). Qed.
Lemma ex_texts_readable : forall n t, stored_text (sbWriter (finish (ssBuilder ex_done))) n t -> ParseSpec.readable t.
Proof.
  intros n t (o & Ho & Ht).
  assert (In n (map fst (objects (sbWriter (finish (ssBuilder ex_done)))))).
  { revert Ho. generalize (objects (sbWriter (finish (ssBuilder ex_done)))). intros l. induction l as [|[k v] l IH]; [discriminate|].
    cbn [mget map fst snd]. destruct (n =? k) eqn:E; intros Ho; [left; symmetry; apply Z.eqb_eq, E|right; apply IH, Ho]. }
  vm_compute in H. repeat (destruct H as [<-|H]; [vm_compute in Ho; injection Ho as <-; vm_compute in Ht; subst t; vm_compute;
    repeat split; first [reflexivity|left; reflexivity|right; reflexivity]|]). contradiction.
Qed.
Example C74_example : Forall bcall_ok ex_session /\ ssDone ex_done <> [] /\ is_map_order (fun l => l) /\ is_order WriterProps.same_order /\
  nextObjNum (sbWriter (finish (ssBuilder ex_done))) <= 499 /\
  Forall2 (page_drawn ex_deflate ExtractProps.ex_fmt ex_parse (fun x => x) ExtractProps.f1 ExtractProps.f0) (ssDone ex_done) ex_drawn /\
  Forall (fun d => Forall plain_call (dwCalls d)) ex_drawn /\
  map (fun d => texts_drawn (dwCalls d)) ex_drawn = [[bs "second"]; [bs "first"]] /\
  rbind (Open ex_inflate no_crypt (fst (SBytes ex_deflate WriterProps.same_order (ssBuilder ex_done)))) (fun p =>
    rmap (map (fun x => (xpNumber x, map teText (xpTexts x)))) (XExtractPages ex_inflate ex_parse (PGetObject ex_inflate p) 2 (pRoot p))) =
  Ok [(1, [bs "second"]); (2, [bs "first"])].
Proof.
  assert (N : Forall (number_ok ExtractProps.ex_fmt ex_parse (fun x => x)) [ExtractProps.f0; ExtractProps.f1; ExtractProps.f12'; ExtractProps.f100; ExtractProps.f700]).
  { repeat (apply Forall_cons; [vm_compute; repeat split; discriminate|]). apply Forall_nil. }
  rewrite Forall_forall in N.
  assert (D : forall t, string_ok t -> Forall (call_ok ExtractProps.ex_fmt ex_parse (fun x => x)) (ex_draw t)).
  { intros t Ht. unfold ex_draw.
    apply Forall_cons; [exact I|]. apply Forall_cons; [split; [exists (bs "F1"); split; reflexivity|apply N; cbn; tauto]|].
    apply Forall_cons; [apply Forall_cons; [apply N; cbn; tauto|]; apply Forall_cons; [apply N; cbn; tauto|]; apply Forall_nil|].
    apply Forall_cons; [exact Ht|]. apply Forall_cons; [exact I|]. apply Forall_nil. }
  assert (S : string_ok (bs "second") /\ string_ok (bs "first")).
  { split; (split; [match goal with |- Utf8.valid_utf8 ?s => exists (map b2n s) end; split; reflexivity|]; split; [reflexivity|];
      intros Hi; cbn in Hi; decompose [or] Hi; try discriminate; contradiction). }
  split; [repeat (apply Forall_cons; [cbn; repeat split; try discriminate|]); apply Forall_nil|].
  split; [vm_compute; discriminate|]. split; [intros l; apply Permutation.Permutation_refl|].
  split; [intros l; apply Permutation.Permutation_refl|]. split; [vm_compute; discriminate|].
  split.
  - apply Forall2_cons; [|apply Forall2_cons; [|apply Forall2_nil]]; (split; [vm_compute; reflexivity|]; split; [vm_compute; reflexivity|];
      split; [vm_compute; reflexivity|]; split; [apply D, S|intros _; vm_compute; split; [reflexivity|discriminate]]).
  - split; [repeat (apply Forall_cons; [repeat (apply Forall_cons; [cbn; try exact I; reflexivity|]); apply Forall_nil|]); apply Forall_nil|].
    split; [reflexivity|]. vm_compute. reflexivity.
Qed.

(* ---------------------------------------------------------------- *)
(** What is missing: documents the page builder does not make. *)
Definition ex_doc (page content : bytes) : list (Z * bytes) :=
  [(1, bs "<</Type/Catalog/Pages 2 0 R>>"); (2, bs "<</Type/Pages/MediaBox[0.0000 0.0000 100.0000 700.0000]/Kids[3 0 R]/Count 1>>");
   (3, bs "<</Type/Page/Parent 2 0 R" ++ page ++ bs ">>"); (4, bs "<</Length 30>>
stream
" ++ content ++ bs "
endstream")].
Definition ex_text (page content : bytes) : result (list (list bytes)) := rmap (map (fun p => map teText (xpTexts p))) (ex_extract (ex_doc page content) 3).
(** The streams of a page in an array after a space: nothing is read. *)
Theorem C74_contents_array_refuted :
  ex_text (bs "/Contents[4 0 R]") (bs "(Hi) Tj") = Ok [[bs "Hi"]] /\ ex_text (bs "/Contents [4 0 R]") (bs "(Hi) Tj") = Ok [[]].
Proof. vm_compute. split; reflexivity. Qed.
Print Assumptions C74_contents_array_refuted.
(** A page that inherits its MediaBox has none. *)
Theorem C74_inherited_refuted : rmap (map xpMedia) (ex_extract (ex_doc (bs "/Contents 4 0 R") (bs "(Hi) Tj")) 3) = Ok [None].
Proof. vm_compute. reflexivity. Qed.
Print Assumptions C74_inherited_refuted.
(** Data that contains the word "endstream" is cut there. *)
Theorem C74_endstream_refuted :
  ex_text (bs "/Contents 4 0 R") (bs "(an endstream) Tj
(more) Tj") = Ok [[]] /\
  ex_text (bs "/Contents 4 0 R") (bs "(an end stream) Tj
(more) Tj") = Ok [[bs "an end stream"; bs "more"]].
Proof. vm_compute. split; reflexivity. Qed.
Print Assumptions C74_endstream_refuted.
