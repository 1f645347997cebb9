(** C111, C112: when do the recursive functions exhaust the stack? *)
From Verif Require Import Util MarksModel XPagesModel ParseModel FormsModel ManipModel CrashSpec CrashProofs.
From Verif Require ManipProps XfaModel XfaProps.
From Coq Require Import Relations.Relation_Operators.
Local Open Scope Z_scope.

(* ---------------------------------------------------------------- *)
(** C111.  For every document whose objects can be asked for without a crash,
    every page operation crashes exactly when its arguments are acceptable and
    the page tree goes down as many levels as the stack has room for.  No other
    input, no malformed object, no page number makes one crash. *)
Theorem C111_rotate : forall stack page angle m, (forall n, sGet (mSrc m) n <> Panic) ->
  (RotatePage stack page angle m = Panic <-> In angle [90; 180; 270] /\ pages_deep stack (mSrc m)) /\
  (fst (RotateAllPages stack angle m) = Panic <-> pages_deep stack (mSrc m)).
Proof. exact (fun stack page angle m H => conj (rotate_panic m H stack page angle) (rotate_all_panic stack angle m H)). Qed.
Print Assumptions C111_rotate.
Theorem C111_delete : forall stack page pages m, (forall n, sGet (mSrc m) n <> Panic) ->
  (DeletePage stack page m = Panic <-> pages_deep stack (mSrc m)) /\
  (fst (DeletePages stack pages m) = Panic <-> pages <> [] /\ pages_deep stack (mSrc m)).
Proof. exact (fun stack page pages m H => conj (delete_panic m H stack page) (delete_all_panic stack pages m H)). Qed.
Print Assumptions C111_delete.
Theorem C111_insert : forall stack page n content m, (forall n, sGet (mSrc m) n <> Panic) ->
  InsertPage stack page n content m = Panic <-> pages_deep stack (mSrc m).
Proof. exact (fun stack page n content m H => insert_panic m H stack page n content). Qed.
Print Assumptions C111_insert.
Theorem C111_extract_split : forall stack s pages ranges per, (forall n, sGet s n <> Panic) ->
  (ExtractPages stack s pages = Panic <-> pages <> [] /\ pages_deep stack s) /\
  (SplitPDF stack s ranges = Panic <-> ranges <> [] /\ pages_deep stack s) /\
  (SplitPDFByPageCount stack s per = Panic <-> 1 <= per /\ pages_deep stack s).
Proof.
  exact (fun stack s pages ranges per H => conj (extract_panic s H stack pages) (conj (split_panic s H stack ranges) (split_count_panic s H stack per))).
Qed.
Print Assumptions C111_extract_split.
(** Merging stops at the first document whose pages cannot be listed. *)
Theorem C111_merge : forall stack docs, (forall s n, In s docs -> sGet s n <> Panic) ->
  (MergePDFs stack docs = Panic <->
   exists before s after, docs = before ++ s :: after /\ Forall (pages_listed stack) before /\ pages_deep stack s).
Proof. exact merge_panic. Qed.
Print Assumptions C111_merge.
Theorem C111_open : forall s, (forall n, sGet s n <> Panic) -> exists m, NewPDFManipulator s = Ok m /\ mSrc m = s.
Proof. exact manip_ok. Qed.
Print Assumptions C111_open.
(** A tree is never too deep when its nodes can be numbered downwards from less
    than the stack has room for. *)
Theorem C111_finite : forall s stack rank, ranked (page_kid (sGet s)) rank ->
  (forall cat t root, parseObjectRef (sRoot s) = Ok cat -> sGet s cat = Ok t ->
     parseObjectRef (extractDictValue t (bs "/Pages")) = Ok root -> (rank root < stack)%nat) ->
  ~ pages_deep stack s.
Proof. exact rank_fine. Qed.
Print Assumptions C111_finite.
(** A circle of nodes anywhere below the root is too deep for every stack: all
    of the operations above crash on such a file. *)
Theorem C111_circle_refuted : forall s cat t root,
  parseObjectRef (sRoot s) = Ok cat -> sGet s cat = Ok t -> parseObjectRef (extractDictValue t (bs "/Pages")) = Ok root ->
  circular (page_kid (sGet s)) root -> forall stack, pages_deep stack s.
Proof. exact circle_deep. Qed.
Print Assumptions C111_circle_refuted.

(** A circle of two nodes below the root, beside a page. *)
Definition ex_circle : source := mkSource (bs "1 0 R") [] [] (fun n =>
  if n =? 1 then Ok (bs "<</Type/Catalog/Pages 2 0 R>>") else if n =? 2 then Ok (bs "<</Type/Pages/Kids[5 0 R 3 0 R]/Count 1>>")
  else if n =? 3 then Ok (bs "<</Type/Pages/Kids[4 0 R]>>") else if n =? 4 then Ok (bs "<</Type/Pages/Kids[3 0 R]>>")
  else if n =? 5 then Ok (bs "<</Type/Page/Parent 2 0 R>>") else Err) [1; 2; 3; 4; 5].
Example C111_example_circle : (forall n, sGet ex_circle n <> Panic) /\ circular (page_kid (sGet ex_circle)) 2 /\
  RotatePage 1000 1 90 (mkManip ex_circle []) = Panic.
Proof.
  assert (Hg : forall n, sGet ex_circle n <> Panic).
  { intros n. cbn [sGet ex_circle]. repeat (match goal with |- context [if ?b then _ else _] => destruct b end; [discriminate|]). discriminate. }
  assert (K : forall n m t, sGet ex_circle n = Ok t -> bytes_eqb (extractDictValue t (bs "/Type")) (bs "/Page") = false ->
    In (ref m) (parseObjectRefArray (extractDictValue t (bs "/Kids"))) -> parseObjectRef (ref m) = Ok m -> page_kid (sGet ex_circle) n m).
  { intros n m t H1 H2 H3 H4. exists t, (ref m). split; [exact H1|]. split; [intros E; rewrite E in H2; discriminate|]. split; assumption. }
  assert (C : circular (page_kid (sGet ex_circle)) 2).
  { exists 3. split.
    - apply rt_step. apply (K 2 3 (bs "<</Type/Pages/Kids[5 0 R 3 0 R]/Count 1>>")); [reflexivity|reflexivity|right; left; reflexivity|reflexivity].
    - apply (t_trans _ _ _ 4); apply t_step; [apply (K 3 4 (bs "<</Type/Pages/Kids[4 0 R]>>"))|apply (K 4 3 (bs "<</Type/Pages/Kids[3 0 R]>>"))];
        first [reflexivity|left; reflexivity]. }
  split; [exact Hg|]. split; [exact C|].
  apply (proj1 (C111_rotate 1000 1 90 (mkManip ex_circle []) Hg)). split; [left; reflexivity|].
  apply (C111_circle_refuted ex_circle 1 (bs "<</Type/Catalog/Pages 2 0 R>>") 2); [reflexivity|reflexivity|reflexivity|exact C].
Qed.
(** The four-page document of ManipProps is fine with a stack of 5. *)
Example C111_example : ~ pages_deep 5 (ManipProps.ex_doc ManipProps.ex_kids) /\ pages_deep 1 (ManipProps.ex_doc ManipProps.ex_kids).
Proof.
  assert (Hg : forall n, sGet (ManipProps.ex_doc ManipProps.ex_kids) n <> Panic).
  { intros n. unfold ManipProps.ex_doc, ManipProps.ex_get. cbn [sGet]. repeat (match goal with |- context [if ?b then _ else _] => destruct b end; [discriminate|]). discriminate. }
  split.
  - intros H. assert (E : InsertPage 5 1 99 [] (mkManip (ManipProps.ex_doc ManipProps.ex_kids) []) = Panic) by (apply C111_insert; assumption).
    vm_compute in E. discriminate.
  - apply (C111_insert 1 1 99 [] (mkManip (ManipProps.ex_doc ManipProps.ex_kids) []) Hg). vm_compute. reflexivity.
Qed.

(* ---------------------------------------------------------------- *)
(** C112.  The other readers that call themselves: bookmarks, form fields and
    page contents. *)
Theorem C112_bookmarks : forall get stack root, (forall n, get n <> Panic) ->
  ExtractBookmarks get stack root = Panic <->
  exists c cat o out f, parseObjectRef root = Ok c /\ get c = Ok cat /\ parseObjectRef (x_value cat (bs "/Outlines")) = Ok o /\ get o = Ok out /\
    x_value out (bs "/First") = f /\ f <> [] /\ walk (next_item get) stack f.
Proof. exact (fun get stack root H => bookmarks_panic get H stack root). Qed.
Print Assumptions C112_bookmarks.
Theorem C112_bookmarks_circle_refuted : forall get stack root c cat o out f, (forall n, get n <> Panic) ->
  parseObjectRef root = Ok c -> get c = Ok cat -> parseObjectRef (x_value cat (bs "/Outlines")) = Ok o -> get o = Ok out ->
  x_value out (bs "/First") = f -> f <> [] -> circular (next_item get) f -> ExtractBookmarks get stack root = Panic.
Proof. exact marks_circle. Qed.
Print Assumptions C112_bookmarks_circle_refuted.
Theorem C112_form_dictionary : forall get stack d, (forall n, get n <> Panic) ->
  parseAcroFormDict stack get d = Panic <->
  exists t n g, search (m_arr (bs "/Fields")) d = Some t /\ In (n, g) (refs_of t) /\ walk (field_kid get) stack n.
Proof. exact (fun get stack d H => form_dict_panic get H stack d). Qed.
Print Assumptions C112_form_dictionary.
Theorem C112_form : forall stack inflate crypt dec f,
  Open inflate crypt f <> Panic -> (forall n, GetObject inflate dec f n <> Panic) ->
  (ParseAcroForm stack inflate crypt dec f = Panic <->
   (exists p, Open inflate crypt f = Ok p) /\
   exists digits rest form d t n g, search m_acroform f = Some (digits, rest) /\ atoi digits = Some form /\
     GetObject inflate dec f form = Ok d /\ search (m_arr (bs "/Fields")) d = Some t /\ In (n, g) (refs_of t) /\
     walk (field_kid (GetObject inflate dec f)) stack n).
Proof. exact form_panic. Qed.
Print Assumptions C112_form.
Theorem C112_form_circle_refuted : forall inflate crypt dec f p digits rest form d t n g,
  Open inflate crypt f = Ok p ->
  search m_acroform f = Some (digits, rest) -> atoi digits = Some form ->
  GetObject inflate dec f form = Ok d -> search (m_arr (bs "/Fields")) d = Some t -> In (n, g) (refs_of t) ->
  circular (field_kid (GetObject inflate dec f)) n -> forall stack, ParseAcroForm stack inflate crypt dec f = Panic.
Proof. exact form_circle. Qed.
Print Assumptions C112_form_circle_refuted.
(** Two fields, each the kid of the other. *)
Definition ex_fields : bytes := bs "%PDF-1.4
1 0 obj
<</Type/Catalog/AcroForm 2 0 R>>
endobj
2 0 obj
<</Fields[3 0 R]>>
endobj
3 0 obj
<</T(a)/Kids[4 0 R]>>
endobj
4 0 obj
<</T(b)/Kids[3 0 R]>>
endobj
xref
0 5
0000000000 65535 f 
0000000009 00000 n 
0000000057 00000 n 
0000000091 00000 n 
0000000128 00000 n 
trailer
<</Size 5/Root 1 0 R>>
startxref
165
%%EOF
".
Example C112_form_example : forall stack, ParseAcroForm stack (fun _ => None) (fun _ => Ok None) None ex_fields = Panic.
Proof.
  assert (Ho : exists p, Open (fun _ => None) (fun _ => Ok None) ex_fields = Ok p) by (vm_compute; eexists; reflexivity).
  destruct Ho as [p Ho]. intros stack. destruct (search m_acroform ex_fields) as [[digits rest]|] eqn:Es; [|vm_compute in Es; discriminate].
  refine (C112_form_circle_refuted _ _ None ex_fields p digits rest 2 (bs "2 0 obj
<</Fields[3 0 R]>>
endobj") (bs "3 0 R") 3 0 Ho Es _ _ _ _ _ stack).
  - vm_compute in Es. injection Es as <- _. reflexivity.
  - vm_compute. reflexivity.
  - vm_compute. reflexivity.
  - left. reflexivity.
  - exists 3. split; [apply rt_refl|]. apply (t_trans _ _ _ 4); apply t_step.
    + exists (bs "3 0 obj
<</T(a)/Kids[4 0 R]>>
endobj"), 0. split; [vm_compute; reflexivity|left; reflexivity].
    + exists (bs "4 0 obj
<</T(b)/Kids[3 0 R]>>
endobj"), 0. split; [vm_compute; reflexivity|left; reflexivity].
Qed.
Theorem C112_contents : forall get inflate parse_float stack root, (forall n, get n <> Panic) ->
  XExtractPages inflate parse_float get stack root = Panic <->
  exists c cat n, parseObjectRef root = Ok c /\ get c = Ok cat /\ parseObjectRef (x_value cat (bs "/Pages")) = Ok n /\ walk (content_kid get) stack n.
Proof. exact (fun get inflate pf stack root H => content_panic get H inflate pf stack root). Qed.
Print Assumptions C112_contents.
(** Two items that are each other's next one. *)
Definition ex_marks (n : Z) : result bytes :=
  if n =? 1 then Ok (bs "<</Type/Catalog/Outlines 2 0 R>>") else if n =? 2 then Ok (bs "<</First 3 0 R>>")
  else if n =? 3 then Ok (bs "<</Title(a)/Next 4 0 R>>") else if n =? 4 then Ok (bs "<</Title(b)/Next 3 0 R>>") else Err.
Example C112_example : forall stack, ExtractBookmarks ex_marks stack (bs "1 0 R") = Panic.
Proof.
  intros stack. assert (Hg : forall n, ex_marks n <> Panic).
  { intros n. unfold ex_marks. repeat (match goal with |- context [if ?b then _ else _] => destruct b end; [discriminate|]). discriminate. }
  apply (C112_bookmarks_circle_refuted ex_marks stack (bs "1 0 R") 1 (bs "<</Type/Catalog/Outlines 2 0 R>>") 2 (bs "<</First 3 0 R>>") (x_value (bs "<</First 3 0 R>>") (bs "/First")) Hg);
    [reflexivity|reflexivity|reflexivity|reflexivity|reflexivity|discriminate|].
  exists (x_value (bs "<</First 3 0 R>>") (bs "/First")). split; [apply rt_refl|].
  apply (t_trans _ _ _ (x_value (bs "<</Title(a)/Next 4 0 R>>") (bs "/Next"))); apply t_step.
  - exists 3, (bs "<</Title(a)/Next 4 0 R>>"), (bs "/Next"). repeat split; [right; reflexivity|discriminate].
  - exists 4, (bs "<</Title(b)/Next 3 0 R>>"), (bs "/Next"). repeat split; [right; reflexivity|discriminate].
Qed.

(** The XFA reader does not call itself; it crashes exactly when the object of
    some entry of the /XFA array has a stream and a /Length near the largest
    integer (as in XfaProps.C80_length_refuted). *)
Theorem C112_xfa : forall zl fl get ff sf f, (forall n, get n <> Panic) -> (forall n, ff n <> Panic) -> (forall n, sf n <> Panic) ->
  (XfaModel.ExtractAllXFAStreams zl fl get ff sf f = Panic <->
   exists a name d n o, XfaModel.xfa_array get ff f = Ok a /\ In (name, d) (XfaModel.xfa_entries a) /\ atoi d = Some n /\
     object_text get sf n o /\ huge_length o).
Proof. exact xfa_panic. Qed.
Print Assumptions C112_xfa.
Example C112_example_length : huge_length (bs "1 0 obj
<</Length 9223372036854775807>>
stream
abc
endstream").
Proof. exists 40%nat, (bs "9223372036854775807"). repeat split; vm_compute; reflexivity. Qed.
Example C112_example_xfa : forall zl fl, XfaModel.ExtractAllXFAStreams zl fl
  (fun n => if n =? 5 then Ok (bs "<</Length 9223372036854775807>>
stream
abc
endstream") else if n =? 2 then Ok (bs "<</XFA[(datasets)5 0 R]>>") else Err) (fun _ => Err) (fun _ => Err) (bs "<</AcroForm 2 0 R>>") = Panic.
Proof.
  intros. apply C112_xfa.
  - intros n. destruct (n =? 5); [|destruct (n =? 2)]; discriminate.
  - discriminate.
  - discriminate.
  - exists (bs "(datasets)5 0 R]"), (bs "datasets"), (bs "5"), 5, (bs "<</Length 9223372036854775807>>
stream
abc
endstream"). split; [vm_compute; reflexivity|]. split; [vm_compute; left; reflexivity|]. split; [reflexivity|]. split; [left; reflexivity|].
    exists 32%nat, (bs "9223372036854775807"). repeat split; vm_compute; reflexivity.
Qed.
