(** C85, C86: form schemas and XFA templates. *)
From Verif Require Import Util XFormModel XFormSpec XFormProofs.
From Coq Require Import Permutation.
Local Open Scope Z_scope.

(* ---------------------------------------------------------------- *)
(** C85.  A schema that is written as a template and read again: what is kept
    ([kept]), for every question, in order. *)
Theorem C85_kept_partial : forall F (parseF : bytes -> option F) (showF : F -> bytes) perm s us,
  (forall l, Permutation (perm l) l) ->
  Forall (fun q => NoDup (map fst (qProperties q)) /\ page_property q < 2 ^ 63) (sQuestions s) ->
  indented false (FormToXFA showF perm s) us ->
  sTitle (ParseXFAForm parseF us) = sTitle s /\ Forall2 (kept parseF showF) (sQuestions s) (sQuestions (ParseXFAForm parseF us)).
Proof. intros F parseF showF perm s us Hp Hq Hi. destruct (form_roundtrip parseF showF perm s us Hp Hq Hi) as (A & B & _). exact (conj A B). Qed.
Print Assumptions C85_kept_partial.
(** What is lost, whatever the schema: options come back empty, the pattern and
    the limits of a validation, every property but the layout, the page number,
    types without a counterpart (such as select), and all rules. *)
Theorem C85_lost_refuted : forall F (parseF : bytes -> option F) (showF : F -> bytes) perm s us,
  (forall l, Permutation (perm l) l) ->
  Forall (fun q => NoDup (map fst (qProperties q)) /\ page_property q < 2 ^ 63) (sQuestions s) ->
  indented false (FormToXFA showF perm s) us ->
  Forall2 lost (sQuestions s) (sQuestions (ParseXFAForm parseF us)) /\ sRules (ParseXFAForm parseF us) = [].
Proof. intros F parseF showF perm s us Hp Hq Hi. destruct (form_roundtrip parseF showF perm s us Hp Hq Hi) as (_ & _ & A & B). exact (conj A B). Qed.
Print Assumptions C85_lost_refuted.

Definition no_float (b : bytes) : option unit := None.
Definition show_float (f : unit) : bytes := bs "2.5".
Definition ex_question : question unit :=
  mkQuestion (bs "id") (bs "first name") (bs "First name ") [] (bs "email") [] (Some (mkValid (Some 3) None None None (bs "[a-z]+") (bs "check()") (bs "wrong")))
    (Some (bs "ada")) true false true [(bs "x", PStr (bs "10mm")); (bs "color", PStr (bs "red")); (bs "page_number", PInt 2)] 7.
Definition ex_choice : question unit :=
  mkQuestion (bs "c") (bs "colour") [] (bs "pick") (bs "select") [mkOption (bs "r") (bs "red") true; mkOption (bs "g") (bs "green") false] None None false true true [] 1.
Definition ex_schema : schema unit :=
  mkSchema (bs "Form") [ex_question; ex_choice] [mkRule (bs "r1") (bs "calculate") (bs "colour") [mkAction [] (bs "a+b") []]].
Definition ex_written : list token := FormToXFA show_float (@rev _) ex_schema.
Definition ex_indented : list token :=
  flat_map (fun t => match t with TStart n a => if bytes_eqb n (bs "text") then [TChars (bs "    "); t] else [t] | _ => [t] end) ex_written.
Example C85_example_hypotheses : (forall l : list (bytes * prop unit), Permutation (rev l) l) /\
  Forall (fun q => NoDup (map fst (qProperties q)) /\ page_property q < 2 ^ 63) (sQuestions ex_schema) /\ indented false ex_written ex_indented.
Proof.
  split; [intros l; apply Permutation_sym, Permutation_rev|]. split.
  - constructor; [|constructor; [split; [constructor|vm_compute; reflexivity]|constructor]]. split; [|vm_compute; reflexivity].
    repeat (constructor; [intros Q; cbn in Q; repeat (destruct Q as [Q|Q]; [discriminate Q|]); exact Q|]). constructor.
  - unfold ex_indented, ex_written. cbn -[bs]. repeat first [apply in_token|apply in_insert|apply in_nil].
Qed.
Example C85_example : ParseXFAForm no_float ex_indented =
  mkSchema (bs "Form")
    [mkQuestion (bs "first_name") (bs "first name") (bs "First name") [] (bs "email") [] (Some (mkValid None None None None [] (bs "check()") (bs "wrong")))
       (Some (bs "ada")) true false true [(bs "x", PStr (bs "10mm"))] 2;
     mkQuestion (bs "colour") (bs "colour") [] (bs "pick") (bs "text") [mkOption [] [] false; mkOption [] [] false] None None false true false [] 1] [].
Proof. vm_compute. reflexivity. Qed.

(* ---------------------------------------------------------------- *)
(** C86.  Every field of a template, in a subform or not, becomes one question,
    in document order, with the field's name. *)
Theorem C86_names_partial : forall F (parseF : bytes -> option F) items, Forall item_ok items ->
  map qName (sQuestions (ParseXFAForm parseF (flat_map item_tokens items))) = flat_map item_names items.
Proof. exact @template_names. Qed.
Print Assumptions C86_names_partial.
(** Every identifier is one: letters, digits, underscores, no digit first. *)
Theorem C86_ids : forall F (parseF : bytes -> option F) ts q, In q (sQuestions (ParseXFAForm parseF ts)) -> identifier (qID q).
Proof. exact @ids_good. Qed.
Print Assumptions C86_ids.
Definition ex_items : list item :=
  [IOther (TStart (bs "template") []); IField [(bs "name", bs "a")] [TStart (bs "value") []; TChars (bs "1"); TEnd (bs "value")];
   ISubform [] [([(bs "name", bs "1 b")], [TStart (bs "items") []]); ([], [])]; IField [(bs "name", bs "c"); (bs "type", bs "date")] []; IOther (TEnd (bs "template"))].
Example C86_example : Forall item_ok ex_items /\
  map (fun q => (qName q, qID q)) (sQuestions (ParseXFAForm no_float (flat_map item_tokens ex_items))) =
  [(bs "a", bs "a"); (bs "1 b", bs "field_1_b"); ([], bs "field_3"); (bs "c", bs "c")].
Proof.
  split; [|vm_compute; reflexivity].
  repeat (apply Forall_cons; [cbn; repeat first [exact I|split|discriminate|apply Forall_nil|apply Forall_cons]|]). apply Forall_nil.
Qed.
(** Nested subforms, which are common, lose the fields of the outer one that
    come before the inner one. *)
Theorem C86_nested_refuted : forall F (parseF : bytes -> option F) a b c,
  map qName (sQuestions (ParseXFAForm parseF
    (element (bs "subform") [] (field_tokens ([(bs "name", a)], []) ++ element (bs "subform") [] (field_tokens ([(bs "name", b)], [])) ++ field_tokens ([(bs "name", c)], []))))) =
  [b; c].
Proof. reflexivity. Qed.
Print Assumptions C86_nested_refuted.
(** Identifiers are not unique, although Question.ID is documented as a unique
    identifier. *)
Theorem C86_unique_refuted : forall F (parseF : bytes -> option F),
  map qID (sQuestions (ParseXFAForm parseF (field_tokens ([(bs "name", bs "a b")], []) ++ field_tokens ([(bs "name", bs "a-b")], [])))) = [bs "a_b"; bs "a_b"].
Proof. reflexivity. Qed.
Print Assumptions C86_unique_refuted.
(** A script is never read: the rule has no action. *)
Theorem C86_script_refuted : forall F (parseF : bytes -> option F) t,
  map (fun r => (rID r, rType r, rActions r)) (sRules (ParseXFAForm parseF (field_tokens ([(bs "name", bs "a")],
    element (bs "event") [(bs "activity", bs "exit")] (text_element (bs "script") t))))) = [(bs "rule_1", bs "calculate", [])].
Proof. reflexivity. Qed.
Print Assumptions C86_script_refuted.
