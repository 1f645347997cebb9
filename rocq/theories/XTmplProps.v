(** C114: the questions and rules of an XFA template. *)
From Verif Require Import Util XFormModel XFormSpec XTmplSpec XTmplProofs.
From Verif Require XFormProps.
Local Open Scope Z_scope.

(** For every template whose subforms are not nested, and whatever the fields
    contain: one question for each field, in order, with its name, kind,
    required, read-only and hidden flags, page and layout. *)
Theorem C114_questions : forall F (parseF : bytes -> option F) items, Forall tidy items ->
  Forall2 (asked parseF) (flat_map item_fields items) (sQuestions (ParseXFAForm parseF (flat_map item_tokens items))).
Proof. exact @questions_asked. Qed.
Print Assumptions C114_questions.
(** One rule for each event of a field, in order and numbered from 1, for that
    field and of the kind that the activity stands for. *)
Theorem C114_rules : forall F (parseF : bytes -> option F) items, Forall tidy items ->
  ruled 1 (flat_map events_of (flat_map item_fields items)) (sRules (ParseXFAForm parseF (flat_map item_tokens items))).
Proof. exact @rules_made. Qed.
Print Assumptions C114_rules.

Definition ex_template : list item :=
  [IOther (TStart (bs "template") []);
   IField [(bs "name", bs "a"); (bs "required", bs " Yes"); (bs "x", bs "10mm"); (bs "page", bs "3")]
     [TStart (bs "event") [(bs "activity", bs "Exit"); (bs "name", bs "e1")]; TEnd (bs "event"); TStart (bs "event") [(bs "activity", bs "validate")]; TEnd (bs "event")];
   ISubform [] [([(bs "name", bs "b"); (bs "type", bs "ListBox"); (bs "access", bs "readOnly"); (bs "required", bs "1")],
                 [TStart (bs "bind") [(bs "match", bs "none")]; TEnd (bs "bind")]);
                ([(bs "access", bs "hidden"); (bs "page", bs "x")], [TStart (bs "event") [(bs "activity", bs "initialize")]; TEnd (bs "event")])];
   IOther (TEnd (bs "template"))].
Example C114_example : Forall tidy ex_template /\
  map (fun q => (qName q, qType q, qRequired q, qReadOnly q, qHidden q, qPage q)) (sQuestions (ParseXFAForm XFormProps.no_float (flat_map item_tokens ex_template))) =
  [(bs "a", bs "text", true, false, false, 3); (bs "b", bs "select", false, true, false, 1); ([], bs "text", false, false, true, 1)] /\
  map (fun r => (rID r, rType r, rSource r)) (sRules (ParseXFAForm XFormProps.no_float (flat_map item_tokens ex_template))) =
  [(bs "rule_1", bs "calculate", bs "a"); (bs "rule_2", bs "validate", bs "a"); (bs "rule_3", bs "set_value", [])].
Proof.
  split; [|split; vm_compute; reflexivity].
  assert (O : forall n a, n <> bs "field" -> n <> bs "subform" -> no_field (TStart n a) /\ no_field (TEnd n)) by (intros n a H1 H2; repeat split; assumption).
  repeat apply Forall_cons; try apply Forall_nil; split; cbn [item_ok item_fields];
    repeat first [apply Forall_cons | apply Forall_nil]; cbn [fst snd map]; repeat first [apply Forall_cons | apply Forall_nil];
    try (split; discriminate); repeat (apply NoDup_cons; [vm_compute; intuition discriminate|]); try apply NoDup_nil.
Qed.
