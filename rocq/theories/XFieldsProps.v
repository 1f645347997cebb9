(** Theorems about core/parse/xfa_parser.go. *)
From Verif Require Import Util XFieldsSpec XFieldsProofs.
Local Open Scope Z_scope.

(** ** C102: the fields of a template *)
(** One field for every field element, in order, with its name (or a number),
    kind, flags, default, layout and label; fields stand beside each other, in
    any elements. *)
Theorem C102_fields_partial : forall xml l, contains (bs "<field") xml = true -> Forall item_ok l ->
  all_described 1 (fields_of l) (ParseXFAFields xml (flat_map item_tokens l)).
Proof. exact fields_described. Qed.
Print Assumptions C102_fields_partial.
Definition ex_items : list item :=
  [inr (TStart (bs "template") []); inr (TChars [x0a]);
   inl ([(bs "name", bs "full name"); (bs "type", bs "TextEdit"); (bs "required", bs "True"); (bs "x", bs "1in")],
        [Oth (TStart (bs "ui") []); Oth (TEnd (bs "ui")); Lab [] [TChars (bs "Name")]; Val [] [TStart (bs "text") []; TChars (bs " Ann "); TEnd (bs "text")]]);
   inl ([(bs "access", bs "readOnly")], [Val [] []]);
   inr (TEnd (bs "template"))].
Example C102_example : Forall item_ok ex_items /\ ParseXFAFields (bs "<template><field ...") (flat_map item_tokens ex_items) =
  [mkFF (bs "full_name") (bs "full name") (bs "textarea") true false (Some (bs "Ann")) [(bs "x", bs "1in"); (bs "label", bs "Name")];
   mkFF (bs "field_2") (bs "field_2") (bs "text") false true None []].
Proof.
  assert (F : forall n, existsb (bytes_eqb n) [bs "field"; bs "value"; bs "name"; bs "label"] = false -> ~ own n).
  { intros n E H. assert (T : existsb (bytes_eqb n) [bs "field"; bs "value"; bs "name"; bs "label"] = true) by (apply existsb_exists; exists n; split; [exact H|apply bytes_eqb_refl]). congruence. }
  split; [|vm_compute; reflexivity]. unfold ex_items.
  repeat match goal with
  | |- Forall _ [] => constructor
  | |- Forall _ (_ :: _) => constructor
  | |- item_ok (inl _) => cbn [item_ok]
  | |- item_ok (inr _) => cbn [item_ok not_field]
  | |- part_ok _ => cbn [part_ok]
  | |- foreign (TChars _) => exact I
  | |- foreign _ => cbn [foreign]; apply F; reflexivity
  | |- True => exact I
  | |- _ <> _ => discriminate
  end.
Qed.
(** Whatever the document, every field that is returned has a name, a valid
    identifier and a known kind, and there are no more of them than field
    elements. *)
Theorem C102_sound : forall xml ts, Forall (fun f => identifier (ffID f) /\ ffName f <> [] /\ In (ffType f) (map fst kinds)) (ParseXFAFields xml ts).
Proof. exact any_good. Qed.
Print Assumptions C102_sound.
Theorem C102_count : forall xml ts, (length (ParseXFAFields xml ts) <= count field_start ts)%nat /\ (length (ParseXFAFields xml ts) <= count field_end ts)%nat.
Proof. exact any_count. Qed.
Print Assumptions C102_count.
(** A document whose field elements carry a namespace prefix has no fields. *)
Theorem C102_prefix_refuted : forall xml ts, contains (bs "<field") xml = false -> ParseXFAFields xml ts = [].
Proof. exact prefix_none. Qed.
Print Assumptions C102_prefix_refuted.
Example C102_prefix_example : contains (bs "<field") (bs "<t:template xmlns:t='u'><t:field name='a'></t:field></t:template>") = false.
Proof. reflexivity. Qed.
(** Of two nested fields one is lost. *)
Theorem C102_nested_refuted : forall xml a b, contains (bs "<field") xml = true ->
  length (ParseXFAFields xml [TStart (bs "field") a; TStart (bs "field") b; TEnd (bs "field"); TEnd (bs "field")]) = 1%nat.
Proof. exact nested_one. Qed.
Print Assumptions C102_nested_refuted.
(** The caption's text becomes the default of a field that has none. *)
Theorem C102_caption_refuted : forall xml c, contains (bs "<field") xml = true -> c <> [] ->
  map ffDefault (ParseXFAFields xml
    [TStart (bs "field") []; TStart (bs "caption") []; TStart (bs "value") []; TChars c; TEnd (bs "value"); TEnd (bs "caption");
     TStart (bs "value") []; TEnd (bs "value"); TEnd (bs "field")]) = [Some (TrimSpace c)].
Proof. exact caption_default. Qed.
Print Assumptions C102_caption_refuted.
(** Different names can have one identifier. *)
Theorem C102_collision_refuted : exists n m, n <> m /\ forall xml, contains (bs "<field") xml = true ->
  map ffID (ParseXFAFields xml [TStart (bs "field") [(bs "name", n)]; TEnd (bs "field"); TStart (bs "field") [(bs "name", m)]; TEnd (bs "field")]) = [bs "a_b"; bs "a_b"].
Proof. exists (bs "a b"), (bs "a-b"). split; [discriminate|]. intros xml H. unfold ParseXFAFields. rewrite H. reflexivity. Qed.
Print Assumptions C102_collision_refuted.
