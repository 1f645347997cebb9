(** What a user expects of the form translator. *)
From Verif Require Export XFormModel.
Local Open Scope Z_scope.

(** The elements whose character data is read as it is. *)
Definition tight (n : bytes) : bool := existsb (bytes_eqb n) [bs "value"; bs "label"; bs "desc"; bs "description"].
(** [us] is [ts] with character data inserted outside those elements, and empty
    character data left out; the flag: inside such an element. *)
Definition inside (b : bool) (t : token) : bool := match t with TStart n _ => tight n | TEnd _ => false | TChars _ => b end.
Inductive indented : bool -> list token -> list token -> Prop :=
| in_nil b : indented b [] []
| in_token b t ts us : indented (inside b t) ts us -> indented b (t :: ts) (t :: us)
| in_empty b ts us : indented b ts us -> indented b (TChars [] :: ts) us
| in_insert x ts us : indented false ts us -> indented false ts (TChars x :: us).

(** The response types that keep their meaning. *)
Definition kept_types : list bytes :=
  [bs "text"; bs "textarea"; bs "radio"; bs "checkbox"; bs "number"; bs "date"; bs "email"; bs "button"; bs "signature"].

Section Floats.
Context {F : Type} (parseF : bytes -> option F) (showF : F -> bytes).

Definition reread_prop (v : prop F) : prop F :=
  match parseF (TrimSpace (showV showF v)) with Some f => PFloat f | None => PStr (showV showF v) end.
Definition page_property (q : question F) : Z :=
  match kget (bs "page_number") (qProperties q) with Some (PInt z) => if 0 <? z then z else 1 | _ => 1 end.
(** What comes back as it was. *)
Record kept (q q' : question F) : Prop := {
  k_name : qName q' = qName q;
  k_label : qLabel q' = TrimSpace (qLabel q);
  k_description : qDescription q' = TrimSpace (qDescription q);
  k_type : In (qType q) kept_types -> qType q' = qType q;
  k_required : qRequired q' = qRequired q;
  k_readonly : qReadOnly q' = qReadOnly q;
  k_hidden : qReadOnly q = false -> qHidden q' = qHidden q;
  k_default : qDefault q' = match qDefault q with Some t => match TrimSpace t with [] => None | v => Some v end | None => None end;
  k_layout : forall k, In k [bs "x"; bs "y"; bs "w"; bs "h"] -> kget k (qProperties q') = option_map reread_prop (kget k (qProperties q));
  k_script : option_map vScript (qValidation q') = option_map vScript (qValidation q);
  k_message : option_map vMessage (qValidation q') = option_map vMessage (qValidation q);
  k_options : length (qOptions q') = length (qOptions q) }.
(** What does not. *)
Record lost (q q' : question F) : Prop := {
  l_type : ~ In (qType q) kept_types -> qType q' = bs "text";
  l_hidden : qReadOnly q = true -> qHidden q' = false;
  l_options : Forall (fun o => o = mkOption [] [] false) (qOptions q');
  l_validation : forall v, qValidation q' = Some v ->
    vMinLength v = None /\ vMaxLength v = None /\ vMinValue v = None /\ vMaxValue v = None /\ vPattern v = [];
  l_properties : forall k, ~ In k [bs "x"; bs "y"; bs "w"; bs "h"] -> kget k (qProperties q') = None;
  l_page : qPage q' = page_property q }.

(** A template: fields, subforms of fields, other elements.  A field is its
    attributes and the tokens between its tags. *)
Definition no_field (t : token) : Prop :=
  match t with TStart n _ | TEnd n => n <> bs "field" /\ n <> bs "subform" | TChars _ => True end.
Inductive item := IField (attrs : list (bytes * bytes)) (body : list token)
| ISubform (attrs : list (bytes * bytes)) (fields : list (list (bytes * bytes) * list token))
| IOther (t : token).
Definition field_tokens (f : list (bytes * bytes) * list token) : list token := element (bs "field") (fst f) (snd f).
Definition item_tokens (i : item) : list token :=
  match i with
  | IField a b => field_tokens (a, b)
  | ISubform a l => element (bs "subform") a (flat_map field_tokens l)
  | IOther t => [t]
  end.
Definition item_ok (i : item) : Prop :=
  match i with
  | IField _ b => Forall no_field b
  | ISubform _ l => Forall (fun f => Forall no_field (snd f)) l
  | IOther t => no_field t
  end.
Definition item_names (i : item) : list bytes :=
  match i with
  | IField a _ => [last_attr (bs "name") a []]
  | ISubform _ l => map (fun f => last_attr (bs "name") (fst f) []) l
  | IOther _ => []
  end.
End Floats.
(** An identifier: letters, digits and underscores, not beginning with a digit. *)
Definition id_byte (b : byte) : bool :=
  let c := b2n b in (((97 <=? c) && (c <=? 122)) || ((65 <=? c) && (c <=? 90)) || ((48 <=? c) && (c <=? 57)) || (c =? 95))%N.
Definition identifier (s : bytes) : Prop := forallb id_byte s = true /\ exists c r, s = c :: r /\ is_digit c = false.
