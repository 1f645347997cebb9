(** What the questions and rules of an XFA template should be. *)
From Verif Require Export XFormSpec.
Local Open Scope Z_scope.

(** A field: its attributes and the tokens between its tags. *)
Definition tfield : Type := list (bytes * bytes) * list token.
Definition item_fields (i : item) : list tfield :=
  match i with IField a b => [(a, b)] | ISubform _ l => l | IOther _ => [] end.
Definition attribute (k : bytes) (f : tfield) : bytes := match kget k (fst f) with Some v => v | None => [] end.
Definition tidy (i : item) : Prop := item_ok i /\ Forall (fun f => NoDup (map fst (fst f))) (item_fields i).

(** The types of fields, by the kind of answer they ask for. *)
Definition kinds : list (bytes * list bytes) :=
  [(bs "text", [bs "text"; bs "textfield"]); (bs "textarea", [bs "textarea"; bs "textedit"]); (bs "radio", [bs "radio"; bs "radiobutton"]);
   (bs "checkbox", [bs "checkbox"; bs "checkbutton"]); (bs "select", [bs "select"; bs "choice"; bs "dropdown"; bs "listbox"]);
   (bs "number", [bs "numeric"; bs "decimal"; bs "integer"; bs "float"]); (bs "date", [bs "date"; bs "datefield"]);
   (bs "email", [bs "email"; bs "emailfield"]); (bs "button", [bs "button"]); (bs "signature", [bs "signature"; bs "signaturefield"])].
Definition kind_of (t k : bytes) : Prop :=
  (exists l, In (k, l) kinds /\ In (ToLower t) l) \/ (k = bs "text" /\ forall k l, In (k, l) kinds -> ~ In (ToLower t) l).

(** The field is cut off from the data: a bind element says so. *)
Definition unbound (body : list token) : Prop := exists a, In (TStart (bs "bind") a) body /\ In (bs "match", bs "none") a.
Definition yes (v : bytes) : Prop := In (ToLower (TrimSpace v)) [bs "1"; bs "true"; bs "yes"; bs "required"].
Section Floats.
Context {F : Type} (parseF : bytes -> option F).
(** The question [q] that the field [f] asks. *)
Record asked (f : tfield) (q : question F) : Prop := {
  a_name : qName q = attribute (bs "name") f;
  a_type : kind_of (attribute (bs "type") f) (qType q);
  a_required : qRequired q = true <-> (exists v, kget (bs "required") (fst f) = Some v /\ yes v) /\ ~ unbound (snd f);
  a_readonly : qReadOnly q = true <-> kget (bs "access") (fst f) = Some (bs "readOnly");
  a_hidden : qHidden q = true <-> kget (bs "access") (fst f) = Some (bs "hidden");
  a_page : qPage q = match kget (bs "page") (fst f) with Some v => match atoi v with Some z => z | None => 1 end | None => 1 end;
  a_layout : forall k, In k [bs "x"; bs "y"; bs "w"; bs "h"] ->
    kget k (qProperties q) = option_map (fun v => match parseF (TrimSpace v) with Some x => PFloat x | None => PStr v end) (kget k (fst f));
  a_properties : forall k, ~ In k [bs "x"; bs "y"; bs "w"; bs "h"] -> kget k (qProperties q) = None }.
End Floats.

(** The activities of the events of a field, in order, and the rules they stand
    for. *)
Definition activities (body : list token) : list bytes :=
  flat_map (fun t => match t with TStart n a => if bytes_eqb n (bs "event") then [last_attr (bs "activity") a []] else [] | _ => [] end) body.
Definition events_of (f : tfield) : list (bytes * bytes) := map (pair (attribute (bs "name") f)) (activities (snd f)).
Definition rule_kind (act k : bytes) : Prop :=
  (In (ToLower act) [bs "initialize"; bs "enter"] /\ k = bs "set_value") \/
  (ToLower act = bs "validate" /\ k = bs "validate") \/
  (~ In (ToLower act) [bs "initialize"; bs "enter"; bs "validate"] /\ k = bs "calculate").
Fixpoint ruled (i : Z) (evs : list (bytes * bytes)) (rs : list rule) : Prop :=
  match evs, rs with
  | [], [] => True
  | (name, act) :: evs, r :: rs => rID r = bs "rule_" ++ decZ i /\ rSource r = name /\ rule_kind act (rType r) /\ ruled (i + 1) evs rs
  | _, _ => False
  end.
