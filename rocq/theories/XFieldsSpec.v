(** What a user expects of ParseXFAFields. *)
From Verif Require Export XFieldsModel.
Local Open Scope Z_scope.

(** An identifier: letters, digits and underscores, not beginning with a digit. *)
Definition id_byte (b : byte) : bool :=
  let c := b2n b in ((97 <=? c) && (c <=? 122) || (65 <=? c) && (c <=? 90) || (48 <=? c) && (c <=? 57) || (c =? 95))%N.
Definition identifier (s : bytes) : Prop := forallb id_byte s = true /\ exists c r, s = c :: r /\ is_digit c = false.
(** The kinds of fields, and the names a template may use for them. *)
Definition kinds : list (bytes * list bytes) :=
  [(bs "text", [bs "text"; bs "textfield"]); (bs "textarea", [bs "textarea"; bs "textedit"]);
   (bs "radio", [bs "radio"; bs "radiobutton"]); (bs "checkbox", [bs "checkbox"; bs "checkbutton"]);
   (bs "select", [bs "select"; bs "choice"; bs "dropdown"]); (bs "number", [bs "numeric"; bs "decimal"; bs "integer"]);
   (bs "date", [bs "date"; bs "datefield"]); (bs "email", [bs "email"; bs "emailfield"]);
   (bs "button", [bs "button"]); (bs "signature", [bs "signature"; bs "signaturefield"])].
Definition kind_of (t k : bytes) : Prop :=
  (exists l, In (k, l) kinds /\ In (ToLower t) l) \/ (k = bs "text" /\ forall k' l, In (k', l) kinds -> ~ In (ToLower t) l).

(** A field in a template: its attributes, and between its tags elements named
    value, label and name, and anything else. *)
Inductive part := Val (attrs : list (bytes * bytes)) (ts : list token) | Lab (attrs : list (bytes * bytes)) (ts : list token)
| Nam (attrs : list (bytes * bytes)) (ts : list token) | Oth (t : token).
Definition item := (list (bytes * bytes) * list part + token)%type.
Definition own (n : bytes) : Prop := In n [bs "field"; bs "value"; bs "name"; bs "label"].
Definition foreign (t : token) : Prop := match t with TStart n _ | TEnd n => ~ own n | TChars _ => True end.
Definition not_field (t : token) : Prop := match t with TStart n _ | TEnd n => n <> bs "field" | TChars _ => True end.
Definition part_ok (p : part) : Prop := match p with Val _ ts | Lab _ ts | Nam _ ts => Forall foreign ts | Oth t => foreign t end.
Definition item_ok (i : item) : Prop := match i with inl (_, ps) => Forall part_ok ps | inr t => not_field t end.
Definition elem (n : bytes) (attrs : list (bytes * bytes)) (body : list token) : list token := TStart n attrs :: body ++ [TEnd n].
Definition part_tokens (p : part) : list token :=
  match p with Val a ts => elem (bs "value") a ts | Lab a ts => elem (bs "label") a ts | Nam a ts => elem (bs "name") a ts | Oth t => [t] end.
Definition item_tokens (i : item) : list token :=
  match i with inl (a, ps) => elem (bs "field") a (flat_map part_tokens ps) | inr t => [t] end.
Definition fields_of (l : list item) : list (list (bytes * bytes) * list part) := flat_map (fun i => match i with inl f => [f] | inr _ => [] end) l.

(** What is written there. *)
Definition chunk (t : token) : list bytes := match t with TChars x => [x] | _ => [] end.
Definition text (ts : list token) : bytes := concat (flat_map chunk ts).
Fixpoint last_attr_of (k : bytes) (attrs : list (bytes * bytes)) : option bytes :=
  match attrs with [] => None | (k', v) :: l => match last_attr_of k l with Some x => Some x | None => if bytes_eqb k' k then Some v else None end end.
Fixpoint last_full (l : list bytes) : option bytes :=
  match l with [] => None | x :: l => match last_full l with Some y => Some y | None => match x with [] => None | _ => Some x end end end.
Definition values (ps : list part) : list bytes := flat_map (fun p => match p with Val _ ts => [text ts] | _ => [] end) ps.
Definition names (ps : list part) : list bytes := flat_map (fun p => match p with Nam _ ts => map TrimSpace (flat_map chunk ts) | _ => [] end) ps.
Definition labels (ps : list part) : bytes := concat (flat_map (fun p => match p with Lab _ ts => [text ts] | _ => [] end) ps).
Definition given_name (attrs : list (bytes * bytes)) (ps : list part) : bytes :=
  match last_full (names ps) with Some n => n | None => match last_attr_of (bs "name") attrs with Some n => n | None => [] end end.

(** What the i-th field (from 1) should look like. *)
Record described (i : Z) (attrs : list (bytes * bytes)) (ps : list part) (f : ffield) : Prop := {
  d_name : ffName f = match given_name attrs ps with [] => bs "field_" ++ decZ i | n => n end;
  d_id : identifier (ffID f);
  d_id_same : identifier (ffName f) -> ffID f = ffName f;
  d_type : match last_attr_of (bs "type") attrs with Some t => kind_of t (ffType f) | None => ffType f = bs "text" end;
  d_required : ffRequired f = true <-> exists v, last_attr_of (bs "required") attrs = Some v /\ (v = bs "1" \/ ToLower v = bs "true" \/ ToLower v = bs "required");
  d_readonly : ffReadOnly f = true <-> In (bs "access", bs "readOnly") attrs;
  d_default : ffDefault f = option_map TrimSpace (last_full (values ps));
  d_layout : forall k, In k [bs "h"; bs "w"; bs "x"; bs "y"] -> kget k (ffProps f) = last_attr_of k attrs;
  d_label : kget (bs "label") (ffProps f) = match labels ps with [] => None | l => Some (TrimSpace l) end;
  d_other : forall k, ~ In k [bs "h"; bs "w"; bs "x"; bs "y"; bs "label"] -> kget k (ffProps f) = None }.
Fixpoint all_described (i : Z) (l : list (list (bytes * bytes) * list part)) (fs : list ffield) : Prop :=
  match l, fs with
  | [], [] => True
  | (a, ps) :: l, f :: fs => described i a ps f /\ all_described (i + 1) l fs
  | _, _ => False
  end.
Definition count (p : token -> bool) (ts : list token) : nat := length (List.filter p ts).
Definition field_start (t : token) : bool := match t with TStart n _ => bytes_eqb n (bs "field") | _ => false end.
Definition field_end (t : token) : bool := match t with TEnd n => bytes_eqb n (bs "field") | _ => false end.
