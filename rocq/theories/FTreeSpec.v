(** The field tree of an interactive form as the objects of a file have it:
    dictionaries as lists of entries, laid out with any white space, and what a
    reader should make of them. *)
From Verif Require Import Util WriterModel ParseModel ManipModel TextModel FormsModel.
Local Open Scope Z_scope.

(** The values of entries: a string, a name, a number, a reference, an array of
    strings, of words (numbers, say) or of references, and a value in any other
    notation, such as a nested dictionary or a string in hexadecimal. *)
Inductive fval :=
| VStr (s : bytes) | VName (w : bytes) | VNum (z : Z) | VRef (n g : Z)
| VStrs (l : list bytes) | VWords (l : list bytes) | VRefs (l : list (Z * Z)) | VOther (t : bytes).
Definition in_parens (s : bytes) : bytes := bs "(" ++ s ++ bs ")".
Definition ref_text (r : Z * Z) : bytes := decZ (fst r) ++ bs " " ++ decZ (snd r) ++ bs " R".
Definition val_text (v : fval) : bytes :=
  match v with
  | VStr s => in_parens s
  | VName w => bs "/" ++ w
  | VNum z => decZ z
  | VRef n g => ref_text (n, g)
  | VStrs l => bs "[" ++ join (bs " ") (map in_parens l) ++ bs "]"
  | VWords l => bs "[" ++ join (bs " ") l ++ bs "]"
  | VRefs l => bs "[" ++ join (bs " ") (map ref_text l) ++ bs "]"
  | VOther t => t
  end.

(** White space, key, white space, value. *)
Record entry := mkEntry { eBefore : bytes; eKey : bytes; eGap : bytes; eVal : fval }.
Definition entry_text (e : entry) : bytes := eBefore e ++ bs "/" ++ eKey e ++ eGap e ++ val_text (eVal e).
Definition value_at (es : list entry) (k : bytes) : option fval :=
  option_map eVal (List.find (fun e => bytes_eqb (eKey e) k) es).

(** Characters of a key; white space. *)
Definition regular (b : byte) : bool :=
  negb (is_ws b) && negb (existsb (beqb b) ["("; ")"; "<"; ">"; "["; "]"; "{"; "}"; "/"; "%"]%byte).
Definition blank (s : bytes) : Prop := forallb is_ws s = true.
Definition without (c : byte) (s : bytes) : Prop := forallb (fun b => negb (beqb b c)) s = true.
(** None of the keys in [ks] is in the text [s]. *)
Definition free (ks : list bytes) (s : bytes) : Prop := forall k, In k ks -> contains (bs "/" ++ k) s = false.
Definition plain_string (ks : list bytes) (s : bytes) : Prop :=
  without "(" s /\ without ")" s /\ without "\" s /\ free ks s.
Definition word_byte (b : byte) : bool := regular b && negb (is_space b).
Definition object_number (n : Z) : Prop := 0 <= n < 2 ^ 63.
Definition val_ok (ks : list bytes) (v : fval) : Prop :=
  match v with
  | VStr s => plain_string ks s
  | VName w => w <> [] /\ forallb is_word w = true /\ ~ In w ks
  | VNum z => 0 <= z < 2 ^ 63
  | VRef n g => object_number n /\ object_number g
  | VStrs l => Forall (fun s => plain_string ks s /\ without "]" s) l
  | VWords l => Forall (fun w => w <> [] /\ forallb word_byte w = true) l
  | VRefs l => Forall (fun r => object_number (fst r) /\ object_number (snd r)) l
  | VOther t => free ks t /\ match t with
                | [] => False
                | b :: _ => is_ws b = false /\ is_digit b = false /\ existsb (beqb b) ["("; "["; "/"]%byte = false
                end
  end.
(** A value that could be taken for a part of the key must be set apart. *)
Definition apart (gap : bytes) (v : fval) : Prop :=
  match v with
  | VNum _ | VRef _ _ => gap <> []
  | VOther t => gap <> [] \/ prefixb (bs "<") t = true
  | _ => True
  end.
Definition entry_ok (ks : list bytes) (e : entry) : Prop :=
  blank (eBefore e) /\ forallb regular (eKey e) = true /\ blank (eGap e) /\ apart (eGap e) (eVal e) /\ val_ok ks (eVal e).
(** [d] is the text of an object that is a dictionary with the entries [es]. *)
Definition dictionary (ks : list bytes) (es : list entry) (d : bytes) : Prop :=
  NoDup (map eKey es) /\ Forall (entry_ok ks) es /\
  exists before gap after, d = before ++ bs "<<" ++ flat_map entry_text es ++ gap ++ bs ">>" ++ after /\
    blank gap /\ free ks before /\ free ks after.

(** The entries of a field, and the attributes they stand for.  Entries in
    other notations count as missing. *)
Definition field_keys : list bytes :=
  [bs "FT"; bs "T"; bs "TU"; bs "Ff"; bs "V"; bs "DV"; bs "MaxLen"; bs "Opt"; bs "Rect"; bs "Kids"].
Definition of_kind (es : list entry) (k : bytes) (p : fval -> Prop) : Prop :=
  forall v, value_at es k = Some v -> p v.
Definition field_ok (es : list entry) : Prop :=
  of_kind es (bs "Ff") (fun v => match v with VRef _ _ => False | _ => True end) /\
  of_kind es (bs "MaxLen") (fun v => match v with VRef _ _ => False | _ => True end) /\
  of_kind es (bs "V") (fun v => match v with
                               | VStrs l => Forall (fun s => forallb (fun b => negb (is_space b)) s = true) l
                               | VRefs _ => False | _ => True end) /\
  of_kind es (bs "Opt") (fun v => match v with VWords _ | VRefs _ => False | _ => True end) /\
  of_kind es (bs "Rect") (fun v => match v with VStrs _ | VRefs _ => False | _ => True end).
Definition a_string (o : option fval) : bytes := match o with Some (VStr s) => s | _ => [] end.
Definition a_name (o : option fval) : bytes := match o with Some (VName w) => w | _ => [] end.
Definition a_number (o : option fval) : Z := match o with Some (VNum z) => z | _ => 0 end.
Definition field_attrs (n g : Z) (es : list entry) : attrs := {|
  aNum := n; aGen := g;
  aFT := a_name (value_at es (bs "FT"));
  aT := match value_at es (bs "T") with Some (VStr s) => s | Some (VName w) => w | _ => [] end;
  aTU := a_string (value_at es (bs "TU"));
  aFf := a_number (value_at es (bs "Ff"));
  aV := match value_at es (bs "V") with
        | Some (VStr s) => FStr s | Some (VName w) => FStr w
        | Some (VStrs l) => FList l | Some (VWords l) => FList l | _ => FNil end;
  aDV := match value_at es (bs "DV") with Some (VStr s) => FStr s | _ => FNil end;
  aMaxLen := a_number (value_at es (bs "MaxLen"));
  aOpt := match value_at es (bs "Opt") with Some (VStrs l) => l | _ => [] end;
  aRect := match value_at es (bs "Rect") with Some (VWords l) => l | _ => [] end |}.

(** Trees of fields; a field that is referred to but is not in the file. *)
Inductive ftree := Gone (n g : Z) | Node (n g : Z) (es : list entry) (kids : list ftree).
Definition tree_ref (t : ftree) : Z * Z := match t with Gone n g => (n, g) | Node n g _ _ => (n, g) end.
Inductive in_file (get : Z -> result bytes) : ftree -> Prop :=
| in_gone n g : get n = Err -> in_file get (Gone n g)
| in_node n g es kids d : get n = Ok d -> dictionary field_keys es d -> field_ok es ->
    match value_at es (bs "Kids") with
    | Some (VRefs l) => l = map tree_ref kids
    | Some (VStrs _) | Some (VWords _) => False
    | _ => kids = [] end ->
    Forall (in_file get) kids -> in_file get (Node n g es kids).
Fixpoint tree_height (t : ftree) : nat :=
  match t with Gone _ _ => 1 | Node _ _ _ kids => S (fold_right (fun t h => Nat.max (tree_height t) h) 0%nat kids) end.
(** The fields of the form: those that are gone are left out. *)
Fixpoint tree_fields (t : ftree) : list field :=
  match t with Gone _ _ => [] | Node n g es kids => [Field (field_attrs n g es) (flat_map tree_fields kids)] end.

(** The form dictionary. *)
Definition form_keys : list bytes := [bs "Fields"; bs "XFA"].
Definition form_ok (es : list entry) : Prop :=
  forall e, In e es ->
    (eKey e = bs "XFA" \/ prefixb (bs "XFA") (eKey e) = false) /\
    (forall w, eVal e = VName w -> prefixb (bs "XFA") w = false).
Definition a_form (get : Z -> result bytes) (es : list entry) (fields : list ftree) (d : bytes) : Prop :=
  dictionary form_keys es d /\ form_ok es /\ value_at es (bs "Fields") = Some (VRefs (map tree_ref fields)) /\
  Forall (in_file get) fields.
