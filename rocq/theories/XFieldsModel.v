(** Model of core/parse/xfa_parser.go, at the level of XML tokens (see
    DatasetsModel: a namespace prefix is dropped, comments and directives are no
    tokens, the sequence ends at the first error).  Logging is left out. *)
From Verif Require Export DatasetsModel.
Local Open Scope Z_scope.

(** types.FormField (types/types.go): FullName always equals Name here; the
    default value is nil or a text; the properties that are set are texts. *)
Record ffield := mkFF {
  ffID : bytes; ffName : bytes; ffType : bytes; ffRequired : bool; ffReadOnly : bool; ffDefault : option bytes; ffProps : list (bytes * bytes) }.

(** xfa_parser.go:172-197 *)
Definition xfa_types : list (bytes * bytes) :=
  [(bs "text", bs "text"); (bs "textfield", bs "text"); (bs "textarea", bs "textarea"); (bs "textedit", bs "textarea");
   (bs "radio", bs "radio"); (bs "radiobutton", bs "radio"); (bs "checkbox", bs "checkbox"); (bs "checkbutton", bs "checkbox");
   (bs "select", bs "select"); (bs "choice", bs "select"); (bs "dropdown", bs "select");
   (bs "numeric", bs "number"); (bs "decimal", bs "number"); (bs "integer", bs "number");
   (bs "date", bs "date"); (bs "datefield", bs "date"); (bs "email", bs "email"); (bs "emailfield", bs "email");
   (bs "button", bs "button"); (bs "signature", bs "signature"); (bs "signaturefield", bs "signature")].
Definition mapXFATypeToFieldType (t : bytes) : bytes := match kget (ToLower t) xfa_types with Some r => r | None => bs "text" end.
(** xfa_parser.go:199-218: the runes outside ASCII are dropped, so this works
    byte by byte *)
Definition id_char (b : byte) : list byte :=
  let c := b2n b in
  if ((97 <=? c) && (c <=? 122) || (65 <=? c) && (c <=? 90) || (48 <=? c) && (c <=? 57))%N || beqb b "_" then [b]
  else if beqb b " " || beqb b "-" then ["_"%byte] else [].
Definition sanitizeFieldID (name : bytes) : bytes :=
  let id := match flat_map id_char name with [] => bs "field" | id => id end in
  match id with c :: _ => if is_digit c then bs "field_" ++ id else id | [] => id end.
Definition numbered (i : Z) : bytes := bs "field_" ++ decZ i.

(** xfa_parser.go:36-44: inField holds exactly while there is a current field *)
Record fstate := mkFS {
  fsDone : list ffield; fsIndex : Z; fsCur : option ffield; fsName : bytes; fsValue : bytes; fsRequired : bytes; fsLabel : bytes;
  fsInValue : bool; fsInName : bool; fsInLabel : bool }.
Definition fstate0 : fstate := mkFS [] 1 None [] [] [] [] false false false.

Definition named (n : bytes) (f : ffield) : ffield :=
  mkFF (sanitizeFieldID n) n (ffType f) (ffRequired f) (ffReadOnly f) (ffDefault f) (ffProps f).
(** xfa_parser.go:70-90; the field, currentName, currentRequired *)
Definition f_attr (x : ffield * bytes * bytes) (a : bytes * bytes) : ffield * bytes * bytes :=
  let '(f, nm, rq) := x in
  let '(k, v) := a in
  if bytes_eqb k (bs "name") then (named v f, v, rq)
  else if bytes_eqb k (bs "type") then (mkFF (ffID f) (ffName f) (mapXFATypeToFieldType v) (ffRequired f) (ffReadOnly f) (ffDefault f) (ffProps f), nm, rq)
  else if bytes_eqb k (bs "required") then (f, nm, v)
  else if bytes_eqb k (bs "access") then
    (if bytes_eqb v (bs "readOnly") then mkFF (ffID f) (ffName f) (ffType f) (ffRequired f) true (ffDefault f) (ffProps f) else f, nm, rq)
  else if existsb (bytes_eqb k) [bs "h"; bs "w"; bs "x"; bs "y"] then
    (mkFF (ffID f) (ffName f) (ffType f) (ffRequired f) (ffReadOnly f) (ffDefault f) (kset k v (ffProps f)), nm, rq)
  else (f, nm, rq).
Definition new_ff (i : Z) : ffield := mkFF (numbered i) [] (bs "text") false false None [].
(** xfa_parser.go:56-98 *)
Definition f_start (s : fstate) (n : bytes) (attrs : list (bytes * bytes)) : fstate :=
  match s with mkFS done i cur nm va rq la iV iN iL =>
    if bytes_eqb n (bs "field") then
      let '(f, nm, rq) := fold_left f_attr attrs (new_ff i, nm, rq) in mkFS done i (Some f) nm va rq la iV iN iL
    else match cur with
         | None => s
         | Some _ =>
             if bytes_eqb n (bs "value") then mkFS done i cur nm [] rq la true iN iL
             else if bytes_eqb n (bs "name") then mkFS done i cur nm va rq la iV true iL
             else if bytes_eqb n (bs "label") then mkFS done i cur nm va rq la iV iN true
             else s
         end
  end.
Definition set_default (v : bytes) (f : ffield) : ffield :=
  match v with
  | [] => f
  | _ => mkFF (ffID f) (ffName f) (ffType f) (ffRequired f) (ffReadOnly f) (Some (TrimSpace v)) (ffProps f)
  end.
Definition is_required (v : bytes) : bool := bytes_eqb v (bs "1") || bytes_eqb (ToLower v) (bs "true") || bytes_eqb (ToLower v) (bs "required").
(** xfa_parser.go:101-136.  The type is never empty here. *)
Definition finish_field (i : Z) (nm va rq la : bytes) (f : ffield) : ffield :=
  let f := match ffName f with
           | [] => match nm with
                   | [] => mkFF (numbered i) (numbered i) (ffType f) (ffRequired f) (ffReadOnly f) (ffDefault f) (ffProps f)
                   | _ => named nm f end
           | _ => f end in
  let f := set_default va f in
  mkFF (ffID f) (ffName f) (match ffType f with [] => bs "text" | t => t end) (is_required rq) (ffReadOnly f) (ffDefault f)
    (match la with [] => ffProps f | _ => kset (bs "label") (TrimSpace la) (ffProps f) end).
(** xfa_parser.go:99-153 *)
Definition f_end (s : fstate) (n : bytes) : fstate :=
  match s with mkFS done i cur nm va rq la iV iN iL =>
    if bytes_eqb n (bs "field") then
      match cur with
      | Some f => mkFS (done ++ [finish_field i nm va rq la f]) (i + 1) None [] [] [] [] iV iN iL
      | None => mkFS done i None [] [] [] [] iV iN iL
      end
    else if bytes_eqb n (bs "value") then mkFS done i (option_map (set_default va) cur) nm va rq la false iN iL
    else if bytes_eqb n (bs "name") then mkFS done i cur nm va rq la iV false iL
    else if bytes_eqb n (bs "label") then mkFS done i cur nm va rq la iV iN false
    else s
  end.
(** xfa_parser.go:154-166 *)
Definition f_chars (s : fstate) (x : bytes) : fstate :=
  match s with mkFS done i cur nm va rq la iV iN iL =>
    match cur with
    | None => s
    | Some f =>
        if iV then mkFS done i cur nm (va ++ x) rq la iV iN iL
        else if iN then
          mkFS done i (Some (match TrimSpace x with [] => f | n => named n f end)) (TrimSpace x) va rq la iV iN iL
        else if iL then mkFS done i cur nm va rq (la ++ x) iV iN iL
        else s
    end
  end.
Definition f_step (s : fstate) (t : token) : fstate :=
  match t with TStart n a => f_start s n a | TEnd n => f_end s n | TChars x => f_chars s x end.
(** xfa_parser.go:15-169; [xml]: the text, [ts]: its tokens *)
Definition ParseXFAFields (xml : bytes) (ts : list token) : list ffield :=
  if contains (bs "<field") xml then fsDone (fold_left f_step ts fstate0) else [].
