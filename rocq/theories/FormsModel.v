(** Model of forms/acroform: parser.go, extract.go, validation.go, writer.go,
    replace.go, fill_streams.go, stream_finder.go, stream_rebuild.go and the
    FlattenForm part of flatten.go.

    Regular expressions are leftmost searches of matchers as in ParseModel;
    the Parent pointer of a field is the path from the root of the field tree.
    Recursion over /Kids is bounded by [stack] as in ManipModel: exceeding it
    kills the process ([Panic]).  Messages of errors are not modelled beyond
    the field they name. *)
From Verif Require Import WriterModel ParseModel ManipModel TextModel.
Local Open Scope Z_scope.

(* ---------------------------------------------------------------- *)
(** Values of type interface{} *)

(** A number of type float64 is kept as its two texts, FormatFloat(v,'f',-1,64)
    and Sprintf("%v"); a value of any other type as its Sprintf("%v") text. *)
Inductive fvalue :=
| FNil | FStr (s : bytes) | FInt (z : Z) | FBool (b : bool)
| FFloat (f v : bytes) | FList (l : list bytes) | FOther (v : bytes).

(** fmt.Sprintf("%v", value) *)
Definition bool_text (b : bool) : bytes := if b then bs "true" else bs "false".
Definition show (v : fvalue) : bytes :=
  match v with
  | FNil => bs "<nil>"
  | FStr s => s
  | FInt z => decZ z
  | FBool b => bool_text b
  | FFloat _ t => t
  | FList l => bs "[" ++ join (bs " ") l ++ bs "]"
  | FOther t => t
  end.

(** value == nil || value == "" *)
Definition missing (v : fvalue) : bool :=
  match v with FNil | FStr [] => true | _ => false end.

(** replace.go:91-111 formatFieldValue and writer.go:228-248
    formatFieldValueForWriter (same text) *)
Definition formatFieldValue (v : fvalue) (ft : bytes) : bytes :=
  match v with
  | FBool b => if bytes_eqb ft (bs "Btn") then (if b then bs "Yes" else bs "Off") else bool_text b
  | FFloat t _ => t
  | _ => show v
  end.

(* ---------------------------------------------------------------- *)
(** parser.go: fields *)

(** parser.go:23-44 without the members that are never set from a file
    (TM, AA, DA, Q, TI, I, Page); Rect as its numerals, ParseFloat not modelled. *)
Record attrs := mkAttrs {
  aNum : Z; aGen : Z;
  aFT : bytes; aT : bytes; aTU : bytes; aFf : Z;
  aV : fvalue; aDV : fvalue; aMaxLen : Z; aOpt : list bytes; aRect : list bytes
}.
Inductive field := Field (a : attrs) (kids : list field).
Definition f_attrs (f : field) : attrs := match f with Field a _ => a end.
Definition f_kids (f : field) : list field := match f with Field _ ks => ks end.
(** parser.go:15-20 *)
Record acroform := mkForm { fmFields : list field; fmXFA : bool }.

Definition is_word (b : byte) : bool :=
  let n := b2n b in
  ((48 <=? n) && (n <=? 57) || (65 <=? n) && (n <=? 90) || (97 <=? n) && (n <=? 122) || (n =? 95))%N.
Definition until (c : byte) (s : bytes) : bytes := take_while (fun b => negb (beqb b c)) s.
(** KEY\s* and a parenthesised string up to the first closing parenthesis: its
    inside *)
Definition m_str (key s : bytes) : option bytes :=
  do r <- lit key s; do r <- lit (bs "(") (ws0 r);
  let g := until ")" r in do _ <- lit (bs ")") (skipn (length g) r); Some g.
(** KEY\s*/(\w+) *)
Definition m_name (key s : bytes) : option bytes :=
  do r <- lit key s; do r <- lit (bs "/") (ws0 r);
  match take_while is_word r with [] => None | w => Some w end.
(** KEY\s* and an array up to the first "]": its inside. *)
Definition m_arr (key s : bytes) : option bytes :=
  do r <- lit key s; do r <- lit (bs "[") (ws0 r);
  let g := until "]" r in do _ <- lit (bs "]") (skipn (length g) r); Some g.
Definition search {A} (m : bytes -> option A) (s : bytes) : option A := value_of (find m s).

(** FindAllStringSubmatch: the value of each successive match *)
Fixpoint find_each {A} (m : bytes -> option (A * bytes)) (s : bytes) (skip : nat) : list A :=
  match s with
  | [] => []
  | b :: s' =>
      match skip with
      | S k => find_each m s' k
      | O => match m s with
             | Some (a, r) => a :: find_each m s' (length s - length r - 1)
             | None => find_each m s' 0
             end
      end
  end.

(** parser.go:128-134,218-224: (\d+)\s+(\d+)\s+R and its two numbers *)
Definition m_ref2 (s : bytes) : option ((Z * Z) * bytes) :=
  do (n, r) <- digits1 s; do r <- ws1 r; do (g, r) <- digits1 r; do r <- ws1 r;
  do r <- lit (bs "R") r; Some ((atoi_clip n, atoi_clip g), r).
Definition refs_of (s : bytes) : list (Z * Z) := find_each m_ref2 s 0.

(** parser.go:243-255 parseArray *)
Definition strip_parens (p : bytes) : bytes :=
  if prefixb (bs "(") p && suffixb (bs ")") p then firstn (length p - 2) (skipn 1 p) else p.
Definition parseArray (s : bytes) : list bytes := map strip_parens (fields is_space s).

(** parser.go:258-273 parseOptions *)
Definition m_paren (s : bytes) : option (bytes * bytes) :=
  do r <- lit (bs "(") s; let g := until ")" r in
  do r' <- lit (bs ")") (skipn (length g) r); Some (g, r').
Definition parseOptions (s : bytes) : list bytes := find_each m_paren s 0.

(** parser.go:157-214: the attributes found in the text of a field object *)
Definition get_FT (d : bytes) : bytes := def [] (search (m_name (bs "/FT")) d).
Definition get_T (d : bytes) : bytes :=
  match search (m_str (bs "/T")) d with
  | Some t => t
  | None => def [] (search (m_name (bs "/T")) d)
  end.
Definition get_TU (d : bytes) : bytes := def [] (search (m_str (bs "/TU")) d).
Definition get_Ff (d : bytes) : Z := atoi0 (search (m_key (bs "/Ff")) d).
Definition get_V (d : bytes) : fvalue :=
  match search (m_str (bs "/V")) d with
  | Some t => FStr t
  | None =>
      match search (m_name (bs "/V")) d with
      | Some t => FStr t
      | None => match search (m_arr (bs "/V")) d with
                | Some t => FList (parseArray t)
                | None => FNil
                end
      end
  end.
Definition get_DV (d : bytes) : fvalue :=
  match search (m_str (bs "/DV")) d with Some t => FStr t | None => FNil end.
Definition get_MaxLen (d : bytes) : Z := atoi0 (search (m_key (bs "/MaxLen")) d).
Definition get_Opt (d : bytes) : list bytes :=
  match search (m_arr (bs "/Opt")) d with Some t => parseOptions t | None => [] end.
Definition get_Rect (d : bytes) : list bytes :=
  match search (m_arr (bs "/Rect")) d with Some t => fields is_space t | None => [] end.
Definition get_Kids (d : bytes) : list (Z * Z) :=
  match search (m_arr (bs "/Kids")) d with Some t => refs_of t | None => [] end.
Definition attrs_of (n g : Z) (d : bytes) : attrs :=
  mkAttrs n g (get_FT d) (get_T d) (get_TU d) (get_Ff d) (get_V d) (get_DV d) (get_MaxLen d)
    (get_Opt d) (get_Rect d).

(** Fields that cannot be parsed are skipped (parser.go:137-142,228-233). *)
Fixpoint parse_each (go : Z -> Z -> result field) (refs : list (Z * Z)) : result (list field) :=
  match refs with
  | [] => Ok []
  | (n, g) :: refs' =>
      match go n g with
      | Panic => Panic
      | Err => parse_each go refs'
      | Ok f => rmap (cons f) (parse_each go refs')
      end
  end.
(** parser.go:151-240 *)
Fixpoint parseField (stack : nat) (get : Z -> result bytes) (n g : Z) : result field :=
  match stack with
  | O => Panic
  | S k =>
      rbind (get n) (fun d =>
        rmap (Field (attrs_of n g d)) (parse_each (parseField k get) (get_Kids d)))
  end.

(** parser.go:105-148 *)
Definition parseAcroFormDict (stack : nat) (get : Z -> result bytes) (d : bytes) : result acroform :=
  match search (m_arr (bs "/Fields")) d with
  | None => Err
  | Some t => rmap (fun fs => mkForm fs (contains (bs "/XFA") d)) (parse_each (parseField stack get) (refs_of t))
  end.

(** parser.go:68: /AcroForm\s+(\d+)\s+(\d+)\s+R and what follows the match *)
Definition m_acroform (s : bytes) : option (bytes * bytes) :=
  do r <- lit (bs "/AcroForm") s; do r <- ws1 r; do (n, r) <- digits1 r; do r <- ws1 r;
  do (_, r) <- digits1 r; do r <- ws1 r; do r <- lit (bs "R") r; Some (n, r).
(** parser.go:64-102; [get] is parse.GetObject on the file. *)
Definition parseAcroFormFromBytes (stack : nat) (get : Z -> result bytes) (f : bytes) : result acroform :=
  match search m_acroform f with
  | None => Err
  | Some (d, _) =>
      match atoi d with
      | None => Err
      | Some n => rbind (get n) (fun t => parseAcroFormDict stack get t)
      end
  end.
(** parser.go:47-61: the file must also open with the empty password;
    [dec] is the encryptInfo of the caller. *)
Definition ParseAcroForm (stack : nat) (inflate : bytes -> option bytes)
  (crypt : bytes -> result (option decryptor)) (dec : option decryptor) (f : bytes) : result acroform :=
  rbind (Open inflate crypt f) (fun _ => parseAcroFormFromBytes stack (GetObject inflate dec f) f).

(* ---------------------------------------------------------------- *)
(** extract.go *)

(** extract.go:67-75.  [parent] is the full name of the parent, the empty
    string for a field without parent (the two cases give the same name). *)
Definition full_name (parent : bytes) (f : field) : bytes :=
  match parent with
  | [] => aT (f_attrs f)
  | _ => parent ++ bs "." ++ aT (f_attrs f)
  end.
Definition GetFullName (ancestors : list field) (f : field) : bytes :=
  full_name (fold_left full_name ancestors []) f.

Definition named (name parent : bytes) (f : field) : bool :=
  bytes_eqb (full_name parent f) name || bytes_eqb (aT (f_attrs f)) name.
(** extract.go:78-92; the second component is the full name of the parent *)
Fixpoint FindFieldByName (fs : list field) (name : bytes) : option (field * bytes) :=
  match fs with
  | [] => None
  | f :: fs' =>
      if named name [] f then Some (f, [])
      else
        let p := full_name [] f in
        match List.find (named name p) (f_kids f) with
        | Some k => Some (k, p)
        | None => FindFieldByName fs' name
        end
  end.

(** extract.go:45-64: the assignments in order, the last one for a key counts *)
Definition given (v : fvalue) : bool := match v with FNil => false | _ => true end.
Definition value_entry (parent : bytes) (f : field) : list (bytes * fvalue) :=
  let n := full_name parent f in
  if negb (bytes_eqb n []) && given (aV (f_attrs f)) then [(n, aV (f_attrs f))] else [].
Definition GetFieldValues (fs : list field) : list (bytes * fvalue) :=
  fold_left (fun m e => kset (fst e) (snd e) m)
    (flat_map (fun f => value_entry [] f ++ flat_map (value_entry (full_name [] f)) (f_kids f)) fs) [].

(* ---------------------------------------------------------------- *)
(** validation.go *)

Definition bit (flags k : Z) : bool := negb (Z.land flags k =? 0).
Definition required (a : attrs) : bool := bit (aFf a) 2.

(** The errors, with the names they carry *)
Inductive verror := EUnknown (name : bytes) | EInvalid (name : bytes) | EMissing (name : bytes).

(** validation.go:62-85 *)
Definition validateTextField (a : attrs) (v : fvalue) : bool :=
  negb ((0 <? aMaxLen a) && (aMaxLen a <? Z.of_nat (length (show v)))).
Definition in_options (a : attrs) (v : fvalue) : bool := existsb (fun o => bytes_eqb o (show v)) (aOpt a).
Definition has_options (a : attrs) : bool := match aOpt a with [] => false | _ => true end.
(** validation.go:88-122 *)
Definition standard_state (t : bytes) : bool :=
  bytes_eqb t (bs "Yes") || bytes_eqb t (bs "On") || bytes_eqb t (bs "Off") || bytes_eqb t (bs "No").
Definition validateButtonField (a : attrs) (v : fvalue) : bool :=
  if bit (aFf a) 0x8000 && negb (standard_state (show v)) then true
  else if bit (aFf a) 0x10000 && has_options a then in_options a v else true.
(** validation.go:125-151 *)
Definition validateChoiceField (a : attrs) (v : fvalue) : bool :=
  if has_options a then in_options a v else true.
(** validation.go:154-168 *)
Definition validateSignatureField (a : attrs) (v : fvalue) : bool :=
  negb (missing v && required a).

(** validation.go:24-59, for a field that is not nil: true for no error *)
Definition ValidateField (a : attrs) (v : fvalue) : bool :=
  if required a && missing v then false
  else if bytes_eqb (aFT a) (bs "Tx") then validateTextField a v
  else if bytes_eqb (aFT a) (bs "Btn") then validateButtonField a v
  else if bytes_eqb (aFT a) (bs "Ch") then validateChoiceField a v
  else if bytes_eqb (aFT a) (bs "Sig") then validateSignatureField a v
  else true.

(** validation.go:171-215; [data] lists the entries of the map in the order of
    the iteration. *)
Definition check_entry (fs : list field) (e : bytes * fvalue) : list verror :=
  match FindFieldByName fs (fst e) with
  | None => [EUnknown (fst e)]
  | Some (f, p) => if ValidateField (f_attrs f) (snd e) then [] else [EInvalid (full_name p f)]
  end.
Definition supplied {A} (data : list (bytes * A)) (name : bytes) : bool :=
  existsb (fun e => bytes_eqb (fst e) name) data.
Definition check_required (data : list (bytes * fvalue)) (parent : bytes) (f : field) : list verror :=
  let n := full_name parent f in
  if required (f_attrs f) && negb (supplied data n) then [EMissing n] else [].
Definition ValidateFormData (fs : list field) (data : list (bytes * fvalue)) : list verror :=
  flat_map (check_entry fs) data ++
  flat_map (fun f => check_required data [] f ++
                     flat_map (check_required data (full_name [] f)) (f_kids f)) fs.

(** validation.go:218-294.  The rules of a question: [qPattern] the pattern with
    regexp.MatchString as a parameter of the check, the numeric bounds as
    comparisons with [parse], strconv.ParseFloat followed by the conversion to
    a rational in some order (parameters of the model). *)
Record rules := mkRules {
  rMinLen : option Z; rMaxLen : option Z; rPattern : bytes; rMin : option Z; rMax : option Z
}.
Record vquestion := mkVQ { vqName : bytes; vqRequired : bool; vqNumber : bool; vqRules : option rules }.
Definition rule_text (v : fvalue) : bytes := match v with FFloat t _ => t | _ => show v end.
Definition at_least (o : option Z) (z : Z) : bool := match o with Some m => m <=? z | None => true end.
Definition at_most (o : option Z) (z : Z) : bool := match o with Some m => z <=? m | None => true end.
(** [matches p t]: None for a pattern that does not compile. *)
Definition ValidateFieldValue (matches : bytes -> bytes -> option bool) (parse : bytes -> option Z)
  (q : vquestion) (v : fvalue) : bool :=
  match vqRules q with
  | None => true
  | Some r =>
      let t := rule_text v in
      let n := Z.of_nat (length t) in
      at_least (rMinLen r) n && at_most (rMaxLen r) n &&
      (match rPattern r with [] => true | p => match matches p t with Some b => b | None => false end end) &&
      (if vqNumber q then match parse t with Some x => at_least (rMin r) x && at_most (rMax r) x | None => true end
       else true)
  end.
(** validation.go:297-334 *)
Definition last_question (qs : list vquestion) (name : bytes) : option vquestion :=
  List.find (fun q => bytes_eqb (vqName q) name) (rev qs).
Definition ValidateFormSchema matches parse (qs : list vquestion) (data : list (bytes * fvalue)) : list verror :=
  flat_map (fun e => match last_question qs (fst e) with
                     | None => [EUnknown (fst e)]
                     | Some q => if ValidateFieldValue matches parse q (snd e) then [] else [EInvalid (vqName q)]
                     end) data ++
  flat_map (fun q => if vqRequired q && negb (supplied data (vqName q)) then [EMissing (vqName q)] else []) qs.

(* ---------------------------------------------------------------- *)
(** parser.go:288-414: the schema *)

Inductive rtype := RText | RCheckbox | RRadio | RButton | RSelect | RSignature | RUnknown.
(** parser.go:389-414 *)
Definition mapFieldTypeWithFlags (ft : bytes) (flags : Z) : rtype :=
  if bytes_eqb ft (bs "Tx") then RText
  else if bytes_eqb ft (bs "Btn") then
    if bit flags 0x8000 then RCheckbox else if bit flags 0x10000 then RRadio else RButton
  else if bytes_eqb ft (bs "Ch") then RSelect
  else if bytes_eqb ft (bs "Sig") then RSignature
  else RUnknown.
(** types.Question as ToQuestion fills it (parser.go:308-369); the position
    properties are left out. *)
Record question := mkQuestion {
  qID : bytes; qName : bytes; qLabel : bytes; qType : rtype; qRequired : bool; qReadOnly : bool;
  qDefault : fvalue; qOptions : list bytes; qMaxLength : option Z
}.
Definition ToQuestion (a : attrs) : question :=
  mkQuestion (bs "field_" ++ decZ (aNum a)) (aT a) (aTU a) (mapFieldTypeWithFlags (aFT a) (aFf a))
    (bit (aFf a) 2) (bit (aFf a) 1) (aDV a) (aOpt a)
    (if 0 <? aMaxLen a then Some (aMaxLen a) else None).
(** parser.go:288-305 *)
Definition ToFormSchema (fs : list field) : list question := map (fun f => ToQuestion (f_attrs f)) fs.

(* ---------------------------------------------------------------- *)
(** writer.go *)

(** writer.go:20-32; Rect as the four numerals that "%.2f" prints, if the
    slice has four elements. *)
Record fielddef := mkDef {
  dName : bytes; dType : bytes; dValue : fvalue; dDefault : fvalue;
  dRect : list bytes; dFlags : Z; dOptions : list bytes; dMaxLen : Z
}.
(** writer.go:43-104 *)
Definition new_def (name type : bytes) (rect : list bytes) (flags : Z) (options : list bytes) : fielddef :=
  mkDef name type FNil FNil rect flags options 0.
Definition AddTextField name rect := new_def name (bs "Tx") rect 0 [].
Definition AddCheckbox name rect := new_def name (bs "Btn") rect 0x8000 [].
Definition AddRadioButton name rect := new_def name (bs "Btn") rect 0x10000 [].
Definition AddChoiceField name rect options := new_def name (bs "Ch") rect 0 options.
Definition AddButton name rect := new_def name (bs "Btn") rect 0 [].
(** writer.go:106-143 *)
Definition with_flags (d : fielddef) (fl : Z) : fielddef :=
  mkDef (dName d) (dType d) (dValue d) (dDefault d) (dRect d) fl (dOptions d) (dMaxLen d).
Definition SetValue (v : fvalue) (d : fielddef) : fielddef :=
  mkDef (dName d) (dType d) v (dDefault d) (dRect d) (dFlags d) (dOptions d) (dMaxLen d).
Definition SetDefault (v : fvalue) (d : fielddef) : fielddef :=
  mkDef (dName d) (dType d) (dValue d) v (dRect d) (dFlags d) (dOptions d) (dMaxLen d).
Definition SetMaxLength (n : Z) (d : fielddef) : fielddef :=
  mkDef (dName d) (dType d) (dValue d) (dDefault d) (dRect d) (dFlags d) (dOptions d) n.
Definition SetRequired (b : bool) (d : fielddef) : fielddef :=
  with_flags d (if b then Z.lor (dFlags d) 2 else Z.ldiff (dFlags d) 2).
Definition SetReadOnly (b : bool) (d : fielddef) : fielddef :=
  with_flags d (if b then Z.lor (dFlags d) 1 else Z.ldiff (dFlags d) 1).

(** writer.go:167-225 *)
Definition optional (b : bool) (s : bytes) : bytes := if b then s else [].
Definition field_dict (d : fielddef) : bytes :=
  bs "<< /FT /" ++ dType d ++
  optional (negb (bytes_eqb (dName d) [])) (bs " /T (" ++ escapeFieldValue (dName d) ++ bs ")") ++
  optional (4 <=? length (dRect d))%nat (bs " /Rect [" ++ join (bs " ") (firstn 4 (dRect d)) ++ bs "]") ++
  optional (negb (dFlags d =? 0)) (bs " /Ff " ++ decZ (dFlags d)) ++
  optional (given (dValue d)) (bs " /V (" ++ escapeFieldValue (formatFieldValue (dValue d) (dType d)) ++ bs ")") ++
  optional (given (dDefault d)) (bs " /DV (" ++ escapeFieldValue (formatFieldValue (dDefault d) (dType d)) ++ bs ")") ++
  optional (0 <? dMaxLen d) (bs " /MaxLen " ++ decZ (dMaxLen d)) ++
  optional (negb (length (dOptions d) =? 0)%nat)
    (bs " /Opt [" ++ join (bs " ") (map (fun o => bs "(" ++ escapeFieldValue o ++ bs ")") (dOptions d)) ++ bs "]") ++
  bs " >>".
Definition createFieldObject (d : fielddef) (w : writer) : Z * writer := AddObject (Some (field_dict d)) w.

(** writer.go:146-164 *)
Fixpoint create_fields (ds : list fielddef) (w : writer) : list Z * writer :=
  match ds with
  | [] => ([], w)
  | d :: ds' => let (n, w) := createFieldObject d w in
                let (ns, w) := create_fields ds' w in (n :: ns, w)
  end.
Definition form_dict (ns : list Z) : bytes :=
  bs "<< /Fields [" ++ join (bs " ") (map ref ns) ++ bs "] /NeedAppearances true >>".
Definition BuildFields (ds : list fielddef) (w : writer) : result Z * writer :=
  match ds with
  | [] => (Err, w)
  | _ => let (ns, w) := create_fields ds w in
         let (n, w) := AddObject (Some (form_dict ns)) w in (Ok n, w)
  end.

(** writer.go:283-304.  The stored object is changed only when it has no
    /AcroForm. *)
Definition AddAcroFormToCatalog (catalog form : Z) (w : writer) : result writer :=
  rbind (WGetObject catalog w) (fun t =>
  if contains (bs "/AcroForm") t then Ok w
  else match last_index (bs ">>") t with
  | None => Err
  | Some i => Ok (SetObject catalog (Some (firstn i t ++ bs " /AcroForm " ++ ref form ++ skipn i t)) w)
  end).

(* ---------------------------------------------------------------- *)
(** replace.go *)

(** %d\s+%d\s+obj and what follows it *)
Definition m_objhead (n g : Z) (s : bytes) : option bytes :=
  do r <- lit (decZ n) s; do r <- ws1 r; do r <- lit (decZ g) r; do r <- ws1 r; lit (bs "obj") r.

(** replace.go:15-56 *)
Definition ReplaceFieldObject (f : bytes) (n g : Z) (new : bytes) : result bytes :=
  match find (m_objhead n g) f with
  | None => Err
  | Some (_, rest) =>
      match index (bs "endobj") rest with
      | None => Err
      | Some k => Ok (firstn (length f - length rest) f ++ nl ++ new ++ bs "
endobj
" ++ skipn (k + 6) rest)
      end
  end.

(** replace.go:71: /V\s* and a string up to the first closing parenthesis, a
    name /[^\s]+ or an array up to the first "]"; what follows the match *)
Definition m_v (s : bytes) : option bytes :=
  do r <- lit (bs "/V") s;
  match ws0 r with
  | c :: r' =>
      if beqb c "(" then lit (bs ")") (skipn (length (until ")" r')) r')
      else if beqb c "[" then lit (bs "]") (skipn (length (until "]" r')) r')
      else if beqb c "/" then
        match take_while (fun b => negb (is_ws b)) r' with
        | [] => None
        | w => Some (skipn (length w) r')
        end
      else None
  | [] => None
  end.

(** regexp's Expand for a pattern without groups: [$name] and [${name}] are
    replaced by the text of the group of that name or number, which is empty
    except for group 0, the whole match; [$$] is a dollar sign. *)
Definition group_text (name whole : bytes) : bytes :=
  if bytes_eqb name (bs "0") then whole else [].
Fixpoint expand (fuel : nat) (whole t : bytes) : bytes :=
  match fuel with
  | O => t
  | S k =>
      match t with
      | [] => []
      | c :: t' =>
          if negb (beqb c "$") then c :: expand k whole t'
          else match t' with
          | [] => [c]
          | d :: t'' =>
              if beqb d "$" then c :: expand k whole t''
              else
                let brace := beqb d "{" in
                let body := if brace then t'' else t' in
                let name := take_while is_word body in
                let rest := skipn (length name) body in
                match name with
                | [] => c :: expand k whole t'
                | _ =>
                    if brace then
                      match rest with
                      | e :: rest' => if beqb e "}" then group_text name whole ++ expand k whole rest'
                                      else c :: expand k whole t'
                      | [] => c :: expand k whole t'
                      end
                    else group_text name whole ++ expand k whole rest
                end
          end
      end
  end.
(** ReplaceAllString with an expanded template *)
Fixpoint replace_expand (m : bytes -> option bytes) (tpl s : bytes) (skip : nat) : bytes :=
  match s with
  | [] => []
  | b :: s' =>
      match skip with
      | S k => replace_expand m tpl s' k
      | O => match m s with
             | Some r => expand (S (length tpl)) (firstn (length s - length r) s) tpl ++
                         replace_expand m tpl s' (length s - length r - 1)
             | None => b :: replace_expand m tpl s' 0
             end
      end
  end.

(** fill_streams.go:177-197 updateFieldContent; the same text is in
    replace.go:66-84. *)
Definition new_v (v : fvalue) (ft : bytes) : bytes := bs "/V (" ++ escapeFieldValue (formatFieldValue v ft) ++ bs ")".
Definition updateFieldContent (t : bytes) (ft : bytes) (v : fvalue) : result bytes :=
  if found (find m_v t) then Ok (replace_expand m_v (new_v v ft) t 0)
  else match last_index (bs ">>") t with
  | None => Err
  | Some i => Ok (firstn i t ++ new_v v ft ++ bs " " ++ skipn i t)
  end.

(** replace.go:59-88 *)
Definition FillFieldValue (inflate : bytes -> option bytes) (dec : option decryptor) (f : bytes)
  (a : attrs) (v : fvalue) : result bytes :=
  rbind (GetObject inflate dec f (aNum a)) (fun t =>
  rbind (updateFieldContent t (aFT a) v) (fun new =>
  ReplaceFieldObject f (aNum a) (aGen a) new)).

(* ---------------------------------------------------------------- *)
(** stream_finder.go *)

(** stream_finder.go:34-51 *)
Definition findStartXRef (f : bytes) : option Z :=
  do d <- search m_startxref (skipn (length f - 1024) f); atoi d.
(** stream_finder.go:13-31; 0 for "none" *)
Definition findStreamForObject (inflate : bytes -> option bytes) (f : bytes) (n : Z) : Z :=
  match findStartXRef f with
  | None => 0
  | Some x =>
      match ParseXRefStreamFull inflate f x with
      | Ok (_, comp) => match mget n comp with Some (s, _) => s | None => 0 end
      | _ => 0
      end
  end.

(* ---------------------------------------------------------------- *)
(** stream_rebuild.go *)

(** stream_rebuild.go:109-167 (parseObjectStream) and 170-195
    (parseStreamDict).  zlib data with a good header and a corrupt body are
    not modelled: [inflate] fails as a whole. *)
Record objstm := mkObjStm { osN : option Z; osFirst : option Z; osData : bytes }.
Definition skip_eol2 (s : bytes) (i : nat) : nat :=
  let i := match nth_error s i with Some b => if beqb b x0d || beqb b x0a then S i else i | None => i end in
  match nth_error s i with Some b => if beqb b x0a then S i else i | None => i end.
Definition dict_int (key d : bytes) : option Z := do t <- search (m_key key) d; atoi t.
Definition parseObjectStream (inflate : bytes -> option bytes) (dec : option decryptor) (t : bytes) : result objstm :=
  match index (bs "<<") t with
  | None => Err
  | Some ds =>
      match index (bs ">>") (skipn ds t) with
      | None => Err
      | Some k =>
          let de := (ds + k + 2)%nat in
          let d := sub ds de t in
          match index (bs "stream") (skipn de t) with
          | None => Err
          | Some k =>
              let start := skip_eol2 t (de + k + 6) in
              match dict_int (bs "/Length") d with
              | None => Err
              | Some len =>
                  if flen t <? Z.of_nat start + len then Panic
                  else
                    let raw := sub start (start + Z.to_nat len) t in
                    rbind (match dec with None => Ok raw | Some d => d raw 0 0 end) (fun raw =>
                    match inflate raw with
                    | None => Err
                    | Some data => Ok (mkObjStm (dict_int (bs "/N") d) (dict_int (bs "/First") d) data)
                    end)
              end
          end
      end
  end.

(** stream_rebuild.go:227-241: the objects between consecutive offsets *)
Fixpoint stream_objects (first : Z) (data : bytes) (es : list (Z * Z)) (acc : zmap bytes) : result (zmap bytes) :=
  match es with
  | [] => Ok acc
  | (n, off) :: es' =>
      let s := first + off in
      let e := match es' with (_, off') :: _ => first + off' | [] => flen data end in
      if (s <? 0) || (e <? s) || (flen data <? e) then Panic
      else stream_objects first data es' (mset n (trim_right_blank (sub (Z.to_nat s) (Z.to_nat e) data)) acc)
  end.
(** stream_rebuild.go:249-258: the new index and the new objects *)
Fixpoint layout (objs : zmap bytes) (es : list Z) (off : Z) : bytes * bytes :=
  match es with
  | [] => ([], [])
  | n :: es' =>
      let d := def [] (mget n objs) in
      let (h, b) := layout objs es' (off + flen d + 1) in
      (decZ n ++ bs " " ++ decZ off ++ bs " " ++ h, d ++ nl ++ b)
  end.
(** stream_rebuild.go:198-261; [updates] maps object numbers to contents.
    Returns the stream content and the header. *)
Definition rebuildStreamContent (s : objstm) (updates : zmap bytes) : result (bytes * bytes) :=
  match osN s, osFirst s with
  | Some n, Some first =>
      if flen (osData s) <? first then Panic
      else
        let es := firstn (Z.to_nat n) (pairs_of (fields is_space (firstn (Z.to_nat first) (osData s)))) in
        rbind (stream_objects first (osData s) es []) (fun objs =>
        let (h, b) := layout (updates ++ objs) (map fst es) 0 in Ok (b, h))
  | _, _ => Err
  end.

(** stream_rebuild.go:264-282 *)
Definition formatStreamDict (n first len : Z) : bytes :=
  bs "<< /N " ++ decZ n ++ bs " /First " ++ decZ first ++ bs " /Length " ++ decZ len ++ bs " >>".

(** stream_rebuild.go:25-106 *)
Definition RebuildObjectStream (inflate : bytes -> option bytes) (deflate : bytes -> bytes)
  (dec : option decryptor) (f : bytes) (sn : Z) (updates : zmap bytes) : result bytes :=
  rbind (GetObject inflate dec f sn) (fun t =>
  match find (m_num0obj sn) f with
  | None => Err
  | Some (i, _) =>
      rbind (parseObjectStream inflate dec t) (fun s =>
      rbind (rebuildStreamContent s updates) (fun bh =>
      let comp := deflate (fst bh) in
      let dictText := formatStreamDict (def 0 (osN s)) (flen (snd bh)) (flen comp) in
      match index (bs "stream") (skipn i f) with
      | None => Err
      | Some k =>
          match index (bs "endstream") (skipn (i + k) f) with
          | None => Err
          | Some e =>
              Ok (firstn i f ++ decZ sn ++ bs " 0 obj
" ++ dictText ++ bs "
stream
" ++ comp ++ bs "
endstream
endobj
" ++ skipn (i + k + e + 9) f)
          end
      end))
  end).

(* ---------------------------------------------------------------- *)
(** fill_streams.go *)

(** fill_streams.go:83-88: the object text lacks its header in the first 50 bytes *)
Definition in_stream (n : Z) (t : bytes) : bool := negb (contains (decZ n ++ bs " 0 obj") (firstn 50 t)).

(** fill_streams.go:77-149: one entry of the form data.  A failing
    FillFieldValue leaves no bytes at all in [result]. *)
Definition or_nil (r : result bytes) : result bytes :=
  match r with Panic => Panic | Err => Ok [] | Ok b => Ok b end.
Definition add_update (s n : Z) (c : bytes) (ups : zmap (zmap bytes)) : zmap (zmap bytes) :=
  mset s ((n, c) :: def [] (mget s ups)) ups.
Definition fill_entry (inflate : bytes -> option bytes) (p : pdf) (dec : option decryptor) (f : bytes)
  (fs : list field) (st : bytes * zmap (zmap bytes)) (e : bytes * fvalue) : result (bytes * zmap (zmap bytes)) :=
  match FindFieldByName fs (fst e) with
  | None => Ok st
  | Some (fd, _) =>
      let a := f_attrs fd in
      let direct := rmap (fun b => (b, snd st)) (or_nil (FillFieldValue inflate dec (fst st) a (snd e))) in
      match PGetObject inflate p (aNum a) with
      | Panic => Panic
      | Err => direct
      | Ok t =>
          if in_stream (aNum a) t then
            match updateFieldContent t (aFT a) (snd e) with
            | Panic => Panic
            | Err => Ok st
            | Ok new =>
                let s := findStreamForObject inflate f (aNum a) in
                if 0 <? s then Ok (fst st, add_update s (aNum a) new (snd st)) else direct
            end
          else direct
      end
  end.
Fixpoint fill_entries inflate p dec f fs (st : bytes * zmap (zmap bytes)) (data : list (bytes * fvalue))
  : result (bytes * zmap (zmap bytes)) :=
  match data with
  | [] => Ok st
  | e :: data' => rbind (fill_entry inflate p dec f fs st e) (fun st => fill_entries inflate p dec f fs st data')
  end.
(** fill_streams.go:152-167 *)
Fixpoint rebuild_all inflate deflate dec (ups : zmap (zmap bytes)) (streams : list Z) (b : bytes) : result bytes :=
  match streams with
  | [] => Ok b
  | s :: ss => rbind (or_nil (RebuildObjectStream inflate deflate dec b s (def [] (mget s ups))))
                 (fun b => rebuild_all inflate deflate dec ups ss b)
  end.
(** fill_streams.go:15-174 (= FillFormFields, FillForm).  [data] lists the form
    data in the order of the map iteration and [order] is the order of the
    iteration over the changed streams; [crypt] stands for the encryption
    package with the caller's password, [crypt0] with the empty one. *)
Definition FillFormFields (stack : nat) (inflate : bytes -> option bytes) (deflate : bytes -> bytes)
  (crypt crypt0 : bytes -> result (option decryptor)) (order : list Z -> list Z)
  (f : bytes) (data : list (bytes * fvalue)) : result bytes :=
  rbind (Open inflate crypt f) (fun p =>
  rbind (ParseAcroForm stack inflate crypt0 (pDec p) f) (fun form =>
  rbind (fill_entries inflate p (pDec p) f (fmFields form) (f, []) data) (fun st =>
  rbind (rebuild_all inflate deflate (pDec p) (snd st) (order (mkeys (snd st))) (fst st)) (fun b =>
  match b with [] => Err | _ => Ok b end)))).

(* ---------------------------------------------------------------- *)
(** flatten.go *)

(** flatten.go:16-68: every reference to a form is cut out of the file *)
Definition FlattenForm (stack : nat) (inflate : bytes -> option bytes)
  (crypt crypt0 : bytes -> result (option decryptor)) (f : bytes) : result bytes :=
  rbind (Open inflate crypt f) (fun p =>
  rbind (ParseAcroForm stack inflate crypt0 (pDec p) f) (fun _ =>
  Ok (replace_all (fun s => option_map snd (m_acroform s)) [] f 0))).

(** flatten.go:73-99 *)
Definition FlattenField (inflate : bytes -> option bytes) (dec : option decryptor) (f : bytes) (a : attrs) : result bytes :=
  rmap (fun _ => f) (GetObject inflate dec f (aNum a)).
