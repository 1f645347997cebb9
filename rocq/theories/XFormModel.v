(** Model of forms/xfa/xfa_form_translator.go, at the level of XML tokens (see
    DatasetsModel).  The page count, which is read from the text, is left out,
    and so is logging.  [F], [parseF], [showF]: floating-point numbers,
    strconv.ParseFloat and Sprintf("%v"). *)
From Verif Require Export DatasetsModel.
Local Open Scope Z_scope.

Section Floats.
Context {F : Type} (parseF : bytes -> option F) (showF : F -> bytes).

(** types/form_types.go:21-81.  A default is the text that Sprintf("%v")
    prints for it; a property is a number or a text. *)
Inductive prop := PFloat (f : F) | PInt (z : Z) | PStr (s : bytes).
Record foption := mkOption { oValue : bytes; oLabel : bytes; oSelected : bool }.
Record validation := mkValid {
  vMinLength : option Z; vMaxLength : option Z; vMinValue : option F; vMaxValue : option F;
  vPattern : bytes; vScript : bytes; vMessage : bytes }.
Record question := mkQuestion {
  qID : bytes; qName : bytes; qLabel : bytes; qDescription : bytes; qType : bytes; qOptions : list foption;
  qValidation : option validation; qDefault : option bytes; qRequired : bool; qReadOnly : bool; qHidden : bool;
  qProperties : list (bytes * prop); qPage : Z }.
Record action := mkAction { aTarget : bytes; aExpression : bytes; aScript : bytes }.
Record rule := mkRule { rID : bytes; rType : bytes; rSource : bytes; rActions : list action }.
Record schema := mkSchema { sTitle : bytes; sQuestions : list question; sRules : list rule }.

(* ---------------------------------------------------------------- *)
(** Writing *)

(** xfa_form_translator.go:383-408; form_types.go:40-52 *)
Definition mapResponseTypeToXFA (t : bytes) : bytes :=
  if bytes_eqb t (bs "text") then bs "text"
  else if bytes_eqb t (bs "textarea") then bs "textEdit"
  else if bytes_eqb t (bs "radio") then bs "radioButton"
  else if bytes_eqb t (bs "checkbox") then bs "checkButton"
  else if bytes_eqb t (bs "select") then bs "choiceList"
  else if bytes_eqb t (bs "number") then bs "numeric"
  else if bytes_eqb t (bs "date") then bs "date"
  else if bytes_eqb t (bs "email") then bs "email"
  else if bytes_eqb t (bs "button") then bs "button"
  else if bytes_eqb t (bs "signature") then bs "signature"
  else bs "text".
Definition showV (v : prop) : bytes := match v with PFloat f => showF f | PInt z => decZ z | PStr s => s end.
Definition layout_key (k : bytes) : bool := existsb (bytes_eqb k) [bs "x"; bs "y"; bs "w"; bs "h"].

Definition element (n : bytes) (attrs : list (bytes * bytes)) (body : list token) : list token := TStart n attrs :: body ++ [TEnd n].
Definition text_element (n t : bytes) : list token := element n [] [TChars t].

(** xfa_form_translator.go:130-186; [perm]: the order of the properties *)
Definition field_attrs (perm : list (bytes * prop) -> list (bytes * prop)) (q : question) : list (bytes * bytes) :=
  [(bs "name", qName q)] ++
  match qType q with [] => [] | _ => [(bs "type", mapResponseTypeToXFA (qType q))] end ++
  (if qRequired q then [(bs "required", bs "1")] else []) ++
  (if qReadOnly q then [(bs "access", bs "readOnly")] else if qHidden q then [(bs "access", bs "hidden")] else []) ++
  map (fun e => (fst e, showV (snd e))) (filter (fun e => layout_key (fst e)) (perm (qProperties q))) ++
  match kget (bs "page_number") (qProperties q) with
  | Some (PInt z) => if 0 <? z then [(bs "page", decZ z)] else []
  | _ => []
  end.
(** xfa_form_translator.go:274-320 *)
Definition encodeValidation (v : validation) : list token :=
  element (bs "validate")
    (match vPattern v with [] => [] | _ => [(bs "formatTest", bs "pattern")] end ++
     match vScript v with [] => [] | s => [(bs "scriptTest", s)] end ++
     match vMessage v with [] => [] | s => [(bs "messageText", s)] end)
    (match vPattern v with [] => [] | p => text_element (bs "pattern") p end).
(** xfa_form_translator.go:130-271 *)
Definition encodeQuestion (perm : list (bytes * prop) -> list (bytes * prop)) (q : question) : list token :=
  element (bs "field") (field_attrs perm q)
    (match qLabel q with [] => [] | l => text_element (bs "label") l end ++
     match qDescription q with [] => [] | d => text_element (bs "desc") d end ++
     match qDefault q with None => [] | Some t => text_element (bs "value") t end ++
     match qOptions q with [] => [] | os => element (bs "items") [] (flat_map (fun o => text_element (bs "text") (oValue o)) os) end ++
     match qValidation q with None => [] | Some v => encodeValidation v end).
(** xfa_form_translator.go:323-380 *)
Definition activity (t : bytes) : bytes :=
  if bytes_eqb t (bs "visibility") then bs "initialize"
  else if bytes_eqb t (bs "calculate") then bs "change"
  else if bytes_eqb t (bs "validate") then bs "validate"
  else if bytes_eqb t (bs "set_value") then bs "enter"
  else bs "change".
Definition action_text (a : action) : bytes := match aScript a with [] => aExpression a | s => s end.
Definition encodeRule (r : rule) : list token :=
  element (bs "event") [(bs "activity", activity (rType r))]
    (match rActions r with
     | [] => []
     | l => element (bs "script") [] (match flat_map action_text l with [] => [] | t => [TChars t] end)
     end).
(** xfa_form_translator.go:72-127 *)
Definition FormToXFA (perm : list (bytes * prop) -> list (bytes * prop)) (s : schema) : list token :=
  element (bs "template") (match sTitle s with [] => [] | t => [(bs "title", t)] end)
    (flat_map (encodeQuestion perm) (sQuestions s) ++ flat_map encodeRule (sRules s)).

(* ---------------------------------------------------------------- *)
(** Reading *)

Record xevent := mkEvent { eType : bytes; eScript : bytes; eAction : bytes }.
(** xfa_form_translator.go:411-468 without FullName, which equals Name; an
    option's value and label are the same text; of a validation only the
    fields that are ever set. *)
Record xvalid := mkXV { xvPattern : bytes; xvScript : bytes; xvMessage : bytes }.
Record xfield := mkXF {
  xName : bytes; xType : bytes; xValue : bytes; xDefault : bytes; xLabel : bytes; xDescription : bytes;
  xRequired : bool; xReadOnly : bool; xHidden : bool; xPage : Z; xOptions : list bytes; xValid : option xvalid;
  xProps : list (bytes * prop); xEvents : list xevent }.

(** xfa_form_translator.go:881-884 *)
Definition parseBool (s : bytes) : bool :=
  existsb (bytes_eqb (ToLower (TrimSpace s))) [bs "1"; bs "true"; bs "yes"; bs "required"].
(** xfa_form_translator.go:541-568 *)
Definition field_attr (f : xfield) (a : bytes * bytes) : xfield :=
  match f with mkXF nm ty va de la ds rq ro hi pg os vd ps ev =>
    let '(k, v) := a in
    if bytes_eqb k (bs "name") then mkXF v ty va de la ds rq ro hi pg os vd ps ev
    else if bytes_eqb k (bs "type") then mkXF nm v va de la ds rq ro hi pg os vd ps ev
    else if bytes_eqb k (bs "required") then mkXF nm ty va de la ds (parseBool v) ro hi pg os vd ps ev
    else if bytes_eqb k (bs "access") then
      (if bytes_eqb v (bs "readOnly") then mkXF nm ty va de la ds rq true hi pg os vd ps ev
       else if bytes_eqb v (bs "hidden") then mkXF nm ty va de la ds rq ro true pg os vd ps ev else f)
    else if layout_key k then
      mkXF nm ty va de la ds rq ro hi pg os vd (kset k (match parseF (TrimSpace v) with Some x => PFloat x | None => PStr v end) ps) ev
    else if bytes_eqb k (bs "page") then
      match atoi v with Some z => mkXF nm ty va de la ds rq ro hi z os vd ps ev | None => f end
    else f
  end.
Definition new_field : xfield := mkXF [] [] [] [] [] [] false false false 1 [] None [] [].

(** xfa_form_translator.go:471-739.  The flag inField is set exactly while a
    current field exists and inSubform exactly while a current subform does, so
    [sCur] and [sSub] stand for both; of a subform only its fields are kept. *)
Record state := mkState {
  sTitleR : bytes; sFields : list xfield; sSub : option (list xfield); sCur : option xfield;
  bValue : bytes; bLabel : bytes; bDesc : bytes; inValue : bool; inLabel : bool; inDesc : bool; inItems : bool }.
Definition state0 : state := mkState [] [] None None [] [] [] false false false false.
Definition is_desc (n : bytes) : bool := bytes_eqb n (bs "desc") || bytes_eqb n (bs "description").

Definition add_event (e : xevent) (f : xfield) : xfield :=
  match f with mkXF nm ty va de la ds rq ro hi pg os vd ps ev => mkXF nm ty va de la ds rq ro hi pg os vd ps (ev ++ [e]) end.
Definition event_of (attrs : list (bytes * bytes)) : xevent := mkEvent (last_attr (bs "activity") attrs []) [] (last_attr (bs "name") attrs []).
Definition add_validate (attrs : list (bytes * bytes)) (f : xfield) : xfield :=
  match f with mkXF nm ty va de la ds rq ro hi pg os vd ps ev =>
    let v := match vd with Some v => v | None => mkXV [] [] [] end in
    mkXF nm ty va de la ds rq ro hi pg os
      (Some (mkXV (xvPattern v) (last_attr (bs "scriptTest") attrs (xvScript v)) (last_attr (bs "messageText") attrs (xvMessage v)))) ps ev
  end.
Definition bind_attr (f : xfield) (a : bytes * bytes) : xfield :=
  match f with mkXF nm ty va de la ds rq ro hi pg os vd ps ev =>
    if bytes_eqb (fst a) (bs "match") && bytes_eqb (snd a) (bs "none") then mkXF nm ty va de la ds false ro hi pg os vd ps ev else f
  end.
(** xfa_form_translator.go:507-642 *)
Definition xon_start (s : state) (n : bytes) (attrs : list (bytes * bytes)) : state :=
  match s with mkState ti fs sub cur bv bl bd iv il id ii =>
    if bytes_eqb n (bs "template") then mkState (last_attr (bs "title") attrs ti) fs sub cur bv bl bd iv il id ii
    else if bytes_eqb n (bs "subform") then mkState ti fs (Some []) cur bv bl bd iv il id ii
    else if bytes_eqb n (bs "field") then mkState ti fs sub (Some (fold_left field_attr attrs new_field)) bv bl bd iv il id ii
    else match cur with
      | None => s
      | Some f =>
        if bytes_eqb n (bs "value") then mkState ti fs sub cur [] bl bd true il id ii
        else if bytes_eqb n (bs "label") then mkState ti fs sub cur bv [] bd iv true id ii
        else if is_desc n then mkState ti fs sub cur bv bl [] iv il true ii
        else if bytes_eqb n (bs "items") then mkState ti fs sub cur bv bl bd iv il id true
        else if bytes_eqb n (bs "text") then (if ii then mkState ti fs sub cur [] bl bd iv il id ii else s)
        else if bytes_eqb n (bs "event") then mkState ti fs sub (Some (add_event (event_of attrs) f)) bv bl bd iv il id ii
        else if bytes_eqb n (bs "script") then match xEvents f with [] => s | _ => mkState ti fs sub cur [] bl bd iv il id ii end
        else if bytes_eqb n (bs "validate") then mkState ti fs sub (Some (add_validate attrs f)) bv bl bd iv il id ii
        else if bytes_eqb n (bs "pattern") then match xValid f with None => s | Some _ => mkState ti fs sub cur [] bl bd iv il id ii end
        else if bytes_eqb n (bs "bind") then mkState ti fs sub (Some (fold_left bind_attr attrs f)) bv bl bd iv il id ii
        else s
      end
  end.
(** [setDefault]: a default that is already there stays *)
Definition set_value (t : bytes) (f : xfield) : xfield :=
  match f with mkXF nm ty va de la ds rq ro hi pg os vd ps ev => mkXF nm ty t (match de with [] => t | _ => de end) la ds rq ro hi pg os vd ps ev end.
Definition set_label (t : bytes) (f : xfield) : xfield :=
  match f with mkXF nm ty va de la ds rq ro hi pg os vd ps ev => mkXF nm ty va de t ds rq ro hi pg os vd ps ev end.
Definition set_desc (t : bytes) (f : xfield) : xfield :=
  match f with mkXF nm ty va de la ds rq ro hi pg os vd ps ev => mkXF nm ty va de la t rq ro hi pg os vd ps ev end.
Definition add_option (t : bytes) (f : xfield) : xfield :=
  match f with mkXF nm ty va de la ds rq ro hi pg os vd ps ev => mkXF nm ty va de la ds rq ro hi pg (os ++ [t]) vd ps ev end.
Fixpoint script_last (t : bytes) (l : list xevent) : list xevent :=
  match l with [] => [] | [e] => [mkEvent (eType e) t (eAction e)] | e :: l => e :: script_last t l end.
Definition set_script (t : bytes) (f : xfield) : xfield :=
  match f with mkXF nm ty va de la ds rq ro hi pg os vd ps ev => mkXF nm ty va de la ds rq ro hi pg os vd ps (script_last t ev) end.
Definition set_pattern (t : bytes) (f : xfield) : xfield :=
  match f with mkXF nm ty va de la ds rq ro hi pg os vd ps ev =>
    mkXF nm ty va de la ds rq ro hi pg os (match vd with Some v => Some (mkXV t (xvScript v) (xvMessage v)) | None => None end) ps ev end.
(** xfa_form_translator.go:643-725 *)
Definition close_field (bv bl bd : bytes) (f : xfield) : xfield :=
  let f := match bv with [] => f | _ => set_value (TrimSpace bv) f end in
  let f := match bl with [] => f | _ => set_label (TrimSpace bl) f end in
  match bd with [] => f | _ => set_desc (TrimSpace bd) f end.
Definition xon_end (s : state) (n : bytes) : state :=
  match s with mkState ti fs sub cur bv bl bd iv il id ii =>
    if bytes_eqb n (bs "field") then
      match cur with
      | None => mkState ti fs sub None [] [] [] iv il id ii
      | Some f =>
          let f := close_field bv bl bd f in
          match sub with
          | Some l => mkState ti fs (Some (l ++ [f])) None [] [] [] iv il id ii
          | None => mkState ti (fs ++ [f]) None None [] [] [] iv il id ii
          end
      end
    else if bytes_eqb n (bs "subform") then
      mkState ti (match sub with Some l => fs ++ l | None => fs end) None cur bv bl bd iv il id ii
    else if bytes_eqb n (bs "value") then
      mkState ti fs sub (match cur with Some f => match TrimSpace bv with [] => Some f | v => Some (set_value v f) end | None => None end) bv bl bd false il id ii
    else if bytes_eqb n (bs "label") then mkState ti fs sub (match cur with Some f => Some (set_label (TrimSpace bl) f) | None => None end) bv bl bd iv false id ii
    else if is_desc n then mkState ti fs sub (match cur with Some f => Some (set_desc (TrimSpace bd) f) | None => None end) bv bl bd iv il false ii
    else if bytes_eqb n (bs "items") then mkState ti fs sub cur bv bl bd iv il id false
    else match cur with
      | None => s
      | Some f =>
        if bytes_eqb n (bs "text") then (if ii then mkState ti fs sub (Some (add_option (TrimSpace bv) f)) bv bl bd iv il id ii else s)
        else if bytes_eqb n (bs "script") then match xEvents f with [] => s | _ => mkState ti fs sub (Some (set_script (TrimSpace bv) f)) bv bl bd iv il id ii end
        else if bytes_eqb n (bs "pattern") then match xValid f with None => s | Some _ => mkState ti fs sub (Some (set_pattern (TrimSpace bv) f)) bv bl bd iv il id ii end
        else s
      end
  end.
(** xfa_form_translator.go:726-735 *)
Definition xon_chars (s : state) (t : bytes) : state :=
  match s with mkState ti fs sub cur bv bl bd iv il id ii =>
    match cur with
    | None => s
    | Some _ =>
        if iv then mkState ti fs sub cur (bv ++ t) bl bd iv il id ii
        else if il then mkState ti fs sub cur bv (bl ++ t) bd iv il id ii
        else if id then mkState ti fs sub cur bv bl (bd ++ t) iv il id ii
        else s
    end
  end.
Definition xstep (s : state) (t : token) : state :=
  match t with TStart n a => xon_start s n a | TEnd n => xon_end s n | TChars x => xon_chars s x end.
Definition parseXFAStructure (ts : list token) : state := fold_left xstep ts state0.

(** xfa_form_translator.go:890-912 *)
Definition id_char (b : byte) : list byte :=
  let c := b2n b in
  if ((97 <=? c) && (c <=? 122) || (65 <=? c) && (c <=? 90) || (48 <=? c) && (c <=? 57))%N || beqb b "_" then [b]
  else if beqb b " " || beqb b "-" then ["_"%byte] else [].
Definition sanitizeFieldID (name : bytes) (index : Z) : bytes :=
  match name with
  | [] => bs "field_" ++ decZ index
  | _ =>
      let id := match flat_map id_char name with [] => bs "field_" ++ decZ index | id => id end in
      match id with c :: _ => if is_digit c then bs "field_" ++ id else id | [] => id end
  end.
(** xfa_form_translator.go:792-817 *)
Definition response_types : list (bytes * bytes) :=
  [(bs "text", bs "text"); (bs "textfield", bs "text"); (bs "textarea", bs "textarea"); (bs "textedit", bs "textarea");
   (bs "radio", bs "radio"); (bs "radiobutton", bs "radio"); (bs "checkbox", bs "checkbox"); (bs "checkbutton", bs "checkbox");
   (bs "select", bs "select"); (bs "choice", bs "select"); (bs "dropdown", bs "select"); (bs "listbox", bs "select");
   (bs "numeric", bs "number"); (bs "decimal", bs "number"); (bs "integer", bs "number"); (bs "float", bs "number");
   (bs "date", bs "date"); (bs "datefield", bs "date"); (bs "email", bs "email"); (bs "emailfield", bs "email");
   (bs "button", bs "button"); (bs "signature", bs "signature"); (bs "signaturefield", bs "signature")].
Definition mapXFAType (t : bytes) : bytes := match kget (ToLower t) response_types with Some r => r | None => bs "text" end.
(** xfa_form_translator.go:742-789 *)
Definition convertField (f : xfield) (index : Z) : question :=
  mkQuestion (sanitizeFieldID (xName f) index) (xName f) (xLabel f) (xDescription f) (mapXFAType (xType f))
    (map (fun v => mkOption v v false) (xOptions f))
    (match xValid f with Some v => Some (mkValid None None None None (xvPattern v) (xvScript v) (xvMessage v)) | None => None end)
    (match xDefault f with [] => match xValue f with [] => None | v => Some v end | d => Some d end)
    (xRequired f) (xReadOnly f) (xHidden f) (xProps f) (xPage f).
Fixpoint convertFields (i : Z) (fs : list xfield) : list question :=
  match fs with [] => [] | f :: fs => convertField f i :: convertFields (i + 1) fs end.
(** xfa_form_translator.go:820-877 *)
Definition event_rule (t : bytes) : bytes :=
  let l := ToLower t in
  if bytes_eqb l (bs "initialize") || bytes_eqb l (bs "enter") then bs "set_value"
  else if bytes_eqb l (bs "change") || bytes_eqb l (bs "exit") then bs "calculate"
  else if bytes_eqb l (bs "validate") then bs "validate" else bs "calculate".
Definition convertEvent (src : bytes) (e : xevent) (i : Z) : rule :=
  mkRule (bs "rule_" ++ decZ i) (event_rule (eType e)) src (match eScript e with [] => [] | s => [mkAction [] s s] end).
Fixpoint convertEvents (i : Z) (l : list (bytes * xevent)) : list rule :=
  match l with [] => [] | (src, e) :: l => convertEvent src e i :: convertEvents (i + 1) l end.
(** xfa_form_translator.go:15-69 *)
Definition ParseXFAForm (ts : list token) : schema :=
  let s := parseXFAStructure ts in
  mkSchema (sTitleR s) (convertFields 1 (sFields s)) (convertEvents 1 (flat_map (fun f => map (pair (xName f)) (xEvents f)) (sFields s))).
End Floats.
Arguments prop : clear implicits.
Arguments question : clear implicits.
Arguments validation : clear implicits.
Arguments schema : clear implicits.
Arguments xfield : clear implicits.
Arguments state : clear implicits.
