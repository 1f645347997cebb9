(** Model of forms/xfa/xfa_connection_translator.go, xfa_locale_translator.go,
    xfa_stylesheet_translator.go and xfa_config_translator.go, and of their
    types in types/xfa_data_types.go, at the level of XML tokens (see
    DatasetsModel).  Logging is left out.  A loop over the attributes of an
    element that sets one variable for each name is modelled variable by
    variable: the last attribute of that name wins. *)
From Verif Require Export DatasetsModel.
From Verif Require XFormModel.
Local Open Scope Z_scope.

Definition attrs := list (bytes * bytes).
Definition parseBool := XFormModel.parseBool.

(** [strconv.Atoi] into a variable that is left alone on an error *)
Definition last_int (k : bytes) (a : attrs) (old : Z) : Z :=
  fold_left (fun acc a => if bytes_eqb (fst a) k then match atoi (snd a) with Some z => z | None => acc end else acc) a old.
Definition last_bool (k : bytes) (a : attrs) (old : bool) : bool :=
  fold_left (fun acc a => if bytes_eqb (fst a) k then parseBool (snd a) else acc) a old.
(** if s != "" { attrs = append(attrs, ...) } *)
Definition opt_attr (k v : bytes) : attrs := match v with [] => [] | _ => [(k, v)] end.
Definition int_attr (k : bytes) (z : Z) : attrs := if 0 <? z then [(k, decZ z)] else [].
Definition bool_attr (k : bytes) (b : bool) : attrs := if b then [(k, bs "1")] else [].

(** EncodeToken refuses a start tag without a name; the translators then return
    its error. *)
Definition unnamed (t : token) : bool := match t with TStart [] _ => true | _ => false end.
Definition encoded (ts : list token) : option (list token) := if existsb unnamed ts then None else Some ts.
Definition element (n : bytes) (a : attrs) (body : list token) : list token := TStart n a :: body ++ [TEnd n].
(** xfa_connection_translator.go:279-290, 320-331; xfa_config_translator.go:327-338;
    xfa_stylesheet_translator.go:385-398: a property, [show] is Sprintf("%v") *)
Definition property {V} (show : V -> bytes) (e : bytes * V) : list token := element (fst e) [] [TChars (show (snd e))].

(* ---------------------------------------------------------------- *)
(** ** Connections *)

(** xfa_data_types.go:180-198; [V]: the type of the values.  A nil map is read
    and written like an empty one. *)
Record description (V : Type) := mkDesc { dRef : bytes; dSchema : bytes; dNamespace : bytes; dProps : list (bytes * V) }.
Record connection (V : Type) := mkConn { cName : bytes; cType : bytes; cDesc : option (description V); cProps : list (bytes * V) }.
Arguments mkDesc {V}. Arguments dRef {V}. Arguments dSchema {V}. Arguments dNamespace {V}. Arguments dProps {V}.
Arguments mkConn {V}. Arguments cName {V}. Arguments cType {V}. Arguments cDesc {V}. Arguments cProps {V}.

(** xfa_connection_translator.go:300-339 *)
Definition encodeDataDescription {V} (show : V -> bytes) (perm : list (bytes * V) -> list (bytes * V)) (d : description V) : list token :=
  element (bs "dataDescription")
    (opt_attr (bs "ref") (dRef d) ++ opt_attr (bs "schema") (dSchema d) ++ opt_attr (bs "namespace") (dNamespace d))
    (flat_map (property show) (perm (dProps d))).
(** xfa_connection_translator.go:255-298 *)
Definition encodeConnection {V} (show : V -> bytes) (perm : list (bytes * V) -> list (bytes * V)) (c : connection V) : list token :=
  element (bs "connection") (opt_attr (bs "name") (cName c) ++ opt_attr (bs "type") (cType c))
    (match cDesc c with Some d => encodeDataDescription show perm d | None => [] end ++ flat_map (property show) (perm (cProps c))).
(** xfa_connection_translator.go:216-253; [perm]: the order of a map *)
Definition ConnectionSetToXFA {V} (show : V -> bytes) (perm : list (bytes * V) -> list (bytes * V)) (cs : list (connection V)) : option (list token) :=
  encoded (element (bs "connectionSet") [] (flat_map (encodeConnection show perm) cs)).

(** The state of the loop of xfa_connection_translator.go:30-206: the
    connections, currentConnection, currentValue, inDataDescription. *)
Record cstate := mkCS { csDone : list (connection bytes); csCur : option (connection bytes); csValue : bytes; csIn : bool }.
(** the elements whose text is a property of the connection *)
Definition known_properties : list bytes :=
  [bs "uri"; bs "url"; bs "wsdl"; bs "operation"; bs "soapAction"; bs "user"; bs "password"; bs "dsn"; bs "query"].
(** xfa_connection_translator.go:43-117 *)
Definition c_start (s : cstate) (n : bytes) (a : attrs) : cstate :=
  match s with mkCS done cur v iD =>
    if bytes_eqb n (bs "connectionSet") then s
    else if bytes_eqb n (bs "connection")
    then mkCS done (Some (mkConn (last_attr (bs "name") a []) (last_attr (bs "type") a []) None [])) v iD
    else match cur with
         | None => s
         | Some c =>
             if bytes_eqb n (bs "dataDescription") then
               let d := match cDesc c with Some d => d | None => mkDesc [] [] [] [] end in
               let d := mkDesc (last_attr (bs "ref") a (dRef d)) (last_attr (bs "schema") a (dSchema d)) (last_attr (bs "namespace") a (dNamespace d)) (dProps d) in
               mkCS done (Some (mkConn (cName c) (cType c) (Some d) (cProps c))) v true
             else mkCS done cur [] iD
         end
  end.
(** if value != "" { Properties[key] = value } *)
Definition put_text (k v : bytes) (m : list (bytes * bytes)) : list (bytes * bytes) :=
  match TrimSpace v with [] => m | t => kset k t m end.
(** xfa_connection_translator.go:118-202; currentConnection is nil after the
    first case *)
Definition c_end (s : cstate) (n : bytes) : cstate :=
  match s with mkCS done cur v iD =>
    if bytes_eqb n (bs "connection") then mkCS (match cur with Some c => done ++ [c] | None => done end) None v iD
    else if bytes_eqb n (bs "dataDescription") then mkCS done cur v false
    else if existsb (bytes_eqb n) known_properties then
      let k := if bytes_eqb n (bs "url") then bs "uri" else n in
      mkCS done (option_map (fun c => mkConn (cName c) (cType c) (cDesc c) (put_text k v (cProps c))) cur) v iD
    else
      mkCS done
        (option_map (fun c =>
           match iD, cDesc c with
           | true, Some d => mkConn (cName c) (cType c) (Some (mkDesc (dRef d) (dSchema d) (dNamespace d) (put_text n v (dProps d)))) (cProps c)
           | _, _ => mkConn (cName c) (cType c) (cDesc c) (put_text n v (cProps c))
           end) cur) [] iD
  end.
Definition c_step (s : cstate) (t : token) : cstate :=
  match t with TStart n a => c_start s n a | TEnd n => c_end s n | TChars x => mkCS (csDone s) (csCur s) (csValue s ++ x) (csIn s) end.
(** xfa_connection_translator.go:14-213 *)
Definition ParseXFAConnectionSet (ts : list token) : list (connection bytes) :=
  csDone (fold_left c_step ts (mkCS [] None [] false)).

(* ---------------------------------------------------------------- *)
(** ** Locales *)

(** xfa_data_types.go:128-185 *)
Record calendar := mkCal { calSymbols : bytes; calFirstDay : bytes; calWeekend : bytes; calHolidays : list bytes }.
Record currency := mkCur { curSymbol : bytes; curName : bytes; curPrecision : Z }.
Record pattern := mkPat { patFormat : bytes; patSymbol : bytes }.
Record numpattern := mkNum { numFormat : bytes; numSymbol : bytes; numGrouping : bytes; numDecimal : bytes; numPrecision : Z }.
Record text := mkText { txDirection : bytes; txEncoding : bytes }.
Record locale := mkLoc {
  lCode : bytes; lName : bytes; lCalendar : option calendar; lCurrency : option currency;
  lDate : option pattern; lTime : option pattern; lNumber : option numpattern; lText : option text }.
Record localeset := mkLS { lsLocales : list locale; lsDefault : bytes }.

Definition maybe {A} (f : A -> list token) (o : option A) : list token := match o with Some a => f a | None => [] end.
(** xfa_locale_translator.go:347-384 *)
Definition encodeCalendar (c : calendar) : list token :=
  element (bs "calendar")
    (opt_attr (bs "symbols") (calSymbols c) ++ opt_attr (bs "firstDay") (calFirstDay c) ++ opt_attr (bs "weekend") (calWeekend c))
    (flat_map (fun h => element (bs "holiday") [] [TChars h]) (calHolidays c)).
(** xfa_locale_translator.go:386-408 *)
Definition encodeCurrency (c : currency) : list token :=
  element (bs "currency") (opt_attr (bs "symbol") (curSymbol c) ++ opt_attr (bs "name") (curName c) ++ int_attr (bs "precision") (curPrecision c)) [].
(** xfa_locale_translator.go:410-429, 431-450 *)
Definition encodePattern (n : bytes) (p : pattern) : list token :=
  element n (opt_attr (bs "format") (patFormat p) ++ opt_attr (bs "symbol") (patSymbol p)) [].
(** xfa_locale_translator.go:452-480 *)
Definition encodeNumberPattern (p : numpattern) : list token :=
  element (bs "numberPattern")
    (opt_attr (bs "format") (numFormat p) ++ opt_attr (bs "symbol") (numSymbol p) ++ opt_attr (bs "grouping") (numGrouping p) ++
     opt_attr (bs "decimal") (numDecimal p) ++ int_attr (bs "precision") (numPrecision p)) [].
(** xfa_locale_translator.go:482-501 *)
Definition encodeText (t : text) : list token :=
  element (bs "text") (opt_attr (bs "direction") (txDirection t) ++ opt_attr (bs "encoding") (txEncoding t)) [].
(** xfa_locale_translator.go:289-345 *)
Definition encodeLocale (l : locale) : list token :=
  element (bs "locale") (opt_attr (bs "code") (lCode l) ++ opt_attr (bs "name") (lName l))
    (maybe encodeCalendar (lCalendar l) ++ maybe encodeCurrency (lCurrency l) ++ maybe (encodePattern (bs "datePattern")) (lDate l) ++
     maybe (encodePattern (bs "timePattern")) (lTime l) ++ maybe encodeNumberPattern (lNumber l) ++ maybe encodeText (lText l)).
(** xfa_locale_translator.go:244-287 *)
Definition LocaleSetToXFA (s : localeset) : option (list token) :=
  encoded (element (bs "localeSet") (opt_attr (bs "default") (lsDefault s)) (flat_map encodeLocale (lsLocales s))).

(** The state of the loop of xfa_locale_translator.go:31-154; the section is
    "calendar", another one, or none: only "calendar" is ever asked for. *)
Record lstate := mkLState { sSet : localeset; sLocale : option locale; sCalendar : bool; sValue : bytes }.
Definition or_new {A} (new : A) (o : option A) : A := match o with Some a => a | None => new end.
(** xfa_locale_translator.go:163-174 *)
Definition parseCalendarAttributes (a : attrs) (c : calendar) : calendar :=
  mkCal (last_attr (bs "symbols") a (calSymbols c)) (last_attr (bs "firstDay") a (calFirstDay c)) (last_attr (bs "weekend") a (calWeekend c)) (calHolidays c).
(** xfa_locale_translator.go:176-189 *)
Definition parseCurrencyAttributes (a : attrs) (c : currency) : currency :=
  mkCur (last_attr (bs "symbol") a (curSymbol c)) (last_attr (bs "name") a (curName c)) (last_int (bs "precision") a (curPrecision c)).
(** xfa_locale_translator.go:191-200, 202-211 *)
Definition parsePatternAttributes (a : attrs) (p : pattern) : pattern :=
  mkPat (last_attr (bs "format") a (patFormat p)) (last_attr (bs "symbol") a (patSymbol p)).
(** xfa_locale_translator.go:213-230 *)
Definition parseNumberPatternAttributes (a : attrs) (p : numpattern) : numpattern :=
  mkNum (last_attr (bs "format") a (numFormat p)) (last_attr (bs "symbol") a (numSymbol p)) (last_attr (bs "grouping") a (numGrouping p))
    (last_attr (bs "decimal") a (numDecimal p)) (last_int (bs "precision") a (numPrecision p)).
(** xfa_locale_translator.go:232-241 *)
Definition parseTextAttributes (a : attrs) (t : text) : text :=
  mkText (last_attr (bs "direction") a (txDirection t)) (last_attr (bs "encoding") a (txEncoding t)).
(** code and id set the same variable *)
Definition last_code (a : attrs) : bytes :=
  fold_left (fun acc a => if bytes_eqb (fst a) (bs "code") || bytes_eqb (fst a) (bs "id") then snd a else acc) a [].
(** xfa_locale_translator.go:44-120 *)
Definition l_start (s : lstate) (n : bytes) (a : attrs) : lstate :=
  match s with mkLState set loc cal v =>
    if bytes_eqb n (bs "localeSet") then mkLState (mkLS (lsLocales set) (last_attr (bs "default") a (lsDefault set))) loc cal v
    else if bytes_eqb n (bs "locale")
    then mkLState set (Some (mkLoc (last_code a) (last_attr (bs "name") a []) None None None None None None)) cal v
    else if bytes_eqb n (bs "calendar") then
      match loc with
      | Some (mkLoc c nm ca cu da ti nu te) => mkLState set (Some (mkLoc c nm (Some (parseCalendarAttributes a (or_new (mkCal [] [] [] []) ca))) cu da ti nu te)) true v
      | None => s
      end
    else if bytes_eqb n (bs "currency") then
      match loc with
      | Some (mkLoc c nm ca cu da ti nu te) => mkLState set (Some (mkLoc c nm ca (Some (parseCurrencyAttributes a (or_new (mkCur [] [] 0) cu))) da ti nu te)) false v
      | None => s
      end
    else if bytes_eqb n (bs "datePattern") then
      match loc with
      | Some (mkLoc c nm ca cu da ti nu te) => mkLState set (Some (mkLoc c nm ca cu (Some (parsePatternAttributes a (or_new (mkPat [] []) da))) ti nu te)) false v
      | None => s
      end
    else if bytes_eqb n (bs "timePattern") then
      match loc with
      | Some (mkLoc c nm ca cu da ti nu te) => mkLState set (Some (mkLoc c nm ca cu da (Some (parsePatternAttributes a (or_new (mkPat [] []) ti))) nu te)) false v
      | None => s
      end
    else if bytes_eqb n (bs "numberPattern") then
      match loc with
      | Some (mkLoc c nm ca cu da ti nu te) => mkLState set (Some (mkLoc c nm ca cu da ti (Some (parseNumberPatternAttributes a (or_new (mkNum [] [] [] [] 0) nu))) te)) false v
      | None => s
      end
    else if bytes_eqb n (bs "text") then
      match loc with
      | Some (mkLoc c nm ca cu da ti nu te) => mkLState set (Some (mkLoc c nm ca cu da ti nu (Some (parseTextAttributes a (or_new (mkText [] []) te))))) false v
      | None => s
      end
    else if bytes_eqb n (bs "holiday") then
      match loc with
      | Some l => match cal, lCalendar l with true, Some _ => mkLState set loc cal [] | _, _ => s end
      | None => s
      end
    else mkLState set loc cal []
  end.
Definition sections : list bytes := [bs "calendar"; bs "currency"; bs "datePattern"; bs "timePattern"; bs "numberPattern"; bs "text"].
(** xfa_locale_translator.go:121-146 *)
Definition l_end (s : lstate) (n : bytes) : lstate :=
  match s with mkLState set loc cal v =>
    if bytes_eqb n (bs "locale")
    then mkLState (match loc with Some l => mkLS (lsLocales set ++ [l]) (lsDefault set) | None => set end) None false v
    else if existsb (bytes_eqb n) sections then mkLState set loc false v
    else if bytes_eqb n (bs "holiday") then
      match loc with
      | Some (mkLoc c nm ca cu da ti nu te) =>
          match cal, ca, TrimSpace v with
          | true, Some k, b :: r =>
              mkLState set (Some (mkLoc c nm (Some (mkCal (calSymbols k) (calFirstDay k) (calWeekend k) (calHolidays k ++ [b :: r]))) cu da ti nu te)) cal v
          | _, _, _ => s
          end
      | None => s
      end
    else mkLState set loc cal []
  end.
(** xfa_locale_translator.go:147-152 *)
Definition l_chars (s : lstate) (t : bytes) : lstate :=
  match s with mkLState set loc cal v => if cal && contains (bs "holiday") t then s else mkLState set loc cal (v ++ t) end.
Definition l_step (s : lstate) (t : token) : lstate :=
  match t with TStart n a => l_start s n a | TEnd n => l_end s n | TChars x => l_chars s x end.
(** xfa_locale_translator.go:15-161 *)
Definition ParseXFALocaleSet (ts : list token) : localeset :=
  sSet (fold_left l_step ts (mkLState (mkLS [] []) None false [])).
