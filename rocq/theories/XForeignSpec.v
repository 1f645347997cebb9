(** What the readers of XFA configurations, locale sets and connection sets
    should find in a document, whoever wrote it: the attributes of its
    elements. *)
From Verif Require Export XConfModel.
Local Open Scope Z_scope.

(** The attributes of all the elements called [n], in order. *)
Definition attributes (n : bytes) (ts : list token) : attrs :=
  flat_map (fun t => match t with TStart m a => if bytes_eqb m n then a else [] | _ => [] end) ts.
Definition occurs (n : bytes) (ts : list token) : Prop := exists a, In (TStart n a) ts.
(** [v] is what the last attribute [k] says; nothing is the empty text. *)
Definition says (k : bytes) (a : attrs) (v : bytes) : Prop :=
  (exists a1 a2, a = a1 ++ (k, v) :: a2 /\ ~ In k (map fst a2)) \/ (v = [] /\ ~ In k (map fst a)).
(** The last attribute [k] is a yes. *)
Definition ticked (k : bytes) (a : attrs) (b : bool) : Prop :=
  exists v, says k a v /\ (b = true <-> In (ToLower (TrimSpace v)) [bs "1"; bs "true"; bs "yes"; bs "required"]).
(** The last attribute [k] that is a number is [z]. *)
Definition counts (k : bytes) (a : attrs) (z : Z) : Prop :=
  (exists a1 v a2, a = a1 ++ (k, v) :: a2 /\ atoi v = Some z /\ forall w, In (k, w) a2 -> atoi w = None) \/
  (z = 0 /\ forall w, In (k, w) a -> atoi w = None).
(** Of a document [ts]: [o] is there if and only if an element [n] is, and is
    what the attributes of these elements say. *)
Definition section {A} (n : bytes) (ts : list token) (P : attrs -> A -> Prop) (o : option A) : Prop :=
  match o with Some x => occurs n ts /\ P (attributes n ts) x | None => ~ occurs n ts end.

(** The elements called [n]: their attributes and what is between their tags. *)
Fixpoint elements (n : bytes) (cur : option (attrs * list token)) (ts : list token) : list (attrs * list token) :=
  match ts with
  | [] => []
  | TStart m a :: ts' => if bytes_eqb m n then elements n (Some (a, [])) ts' else elements n (option_map (fun e => (fst e, snd e ++ [TStart m a])) cur) ts'
  | TEnd m :: ts' =>
      if bytes_eqb m n then match cur with Some e => [e] | None => [] end ++ elements n None ts'
      else elements n (option_map (fun e => (fst e, snd e ++ [TEnd m])) cur) ts'
  | TChars x :: ts' => elements n (option_map (fun e => (fst e, snd e ++ [TChars x])) cur) ts'
  end.

(** ** Configurations *)
Definition top_sections : list bytes := [bs "present"; bs "validate"; bs "submit"; bs "destination"; bs "acrobat"; bs "common"; bs "output"].
Definition is_section (n : bytes) : bool := existsb (bytes_eqb n) top_sections.
(** What is inside of present elements: after a start tag of present, up to the
    next tag of a section. *)
Fixpoint inside (open : bool) (ts : list token) : list token :=
  match ts with
  | [] => []
  | TStart m a :: ts' => if is_section m then inside (bytes_eqb m (bs "present")) ts' else (if open then [TStart m a] else []) ++ inside open ts'
  | TEnd m :: ts' => if is_section m then inside false ts' else (if open then [TEnd m] else []) ++ inside open ts'
  | TChars x :: ts' => (if open then [TChars x] else []) ++ inside open ts'
  end.
Record says_submit (a : attrs) (s : csubmit) : Prop := {
  ss_format : says (bs "format") a (suFormat s); ss_target : says (bs "target") a (suTarget s); ss_method : says (bs "method") a (suMethod s);
  ss_embed : ticked (bs "embedPDF") a (suEmbed s); ss_xdp : says (bs "xdpContent") a (suXDP s); ss_encoding : says (bs "textEncoding") a (suEncoding s);
  ss_more : forall k v, kget k (suProps s) = Some v <->
    In k (map fst a) /\ says k a v /\ ~ In k [bs "format"; bs "target"; bs "method"; bs "embedPDF"; bs "xdpContent"; bs "textEncoding"] }.
Record says_acrobat (a : attrs) (c : cacrobat) : Prop := {
  sa_save : ticked (bs "autoSave") a (acAutoSave c); sa_time : counts (bs "autoSaveTime") a (acAutoSaveTime c);
  sa_type : says (bs "formType") a (acFormType c); sa_version : says (bs "version") a (acVersion c) }.
Record says_pdf (a : attrs) (p : cpdf) : Prop := {
  sp_version : says (bs "version") a (pdVersion p); sp_compression : says (bs "compression") a (pdCompression p); sp_linear : ticked (bs "linearized") a (pdLinearized p);
  sp_encryption : says (bs "encryption") a (pdEncryption p); sp_fonts : ticked (bs "embedFonts") a (pdEmbedFonts p); sp_tagged : ticked (bs "tagged") a (pdTagged p);
  sp_access : ticked (bs "accessibility") a (pdAccessibility p) }.
Record says_interactive (a : attrs) (i : cinteractive) : Prop := {
  si_page : counts (bs "currentPage") a (inPage i); si_zoom : says (bs "zoom") a (inZoom i); si_mode : says (bs "viewMode") a (inViewMode i) }.
Record says_present (ts : list token) (a : attrs) (p : cpresent) : Prop := {
  sr_render : says (bs "renderPolicy") a (prRender p); sr_output : says (bs "effectiveOutputPolicy") a (prOutput p);
  sr_pdf : section (bs "pdf") (inside false ts) says_pdf (prPDF p);
  sr_interactive : section (bs "interactive") (inside false ts) says_interactive (prInteractive p) }.

(** ** Locale sets *)
Record says_currency (a : attrs) (c : currency) : Prop := {
  sc_symbol : says (bs "symbol") a (curSymbol c); sc_name : says (bs "name") a (curName c); sc_precision : counts (bs "precision") a (curPrecision c) }.
Record says_calendar (a : attrs) (c : calendar) : Prop := {
  sd_symbols : says (bs "symbols") a (calSymbols c); sd_first : says (bs "firstDay") a (calFirstDay c); sd_weekend : says (bs "weekend") a (calWeekend c) }.
Record says_pattern (a : attrs) (p : pattern) : Prop := { st_format : says (bs "format") a (patFormat p); st_symbol : says (bs "symbol") a (patSymbol p) }.
Record says_number (a : attrs) (p : numpattern) : Prop := {
  sn_format : says (bs "format") a (numFormat p); sn_symbol : says (bs "symbol") a (numSymbol p); sn_grouping : says (bs "grouping") a (numGrouping p);
  sn_decimal : says (bs "decimal") a (numDecimal p); sn_precision : counts (bs "precision") a (numPrecision p) }.
Record says_text (a : attrs) (t : text) : Prop := { sx_direction : says (bs "direction") a (txDirection t); sx_encoding : says (bs "encoding") a (txEncoding t) }.
(** code, or id, whichever comes last *)
Definition either (a : attrs) : attrs := map (fun e => if bytes_eqb (fst e) (bs "id") then (bs "code", snd e) else e) a.
Record says_locale (e : attrs * list token) (l : locale) : Prop := {
  sl_code : says (bs "code") (either (fst e)) (lCode l); sl_name : says (bs "name") (fst e) (lName l);
  sl_calendar : section (bs "calendar") (snd e) says_calendar (lCalendar l); sl_currency : section (bs "currency") (snd e) says_currency (lCurrency l);
  sl_date : section (bs "datePattern") (snd e) says_pattern (lDate l); sl_time : section (bs "timePattern") (snd e) says_pattern (lTime l);
  sl_number : section (bs "numberPattern") (snd e) says_number (lNumber l); sl_text : section (bs "text") (snd e) says_text (lText l) }.

(** ** Connection sets *)
Record says_description {V} (a : attrs) (d : description V) : Prop := {
  sq_ref : says (bs "ref") a (dRef d); sq_schema : says (bs "schema") a (dSchema d); sq_namespace : says (bs "namespace") a (dNamespace d) }.
Record says_connection {V} (e : attrs * list token) (c : connection V) : Prop := {
  so_name : says (bs "name") (fst e) (cName c); so_type : says (bs "type") (fst e) (cType c);
  so_description : section (bs "dataDescription") (snd e) says_description (cDesc c) }.

(** ** What the writers of the library should put in a document *)
(** Names of settings that are not names of sections. *)
Definition plain_name (k : bytes) : Prop :=
  ~ In k (top_sections ++ [bs "config"; bs "pdf"; bs "interactive"]).
Definition natural (z : Z) : Prop := 0 <= z < 2 ^ 63.
Record says_validate (a : attrs) (v : bytes * bytes * bytes) : Prop := {
  sv_script : says (bs "scriptTest") a (fst (fst v)); sv_null : says (bs "nullTest") a (snd (fst v)); sv_format : says (bs "formatTest") a (snd v) }.
Definition says_two (k1 k2 : bytes) (a : attrs) (v : bytes * bytes) : Prop := says k1 a (fst v) /\ says k2 a (snd v).
Definition locale_numbers (l : locale) : Prop :=
  (forall c, lCurrency l = Some c -> natural (curPrecision c)) /\ (forall c, lNumber l = Some c -> natural (numPrecision c)).
(** No property is called like an element of connection sets. *)
Definition plain_connection {V} (c : connection V) : Prop :=
  forall k, In k (map fst (cProps c)) \/ (exists d, cDesc c = Some d /\ In k (map fst (dProps d))) -> ~ In k [bs "connection"; bs "dataDescription"].
