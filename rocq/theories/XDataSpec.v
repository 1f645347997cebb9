(** What a user expects of the translators of connections, locales, styles and
    settings. *)
From Verif Require Export XConfModel.
From Verif Require Import Utf8.
Local Open Scope Z_scope.

(** ** The text between the writer and the reader *)
Definition is_letter (b : byte) : bool := ((65 <=? b2n b) && (b2n b <=? 90) || (97 <=? b2n b) && (b2n b <=? 122))%N.
(** A sufficient condition for a name: ASCII, without a colon. *)
Definition xml_name (n : bytes) : bool :=
  match n with
  | [] => false
  | b :: r => (is_letter b || beqb b "_") && forallb (fun b => is_letter b || is_digit b || existsb (beqb b) ["_"; "-"; "."]%byte) r
  end.
(** The characters XML allows, in UTF-8. *)
Definition xml_text (t : bytes) : Prop :=
  valid_utf8 t /\ forallb (fun b => (32 <=? b2n b)%N || existsb (beqb b) [x09; x0a; x0d]) t = true /\
  contains [xef; xbf; xbe] t = false /\ contains [xef; xbf; xbf] t = false.
Definition blank (w : bytes) : Prop := forallb (fun b => beqb b x20 || beqb b x0a) w = true.
(** [conveyed false ts us]: the reader gets the tokens [us] from the text
    written for the tokens [ts].  Names and texts are the same; the writer
    indents: it puts blanks before a start tag, and before an end tag that
    follows an end tag; an empty text leaves no trace.  The flag: the last tag
    was a start tag. *)
Inductive conveyed : bool -> list token -> list token -> Prop :=
| cv_nil b : conveyed b [] []
| cv_start b n a ts us : xml_name n = true -> Forall (fun e => xml_name (fst e) = true /\ xml_text (snd e)) a ->
    conveyed true ts us -> conveyed b (TStart n a :: ts) (TStart n a :: us)
| cv_end b n ts us : conveyed false ts us -> conveyed b (TEnd n :: ts) (TEnd n :: us)
| cv_text b t ts us : t <> [] -> xml_text t -> conveyed b ts us -> conveyed b (TChars t :: ts) (TChars t :: us)
| cv_empty b ts us : conveyed b ts us -> conveyed b (TChars [] :: ts) us
| cv_indent b w n a ts us : blank w -> conveyed b (TStart n a :: ts) us -> conveyed b (TStart n a :: ts) (TChars w :: us)
| cv_outdent w n ts us : blank w -> conveyed false (TEnd n :: ts) us -> conveyed false (TEnd n :: ts) (TChars w :: us).

(** What encoding/xml's printer with Indent("", "  ") makes of tokens, read
    back: [started]: something was written; [opened]: the last tag was a start
    tag. *)
Definition pad (depth : nat) : token := TChars (x0a :: repeat x20 (2 * depth)).
Fixpoint indent_from (depth : nat) (started opened : bool) (ts : list token) : list token :=
  match ts with
  | [] => []
  | TStart n a :: r => (if started then [pad depth] else []) ++ TStart n a :: indent_from (S depth) true true r
  | TEnd n :: r => (if opened then [] else [pad (pred depth)]) ++ TEnd n :: indent_from (pred depth) true false r
  | TChars [] :: r => indent_from depth started opened r
  | TChars t :: r => TChars t :: indent_from depth started opened r
  end.
Definition indented (ts : list token) : list token := indent_from 0 false false ts.
(** Printable ASCII throughout. *)
Definition printable (b : byte) : bool := ((32 <=? b2n b) && (b2n b <? 127))%N.
Definition plain_token (t : token) : bool :=
  match t with
  | TStart n a => xml_name n && forallb (fun e => xml_name (fst e) && forallb printable (snd e)) a
  | TEnd _ => true
  | TChars x => forallb printable x
  end.

(** ** Connections *)
(** A text that is read is the text without blanks around it; an empty one is
    no value. *)
Definition read_text (t : bytes) : option bytes := match TrimSpace t with [] => None | t => Some t end.
Definition same_texts {V} (show : V -> bytes) (m : list (bytes * V)) (m' : list (bytes * bytes)) : Prop :=
  forall k, kget k m' = match kget k m with Some v => read_text (show v) | None => None end.
Definition same_description {V} (show : V -> bytes) (d : description V) (d' : description bytes) : Prop :=
  dRef d' = dRef d /\ dSchema d' = dSchema d /\ dNamespace d' = dNamespace d /\ same_texts show (dProps d) (dProps d').
Definition same_connection {V} (show : V -> bytes) (c : connection V) (c' : connection bytes) : Prop :=
  cName c' = cName c /\ cType c' = cType c /\ same_texts show (cProps c) (cProps c') /\
  match cDesc c, cDesc c' with Some d, Some d' => same_description show d d' | None, None => True | _, _ => False end.
(** Names of properties that do not mean something else. *)
Definition plain_key (k : bytes) : Prop := ~ In k [bs "connectionSet"; bs "connection"; bs "dataDescription"; bs "url"].
Definition plain_desc_key (k : bytes) : Prop :=
  ~ In k [bs "connectionSet"; bs "connection"; bs "dataDescription"; bs "uri"; bs "url"; bs "wsdl"; bs "operation"; bs "soapAction"; bs "user"; bs "password"; bs "dsn"; bs "query"].
Definition plain_connection {V} (c : connection V) : Prop :=
  NoDup (map fst (cProps c)) /\ (forall k, In k (map fst (cProps c)) -> plain_key k) /\
  forall d, cDesc c = Some d -> NoDup (map fst (dProps d)) /\ forall k, In k (map fst (dProps d)) -> plain_desc_key k.

(** ** Locales *)
Definition from_zero (z : Z) : Z := Z.max 0 z.
(** A holiday whose text holds the word "holiday" is lost, and so is a blank one. *)
Definition read_holiday (h : bytes) : list bytes :=
  if contains (bs "holiday") h then [] else match TrimSpace h with [] => [] | t => [t] end.
Definition read_calendar (c : calendar) : calendar := mkCal (calSymbols c) (calFirstDay c) (calWeekend c) (flat_map read_holiday (calHolidays c)).
Definition read_currency (c : currency) : currency := mkCur (curSymbol c) (curName c) (from_zero (curPrecision c)).
Definition read_number (p : numpattern) : numpattern := mkNum (numFormat p) (numSymbol p) (numGrouping p) (numDecimal p) (from_zero (numPrecision p)).
Definition read_locale (l : locale) : locale :=
  mkLoc (lCode l) (lName l) (option_map read_calendar (lCalendar l)) (option_map read_currency (lCurrency l)) (lDate l) (lTime l)
    (option_map read_number (lNumber l)) (lText l).
Definition is_int (z : Z) : Prop := - 2 ^ 63 <= z < 2 ^ 63.
Definition locale_ints (l : locale) : Prop :=
  (forall c, lCurrency l = Some c -> is_int (curPrecision c)) /\ (forall p, lNumber l = Some p -> is_int (numPrecision p)).
(** Nothing is lost of such a locale. *)
Definition tidy_locale (l : locale) : Prop :=
  (forall c, lCurrency l = Some c -> 0 <= curPrecision c < 2 ^ 63) /\ (forall p, lNumber l = Some p -> 0 <= numPrecision p < 2 ^ 63) /\
  forall c h, lCalendar l = Some c -> In h (calHolidays c) -> h <> [] /\ TrimSpace h = h /\ contains (bs "holiday") h = false.

(** ** Stylesheets *)
Section Floats.
Context {F V : Type} (f0 : F) (pos : F -> bool) (parseF : bytes -> option F) (showF : F -> bytes) (show : V -> bytes) (showS : sval (F := F) (V := V) -> bytes).
Definition clamp (f : F) : F := if pos f then f else f0.
(** A structure that is read back: its numbers that are not positive are 0. *)
Definition read_font (f : sfont) : sfont := mkSFont (sfFamily f) (clamp (sfSize f)) (sfWeight f) (sfStyle f) (sfColor f) (sfDecoration f).
Definition read_border (b : sborder) : sborder := mkSBorder (clamp (sbWidth b)) (sbStyle b) (sbColor b) (clamp (sbRadius b)).
Definition read_sides (m : sides) : sides := mkSides (clamp (sTop m)) (clamp (sRight m)) (clamp (sBottom m)) (clamp (sLeft m)).
Definition read_pair (p : spair) : spair := mkSPair (clamp (sFst p)) (clamp (sSnd p)).
(** A value written as text, [t], once it is read. *)
Definition read_value (t : bytes) : option (sval (F := F) (V := V)) :=
  match TrimSpace t with
  | [] => None
  | t => Some (match parseF t with
               | Some f => SFloat f
               | None => if bytes_eqb t (bs "true") then SBool true else if bytes_eqb t (bs "false") then SBool false
                         else if bytes_eqb t (bs "1") then SBool true else if bytes_eqb t (bs "0") then SBool false else SStr t
               end)
  end.
Definition structure_keys : list bytes := [bs "font"; bs "border"; bs "margin"; bs "padding"; bs "position"; bs "size"].
Record same_style (s s' : style (F := F) (V := V)) : Prop := {
  ss_name : stName s' = stName s;
  ss_type : stType s' = stType s;
  ss_font : kget (bs "font") (stProps s') = match kget (bs "font") (stProps s) with Some (SFont f) => Some (SFont (read_font f)) | _ => None end;
  ss_border : kget (bs "border") (stProps s') = match kget (bs "border") (stProps s) with Some (SBorder f) => Some (SBorder (read_border f)) | _ => None end;
  ss_margin : kget (bs "margin") (stProps s') = match kget (bs "margin") (stProps s) with Some (SMargin f) => Some (SMargin (read_sides f)) | _ => None end;
  ss_padding : kget (bs "padding") (stProps s') = match kget (bs "padding") (stProps s) with Some (SPadding f) => Some (SPadding (read_sides f)) | _ => None end;
  ss_position : kget (bs "position") (stProps s') = match kget (bs "position") (stProps s) with Some (SPosition f) => Some (SPosition (read_pair f)) | _ => None end;
  ss_size : kget (bs "size") (stProps s') = match kget (bs "size") (stProps s) with Some (SSize f) => Some (SSize (read_pair f)) | _ => None end;
  ss_other : forall k, ~ In k structure_keys ->
    kget k (stProps s') = match kget k (stProps s) with Some v => read_value (showP show showF showS v) | None => None end }.
Definition plain_style (s : style (F := F) (V := V)) : Prop :=
  NoDup (map fst (stProps s)) /\ forall k, In k (map fst (stProps s)) -> ~ In k [bs "stylesheet"; bs "style"].
End Floats.

(** ** Configuration *)
Definition read_interactive (i : cinteractive) : cinteractive := mkInter (from_zero (inPage i)) (inZoom i) (inViewMode i).
Definition read_present (p : cpresent) : cpresent :=
  mkPresent (prPDF p) None None (option_map read_interactive (prInteractive p)) None (prRender p) (prOutput p).
Definition read_submit (s : csubmit) : csubmit := mkSubmit (suFormat s) (suTarget s) (suMethod s) (suEmbed s) (suXDP s) (suEncoding s) [].
Definition read_acrobat (a : cacrobat) : cacrobat := mkAcrobat (acAutoSave a) (from_zero (acAutoSaveTime a)) (acFormType a) (acVersion a).
(** What comes back of a configuration: the sections, but [validate], [common]
    and [output] without their settings; no script, no trace, no property. *)
Definition read_config {V} (c : config V) : config bytes :=
  mkConfig (option_map read_present (gPresent c)) (option_map (fun _ => ([], [], [])) (gValidate c)) (option_map read_submit (gSubmit c)) (gDestination c)
    (option_map read_acrobat (gAcrobat c)) (option_map (fun _ => ([], [])) (gCommon c)) (option_map (fun _ => ([], [])) (gOutput c)) None None [].
Definition config_ints {V} (c : config V) : Prop :=
  (forall p i, gPresent c = Some p -> prInteractive p = Some i -> is_int (inPage i)) /\ (forall a, gAcrobat c = Some a -> is_int (acAutoSaveTime a)).
(** Names of properties that are not names of sections. *)
Definition plain_setting (k : bytes) : Prop :=
  ~ In k [bs "present"; bs "validate"; bs "submit"; bs "destination"; bs "acrobat"; bs "common"; bs "output"; bs "script"].
