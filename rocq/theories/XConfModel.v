(** Model of forms/xfa/xfa_stylesheet_translator.go and xfa_config_translator.go,
    and of their types in types/xfa_data_types.go, like XDataModel. *)
From Verif Require Export XDataModel.
Local Open Scope Z_scope.

(* ---------------------------------------------------------------- *)
(** ** Stylesheets *)

(** [F]: floating-point numbers; [f0]: zero; [pos]: comparison with zero;
    [parseF]: strconv.ParseFloat; [formatF]: strconv.FormatFloat(_, 'f', -1, 64);
    [V]: the values other than those of this package; [show]: Sprintf("%v"). *)
Section Floats.
Context {F V : Type} (f0 : F) (pos : F -> bool) (parseF : bytes -> option F) (formatF : F -> bytes) (show : V -> bytes).

(** xfa_data_types.go:252-311 *)
Record sfont := mkSFont { sfFamily : bytes; sfSize : F; sfWeight : bytes; sfStyle : bytes; sfColor : bytes; sfDecoration : bytes }.
Record sborder := mkSBorder { sbWidth : F; sbStyle : bytes; sbColor : bytes; sbRadius : F }.
(** XFAMargin and XFAPadding *)
Record sides := mkSides { sTop : F; sRight : F; sBottom : F; sLeft : F }.
(** XFAPosition (x, y) and XFASize (width, height) *)
Record spair := mkSPair { sFst : F; sSnd : F }.
(** what a property holds: a pointer to one of the types above, not nil; a
    value that prints as text; what the reader makes of a text *)
Inductive sval :=
| SFont (f : sfont) | SBorder (b : sborder) | SMargin (m : sides) | SPadding (m : sides) | SPosition (p : spair) | SSize (p : spair)
| SFloat (f : F) | SBool (b : bool) | SStr (s : bytes) | SOther (v : V).
Record style := mkStyle { stName : bytes; stType : bytes; stProps : list (bytes * sval) }.

Definition float_attr (k : bytes) (f : F) : attrs := if pos f then [(k, formatF f)] else [].
Definition last_float (k : bytes) (a : attrs) (old : F) : F :=
  fold_left (fun acc a => if bytes_eqb (fst a) k then match parseF (snd a) with Some z => z | None => acc end else acc) a old.

(** xfa_stylesheet_translator.go:407-438 *)
Definition encodeStyleFont (f : sfont) : list token :=
  element (bs "font")
    (opt_attr (bs "family") (sfFamily f) ++ float_attr (bs "size") (sfSize f) ++ opt_attr (bs "weight") (sfWeight f) ++
     opt_attr (bs "style") (sfStyle f) ++ opt_attr (bs "color") (sfColor f) ++ opt_attr (bs "decoration") (sfDecoration f)) [].
(** xfa_stylesheet_translator.go:440-465 *)
Definition encodeStyleBorder (b : sborder) : list token :=
  element (bs "border")
    (float_attr (bs "width") (sbWidth b) ++ opt_attr (bs "style") (sbStyle b) ++ opt_attr (bs "color") (sbColor b) ++ float_attr (bs "radius") (sbRadius b)) [].
(** xfa_stylesheet_translator.go:467-492, 494-519 *)
Definition encodeSides (n : bytes) (m : sides) : list token :=
  element n
    (float_attr (bs "top") (sTop m) ++ float_attr (bs "right") (sRight m) ++ float_attr (bs "bottom") (sBottom m) ++ float_attr (bs "left") (sLeft m)) [].
(** xfa_stylesheet_translator.go:521-540, 542-561 *)
Definition encodePair (n x y : bytes) (p : spair) : list token :=
  element n (float_attr x (sFst p) ++ float_attr y (sSnd p)) [].
Definition special_keys : list bytes := [bs "font"; bs "border"; bs "margin"; bs "padding"; bs "position"; bs "size"].
(** Sprintf("%v") of a value; what it prints for the structures is left open *)
Context (showF : F -> bytes) (showS : sval -> bytes).
Definition showP (v : sval) : bytes :=
  match v with
  | SFloat f => showF f | SBool true => bs "true" | SBool false => bs "false" | SStr s => s | SOther v => show v
  | _ => showS v
  end.
(** xfa_stylesheet_translator.go:327-405 *)
Definition encodeStyle (perm : list (bytes * sval) -> list (bytes * sval)) (s : style) : list token :=
  let get k := kget k (stProps s) in
  element (bs "style") (opt_attr (bs "name") (stName s) ++ opt_attr (bs "type") (stType s))
    (match get (bs "font") with Some (SFont f) => encodeStyleFont f | _ => [] end ++
     match get (bs "border") with Some (SBorder b) => encodeStyleBorder b | _ => [] end ++
     match get (bs "margin") with Some (SMargin m) => encodeSides (bs "margin") m | _ => [] end ++
     match get (bs "padding") with Some (SPadding m) => encodeSides (bs "padding") m | _ => [] end ++
     match get (bs "position") with Some (SPosition p) => encodePair (bs "position") (bs "x") (bs "y") p | _ => [] end ++
     match get (bs "size") with Some (SSize p) => encodePair (bs "size") (bs "width") (bs "height") p | _ => [] end ++
     flat_map (property showP) (List.filter (fun e => negb (existsb (bytes_eqb (fst e)) special_keys)) (perm (stProps s)))).
(** xfa_stylesheet_translator.go:288-325 *)
Definition StylesheetToXFA (perm : list (bytes * sval) -> list (bytes * sval)) (l : list style) : option (list token) :=
  encoded (element (bs "stylesheet") [] (flat_map (encodeStyle perm) l)).

(** xfa_stylesheet_translator.go:271-285 *)
Definition parseStyleValue (v : bytes) : sval :=
  match parseF v with
  | Some f => SFloat f
  | None =>
      if bytes_eqb v (bs "true") || bytes_eqb v (bs "1") then SBool true
      else if bytes_eqb v (bs "false") || bytes_eqb v (bs "0") then SBool false
      else SStr v
  end.
(** xfa_stylesheet_translator.go:151-172 *)
Definition parseFontAttributes (a : attrs) : sval :=
  SFont (mkSFont (last_attr (bs "family") a []) (last_float (bs "size") a f0) (last_attr (bs "weight") a []) (last_attr (bs "style") a [])
           (last_attr (bs "color") a []) (last_attr (bs "decoration") a [])).
(** xfa_stylesheet_translator.go:174-193 *)
Definition parseBorderAttributes (a : attrs) : sval :=
  SBorder (mkSBorder (last_float (bs "width") a f0) (last_attr (bs "style") a []) (last_attr (bs "color") a []) (last_float (bs "radius") a f0)).
(** xfa_stylesheet_translator.go:195-216, 218-239 *)
Definition parseSides (a : attrs) (m : sides) : sides :=
  mkSides (last_float (bs "top") a (sTop m)) (last_float (bs "right") a (sRight m)) (last_float (bs "bottom") a (sBottom m)) (last_float (bs "left") a (sLeft m)).
(** xfa_stylesheet_translator.go:241-254, 256-269 *)
Definition parsePair (x y : bytes) (a : attrs) (p : spair) : spair :=
  mkSPair (last_float x a (sFst p)) (last_float y a (sSnd p)).

(** The state of the loop of xfa_stylesheet_translator.go:31-142: the styles,
    currentStyle, currentProperty, currentValue.  The result is None when a
    type assertion panics. *)
Record sstate := mkSS { ssDone : list style; ssCur : option style; ssProp : bytes; ssValue : bytes }.
Definition put (k : bytes) (v : sval) (s : style) : style := mkStyle (stName s) (stType s) (kset k v (stProps s)).
(** xfa_stylesheet_translator.go:44-110 *)
Definition s_start (s : sstate) (n : bytes) (a : attrs) : option sstate :=
  match s with mkSS done cur p v =>
    if bytes_eqb n (bs "stylesheet") then Some s
    else if bytes_eqb n (bs "style") then Some (mkSS done (Some (mkStyle (last_attr (bs "name") a []) (last_attr (bs "type") a []) [])) p v)
    else match cur with
    | None => Some s
    | Some c =>
      if bytes_eqb n (bs "font") then Some (mkSS done (Some (put n (parseFontAttributes a) c)) n v)
      else if bytes_eqb n (bs "border") then Some (mkSS done (Some (put n (parseBorderAttributes a) c)) n v)
      else if bytes_eqb n (bs "margin") then
        match kget n (stProps c) with
        | None => Some (mkSS done (Some (put n (SMargin (parseSides a (mkSides f0 f0 f0 f0))) c)) n v)
        | Some (SMargin m) => Some (mkSS done (Some (put n (SMargin (parseSides a m)) c)) n v)
        | Some _ => None
        end
      else if bytes_eqb n (bs "padding") then
        match kget n (stProps c) with
        | None => Some (mkSS done (Some (put n (SPadding (parseSides a (mkSides f0 f0 f0 f0))) c)) n v)
        | Some (SPadding m) => Some (mkSS done (Some (put n (SPadding (parseSides a m)) c)) n v)
        | Some _ => None
        end
      else if bytes_eqb n (bs "position") then
        match kget n (stProps c) with
        | None => Some (mkSS done (Some (put n (SPosition (parsePair (bs "x") (bs "y") a (mkSPair f0 f0))) c)) n v)
        | Some (SPosition m) => Some (mkSS done (Some (put n (SPosition (parsePair (bs "x") (bs "y") a m)) c)) n v)
        | Some _ => None
        end
      else if bytes_eqb n (bs "size") then
        match kget n (stProps c) with
        | None => Some (mkSS done (Some (put n (SSize (parsePair (bs "width") (bs "height") a (mkSPair f0 f0))) c)) n v)
        | Some (SSize m) => Some (mkSS done (Some (put n (SSize (parsePair (bs "width") (bs "height") a m)) c)) n v)
        | Some _ => None
        end
      else Some (mkSS done cur n [])
    end
  end.
(** xfa_stylesheet_translator.go:111-136 *)
Definition s_end (s : sstate) (n : bytes) : sstate :=
  match s with mkSS done cur p v =>
    if bytes_eqb n (bs "style") then mkSS (match cur with Some c => done ++ [c] | None => done end) None [] v
    else if existsb (bytes_eqb n) special_keys then mkSS done cur [] v
    else mkSS done
           (match cur, p, TrimSpace v with
            | Some c, _ :: _, b :: r => Some (put n (parseStyleValue (b :: r)) c)
            | _, _, _ => cur
            end) p []
  end.
(** xfa_stylesheet_translator.go:137-140 *)
Definition s_chars (s : sstate) (t : bytes) : sstate :=
  match s with mkSS done cur p v => match cur, p with Some _, _ :: _ => mkSS done cur p (v ++ t) | _, _ => s end end.
Definition s_step (s : option sstate) (t : token) : option sstate :=
  match s with
  | None => None
  | Some s => match t with TStart n a => s_start s n a | TEnd n => Some (s_end s n) | TChars x => Some (s_chars s x) end
  end.
(** xfa_stylesheet_translator.go:15-149 *)
Definition ParseXFAStylesheet (ts : list token) : option (list style) :=
  option_map ssDone (fold_left s_step ts (Some (mkSS [] None [] []))).
End Floats.
Arguments mkSS {F V}. Arguments mkSFont {F}. Arguments mkSBorder {F}. Arguments mkSides {F}. Arguments mkSPair {F}. Arguments mkStyle {F V}.
Arguments SFont {F V}. Arguments SBorder {F V}. Arguments SMargin {F V}. Arguments SPadding {F V}. Arguments SPosition {F V}. Arguments SSize {F V}.
Arguments SFloat {F V}. Arguments SBool {F V}. Arguments SStr {F V}. Arguments SOther {F V}.

(* ---------------------------------------------------------------- *)
(** ** Configuration *)

(** xfa_data_types.go:18-125; the types of the sections that are only created
    (XDP, Print, Script) and never given a field are their presence *)
Record cpdf := mkPDF { pdVersion : bytes; pdCompression : bytes; pdLinearized : bool; pdEncryption : bytes; pdEmbedFonts : bool; pdTagged : bool; pdAccessibility : bool }.
Record cinteractive := mkInter { inPage : Z; inZoom : bytes; inViewMode : bytes }.
Record cpresent := mkPresent { prPDF : option cpdf; prXDP : option bytes; prPrint : option (bytes * bytes); prInteractive : option cinteractive;
  prScript : option (bytes * bytes); prRender : bytes; prOutput : bytes }.
Record csubmit := mkSubmit { suFormat : bytes; suTarget : bytes; suMethod : bytes; suEmbed : bool; suXDP : bytes; suEncoding : bytes; suProps : list (bytes * bytes) }.
Record cacrobat := mkAcrobat { acAutoSave : bool; acAutoSaveTime : Z; acFormType : bytes; acVersion : bytes }.
(** [gValidate] is scriptTest, nullTest, formatTest; [gDestination] type and
    target; [gCommon] dataPrefix and timeStamp; [gOutput] format and
    destination; [gScript] contentType and runAt; [gTrace] enabled and level. *)
Record config (V : Type) := mkConfig {
  gPresent : option cpresent; gValidate : option (bytes * bytes * bytes); gSubmit : option csubmit; gDestination : option (bytes * bytes);
  gAcrobat : option cacrobat; gCommon : option (bytes * bytes); gOutput : option (bytes * bytes); gScript : option (bytes * bytes);
  gTrace : option (bool * bytes); gProps : list (bytes * V) }.
Arguments mkConfig {V}. Arguments gPresent {V}. Arguments gValidate {V}. Arguments gSubmit {V}. Arguments gDestination {V}. Arguments gAcrobat {V}.
Arguments gCommon {V}. Arguments gOutput {V}. Arguments gScript {V}. Arguments gTrace {V}. Arguments gProps {V}.

(** xfa_config_translator.go:392-426 *)
Definition encodeConfigPDF (p : cpdf) : list token :=
  element (bs "pdf")
    (opt_attr (bs "version") (pdVersion p) ++ opt_attr (bs "compression") (pdCompression p) ++ bool_attr (bs "linearized") (pdLinearized p) ++
     opt_attr (bs "encryption") (pdEncryption p) ++ bool_attr (bs "embedFonts") (pdEmbedFonts p) ++ bool_attr (bs "tagged") (pdTagged p) ++
     bool_attr (bs "accessibility") (pdAccessibility p)) [].
(** xfa_config_translator.go:428-450 *)
Definition encodeConfigInteractive (i : cinteractive) : list token :=
  element (bs "interactive") (int_attr (bs "currentPage") (inPage i) ++ opt_attr (bs "zoom") (inZoom i) ++ opt_attr (bs "viewMode") (inViewMode i)) [].
(** xfa_config_translator.go:358-390 *)
Definition encodeConfigPresent (p : cpresent) : list token :=
  element (bs "present") (opt_attr (bs "renderPolicy") (prRender p) ++ opt_attr (bs "effectiveOutputPolicy") (prOutput p))
    (maybe encodeConfigPDF (prPDF p) ++ maybe encodeConfigInteractive (prInteractive p)).
(** xfa_config_translator.go:452-474 *)
Definition encodeConfigValidate (v : bytes * bytes * bytes) : list token :=
  let '(s, n, f) := v in element (bs "validate") (opt_attr (bs "scriptTest") s ++ opt_attr (bs "nullTest") n ++ opt_attr (bs "formatTest") f) [].
(** xfa_config_translator.go:476-507 *)
Definition encodeConfigSubmit (s : csubmit) : list token :=
  element (bs "submit")
    (opt_attr (bs "format") (suFormat s) ++ opt_attr (bs "target") (suTarget s) ++ opt_attr (bs "method") (suMethod s) ++
     bool_attr (bs "embedPDF") (suEmbed s) ++ opt_attr (bs "xdpContent") (suXDP s) ++ opt_attr (bs "textEncoding") (suEncoding s)) [].
(** xfa_config_translator.go:509-528, 557-576, 578-597 *)
Definition encodeTwo (n k1 k2 : bytes) (p : bytes * bytes) : list token := element n (opt_attr k1 (fst p) ++ opt_attr k2 (snd p)) [].
(** xfa_config_translator.go:530-555 *)
Definition encodeConfigAcrobat (a : cacrobat) : list token :=
  element (bs "acrobat")
    (bool_attr (bs "autoSave") (acAutoSave a) ++ int_attr (bs "autoSaveTime") (acAutoSaveTime a) ++ opt_attr (bs "formType") (acFormType a) ++ opt_attr (bs "version") (acVersion a)) [].
(** xfa_config_translator.go:261-356 *)
Definition ConfigToXFA {V} (show : V -> bytes) (perm : list (bytes * V) -> list (bytes * V)) (c : config V) : option (list token) :=
  encoded (element (bs "config") []
    (maybe encodeConfigPresent (gPresent c) ++ maybe encodeConfigValidate (gValidate c) ++ maybe encodeConfigSubmit (gSubmit c) ++
     maybe (encodeTwo (bs "destination") (bs "type") (bs "target")) (gDestination c) ++ maybe encodeConfigAcrobat (gAcrobat c) ++
     maybe (encodeTwo (bs "common") (bs "dataPrefix") (bs "timeStamp")) (gCommon c) ++
     maybe (encodeTwo (bs "output") (bs "format") (bs "destination")) (gOutput c) ++
     flat_map (property show) (perm (gProps c)))).

(** xfa_config_translator.go:161-170 *)
Definition parsePresentAttributes (a : attrs) (p : cpresent) : cpresent :=
  mkPresent (prPDF p) (prXDP p) (prPrint p) (prInteractive p) (prScript p) (last_attr (bs "renderPolicy") a (prRender p)) (last_attr (bs "effectiveOutputPolicy") a (prOutput p)).
Definition submit_known : list bytes := [bs "format"; bs "target"; bs "method"; bs "embedPDF"; bs "xdpContent"; bs "textEncoding"].
(** xfa_config_translator.go:172-194 *)
Definition parseSubmitAttributes (a : attrs) (s : csubmit) : csubmit :=
  mkSubmit (last_attr (bs "format") a (suFormat s)) (last_attr (bs "target") a (suTarget s)) (last_attr (bs "method") a (suMethod s))
    (last_bool (bs "embedPDF") a (suEmbed s)) (last_attr (bs "xdpContent") a (suXDP s)) (last_attr (bs "textEncoding") a (suEncoding s))
    (fold_left (fun m e => if existsb (bytes_eqb (fst e)) submit_known then m else kset (fst e) (snd e) m) a (suProps s)).
(** xfa_config_translator.go:196-205 *)
Definition parseDestinationAttributes (a : attrs) (d : bytes * bytes) : bytes * bytes :=
  (last_attr (bs "type") a (fst d), last_attr (bs "target") a (snd d)).
(** xfa_config_translator.go:207-222 *)
Definition parseAcrobatAttributes (a : attrs) (c : cacrobat) : cacrobat :=
  mkAcrobat (last_bool (bs "autoSave") a (acAutoSave c)) (last_int (bs "autoSaveTime") a (acAutoSaveTime c))
    (last_attr (bs "formType") a (acFormType c)) (last_attr (bs "version") a (acVersion c)).
(** xfa_config_translator.go:224-243 *)
Definition parsePDFAttributes (a : attrs) (p : cpdf) : cpdf :=
  mkPDF (last_attr (bs "version") a (pdVersion p)) (last_attr (bs "compression") a (pdCompression p)) (last_bool (bs "linearized") a (pdLinearized p))
    (last_attr (bs "encryption") a (pdEncryption p)) (last_bool (bs "embedFonts") a (pdEmbedFonts p)) (last_bool (bs "tagged") a (pdTagged p))
    (last_bool (bs "accessibility") a (pdAccessibility p)).
(** xfa_config_translator.go:245-258 *)
Definition parseInteractiveAttributes (a : attrs) (i : cinteractive) : cinteractive :=
  mkInter (last_int (bs "currentPage") a (inPage i)) (last_attr (bs "zoom") a (inZoom i)) (last_attr (bs "viewMode") a (inViewMode i)).

(** The state of the loop of xfa_config_translator.go:30-152: the
    configuration, currentSection, currentValue.  None: a nil pointer is
    dereferenced. *)
Record gstate := mkGS { gsConf : config bytes; gsSection : bytes; gsValue : bytes }.
Definition new_present : cpresent := mkPresent None None None None None [] [].
(** xfa_config_translator.go:43-130 *)
Definition g_start (s : gstate) (n : bytes) (a : attrs) : option gstate :=
  match s with mkGS (mkConfig pr va su de ac co ou sc tr ps) sec v =>
    let present := bytes_eqb sec (bs "present") in
    let same pr' := Some (mkGS (mkConfig pr' va su de ac co ou sc tr ps) sec v) in
    if bytes_eqb n (bs "config") then Some s
    else if bytes_eqb n (bs "present") then
      Some (mkGS (mkConfig (Some (parsePresentAttributes a (or_new new_present pr))) va su de ac co ou sc tr ps) n v)
    else if bytes_eqb n (bs "validate") then
      Some (mkGS (mkConfig pr (Some (or_new ([], [], []) va)) su de ac co ou sc tr ps) n v)
    else if bytes_eqb n (bs "submit") then
      Some (mkGS (mkConfig pr va (Some (parseSubmitAttributes a (or_new (mkSubmit [] [] [] false [] [] []) su))) de ac co ou sc tr ps) n v)
    else if bytes_eqb n (bs "destination") then
      Some (mkGS (mkConfig pr va su (Some (parseDestinationAttributes a (or_new ([], []) de))) ac co ou sc tr ps) n v)
    else if bytes_eqb n (bs "acrobat") then
      Some (mkGS (mkConfig pr va su de (Some (parseAcrobatAttributes a (or_new (mkAcrobat false 0 [] []) ac))) co ou sc tr ps) n v)
    else if bytes_eqb n (bs "common") then
      Some (mkGS (mkConfig pr va su de ac (Some (or_new ([], []) co)) ou sc tr ps) n v)
    else if bytes_eqb n (bs "output") then
      Some (mkGS (mkConfig pr va su de ac co (Some (or_new ([], []) ou)) sc tr ps) n v)
    else if bytes_eqb n (bs "script") then
      if present then
        match pr with
        | Some p => same (Some (mkPresent (prPDF p) (prXDP p) (prPrint p) (prInteractive p) (Some (or_new ([], []) (prScript p))) (prRender p) (prOutput p)))
        | None => None
        end
      else Some (mkGS (mkConfig pr va su de ac co ou (Some (or_new ([], []) sc)) tr ps) sec v)
    else if bytes_eqb n (bs "pdf") then
      match present, pr with
      | true, Some p =>
          same (Some (mkPresent (Some (parsePDFAttributes a (or_new (mkPDF [] [] false [] false false false) (prPDF p)))) (prXDP p) (prPrint p) (prInteractive p) (prScript p) (prRender p) (prOutput p)))
      | _, _ => Some s
      end
    else if bytes_eqb n (bs "xdp") then
      match present, pr with
      | true, Some p => same (Some (mkPresent (prPDF p) (Some (or_new [] (prXDP p))) (prPrint p) (prInteractive p) (prScript p) (prRender p) (prOutput p)))
      | _, _ => Some s
      end
    else if bytes_eqb n (bs "print") then
      match present, pr with
      | true, Some p => same (Some (mkPresent (prPDF p) (prXDP p) (Some (or_new ([], []) (prPrint p))) (prInteractive p) (prScript p) (prRender p) (prOutput p)))
      | _, _ => Some s
      end
    else if bytes_eqb n (bs "interactive") then
      match present, pr with
      | true, Some p =>
          same (Some (mkPresent (prPDF p) (prXDP p) (prPrint p) (Some (parseInteractiveAttributes a (or_new (mkInter 0 [] []) (prInteractive p)))) (prScript p) (prRender p) (prOutput p)))
      | _, _ => Some s
      end
    else Some (mkGS (gsConf s) sec [])
  end.
Definition config_sections : list bytes := [bs "present"; bs "validate"; bs "submit"; bs "destination"; bs "acrobat"; bs "common"; bs "output"].
(** xfa_config_translator.go:131-147 *)
Definition g_end (s : gstate) (n : bytes) : gstate :=
  match s with mkGS (mkConfig pr va su de ac co ou sc tr ps) sec v =>
    if existsb (bytes_eqb n) config_sections then mkGS (gsConf s) [] v
    else match sec with
         | [] => mkGS (gsConf s) sec []
         | _ => mkGS (mkConfig pr va su de ac co ou sc tr (put_text n v ps)) sec []
         end
  end.
Definition g_step (s : option gstate) (t : token) : option gstate :=
  match s with
  | None => None
  | Some s => match t with TStart n a => g_start s n a | TEnd n => Some (g_end s n) | TChars x => Some (mkGS (gsConf s) (gsSection s) (gsValue s ++ x)) end
  end.
Definition no_config {V} : config V := mkConfig None None None None None None None None None [].
(** xfa_config_translator.go:15-159 *)
Definition ParseXFAConfig (ts : list token) : option (config bytes) :=
  option_map gsConf (fold_left g_step ts (Some (mkGS no_config [] []))).
