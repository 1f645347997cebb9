(** Property theorems: actions (C90) and appearances (C91) of form fields; the
    form builder (C92). *)
From Verif Require Import Util WriterModel WriterSpec ParseModel ParseSpec TextModel TextSpec FormsModel FormsSpec ReadProofs XrefProps FormsProps ActsModel ActsSpec ActsProofs ActsProofs2.
Local Open Scope Z_scope.

(* ---------------------------------------------------------------- *)
(** C90, full statement: adding an action to a field makes it the field's
    action, replaces an action that was there, and changes nothing else; adding
    an action to an event of the field keeps the other events. *)

(** When there is no error. *)
Theorem C90_accepted : forall n a w, (exists w', AddActionToField n a w = Ok w') <->
  (exists t, WGetObject n w = Ok t /\ contains (bs ">>") t = true) /\ usable a.
Proof. exact action_iff. Qed.
Print Assumptions C90_accepted.

(** The entry that is written; missing: the field has no action yet. *)
Theorem C90_uri_partial : forall n uri rs page dest script w t x y,
  WGetObject n w = Ok t -> closes t x y -> n < nextObjNum w -> uri = utf8 rs -> forallb (fun r => (r <? 256)%N) rs = true ->
  exists w' l, AddActionToField n (mkAct AURI uri script dest page) w = Ok w' /\ only_object n w w' /\ reads_as l rs /\
    WGetObject n w' = Ok (x ++ bs "/A << /Type /Action /S /URI /URI " ++ l ++ bs " >> >>" ++ y).
Proof. exact uri_text. Qed.
Print Assumptions C90_uri_partial.
Theorem C90_script_partial : forall n script rs page dest uri w t x y,
  WGetObject n w = Ok t -> closes t x y -> n < nextObjNum w -> script = utf8 rs -> forallb (fun r => (r <? 256)%N) rs = true ->
  exists w' l, AddActionToField n (mkAct AJavaScript uri script dest page) w = Ok w' /\ only_object n w w' /\ reads_as l rs /\
    WGetObject n w' = Ok (x ++ bs "/A << /Type /Action /S /JavaScript /JS " ++ l ++ bs " >> >>" ++ y).
Proof. exact script_text. Qed.
Print Assumptions C90_script_partial.
Theorem C90_reset_partial : forall n uri script dest page w t x y,
  WGetObject n w = Ok t -> closes t x y -> n < nextObjNum w ->
  exists w', AddActionToField n (mkAct AReset uri script dest page) w = Ok w' /\ only_object n w w' /\
    WGetObject n w' = Ok (x ++ bs "/A << /Type /Action /S /ResetForm >> >>" ++ y).
Proof. exact reset_text. Qed.
Print Assumptions C90_reset_partial.
Theorem C90_goto_partial : forall n uri script c dest page w t x y,
  WGetObject n w = Ok t -> closes t x y -> n < nextObjNum w ->
  exists w', AddActionToField n (mkAct AGoTo uri script (c :: dest) page) w = Ok w' /\ only_object n w w' /\
    WGetObject n w' = Ok (x ++ bs "/A << /Type /Action /S /GoTo /D " ++ (c :: dest) ++ bs " >> >>" ++ y).
Proof. exact goto_text. Qed.
Print Assumptions C90_goto_partial.
(** The page to go to is written as the object of that number, whatever it is. *)
Theorem C90_page_refuted : forall n uri script page w t x y,
  WGetObject n w = Ok t -> closes t x y -> n < nextObjNum w -> 0 < page ->
  exists w', AddActionToField n (mkAct AGoTo uri script [] page) w = Ok w' /\ only_object n w w' /\
    WGetObject n w' = Ok (x ++ bs "/A << /Type /Action /S /GoTo /D [" ++ decZ page ++ bs " 0 R /Fit] >> >>" ++ y).
Proof. exact goto_page. Qed.
Print Assumptions C90_page_refuted.
(** Where to submit the form to is not written. *)
Theorem C90_submit_refuted : forall n uri uri' script dest page w,
  AddActionToField n (mkAct ASubmit uri script dest page) w = AddActionToField n (mkAct ASubmit uri' script dest page) w.
Proof. exact submit_same. Qed.
Print Assumptions C90_submit_refuted.
(** A second action does not replace the first: the dictionary has the key
    twice. *)
Theorem C90_second_action_refuted : forall n a a' d d' w t x y,
  WGetObject n w = Ok t -> closes t x y -> n < nextObjNum w -> action_dict a = Ok d -> action_dict a' = Ok d' ->
  exists w1 w2, AddActionToField n a w = Ok w1 /\ AddActionToField n a' w1 = Ok w2 /\
    WGetObject n w2 = Ok (x ++ bs "/A " ++ d ++ bs " /A " ++ d' ++ bs " >>" ++ y).
Proof. exact second_action. Qed.
Print Assumptions C90_second_action_refuted.

(** An action of an event; missing: the field has none of any event yet. *)
Theorem C90_event_script_partial : forall n event key script rs page dest uri w t x y,
  WGetObject n w = Ok t -> closes t x y -> contains (bs "/AA ") t = false -> n < nextObjNum w -> In (event, key) events ->
  script = utf8 rs -> forallb (fun r => (r <? 256)%N) rs = true ->
  exists w' l, AddMouseAction n event (mkAct AJavaScript uri script dest page) w = Ok w' /\ only_object n w w' /\ reads_as l rs /\
    WGetObject n w' = Ok (x ++ bs "/AA << /" ++ key ++ bs " << /Type /Action /S /JavaScript /JS " ++ l ++ bs " >> >> >>" ++ y).
Proof. exact mouse_script. Qed.
Print Assumptions C90_event_script_partial.
Theorem C90_event_uri_partial : forall n event key uri rs page dest script w t x y,
  WGetObject n w = Ok t -> closes t x y -> contains (bs "/AA ") t = false -> n < nextObjNum w -> In (event, key) events ->
  uri = utf8 rs -> forallb (fun r => (r <? 256)%N) rs = true ->
  exists w' l, AddMouseAction n event (mkAct AURI uri script dest page) w = Ok w' /\ only_object n w w' /\ reads_as l rs /\
    WGetObject n w' = Ok (x ++ bs "/AA << /" ++ key ++ bs " << /Type /Action /S /URI /URI " ++ l ++ bs " >> >> >>" ++ y).
Proof. exact mouse_uri. Qed.
Print Assumptions C90_event_uri_partial.
(** The second event's action takes the place of the first, whose closing
    brackets stay: the text is no dictionary any more.  So it is for every
    first action without '>' in it and every second one without '$'. *)
Theorem C90_second_event_refuted : forall n event event' key key' a a' d d' w t x y,
  WGetObject n w = Ok t -> closes t x y -> contains (bs "/AA") t = false -> n < nextObjNum w ->
  mouse_dict a = Ok (bs "<<" ++ d ++ bs ">>") -> mouse_dict a' = Ok d' ->
  event_key event = Some key -> event_key event' = Some key' ->
  forallb (fun c => negb (beqb c ">")) d = true -> forallb (fun c => negb (beqb c "$")) d' = true ->
  exists w1 w2, AddMouseAction n event a w = Ok w1 /\ AddMouseAction n event' a' w1 = Ok w2 /\
    WGetObject n w2 = Ok (x ++ bs "/AA << /" ++ key' ++ bs " " ++ d' ++ bs " >> >> >>" ++ y).
Proof. exact second_mouse. Qed.
Print Assumptions C90_second_event_refuted.

Definition ex_field : bytes := bs "<< /FT /Btn /T (send) >>".
Definition ex_aw : writer := snd (AddObject (Some ex_field) (snd (AddObject (Some (bs "<< /Type /Catalog >>")) NewPDFWriter))).
Definition ex_js (s : bytes) : action := mkAct AJavaScript [] s [] 0.
Definition ex_text (r : result writer) : bytes := match r with Ok w => match WGetObject 2 w with Ok t => t | _ => [] end | _ => [] end.
Example C90_example : WGetObject 2 ex_aw = Ok ex_field /\ closes ex_field (bs "<< /FT /Btn /T (send) ") [] /\ 2 < nextObjNum ex_aw /\
  ex_text (AddActionToField 2 (mkAct AURI (bs "http://x/(a)") [] [] 0) ex_aw) =
    bs "<< /FT /Btn /T (send) /A << /Type /Action /S /URI /URI (http://x/\(a\)) >> >>" /\
  contains (bs "/AA") ex_field = false.
Proof. repeat split; reflexivity. Qed.
(** Three opened, four closed; and a dollar sign in the script is expanded. *)
Example C90_example2 :
  let first := AddMouseAction 2 (bs "onEnter") (ex_js (bs "f()")) ex_aw in
  let second s := ex_text (rbind first (AddMouseAction 2 (bs "onExit") (ex_js s))) in
  second (bs "g()") = bs "<< /FT /Btn /T (send) /AA << /X << /Type /Action /S /JavaScript /JS (g\(\)) >> >> >> >>" /\
  times (bs "<<") (second (bs "g()")) = 3%nat /\ times (bs ">>") (second (bs "g()")) = 4%nat /\
  second (bs "pay $5") = bs "<< /FT /Btn /T (send) /AA << /X << /Type /Action /S /JavaScript /JS (pay ) >> >> >> >>".
Proof. vm_compute. repeat split; reflexivity. Qed.

(* ---------------------------------------------------------------- *)
(** C91, full statement: a field shows the last appearance that was added to
    it, and the appearance shows the text it was made for. *)
Theorem C91_added_partial : forall n p w t x y,
  WGetObject n w = Ok t -> closes t x y -> contains (bs "/AP") t = false -> n < nextObjNum w ->
  exists w', AddAppearanceToField n p w = Ok w' /\ only_object n w w' /\
    WGetObject n w' = Ok (x ++ bs "/AP << /N " ++ decZ p ++ bs " 0 R >> >>" ++ y).
Proof. exact ap_new. Qed.
Print Assumptions C91_added_partial.
Theorem C91_last_wins_partial : forall n p q w t x y,
  WGetObject n w = Ok t -> closes t x y -> contains (bs "/AP") t = false -> n < nextObjNum w ->
  exists w1 w2, AddAppearanceToField n p w = Ok w1 /\ AddAppearanceToField n q w1 = Ok w2 /\ only_object n w w2 /\
    WGetObject n w2 = Ok (x ++ bs "/AP << /N " ++ decZ q ++ bs " 0 R >> >>" ++ y).
Proof. exact ap_twice. Qed.
Print Assumptions C91_last_wins_partial.
Theorem C91_replaced_partial : forall n p w a old b,
  WGetObject n w = Ok (a ++ bs "/AP <<" ++ old ++ bs ">>" ++ b) ->
  contains (bs "/AP") a = false -> contains (bs "/AP") b = false -> forallb (fun c => negb (beqb c ">")) old = true ->
  n < nextObjNum w ->
  exists w', AddAppearanceToField n p w = Ok w' /\ only_object n w w' /\
    WGetObject n w' = Ok (a ++ bs "/AP << /N " ++ decZ p ++ bs " 0 R >>" ++ b).
Proof. exact ap_replaced. Qed.
Print Assumptions C91_replaced_partial.
(** A field in whose text "/AP" stands for something else keeps its text, and
    the caller is told that all is well. *)
Theorem C91_ignored_refuted : forall n p w t, WGetObject n w = Ok t -> contains (bs "/AP") t = true ->
  (forall j, (j < length t)%nat -> m_flat (bs "/AP") (skipn j t) = None) ->
  exists w', AddAppearanceToField n p w = Ok w' /\ WGetObject n w' = Ok t.
Proof. exact ap_lost. Qed.
Print Assumptions C91_ignored_refuted.

(** The appearance of a text: a drawing of that size, with the text as given.
    The font it names is always object 0, which no document has. *)
Theorem C91_text_partial : forall rs width height size font y deflate w n w',
  forallb (fun r => (r <? 256)%N) rs = true ->
  CreateTextAppearance deflate (utf8 rs) width height size font y w = (n, w') ->
  exists l, reads_as l rs /\ n = nextObjNum w /\ kept w w' /\
  form_xobject deflate w' n (drawing width height ++ [(bs "/Resources", VDict [(bs "/Font", VDict [(font, VStr (bs "0 0 R"))])])])
    (bs "q" ++ nl ++ bs "BT" ++ nl ++ bs "/" ++ font ++ bs " " ++ size ++ bs " Tf" ++ nl ++ bs "0 0 0 rg" ++ nl ++
     bs "0 " ++ y ++ bs " Td" ++ nl ++ l ++ bs " Tj" ++ nl ++ bs "ET" ++ nl ++ bs "Q" ++ nl).
Proof. exact text_reads. Qed.
Print Assumptions C91_text_partial.
(** The appearance of a button: no resources at all, although it uses a font. *)
Theorem C91_button_partial : forall rs width height w2 h2 x y deflate w n w',
  forallb (fun r => (r <? 256)%N) rs = true ->
  CreateButtonAppearance deflate (utf8 rs) width height w2 h2 x y w = (n, w') ->
  exists pre l, reads_as l rs /\ n = nextObjNum w /\ kept w w' /\
  form_xobject deflate w' n (drawing width height)
    (pre ++ x ++ bs " " ++ y ++ bs " Td" ++ nl ++ l ++ bs " Tj" ++ nl ++ bs "ET" ++ nl ++ bs "Q" ++ nl).
Proof. exact button_reads. Qed.
Print Assumptions C91_button_partial.
(** The appearance of a check box: its lines when it is checked, its frame
    when it is not. *)
Theorem C91_checkbox : forall deflate checked width height lw w2 h2 x1 y1 x2 y2 x3 y3 w n w',
  CreateCheckboxAppearance deflate checked width height lw w2 h2 x1 y1 x2 y2 x3 y3 w = (n, w') ->
  n = nextObjNum w /\ kept w w' /\ form_xobject deflate w' n (drawing width height)
    (bs "q" ++ nl ++ bs "0 0 0 rg" ++ nl ++ lw ++ bs " w" ++ nl ++
     (if checked then
        x1 ++ bs " " ++ y1 ++ bs " m" ++ nl ++ x2 ++ bs " " ++ y2 ++ bs " l" ++ nl ++ x3 ++ bs " " ++ y3 ++ bs " l" ++ nl
      else bs "0 0 " ++ w2 ++ bs " " ++ h2 ++ bs " re" ++ nl) ++ bs "S" ++ nl ++ bs "Q" ++ nl).
Proof. exact check_drawn. Qed.
Print Assumptions C91_checkbox.
Definition ex_apr : bytes := bs "<< /FT /Tx /T (x) /DV (/APR) >>".
Example C91_example : closes ex_field (bs "<< /FT /Btn /T (send) ") [] /\ contains (bs "/AP") ex_field = false /\
  ex_text (rbind (AddAppearanceToField 2 7 ex_aw) (AddAppearanceToField 2 8)) = bs "<< /FT /Btn /T (send) /AP << /N 8 0 R >> >>" /\
  ex_text (AddAppearanceToField 2 7 (SetObject 2 (Some ex_apr) ex_aw)) = ex_apr /\
  check_content true (bs "0.50") (bs "10.00") (bs "10.00") (bs "2.00") (bs "5.00") (bs "4.00") (bs "3.00") (bs "8.00") (bs "7.00") = bs "q
0 0 0 rg
0.50 w
2.00 5.00 m
4.00 3.00 l
8.00 7.00 l
S
Q
".
Proof. vm_compute. repeat split; reflexivity. Qed.

(* ---------------------------------------------------------------- *)
(** C92, full statement: the document written after BuildForm has the form. *)

(** Until Bytes is called the catalog names the form. *)
Theorem C92_catalog_partial : forall ds b form b', BuildForm ds b = (Ok form, b') ->
  exists w, BuildFields ds (sbWriter b) = (Ok form, w) /\
  sbPages b' = sbPages b /\ sbPagesNum b' = sbPagesNum b /\
  rootRef (sbWriter b') = Some (nextObjNum w) /\
  mget (nextObjNum w) (objects (sbWriter b')) =
    Some (mkObj (Some (bs "<</Type/Catalog/Pages " ++ decZ (sbPagesNum b) ++ bs " 0 R/AcroForm " ++ decZ form ++ bs " 0 R>>")) None None) /\
  (forall m, m < nextObjNum w -> mget m (objects (sbWriter b')) = mget m (objects w)).
Proof. exact build_form. Qed.
Print Assumptions C92_catalog_partial.
(** Bytes makes another catalog, without the form, and that is the one of the
    written document: in every document the form is lost. *)
Theorem C92_dropped_refuted : forall deflate order inflate crypt ds b form b' out,
  BuildForm ds b = (Ok form, b') -> is_order order ->
  (let w := sbWriter (finish b') in useXRefStream w = false /\ useObjectStream w = false /\ encryptRef w = None /\
     outlinesRef w = None /\ nextObjNum w <= 499 /\ all_readable w) -> 1 <= nextObjNum (sbWriter b') ->
  fst (SBytes deflate order b') = out -> Z.of_nat (length out) < 10 ^ 10 ->
  exists p c t, Open inflate crypt out = Ok p /\ pRoot p = decZ c ++ bs " 0 R" /\
    PGetObject inflate p c = Ok (object_text c t) /\ contains (bs "/AcroForm") t = false.
Proof. exact form_dropped. Qed.
Print Assumptions C92_dropped_refuted.
Definition ex_b : builder := mkBuilder (snd (reserve NewPDFWriter)) [] 1.
Definition ex_built : builder := snd (BuildForm ex_defs ex_b).
Example C92_example : exists form, fst (BuildForm ex_defs ex_b) = Ok form /\
  (let w := sbWriter (finish ex_built) in useXRefStream w = false /\ useObjectStream w = false /\ encryptRef w = None /\
     outlinesRef w = None /\ nextObjNum w <= 499) /\ 1 <= nextObjNum (sbWriter ex_built) /\
  map (fun n => match WGetObject n (sbWriter (finish ex_built)) with Ok t => t | _ => [] end) [1; 6; 7] =
  [bs "<</Type/Pages/Kids[]/Count 0>>"; bs "<</Type/Catalog/Pages 1 0 R/AcroForm 5 0 R>>"; bs "<</Type/Catalog/Pages 1 0 R>>"].
Proof. eexists. split; [vm_compute; reflexivity|]. vm_compute. repeat split; congruence. Qed.

(** Data that breaks the rules of the schema, or that names no field of the
    form, is filled in without an error all the same. *)
Theorem C92_validation_refuted :
  let rule := mkVQ (bs "name") true false (Some (mkRules None (Some 1) [] None None)) in
  let data := [(bs "name", FStr (bs "Bob"))] in
  ValidateFormSchema (fun _ _ => None) (fun _ => None) [rule] data <> [] /\
  ex_has (FillFormFromSchema (fun _ _ => None) (fun _ => None) 3 ex_noinflate (fun b => b) ex_nocrypt ex_nocrypt ex_order ex_big [rule] data)
    (bs "/V (Bob)") = true /\
  ExtractAndFill 3 ex_noinflate (fun b => b) ex_nocrypt ex_nocrypt ex_order ex_big [(bs "nmae", FStr (bs "Bob"))] = Ok ex_big.
Proof. vm_compute. repeat split; congruence. Qed.
Print Assumptions C92_validation_refuted.
