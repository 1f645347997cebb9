(** Model of forms/acroform/actions.go, appearance.go and integration.go.
    Numbers printed with %.2f, and the numbers %v prints, are texts. *)
From Verif Require Import Util WriterModel ParseModel ManipModel TextModel FormsModel UFormModel.
From Verif Require Export PageModel.
Local Open Scope Z_scope.

(* ---------------------------------------------------------------- *)
(** actions.go *)

(** actions.go:13-30 *)
Inductive action_type := AGoTo | AURI | AJavaScript | ASubmit | AReset | AOther (name : bytes).
Record action := mkAct { actType : action_type; actURI : bytes; actScript : bytes; actDest : bytes; actPage : Z }.

(** actions.go:44-66 *)
Definition action_dict (a : action) : result bytes :=
  match actType a with
  | AURI => Ok (bs "<< /Type /Action /S /URI /URI (" ++ escapeFieldValue (actURI a) ++ bs ") >>")
  | AJavaScript => Ok (bs "<< /Type /Action /S /JavaScript /JS (" ++ escapeFieldValue (actScript a) ++ bs ") >>")
  | AGoTo =>
      match actDest a with
      | (_ :: _) as d => Ok (bs "<< /Type /Action /S /GoTo /D " ++ d ++ bs " >>")
      | [] => if 0 <? actPage a then Ok (bs "<< /Type /Action /S /GoTo /D [" ++ decZ (actPage a) ++ bs " 0 R /Fit] >>") else Err
      end
  | ASubmit => Ok (bs "<< /Type /Action /S /SubmitForm /F << /F (submit.pdf) /FS /URL >> >>")
  | AReset => Ok (bs "<< /Type /Action /S /ResetForm >>")
  | AOther _ => Err
  end.
(** An entry before the last ">>" (actions.go:75-86, 141-147; appearance.go:200-206) *)
Definition insert_entry (e t : bytes) : result bytes :=
  match last_index (bs ">>") t with
  | None => Err
  | Some i => Ok (firstn i t ++ e ++ bs " " ++ skipn i t)
  end.
(** actions.go:33-92; both branches at 73-87 do the same *)
Definition AddActionToField (n : Z) (a : action) (w : writer) : result writer :=
  rbind (WGetObject n w) (fun t =>
  rbind (action_dict a) (fun d =>
  rbind (insert_entry (bs "/A " ++ d) t) (fun t => Ok (SetObject n (Some t) w)))).

(** actions.go:107-115 *)
Definition mouse_dict (a : action) : result bytes :=
  match actType a with AURI | AJavaScript => action_dict a | _ => Err end.
(** actions.go:118-129 *)
Definition event_key (e : bytes) : option bytes :=
  kget e [(bs "onClick", bs "U"); (bs "onMouseUp", bs "U"); (bs "onMouseDown", bs "D"); (bs "onEnter", bs "E"); (bs "onExit", bs "X")].
(** KEY\s*<<[^>]*>> and what follows the match *)
Definition m_flat (key s : bytes) : option bytes :=
  do r <- lit key s; do r <- lit (bs "<<") (ws0 r); lit (bs ">>") (skipn (length (until ">" r)) r).
(** actions.go:94-148 *)
Definition AddMouseAction (n : Z) (event : bytes) (a : action) (w : writer) : result writer :=
  rbind (WGetObject n w) (fun t =>
  rbind (mouse_dict a) (fun d =>
  match event_key event with
  | None => Err
  | Some k =>
      let e := bs "/AA << /" ++ k ++ bs " " ++ d ++ bs " >>" in
      rbind (if contains (bs "/AA ") t then Ok (replace_expand (m_flat (bs "/AA")) e t 0) else insert_entry e t) (fun t =>
      Ok (SetObject n (Some t) w))
  end)).

(* ---------------------------------------------------------------- *)
(** appearance.go *)

(** appearance.go:60-66,93-104,136-142; [w] and [h] as %v prints them *)
Definition appearance_entries (w h : bytes) : dict :=
  [(bs "/Type", VStr (bs "/XObject")); (bs "/Subtype", VStr (bs "/Form"));
   (bs "/BBox", VArr [VInt 0; VInt 0; VText w; VText h]);
   (bs "/Matrix", VArr [VInt 1; VInt 0; VInt 0; VInt 1; VInt 0; VInt 0])].
(** appearance.go:26-57; the line width and the coordinates as %.2f prints them *)
Definition check_content (checked : bool) (lw w2 h2 x1 y1 x2 y2 x3 y3 : bytes) : bytes :=
  bs "q" ++ nl ++ bs "0 0 0 rg" ++ nl ++ lw ++ bs " w" ++ nl ++
  (if checked then
     x1 ++ bs " " ++ y1 ++ bs " m" ++ nl ++ x2 ++ bs " " ++ y2 ++ bs " l" ++ nl ++ x3 ++ bs " " ++ y3 ++ bs " l" ++ nl
   else bs "0 0 " ++ w2 ++ bs " " ++ h2 ++ bs " re" ++ nl) ++
  bs "S" ++ nl ++ bs "Q" ++ nl.
(** appearance.go:23-72 *)
Definition CreateCheckboxAppearance (deflate : bytes -> bytes) (checked : bool) (w h lw w2 h2 x1 y1 x2 y2 x3 y3 : bytes)
  (wr : writer) : Z * writer :=
  add_stream deflate (appearance_entries w h) (Some (check_content checked lw w2 h2 x1 y1 x2 y2 x3 y3)) true wr.
(** appearance.go:76-89; [size] and [y] as %.2f prints them *)
Definition text_content (text size font y : bytes) : bytes :=
  bs "q" ++ nl ++ bs "BT" ++ nl ++ bs "/" ++ font ++ bs " " ++ size ++ bs " Tf" ++ nl ++ bs "0 0 0 rg" ++ nl ++
  bs "0 " ++ y ++ bs " Td" ++ nl ++ bs "(" ++ escapeFieldValue text ++ bs ") Tj" ++ nl ++ bs "ET" ++ nl ++ bs "Q" ++ nl.
(** appearance.go:75-111 *)
Definition CreateTextAppearance (deflate : bytes -> bytes) (text w h size font y : bytes) (wr : writer) : Z * writer :=
  add_stream deflate (appearance_entries w h ++ [(bs "/Resources", VDict [(bs "/Font", VDict [(font, VStr (ref 0))])])])
    (Some (text_content text size font y)) true wr.
(** appearance.go:115-134; [w2], [h2], [x], [y] as %.2f prints them *)
Definition button_content (label w2 h2 x y : bytes) : bytes :=
  bs "q" ++ nl ++ bs "0.9 0.9 0.9 rg" ++ nl ++ bs "0 0 " ++ w2 ++ bs " " ++ h2 ++ bs " re" ++ nl ++ bs "f" ++ nl ++
  bs "0 0 0 RG" ++ nl ++ bs "1 w" ++ nl ++ bs "0 0 " ++ w2 ++ bs " " ++ h2 ++ bs " re" ++ nl ++ bs "S" ++ nl ++
  bs "BT" ++ nl ++ bs "/Helvetica 12 Tf" ++ nl ++ bs "0 0 0 rg" ++ nl ++ x ++ bs " " ++ y ++ bs " Td" ++ nl ++
  bs "(" ++ escapeFieldValue label ++ bs ") Tj" ++ nl ++ bs "ET" ++ nl ++ bs "Q" ++ nl.
(** appearance.go:114-154 *)
Definition CreateButtonAppearance (deflate : bytes -> bytes) (label w h w2 h2 x y : bytes) (wr : writer) : Z * writer :=
  add_stream deflate (appearance_entries w h) (Some (button_content label w2 h2 x y)) true wr.
(** appearance.go:185-214 *)
Definition AddAppearanceToField (n app : Z) (w : writer) : result writer :=
  rbind (WGetObject n w) (fun t =>
  let e := bs "/AP << /N " ++ decZ app ++ bs " 0 R >>" in
  rbind (if contains (bs "/AP") t then Ok (replace_expand (m_flat (bs "/AP")) e t 0) else insert_entry e t) (fun t =>
  Ok (SetObject n (Some t) w))).

(* ---------------------------------------------------------------- *)
(** integration.go *)

(** integration.go:54-71 *)
Definition form_catalog (pages form : Z) : bytes := bs "<</Type/Catalog/Pages " ++ decZ pages ++ bs " 0 R/AcroForm " ++ decZ form ++ bs " 0 R>>".
Definition BuildForm (ds : list fielddef) (b : builder) : result Z * builder :=
  match BuildFields ds (sbWriter b) with
  | (Ok form, w) =>
      let (c, w) := AddObject (Some (form_catalog (sbPagesNum b) form)) w in
      (Ok form, mkBuilder (SetRoot c w) (sbPages b) (sbPagesNum b))
  | (r, w) => (r, mkBuilder w (sbPages b) (sbPagesNum b))
  end.

(** integration.go:74-88: the validation only prints *)
Definition FillFormFromSchema matches parse stack inflate deflate crypt crypt0 order (f : bytes) (qs : list vquestion)
  (data : list (bytes * fvalue)) : result bytes :=
  match ValidateFormSchema matches parse qs data with
  | _ => FillFormFields stack inflate deflate crypt crypt0 order f data
  end.
(** integration.go:91-108 *)
Definition ExtractAndFill stack inflate deflate crypt crypt0 order (f : bytes) (data : list (bytes * fvalue)) : result bytes :=
  rbind (if contains (bs "/Encrypt") f then crypt f else Ok None) (fun dec =>       (* extract.go:14-33 *)
  rbind (ParseAcroForm stack inflate crypt0 dec f) (fun form =>
  match ValidateFormData (fmFields form) data with
  | _ => FillFormFields stack inflate deflate crypt crypt0 order f data
  end)).
