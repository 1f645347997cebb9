(** Model of the string escapes, the content-stream builder
    (core/write/content.go), the Info dictionary writer (core/write/metadata.go)
    and its reader (content/extract/metadata.go). *)
From Verif Require Export Utf8 WriterModel ParseModel.
Local Open Scope Z_scope.

(** The two-character escapes shared by all escape functions. *)
Definition esc_pair (r : N) : option byte :=
  if (r =? 92)%N then Some "\"%byte
  else if (r =? 40)%N then Some "("%byte
  else if (r =? 41)%N then Some ")"%byte
  else if (r =? 10)%N then Some "n"%byte
  else if (r =? 13)%N then Some "r"%byte
  else if (r =? 9)%N then Some "t"%byte
  else None.

(** core/write/content.go:325-346 escapePDFString *)
Definition esc_rune (r : N) : bytes :=
  match esc_pair r with Some c => ["\"%byte; c] | None => encode_rune r end.
Definition escapePDFString (s : bytes) : bytes := flat_map esc_rune (runes s).

(** [fmt.Sprintf("%03o", r)] *)
Fixpoint oct_aux (fuel : nat) (n : N) (acc : bytes) : bytes :=
  match fuel with
  | O => acc
  | S f => let acc := n2b (48 + n mod 8)%N :: acc in if (n <? 8)%N then acc else oct_aux f (n / 8)%N acc
  end.
Definition oct (n : N) : bytes := oct_aux (S (N.size_nat n)) n [].
Definition oct3 (n : N) : bytes := let o := oct n in repeat "0"%byte (3 - length o) ++ o.

(** forms/acroform/replace.go:114-140 escapeFieldValue; the same text stands in
    actions.go:151-177 escapeActionString, writer.go:255-281
    escapeFieldValueForWriter, appearance.go:157-183 escapeAppearanceText and
    resources/font/pdf.go:268-294 escapeString. *)
Definition esc_rune8 (r : N) : bytes :=
  match esc_pair r with
  | Some c => ["\"%byte; c]
  | None => if (127 <? r)%N then "\"%byte :: oct3 r else encode_rune r
  end.
Definition escapeFieldValue (s : bytes) : bytes := flat_map esc_rune8 (runes s).

(** [strings.ReplaceAll(s, old, new)], [old] not empty. *)
Fixpoint replace_lit (old new s : bytes) (skip : nat) : bytes :=
  match s with
  | [] => []
  | b :: s' =>
      match skip with
      | S k => replace_lit old new s' k
      | O => if prefixb old s then new ++ replace_lit old new s' (length old - 1)
             else b :: replace_lit old new s' 0
      end
  end.
Definition ReplaceAll (s old new : bytes) : bytes := replace_lit old new s 0.

(** core/write/metadata.go:104-113 *)
Definition escapePDFStringForMetadata (s : bytes) : bytes :=
  let s := ReplaceAll s ["\"%byte] ["\"; "\"]%byte in
  let s := ReplaceAll s ["("%byte] ["\"; "("]%byte in
  let s := ReplaceAll s [")"%byte] ["\"; ")"]%byte in
  let s := ReplaceAll s [x0d] ["\"; "r"]%byte in
  let s := ReplaceAll s [x0a] ["\"; "n"]%byte in
  ReplaceAll s [x09] ["\"; "t"]%byte.

(** content/extract/metadata.go:130-139 *)
Definition unescapePDFString (s : bytes) : bytes :=
  let s := ReplaceAll s ["\"; "n"]%byte [x0a] in
  let s := ReplaceAll s ["\"; "r"]%byte [x0d] in
  let s := ReplaceAll s ["\"; "t"]%byte [x09] in
  let s := ReplaceAll s ["\"; "("]%byte ["("%byte] in
  let s := ReplaceAll s ["\"; ")"]%byte [")"%byte] in
  ReplaceAll s ["\"; "\"]%byte ["\"%byte].

(* ---------------------------------------------------------------- *)
(** Content streams: core/write/content.go *)

(** The calls.  A float64 argument is of type [F]; [fmt] is [Sprintf("%.4f")]. *)
Inductive tj_elem (F : Type) := TJText (s : bytes) | TJInt (z : Z) | TJFloat (x : F).
Inductive ccall (F : Type) :=
| SaveState | RestoreState
| SetMatrix (a b c d e f : F) | Translate (tx ty : F) | Scale (sx sy : F)
| SetFillColorRGB (r g b : F) | SetStrokeColorRGB (r g b : F)
| SetFillColorGray (g : F) | SetStrokeColorGray (g : F)
| MoveTo (x y : F) | LineTo (x y : F) | Rectangle (x y w h : F)
| Stroke | Fill | FillStroke | ClosePath | ClosePathStroke
| SetLineWidth (w : F)
| BeginText | EndText
| SetFont (name : bytes) (size : F)
| SetTextPosition (x y : F) | SetTextMatrix (a b c d e f : F)
| ShowText (s : bytes) | ShowTextNextLine (s : bytes)
| ShowTextArray (l : list (tj_elem F)) | ShowTextHex (s : bytes)
| MoveTextPosition (x y : F) | SetTextRenderMode (m : Z)
| SetTextLeading (l : F) | NextLine | SetCharSpacing (x : F) | SetWordSpacing (x : F) | SetTextRise (x : F)
| DrawImage (name : bytes) | DrawImageAt (name : bytes) (x y w h : F)
| CurveTo (x1 y1 x2 y2 x3 y3 : F) | CurveToV (x2 y2 x3 y3 : F) | CurveToY (x1 y1 x3 y3 : F)
| SetLineDash (l : list F) (phase : F)
| Raw (s : bytes).

Section content.
  Context {F : Type} (fmt : F -> bytes) (one zero : F).

  Definition nums (l : list F) : bytes := flat_map (fun x => fmt x ++ bs " ") l.
  Definition line (l : list F) (op : bytes) : bytes := nums l ++ op ++ nl.

  Definition tj_text (e : tj_elem F) : bytes :=
    match e with
    | TJText _ s => bs "(" ++ escapePDFString s ++ bs ")"
    | TJInt _ z => decZ z
    | TJFloat _ x => fmt x
    end.

  (** content.go:32-322, what each method appends to the buffer. *)
  Definition call_text (c : ccall F) : bytes :=
    match c with
    | SaveState _ => line [] (bs "q")
    | RestoreState _ => line [] (bs "Q")
    | SetMatrix _ a b c d e f => line [a; b; c; d; e; f] (bs "cm")
    | Translate _ x y => line [one; zero; zero; one; x; y] (bs "cm")
    | Scale _ x y => line [x; zero; zero; y; zero; zero] (bs "cm")
    | SetFillColorRGB _ r g b => line [r; g; b] (bs "rg")
    | SetStrokeColorRGB _ r g b => line [r; g; b] (bs "RG")
    | SetFillColorGray _ g => line [g] (bs "g")
    | SetStrokeColorGray _ g => line [g] (bs "G")
    | MoveTo _ x y => line [x; y] (bs "m")
    | LineTo _ x y => line [x; y] (bs "l")
    | Rectangle _ x y w h => line [x; y; w; h] (bs "re")
    | Stroke _ => line [] (bs "S")
    | Fill _ => line [] (bs "f")
    | FillStroke _ => line [] (bs "B")
    | ClosePath _ => line [] (bs "h")
    | ClosePathStroke _ => line [] (bs "s")
    | SetLineWidth _ w => line [w] (bs "w")
    | BeginText _ => line [] (bs "BT")
    | EndText _ => line [] (bs "ET")
    | SetFont _ n size => n ++ bs " " ++ line [size] (bs "Tf")
    | SetTextPosition _ x y => line [x; y] (bs "Td")
    | SetTextMatrix _ a b c d e f => line [a; b; c; d; e; f] (bs "Tm")
    | ShowText _ s => bs "(" ++ escapePDFString s ++ bs ") Tj" ++ nl
    | ShowTextNextLine _ s => bs "(" ++ escapePDFString s ++ bs ") '" ++ nl
    | ShowTextArray _ l => bs "[" ++ join (bs " ") (map tj_text l) ++ bs "] TJ" ++ nl
    | ShowTextHex _ s => bs "<" ++ s ++ bs "> Tj" ++ nl
    | MoveTextPosition _ x y => line [x; y] (bs "TD")
    | SetTextRenderMode _ m => decZ m ++ bs " Tr" ++ nl
    | SetTextLeading _ l => line [l] (bs "TL")
    | NextLine _ => line [] (bs "T*")
    | SetCharSpacing _ x => line [x] (bs "Tc")
    | SetWordSpacing _ x => line [x] (bs "Tw")
    | SetTextRise _ x => line [x] (bs "Ts")
    | DrawImage _ n => n ++ bs " Do" ++ nl
    | DrawImageAt _ n x y w h =>
        line [] (bs "q") ++ line [w; zero; zero; h; x; y] (bs "cm") ++ (n ++ bs " Do" ++ nl) ++ line [] (bs "Q")
    | CurveTo _ a b c d e f => line [a; b; c; d; e; f] (bs "c")
    | CurveToV _ a b c d => line [a; b; c; d] (bs "v")
    | CurveToY _ a b c d => line [a; b; c; d] (bs "y")
    | SetLineDash _ l p => bs "[" ++ join (bs " ") (map fmt l) ++ bs "] " ++ line [p] (bs "d")
    | Raw _ s => match s with [] => [] | _ => s ++ (if suffixb nl s then [] else nl) end
    end.

  (** The buffer after a sequence of calls. *)
  Definition content_stream (cs : list (ccall F)) : bytes := flat_map call_text cs.
End content.

(* ---------------------------------------------------------------- *)
(** Metadata *)

(** types/document.go DocumentMetadata, the text fields. *)
Record metadata := mkMeta {
  mdTitle : bytes; mdAuthor : bytes; mdSubject : bytes; mdKeywords : bytes;
  mdCreator : bytes; mdProducer : bytes; mdCreationDate : bytes; mdModDate : bytes;
  mdCustom : list (bytes * bytes)
}.

(** metadata.go:118-181 formatPDFDate; [fmtd] is the conversion of a date that
    is not in PDF form (time.Parse, and the current time when it fails). *)
Definition formatPDFDate (fmtd : bytes -> bytes) (d : bytes) : bytes :=
  match d with
  | [] => []
  | _ => if prefixb (bs "D:") d then escapePDFString d else escapePDFStringForMetadata (fmtd d)
  end.

Definition put (k : string) (v : bytes) (d : dict) : dict :=
  match v with [] => d | _ => kset (bs k) (VStr (escapePDFStringForMetadata v)) d end.
Definition put_date (fmtd : bytes -> bytes) (k : string) (v : bytes) (d : dict) : dict :=
  match v with [] => d | _ => kset (bs k) (VStr (formatPDFDate fmtd v)) d end.

(** metadata.go:12-66: the Info dictionary; [now] is time.Now() as RFC 3339. *)
Definition info_dict (fmtd : bytes -> bytes) (now : bytes) (m : metadata) : dict :=
  let d := put "/Title" (mdTitle m) [] in
  let d := put "/Author" (mdAuthor m) d in
  let d := put "/Subject" (mdSubject m) d in
  let d := put "/Keywords" (mdKeywords m) d in
  let d := put "/Creator" (mdCreator m) d in
  let d := put "/Producer" (mdProducer m) d in
  let d := put_date fmtd "/CreationDate" (mdCreationDate m) d in
  let d := put_date fmtd "/ModDate" (mdModDate m) d in
  let d := match mdModDate m with [] => kset (bs "/ModDate") (VStr (formatPDFDate fmtd now)) d | _ => d end in
  fold_left (fun d kv =>
    match fst kv, snd kv with
    | [], _ | _, [] => d
    | k, v => kset (slash_key k) (VStr (escapePDFStringForMetadata v)) d
    end) (mdCustom m) d.

(** metadata.go:13-68 *)
Definition SetMetadata (fmtd : bytes -> bytes) (now : bytes) (m : metadata) (w : writer) : Z * writer :=
  let (n, w) := AddObject (Some (formatDictionary (info_dict fmtd now m))) w in
  (n, SetInfo n w).

(** the pattern of lines 61-68: KEY, white space, parenthesis, then the
    group of all bytes up to the next closing parenthesis. *)
Definition m_textfield (key s : bytes) : option bytes :=
  do r <- lit key s; do r <- lit (bs "(") (ws0 r);
  let g := take_while (fun b => negb (beqb b ")")) r in
  do _ <- lit (bs ")") (skipn (length g) r); Some g.

Definition is_word (b : byte) : bool :=
  is_digit b || ((65 <=? b2n b)%N && (b2n b <=? 90)%N) || ((97 <=? b2n b)%N && (b2n b <=? 122)%N) || beqb b "_".

(** the pattern of line 94: the name, the group in parentheses, and what
    follows the match. *)
Definition m_custom (s : bytes) : option (bytes * bytes * bytes) :=
  do r <- lit (bs "/") s;
  let k := take_while is_word r in
  match k with
  | [] => None
  | _ =>
      do r <- lit (bs "(") (ws0 (skipn (length k) r));
      let g := take_while (fun b => negb (beqb b ")")) r in
      do r <- lit (bs ")") (skipn (length g) r); Some (k, g, r)
  end.

(** FindAllStringSubmatch of the above: non-overlapping matches in order. *)
Fixpoint all_custom (skip : nat) (s : bytes) : list (bytes * bytes) :=
  match s with
  | [] => []
  | _ :: s' =>
      match skip with
      | S k => all_custom k s'
      | O => match m_custom s with
             | Some (k, g, r) => (k, g) :: all_custom (length s - length r - 1) s'
             | None => all_custom 0 s'
             end
      end
  end.

Definition text_field (key s : bytes) : bytes :=
  match value_of (find (m_textfield key) s) with Some g => unescapePDFString g | None => [] end.

Definition standard_fields : list bytes :=
  map bs ["Title"; "Author"; "Subject"; "Keywords"; "Creator"; "Producer"; "CreationDate"; "ModDate"]%string.

(** content/extract/metadata.go:58-121 parseInfoDict on fresh metadata. *)
Definition parseInfoDict (s : bytes) : metadata :=
  mkMeta (text_field (bs "/Title") s) (text_field (bs "/Author") s) (text_field (bs "/Subject") s)
    (text_field (bs "/Keywords") s) (text_field (bs "/Creator") s) (text_field (bs "/Producer") s)
    (text_field (bs "/CreationDate") s) (text_field (bs "/ModDate") s)
    (fold_left (fun m kv => if existsb (bytes_eqb (fst kv)) standard_fields then m
                            else kset (fst kv) (unescapePDFString (snd kv)) m)
       (all_custom 0 s) []).
