(** What a user expects of the XFA functions, stated without the model's
    helpers. *)
From Verif Require Export XfaModel ParseSpec WriterSpec Scan.
Local Open Scope Z_scope.

(** The packets of an XFA form that types.XFAStreams has a field for, except
    the form packet. *)
Definition packet_names : list bytes :=
  [bs "template"; bs "datasets"; bs "config"; bs "localeSet"; bs "connectionSet"; bs "stylesheet"; bs "xmp"].

(** Bytes in which none of the reader's searches finds a keyword. *)
Definition quiet (b : bytes) : Prop :=
  contains (bs "endobj") b = false /\ contains (bs "startxref") b = false /\ contains (bs "/Encrypt") b = false /\
  contains (bs "/AcroForm") b = false /\ contains (bs "endstream") b = false.

(** The bytes of a stream as they stand in the file. *)
Definition in_file (deflate : bytes -> bytes) (s : xfa_data) : bytes :=
  match xdData s with [] => [] | _ => if xdCompress s then deflate (xdData s) else xdData s end.

(** A stream that can be read back: its bytes in the file are quiet, the
    reader undoes the compression, and the data is not itself something that
    the two decompressors accept. *)
Definition good_stream (deflate : bytes -> bytes) (zl fl : bytes -> option bytes) (s : xfa_data) : Prop :=
  In (xdName s) stream_names /\
  quiet (in_file deflate s) /\
  (xdData s <> [] -> xdCompress s = true -> zl (deflate (xdData s)) = Some (xdData s)) /\
  zl (xdData s) = None /\ fl (xdData s) = None.

(** The streams numbered from [n]. *)
Fixpoint numbered_from (n : Z) (l : list xfa_data) : list (xfa_data * Z) :=
  match l with [] => [] | s :: l => (s, n) :: numbered_from (n + 1) l end.

(** A document as text and fields: each field has a name and either some text
    without a value element, or a value element between two texts. *)
Inductive field_body := Bare (t : bytes) | Valued (head v tail : bytes).
Record xfield := mkXF { xfName : bytes; xfBody : field_body }.
Record xfa_doc := mkXDoc { xdFields : list (bytes * xfield); xdEnd : bytes }.

Definition render_body (b : field_body) : bytes :=
  match b with Bare t => t | Valued h v t => h ++ bs "<value>" ++ v ++ bs "</value>" ++ t end.
Definition render_field (f : xfield) : bytes :=
  bs "<field name=""" ++ xfName f ++ bs """" ++ render_body (xfBody f) ++ bs "</field>".
Definition render (d : xfa_doc) : bytes := flat_map (fun p => fst p ++ render_field (snd p)) (xdFields d) ++ xdEnd d.

(** Texts that do not disturb the search: what stands between the fields has
    no field of its own, the texts of a field none of the four tags, a name
    neither a quote nor an opening bracket. *)
Definition no_field (t : bytes) : Prop := contains (bs "<field name=""") t = false.
Definition no_tags (t : bytes) : Prop :=
  no_field t /\ contains (bs "</field>") t = false /\ contains (bs "<value>") t = false /\ contains (bs "</value>") t = false.
Definition plain_name (n : bytes) : Prop := ~ In "<"%byte n /\ ~ In """"%byte n.
Definition clean_body (b : field_body) : Prop :=
  match b with Bare t => no_tags t | Valued h v t => no_tags h /\ no_tags v /\ no_tags t end.
Definition clean_field (f : xfield) : Prop := plain_name (xfName f) /\ clean_body (xfBody f).
Definition clean_doc (d : xfa_doc) : Prop :=
  Forall (fun p => no_field (fst p) /\ clean_field (snd p)) (xdFields d) /\ no_field (xdEnd d).

(** What an update should do: the first field of each name gets the value
    given for that name; everything else stays. *)
Definition with_value (v : bytes) (f : xfield) : xfield :=
  mkXF (xfName f) (match xfBody f with Bare t => Valued t v [] | Valued h _ t => Valued h v t end).
Definition without (n : bytes) (data : list (bytes * bytes)) : list (bytes * bytes) :=
  filter (fun e => negb (bytes_eqb (fst e) n)) data.
Fixpoint filled_fields (data : list (bytes * bytes)) (fs : list (bytes * xfield)) : list (bytes * xfield) :=
  match fs with
  | [] => []
  | (t, f) :: fs =>
      match kget (xfName f) data with
      | Some v => (t, with_value v f) :: filled_fields (without (xfName f) data) fs
      | None => (t, f) :: filled_fields data fs
      end
  end.
Definition filled (data : list (bytes * bytes)) (d : xfa_doc) : xfa_doc := mkXDoc (filled_fields data (xdFields d)) (xdEnd d).

(** A file with a stream object: the text before the object, its number, the
    dictionary before and after the number of its Length entry, the blanks
    after the keyword, the data, and the rest of the file. *)
Definition stream_file (pre : bytes) (obj : Z) (a digits b ws data post : bytes) : bytes :=
  pre ++ decZ obj ++ bs " 0 obj" ++ a ++ bs "/Length " ++ digits ++ b ++ bs "stream" ++ ws ++ data ++ bs "endstream" ++ post.
(** The parts are where the function looks for them: the header of the object
    occurs here first, the first Length of the dictionary is the one named,
    and the data neither begins with a blank nor contains the keyword. *)
Definition findable (pre : bytes) (obj : Z) (a digits b ws data post : bytes) : Prop :=
  0 <= obj /\
  find (m_stream_obj obj) (stream_file pre obj a digits b ws data post) = Some (length pre, tt) /\
  nostart (bs "/Length") a /\ nostart (bs "stream") a /\ nostart (bs "stream") b /\
  digits <> [] /\ forallb is_digit digits = true /\ match b with c :: _ => is_digit c = false | [] => True end /\
  forallb is_blank ws = true /\ match data with c :: _ => is_blank c = false | [] => True end /\ nostart (bs "endstream") data.

(** The text of a dictionary: each key with the text up to the next slash. *)
Definition dict_text (l : list (bytes * bytes)) : bytes := bs "<<" ++ flat_map (fun e => bs "/" ++ fst e ++ snd e) l ++ bs ">>".
Definition word (k : bytes) : Prop := k <> [] /\ forallb is_word k = true.
Definition slashless (l : list (bytes * bytes)) : Prop :=
  Forall (fun e => word (fst e) /\ ~ In "/"%byte (snd e) /\ match snd e with c :: _ => is_word c = false | [] => True end) l.

(** The objects of a file: a text, or a stream with its dictionary (keys with
    the text up to the next slash) and its data. *)
Inductive file_object := TextObject (t : bytes) | StreamObject (d : list (bytes * bytes)) (data : bytes).
Definition object_inside (o : file_object) : bytes :=
  match o with
  | TextObject t => t
  | StreamObject d data => dict_text d ++ nl ++ bs "stream" ++ nl ++ data ++ nl ++ bs "endstream"
  end.
Definition file_text (os : list (Z * file_object)) : bytes :=
  flat_map (fun p => decZ (fst p) ++ bs " 0 obj" ++ nl ++ object_inside (snd p) ++ nl ++ bs "endobj" ++ nl) os.
(** no header of an object and no end of one begins inside the text *)
Definition calm (t : bytes) : Prop := nofire m_obj_header t /\ nostart (bs "endobj") t.
Definition plain_object (o : file_object) : Prop :=
  calm (object_inside o ++ nl) /\ flen (object_inside o) < 2 ^ 62 /\
  match o with
  | TextObject t => trim is_space t = t /\ t <> [] /\ nostart (bs "stream") (t ++ nl)
  | StreamObject d data => slashless d /\ nostart (bs "stream") (dict_text d) /\
      kget (bs "Length") (fold_left (fun d e => kset (fst e) (dict_value (trim is_space (snd e))) d) d []) = Some (VInt (flen data)) /\
      match data with [] => False | c :: _ => is_eol c = false end
  end.
Definition parsed_object (o : file_object) : pobj :=
  match o with
  | TextObject t => mkPO (Some t) None None
  | StreamObject d data => mkPO (Some (dict_text d)) (Some data) (Some (fold_left (fun d e => kset (fst e) (dict_value (trim is_space (snd e))) d) d []))
  end.

(** The dictionary of a stream as it is read, and the objects as they are
    written again. *)
Definition read_dict (d : list (bytes * bytes)) : dict := fold_left (fun d e => kset (fst e) (dict_value (trim is_space (snd e))) d) d [].
Definition stream_written (d : dict) (data : bytes) : bytes :=
  formatDictionary (kset (bs "Length") (VInt (flen data)) d) ++ bs "
stream
" ++ data ++ bs "
endstream".
Definition rewritten (o : file_object) : bytes :=
  match o with TextObject t => t | StreamObject d data => stream_written (read_dict d) data end.
(** ... with new data, which is compressed. *)
Definition rewritten_with (deflate : bytes -> bytes) (data : bytes) (o : file_object) : bytes :=
  stream_written (kset (bs "Length") (VInt (flen (deflate data))) (kset (bs "Filter") (VStr (bs "/FlateDecode")) (match o with TextObject _ => [] | StreamObject d _ => read_dict d end))) (deflate data).
