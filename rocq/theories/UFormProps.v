(** C87-C89: the unified interface to the two kinds of forms. *)
From Verif Require Import Util XfaModel XfaSpec WriterProofs ReadProofs WriterModel ParseModel TextModel FormsModel FormsSpec UFormModel UFormSpec UFormProofs.
From Verif Require XFormModel XFormSpec XFormProps DatasetsModel DatasetsSpec DatasetsProps XfaProps WriterProps FormsProps.
From Coq Require Import Permutation.
Local Open Scope Z_scope.

(* ---------------------------------------------------------------- *)
(** C87.  Detect tells exactly what Extract will do: the type, the error, the
    crash. *)
Theorem C87_detect : forall F (parseF : bytes -> option F) stack inflate zl fl crypt tokens ff sf f pw,
  Detect stack inflate zl fl crypt ff sf f pw = rmap Type_ (Extract parseF stack inflate zl fl crypt tokens ff sf f pw).
Proof. exact @detect_extract. Qed.
Print Assumptions C87_detect.
(** An AcroForm with a field wins, whatever XFA streams the file has; otherwise
    a template makes an XFA form; otherwise there is an error. *)
Theorem C87_acroform_first : forall F (parseF : bytes -> option F) stack inflate zl fl crypt tokens ff sf f pw a,
  ExtractAcroForm stack inflate crypt f pw = Ok a -> fmFields a <> [] ->
  Extract parseF stack inflate zl fl crypt tokens ff sf f pw = Ok (AcroFormWrapper a f pw).
Proof. exact @extract_acro. Qed.
Print Assumptions C87_acroform_first.
Theorem C87_none : forall F (parseF : bytes -> option F) stack inflate zl fl crypt tokens ff sf f pw,
  Extract parseF stack inflate zl fl crypt tokens ff sf f pw = Err <->
  fieldless (ExtractAcroForm stack inflate crypt f pw) /\ templateless (xfa_streams inflate zl fl ff sf f).
Proof. exact @extract_none. Qed.
Print Assumptions C87_none.
(** The form is the one the type-specific functions give. *)
Theorem C87_same : forall F (parseF : bytes -> option F) stack inflate zl fl crypt tokens ff sf f pw x,
  Extract parseF stack inflate zl fl crypt tokens ff sf f pw = Ok x ->
  match x with
  | AcroFormWrapper a f' pw' => ExtractAcroForm stack inflate crypt f pw = Ok a /\ fmFields a <> [] /\ f' = f /\ pw' = pw
  | XFAFormWrapper s d f' pw' => fieldless (ExtractAcroForm stack inflate crypt f pw) /\
      ExtractXFA parseF inflate zl fl tokens ff sf f pw = Ok (Some s, d) /\ f' = f /\ pw' = pw
  end.
Proof. exact @extract_same. Qed.
Print Assumptions C87_same.
(** The password of the caller is the one the file is decrypted with: a wrong
    one is an error, a right one gives the fields of the decrypted objects.  A
    file that does not mention encryption is read the same way with every
    password. *)
Theorem C87_password : forall stack inflate crypt f pw, contains (bs "/Encrypt") f = true ->
  (crypt pw f = Err -> ExtractAcroForm stack inflate crypt f pw = Err) /\
  (forall dec, crypt pw f = Ok dec -> ExtractAcroForm stack inflate crypt f pw = ParseAcroForm stack inflate (crypt []) dec f).
Proof. exact @password_used. Qed.
Print Assumptions C87_password.
Theorem C87_no_password : forall stack inflate crypt f pw, contains (bs "/Encrypt") f = false ->
  ExtractAcroForm stack inflate crypt f pw = ParseAcroForm stack inflate (crypt []) None f.
Proof. exact @password_unused. Qed.
Print Assumptions C87_no_password.
(** Filling an AcroForm through the interface is filling it with the
    type-specific function (C106), with the same password. *)
Theorem C87_fill : forall F stack inflate zl fl deflate crypt ff sf order rawdeflate a f0 pw0 f data pw,
  Fill stack inflate zl fl deflate rawdeflate crypt ff sf order (@AcroFormWrapper F a f0 pw0) f data pw =
  FillFormFields stack inflate deflate (crypt pw) (crypt []) order f data.
Proof. exact @fill_acro. Qed.
Print Assumptions C87_fill.
(** An XFA form validates everything: even without an answer to a required
    question there is no error.  Its passwords are never used: it is filled the
    same way whatever the password. *)
Theorem C87_validate_refuted : forall F (s : XFormModel.schema F) ds f pw data, Validate (XFAFormWrapper s ds f pw) data = [].
Proof. reflexivity. Qed.
Print Assumptions C87_validate_refuted.
Theorem C87_password_refuted : forall F stack inflate zl fl deflate rawdeflate crypt crypt' ff sf order (s : XFormModel.schema F) ds f pw pw' data g p p',
  Fill stack inflate zl fl deflate rawdeflate crypt ff sf order (XFAFormWrapper s ds f pw) g data p =
  Fill stack inflate zl fl deflate rawdeflate crypt' ff sf order (XFAFormWrapper s ds f pw') g data p'.
Proof. reflexivity. Qed.
Print Assumptions C87_password_refuted.
(** The values of fields in groups are not among the values. *)
Theorem C87_groups_refuted : forall F (s : XFormModel.schema F) gs f pw, GetValues (XFAFormWrapper s (Some (DatasetsModel.mkDS [] gs)) f pw) = [].
Proof. reflexivity. Qed.
Print Assumptions C87_groups_refuted.

(* ---------------------------------------------------------------- *)
(** C88.  A document built from a form schema and its data gives an XFA form
    with that schema and those values: the title, what a template keeps of each
    question (XFormSpec.kept), and every field outside a group, as the datasets
    reader reads it (DatasetsSpec.reread). *)
Theorem C88_document_partial : forall F (parseF : bytes -> option F) (showF formatF : F -> bytes) stack inflate zl fl deflate crypt tokens ff sf order
  perm perm' (s : XFormModel.schema F) (d : DatasetsModel.datasets F) l out pw t u z z',
  is_order order -> NoDup (map xdName l) -> Forall (good_stream deflate zl fl) l ->
  In (mkXD (bs "template") t z) l -> t <> [] -> In (mkXD (bs "datasets") u z') l ->
  (forall m, Permutation (perm m) m) ->
  Forall (fun q => NoDup (map fst (XFormModel.qProperties q)) /\ XFormSpec.page_property q < 2 ^ 63) (XFormModel.sQuestions s) ->
  XFormSpec.indented false (XFormModel.FormToXFA showF perm s) (tokens t) ->
  (forall m, Permutation (perm' m) m) -> NoDup (map fst (DatasetsModel.dsFields d)) ->
  Forall DatasetsSpec.plain_group (DatasetsModel.dsGroups d) -> Forall (fun g => NoDup (map fst (DatasetsSpec.group_fields g))) (DatasetsModel.dsGroups d) ->
  DatasetsSpec.spaced false (DatasetsModel.DatasetsToXFA formatF perm' d) (tokens u) ->
  fst (Write deflate order None (BuildFromXFA deflate l)) = out -> Z.of_nat (length out) < 10 ^ 10 ->
  exists x s', Extract parseF stack inflate zl fl crypt tokens ff sf out pw = Ok x /\ Type_ x = TypeXFA /\ Schema x = inr s' /\
    XFormModel.sTitle s' = XFormModel.sTitle s /\ Forall2 (XFormSpec.kept parseF showF) (XFormModel.sQuestions s) (XFormModel.sQuestions s') /\
    (forall k, k <> [] -> kget k (GetValues x) = option_map inr (option_map (DatasetsSpec.reread parseF formatF) (kget k (DatasetsModel.dsFields d)))).
Proof. exact @document. Qed.
Print Assumptions C88_document_partial.
(** A form built field by field (C63) is found, with its fields. *)
Theorem C88_fields_partial : forall F (parseF : bytes -> option F) stack inflate zl fl deflate crypt tokens ff sf order w ds form w1 cat w2 out pw,
  is_order order -> plain_writer w -> Forall simple_def ds ->
  (forall n t, stored_text w n t -> contains (bs "/AcroForm") t = false) ->
  contains (bs "/AcroForm") (pdfVersion w) = false ->
  BuildFields ds w = (Ok form, w1) ->
  (exists o c, mget cat (objects w) = Some o /\ oStream o = None /\ oContent o = Some c) ->
  AddAcroFormToCatalog cat form w1 = Ok w2 ->
  nextObjNum w2 <= 499 -> all_readable w2 ->
  fst (Write deflate order None w2) = out -> Z.of_nat (length out) < 10 ^ 10 -> (0 < stack)%nat ->
  Extract parseF stack inflate zl fl crypt tokens ff sf out pw = Ok (AcroFormWrapper (mkForm (built_fields (nextObjNum w) ds) false) out pw).
Proof. exact @form_extract. Qed.
Print Assumptions C88_fields_partial.

Definition no_search (f : bytes) (n : Z) : result bytes := Err.
Definition no_encryption (pw f : bytes) : result (option decryptor) := Ok None.
Definition ex_template : bytes := bs "<template/>".
Definition ex_tokens (t : bytes) : list DatasetsModel.token :=
  if bytes_eqb t ex_template then XFormProps.ex_indented else DatasetsProps.ex_indented.
Definition ex_read (f : bytes) : result (form (F := unit)) :=
  Extract DatasetsProps.no_float 5 XfaProps.no_inflate XfaProps.ex_zl XfaProps.no_inflate no_encryption ex_tokens no_search no_search f [].
(** The streams of XfaProps.C80_example, read as the schema of
    XFormProps.C85_example and the data of DatasetsProps.C84_example. *)
Example C88_example :
  rmap (fun x => (Type_ x, GetValues x, match Schema x with inr s => map XFormModel.qName (XFormModel.sQuestions s) | inl _ => [] end)) (ex_read XfaProps.ex_xfa_out) =
  Ok (TypeXFA, [(bs "age", inr (DatasetsModel.FInt 36)); (bs "name", inr (DatasetsModel.FStr (bs "Ada")))], [bs "first name"; bs "colour"]).
Proof. vm_compute. reflexivity. Qed.
Example C88_example_hypotheses : In (mkXD (bs "template") ex_template true) XfaProps.ex_xfa /\ In (mkXD (bs "datasets") (bs "<data></data>") false) XfaProps.ex_xfa /\
  ex_tokens ex_template = XFormProps.ex_indented /\ ex_tokens (bs "<data></data>") = DatasetsProps.ex_indented.
Proof. split; [left; reflexivity|]. split; [right; left; reflexivity|]. split; reflexivity. Qed.

(* ---------------------------------------------------------------- *)
(** C89.  Filling an XFA form.  The result is the file with the datasets stream
    replaced (C82) and nothing else: the cross-reference table and the position
    of the table are left as they were.  A value that is some 30 characters
    longer than the old one makes a file on which every function of the
    interface crashes, although Fill reports success. *)
Theorem C89_fill_partial : forall F stack inflate zl fl deflate rawdeflate crypt ff sf order (s : XFormModel.schema F) ds f0 pw pw' entries
    pre obj a digits b ws data post xml xml',
  let f := stream_file pre obj a digits b ws data post in
  findable pre obj a digits b ws data post ->
  FindXFADatasetsStream zl fl (GetObject inflate None f) (ff f) (sf f) f = Ok (xml, obj) -> zl xml = None -> fl xml = None ->
  UpdateXFAValues xml (map (fun e => (fst e, show (snd e))) entries) = Ok xml' ->
  (length (decZ (flen xml')) <= length digits)%nat -> (length (decZ (flen xml')) + length xml' <= length digits + length data)%nat ->
  Fill stack inflate zl fl deflate rawdeflate crypt ff sf order (XFAFormWrapper s ds f0 pw) f entries pw' =
  Ok (stream_file pre obj a (decZ (flen xml')) b ws xml' post).
Proof. exact @fill_stream. Qed.
Print Assumptions C89_fill_partial.
Definition ex_filled_streams : list xfa_data :=
  [mkXD (bs "datasets") (bs "<data><field name=""a""><value>12</value></field></data>") false; mkXD (bs "template") ex_template false].
Definition ex_fillable : bytes := fst (Write WriterProps.id_deflate WriterProps.same_order None (BuildFromXFA WriterProps.id_deflate ex_filled_streams)).
Definition ex_fill (crypt : bytes -> bytes -> result (option decryptor)) ff sf (v : bytes) : result bytes :=
  Fill 5 XfaProps.no_inflate XfaProps.ex_zl XfaProps.no_inflate WriterProps.id_deflate WriterProps.id_deflate crypt ff sf (fun l => l)
    (XFAFormWrapper XFormProps.ex_schema None [] []) ex_fillable [(bs "a", FStr v)] [].
Definition filled_file (v : bytes) : bytes := match ex_fill no_encryption no_search no_search v with Ok o => o | _ => [] end.
Definition long_value : bytes := bs "123456789012345678901234567890".
Theorem C89_fill_refuted : forall F (parseF : bytes -> option F) stack crypt tokens ff sf pw,
  ex_fill crypt ff sf long_value = Ok (filled_file long_value) /\
  Extract parseF stack XfaProps.no_inflate XfaProps.ex_zl XfaProps.no_inflate crypt tokens ff sf (filled_file long_value) pw = Panic.
Proof.
  intros F parseF stack crypt tokens ff sf pw. split.
  - vm_compute. reflexivity.
  - unfold Extract, ExtractAcroForm. replace (contains (bs "/Encrypt") (filled_file long_value)) with false by (vm_compute; reflexivity).
    cbn [rbind]. unfold ParseAcroForm. replace (Open XfaProps.no_inflate (crypt []) (filled_file long_value)) with (@Panic pdf); [reflexivity|].
    vm_compute. reflexivity.
Qed.
Print Assumptions C89_fill_refuted.
Example C89_example : rmap (fun s => option_map siData (kget (bs "datasets") s))
  (xfa_streams XfaProps.no_inflate XfaProps.ex_zl XfaProps.no_inflate no_search no_search (filled_file (bs "99"))) =
  Ok (Some (bs "<data><field name=""a""><value>99</value></field></data>")).
Proof. vm_compute. reflexivity. Qed.
(** A datasets stream that is stored compressed is read decompressed and written
    back as it is, under the same filter: it is then read with the raw text. *)
Definition ex_packed : list xfa_data :=
  [mkXD (bs "datasets") (bs "<data><field name=""a""><value>12</value></field></data>") true; mkXD (bs "template") ex_template false].
Definition ex_packed_file : bytes := fst (Write WriterProps.id_deflate WriterProps.same_order None (BuildFromXFA WriterProps.id_deflate ex_packed)).
Theorem C89_compressed_refuted :
  exists pre post, Fill 5 XfaProps.no_inflate XfaProps.ex_zl XfaProps.no_inflate WriterProps.id_deflate WriterProps.id_deflate no_encryption no_search no_search (fun l => l)
    (XFAFormWrapper XFormProps.ex_schema None [] []) ex_packed_file [(bs "a", FStr (bs "7"))] [] =
  Ok (pre ++ bs "<</Filter /FlateDecode /Length 53 /Type /EmbeddedFile >>" ++ nl ++ bs "stream" ++ nl ++
      bs "<data><field name=""a""><value>7</value></field></data>endstream" ++ post).
Proof. eexists (bs "%PDF-1.7" ++ nl ++ [x25; xe2; xe3; xcf; xd3; x0a] ++ bs "1 0 obj" ++ nl). eexists. vm_compute. reflexivity. Qed.
Print Assumptions C89_compressed_refuted.
