(** Properties of form filling (C106). *)
From Verif Require Import Util Scan WriterModel ParseModel ManipModel TextModel FormsModel FormsSpec WriterSpec ParseSpec XrefProps FormsProps FillSpec FillProofs.
Local Open Scope Z_scope.

(** C106: an object stream that stands in the file is rewritten with the new
    contents; the bytes before and after it stay.  The parts of the claim that
    fail are in the statement: the index of the stream is missing from the data
    and "endobj" is written twice. *)
Theorem C106_rebuild_partial : forall inflate deflate f pre post sn objs raw t ups c raw',
  f = pre ++ objstm_object sn (Z.of_nat (length objs)) (conforming_first objs) raw ++ post ->
  (forall j, (j < length pre)%nat -> m_num0obj sn (skipn j f) = None) ->
  GetObject inflate None f sn = Ok t -> t ++ nl = objstm_object sn (Z.of_nat (length objs)) (conforming_first objs) raw ->
  raw = c :: raw' -> beqb c x0a = false -> contains (bs "endstream") raw = false ->
  inflate raw = Some (conforming_objstm objs) ->
  0 <= sn -> flen raw < 2 ^ 63 -> Forall (fun o => tidy (snd o)) objs -> NoDup (map fst objs) ->
  (forall o, In o objs -> 0 <= fst o < 2 ^ 63) -> flen (conforming_objstm objs) < 2 ^ 63 ->
  RebuildObjectStream inflate deflate None f sn ups =
  Ok (pre ++ rebuilt_object sn (Z.of_nat (length objs)) (flen (objstm_index 0 (updated ups objs)))
               (deflate (objstm_body (updated ups objs))) ++ bs "
endobj
" ++ post).
Proof. exact rebuild_stream. Qed.
Print Assumptions C106_rebuild_partial.

(** Filling any number of fields whose objects are in one object stream:
    every value given ends up in the rewritten stream, the last one for a field
    named twice, and nothing else changes. *)
Theorem C106_stream_fields_partial :
  forall stack inflate deflate crypt crypt0 order f p form pre post sn objs raw t c raw' body x m comp data us,
  Open inflate crypt f = Ok p -> pDec p = None -> ParseAcroForm stack inflate crypt0 None f = Ok form ->
  f = body ++ nl ++ file_end x -> contains (bs "startxref") body = false -> 0 <= x < 2 ^ 63 ->
  ParseXRefStreamFull inflate f x = Ok (m, comp) ->
  Forall2 (sets inflate p (fmFields form) comp sn) data us -> us <> [] -> is_order order ->
  f = pre ++ objstm_object sn (Z.of_nat (length objs)) (conforming_first objs) raw ++ post ->
  (forall j, (j < length pre)%nat -> m_num0obj sn (skipn j f) = None) ->
  GetObject inflate None f sn = Ok t -> t ++ nl = objstm_object sn (Z.of_nat (length objs)) (conforming_first objs) raw ->
  raw = c :: raw' -> beqb c x0a = false -> contains (bs "endstream") raw = false ->
  inflate raw = Some (conforming_objstm objs) ->
  0 < sn -> flen raw < 2 ^ 63 -> Forall (fun o => tidy (snd o)) objs -> NoDup (map fst objs) ->
  (forall o, In o objs -> 0 <= fst o < 2 ^ 63) -> flen (conforming_objstm objs) < 2 ^ 63 ->
  FillFormFields stack inflate deflate crypt crypt0 order f data =
  Ok (pre ++ rebuilt_object sn (Z.of_nat (length objs)) (flen (objstm_index 0 (updated (rev us) objs)))
               (deflate (objstm_body (updated (rev us) objs))) ++ bs "
endobj
" ++ post).
Proof. exact fill_stream_fields. Qed.
Print Assumptions C106_stream_fields_partial.

(** Filling one field that is an object of its own. *)
Theorem C106_direct_field_partial :
  forall stack inflate deflate crypt crypt0 order f p form name v a kids parent rest pre body post old x y,
  Open inflate crypt f = Ok p -> ParseAcroForm stack inflate crypt0 (pDec p) f = Ok form -> is_order order ->
  FindFieldByName (fmFields form) name = Some (Field a kids, parent) ->
  PGetObject inflate p (aNum a) = Ok (decZ (aNum a) ++ bs " 0 obj" ++ rest) ->
  GetObject inflate (pDec p) f (aNum a) = Ok (x ++ bs "/V (" ++ old ++ bs ")" ++ y) ->
  0 <= aNum a < 2 ^ 63 -> 0 <= aGen a ->
  f = pre ++ (decZ (aNum a) ++ bs " " ++ decZ (aGen a) ++ bs " obj") ++ body ++ bs "endobj" ++ post ->
  (forall i, (i < length pre)%nat -> m_objhead (aNum a) (aGen a) (skipn i f) = None) ->
  contains (bs "endobj") body = false -> contains (bs "/V") x = false -> contains (bs "/V") y = false ->
  forallb (fun c => negb (beqb c ")")) old = true ->
  forallb (fun c => negb (beqb c "$")) (escapeFieldValue (formatFieldValue v (aFT a))) = true ->
  FillFormFields stack inflate deflate crypt crypt0 order f [(name, v)] =
  Ok (pre ++ (decZ (aNum a) ++ bs " " ++ decZ (aGen a) ++ bs " obj") ++ nl ++
      (x ++ bs "/V (" ++ escapeFieldValue (formatFieldValue v (aFT a)) ++ bs ")" ++ y) ++ bs "
endobj
" ++ post).
Proof. exact fill_direct_field. Qed.
Print Assumptions C106_direct_field_partial.

(** Names that the form does not have change nothing, wherever they stand. *)
Theorem C106_unknown_names : forall stack inflate deflate crypt crypt0 order f p form data,
  Open inflate crypt f = Ok p -> ParseAcroForm stack inflate crypt0 (pDec p) f = Ok form ->
  FillFormFields stack inflate deflate crypt crypt0 order f data =
  FillFormFields stack inflate deflate crypt crypt0 order f (filter (known (fmFields form)) data).
Proof. exact fill_unknown. Qed.
Print Assumptions C106_unknown_names.
(** A successful fill is never an empty document. *)
Theorem C106_never_empty : forall stack inflate deflate crypt crypt0 order f data,
  FillFormFields stack inflate deflate crypt crypt0 order f data <> Ok [].
Proof. exact fill_nonempty. Qed.
Print Assumptions C106_never_empty.
(** A field whose object cannot hold a value is passed over in silence. *)
Theorem C106_skipped_refuted : forall inflate p dec f form st e a kids parent t,
  FindFieldByName form (fst e) = Some (Field a kids, parent) ->
  PGetObject inflate p (aNum a) = Ok t -> contains (decZ (aNum a) ++ bs " 0 obj") (firstn 50 t) = false ->
  contains (bs "/V") t = false -> contains (bs ">>") t = false ->
  fill_entry inflate p dec f form st e = Ok st.
Proof. exact fill_skipped. Qed.
Print Assumptions C106_skipped_refuted.

(** A document whose form and fields are in an object stream. *)
Definition ex_zip (b : bytes) : bytes := x78 :: b ++ [x5a].
Definition ex_unzip (b : bytes) : option bytes :=
  match b with x78 :: r => option_map (fun i => firstn i r) (last_index [x5a] r) | _ => None end.
Definition fx_objs : list (Z * bytes) :=
  [(4, bs "<</Fields [5 0 R 6 0 R]>>"); (5, bs "<</FT /Tx /T (name) /V (old)>>"); (6, bs "<</FT /Tx /T (city)>>")].
Definition fx_raw : bytes := ex_zip (conforming_objstm fx_objs).
Definition fx_pre : bytes := bs "%PDF-1.5
1 0 obj
<</Type /Catalog /AcroForm 4 0 R>>
endobj
".
Definition fx_body : bytes := fx_pre ++ objstm_object 9 3 (conforming_first fx_objs) fx_raw.
Definition fx_file : bytes := fx_body ++
  writeXRefStream ex_zip 10 (flen fx_body) [(1, 9); (9, flen fx_pre)] [(4, (9, 0)); (5, (9, 1)); (6, (9, 2))] ++
  file_end (flen fx_body).
Definition fx_fill data := FillFormFields 3 ex_unzip ex_zip ex_nocrypt ex_nocrypt ex_order fx_file data.
Definition fx_pdf : pdf := match Open ex_unzip ex_nocrypt fx_file with Ok p => p | _ => mkPDF [] [] None [] 0 end.
Definition fx_form : acroform := match ParseAcroForm 3 ex_unzip ex_nocrypt None fx_file with Ok x => x | _ => mkForm [] false end.
Definition fx_xref : zmap Z * zmap (Z * Z) :=
  match ParseXRefStreamFull ex_unzip fx_file (flen fx_body) with Ok x => x | _ => ([], []) end.
Definition fx_data : list (bytes * fvalue) :=
  [(bs "name", FStr (bs "Bob")); (bs "city", FStr (bs "Rome")); (bs "name", FStr (bs "Ann"))].
Definition fx_us : list (Z * bytes) :=
  [(5, bs "<</FT /Tx /T (name) /V (Bob)>>"); (6, bs "<</FT /Tx /T (city)/V (Rome) >>"); (5, bs "<</FT /Tx /T (name) /V (Ann)>>")].
Example C106_example :
  Open ex_unzip ex_nocrypt fx_file = Ok fx_pdf /\ pDec fx_pdf = None /\
  ParseAcroForm 3 ex_unzip ex_nocrypt None fx_file = Ok fx_form /\
  (exists body, fx_file = body ++ nl ++ file_end (flen fx_body) /\ contains (bs "startxref") body = false) /\
  ParseXRefStreamFull ex_unzip fx_file (flen fx_body) = Ok fx_xref /\
  Forall2 (sets ex_unzip fx_pdf (fmFields fx_form) (snd fx_xref) 9) fx_data fx_us /\
  (exists t post, fx_file = fx_pre ++ objstm_object 9 (Z.of_nat (length fx_objs)) (conforming_first fx_objs) fx_raw ++ post /\
     GetObject ex_unzip None fx_file 9 = Ok t /\ t ++ nl = objstm_object 9 (Z.of_nat (length fx_objs)) (conforming_first fx_objs) fx_raw) /\
  (forall j, (j < length fx_pre)%nat -> m_num0obj 9 (skipn j fx_file) = None) /\
  contains (bs "endstream") fx_raw = false /\ ex_unzip fx_raw = Some (conforming_objstm fx_objs) /\
  Forall (fun o => tidy (snd o)) fx_objs /\ NoDup (map fst fx_objs) /\
  updated (rev fx_us) fx_objs = [(4, bs "<</Fields [5 0 R 6 0 R]>>"); (5, bs "<</FT /Tx /T (name) /V (Ann)>>"); (6, bs "<</FT /Tx /T (city)/V (Rome) >>")].
Proof.
  split; [vm_compute; reflexivity|]. split; [vm_compute; reflexivity|]. split; [vm_compute; reflexivity|].
  split; [exists (firstn (length fx_file - 21) fx_file); split; vm_compute; reflexivity|].
  split; [vm_compute; reflexivity|].
  split.
  { repeat constructor; unfold sets; do 5 eexists; (split; [vm_compute; reflexivity|]); (split; [vm_compute; reflexivity|]);
    (split; [vm_compute; reflexivity|]); (split; [vm_compute; reflexivity|]); (split; [vm_compute; reflexivity|]); vm_compute; reflexivity. }
  split.
  { eexists. eexists. split; [unfold fx_file, fx_body; rewrite <- !app_assoc; reflexivity|]. split; vm_compute; reflexivity. }
  split.
  { intros j Hj. change (length fx_pre) with 59%nat in Hj.
    do 59 (destruct j as [|j]; [vm_compute; reflexivity|]). lia. }
  split; [vm_compute; reflexivity|]. split; [vm_compute; reflexivity|].
  split; [repeat constructor; [exists (bs "<</Fields [5 0 R 6 0 R]>"), ">"%byte|exists (bs "<</FT /Tx /T (name) /V (old)>"), ">"%byte|exists (bs "<</FT /Tx /T (city)>"), ">"%byte]; split; reflexivity|].
  split; [repeat constructor; cbn; intuition discriminate|]. vm_compute. reflexivity.
Qed.

(** Two fields that are objects of their own: filling the first one moves the
    cross-reference table, reading the object of the second one then panics
    (the table is taken for a cross-reference stream whose dictionary is
    looked for more than 500 bytes further on). *)
Theorem C106_two_fields_refuted :
  (match ex_fill (FStr (bs "x")) with Ok _ => true | _ => false end) = true /\
  FillFormFields 3 ex_noinflate (fun b => b) ex_nocrypt ex_nocrypt ex_order ex_big
    [(bs "name", FStr (bs "x")); (bs "color", FStr (bs "red"))] = Panic.
Proof. split; vm_compute; reflexivity. Qed.
Print Assumptions C106_two_fields_refuted.
