(** Property theorems: literal strings, content streams, document metadata. *)
From Verif Require Import TextModel TextSpec TextProofs ContentProofs MetaProofs.
Local Open Scope Z_scope.

(* ---------------------------------------------------------------- *)
(** C12.  [read_literal] is a reader of PDF literal strings written from the
    PDF specification. *)

(** Content streams: every text that is valid UTF-8 reads back. *)
Theorem C12_content_escape_partial : forall s rest, valid_utf8 s ->
  read_literal (bs "(" ++ escapePDFString s ++ bs ")" ++ rest) = Some (s, rest).
Proof. exact escape_reads_back. Qed.
Print Assumptions C12_content_escape_partial.

(** For any bytes: the string is balanced, and what is read is the sequence of
    runes of the text (each invalid byte is U+FFFD). *)
Theorem C12_content_escape_any : forall s rest,
  read_literal (bs "(" ++ escapePDFString s ++ bs ")" ++ rest) = Some (utf8 (runes s), rest).
Proof. exact escape_reads_runes. Qed.
Print Assumptions C12_content_escape_any.

Theorem C12_content_invalid_refuted : exists s,
  read_literal (bs "(" ++ escapePDFString s ++ bs ")") <> Some (s, []).
Proof. exists [xff]. vm_compute. discriminate. Qed.
Print Assumptions C12_content_invalid_refuted.

(** Form fields, actions, appearances and fonts: Latin-1 text reads back as
    its Latin-1 bytes. *)
Theorem C12_field_escape_partial : forall rs rest, forallb (fun r => (r <? 256)%N) rs = true ->
  read_literal (bs "(" ++ escapeFieldValue (utf8 rs) ++ bs ")" ++ rest) = Some (latin1 rs, rest).
Proof. exact field_escape_reads_back. Qed.
Print Assumptions C12_field_escape_partial.

(** Other text does not: the euro sign, U+20AC, is written as a backslash and
    five octal digits, of which a reader takes three; a text made only of
    Latin-1 runes is then read although a different one was given. *)
Theorem C12_field_escape_refuted : exists r rs,
  r :: rs <> [] /\ (forall r', In r' (r :: rs) -> (r' < 1114112)%N) /\ (256 <= r)%N /\
  read_literal (bs "(" ++ escapeFieldValue (utf8 (r :: rs)) ++ bs ")") =
  read_literal (bs "(" ++ escapeFieldValue (utf8 [130; 53; 52]%N) ++ bs ")").
Proof.
  exists 8364%N, []. split; [discriminate|]. split; [intros r' [<-|[]]; reflexivity|]. split; [discriminate|].
  vm_compute. reflexivity.
Qed.
Print Assumptions C12_field_escape_refuted.

(** Metadata: every byte string reads back. *)
Theorem C12_metadata_escape : forall s rest,
  read_literal (bs "(" ++ escapePDFStringForMetadata s ++ bs ")" ++ rest) = Some (s, rest).
Proof. exact metadata_reads_back. Qed.
Print Assumptions C12_metadata_escape.

(** The library's own unescape inverts its escape on texts without a
    backslash... *)
Theorem C12_unescape_partial : forall s, no_backslash s = true ->
  unescapePDFString (escapePDFStringForMetadata s) = s.
Proof. exact unescape_escape. Qed.
Print Assumptions C12_unescape_partial.

(** ... and fails on C:\new. *)
Theorem C12_unescape_refuted : exists s, unescapePDFString (escapePDFStringForMetadata s) <> s.
Proof. exists (bs "C:\new"). vm_compute. discriminate. Qed.
Print Assumptions C12_unescape_refuted.

Example C12_example :
  escapePDFString (bs "a(b)\c") = bs "a\(b\)\\c" /\
  valid_utf8 (bs "a(b)\c") /\
  escapeFieldValue (utf8 [233; 40]%N) = bs "\351\(" /\
  no_backslash (bs "a(b)") = true.
Proof.
  repeat split. exists (map b2n (bs "a(b)\c")). split; vm_compute; reflexivity.
Qed.

(* ---------------------------------------------------------------- *)
(** C47.  For all sequences of calls with sensible arguments, the tokens of
    the content stream are those of the calls in order.  [fmt] is
    Sprintf("%.4f"); it is any function giving a number. *)
Theorem C47_content_tokens : forall (F : Type) (fmt : F -> bytes) (one zero : F),
  (forall x, number_text (fmt x) = true) -> forall cs, Forall sensible cs ->
  tokenize (content_stream fmt one zero cs) = Some (flat_map (call_tokens fmt one zero) cs).
Proof. exact @content_tokenizes. Qed.
Print Assumptions C47_content_tokens.

(** The nesting of saved graphics states is that of the calls. *)
Theorem C47_nesting : forall (F : Type) (fmt : F -> bytes) (one zero : F) cs d,
  token_depth d (flat_map (call_tokens fmt one zero) cs) = call_depth d cs.
Proof. exact @nesting_tokens. Qed.
Print Assumptions C47_nesting.

(** Texts with parentheses and a backslash are one string token; names and
    numbers stay apart. *)
Example C47_example :
  let cs := [SaveState Z; SetFont Z (bs "/F1") 12; ShowText Z (bs "a) Tj Q (\");
             DrawImageAt Z (bs "/Im1") 1 2 3 4; RestoreState Z] in
  Forall sensible cs /\
  tokenize (content_stream decZ 1 0 cs) =
  Some [KOp (bs "q"); KName (bs "/F1"); KNum (bs "12"); KOp (bs "Tf"); KString (bs "a) Tj Q (\"); KOp (bs "Tj");
        KOp (bs "q"); KNum (bs "3"); KNum (bs "0"); KNum (bs "0"); KNum (bs "4"); KNum (bs "1"); KNum (bs "2"); KOp (bs "cm");
        KName (bs "/Im1"); KOp (bs "Do"); KOp (bs "Q"); KOp (bs "Q")] /\
  call_depth 0 cs = Some 0%nat.
Proof.
  split; [|split; vm_compute; reflexivity].
  repeat constructor. exists (map b2n (bs "a) Tj Q (\")). split; vm_compute; reflexivity.
Qed.

(** A font name with a space, as one might pass a display name, is written as
    is: the operand of Tf is then not the name given. *)
Theorem C47_raw_name_refuted : exists cs : list (ccall Z),
  tokenize (content_stream decZ 1 0 cs) <> Some (flat_map (call_tokens decZ 1 0) cs).
Proof. exists [SetFont Z (bs "/My Font") 12]. vm_compute. discriminate. Qed.
Print Assumptions C47_raw_name_refuted.

(* ---------------------------------------------------------------- *)
(** Every call, a raw one included, ends its line: no operator is joined to
    what the next call writes. *)
Theorem C47_whole_lines : forall (F : Type) (fmt : F -> bytes) (one zero : F) cs,
  let s := content_stream fmt one zero cs in s = [] \/ exists l, s = l ++ nl.
Proof. exact (@content_lines). Qed.
Print Assumptions C47_whole_lines.

(** C56.  Full statement: for every metadata record, extracting the metadata
    of a document after SetMetadata gives the record.  Proved for texts
    without parentheses and backslashes that do not look like a name or a
    reference, and dates in PDF form; [pre] and [post] are what surrounds the
    dictionary in the object. *)
Theorem C56_info_round_trip_partial : forall fmtd now m pre post,
  simple_meta m -> no_slash pre = true -> no_slash post = true ->
  let m' := parseInfoDict (pre ++ formatDictionary (info_dict fmtd now m) ++ post) in
  mdTitle m' = mdTitle m /\ mdAuthor m' = mdAuthor m /\ mdSubject m' = mdSubject m /\ mdKeywords m' = mdKeywords m /\
  mdCreator m' = mdCreator m /\ mdProducer m' = mdProducer m /\ mdCreationDate m' = mdCreationDate m /\
  mdModDate m' = mdModDate m /\ forall k, kget k (mdCustom m') = kget k (mdCustom m).
Proof. exact info_round. Qed.
Print Assumptions C56_info_round_trip_partial.

(** SetMetadata stores exactly that dictionary, under a fresh number, and
    makes it the Info object. *)
Theorem C56_set_metadata : forall fmtd now m w,
  let '(n, w') := SetMetadata fmtd now m w in
  n = nextObjNum w /\ infoRef w' = Some n /\
  mget n (objects w') = Some (mkObj (Some (formatDictionary (info_dict fmtd now m))) None None).
Proof. exact set_metadata_spec. Qed.
Print Assumptions C56_set_metadata.

Definition sample_meta : metadata :=
  mkMeta (bs "Annual report, 2nd ed.") (bs "A. Author") [] (bs "a, b") [] (bs "pdfer") []
    (bs "D:20260101120000Z") [(bs "Project", bs "X1"); (bs "Rev_2", bs "Title /Author")].
(** Metadata without a modification date get the current time. *)
Theorem C56_default_date : forall fmtd now m, mdModDate m = [] ->
  Forall (fun kv => fst kv <> bs "ModDate" /\ fst kv <> bs "/ModDate") (mdCustom m) ->
  kget (bs "/ModDate") (info_dict fmtd now m) = Some (VStr (formatPDFDate fmtd now)).
Proof. exact default_date. Qed.
Print Assumptions C56_default_date.

Example C56_example : simple_meta sample_meta /\
  parseInfoDict (bs "5 0 obj" ++ nl ++ formatDictionary (info_dict (fun d => d) [] sample_meta) ++ nl ++ bs "endobj") = sample_meta.
Proof.
  split; [|vm_compute; reflexivity]. unfold simple_meta, sample_meta.
  repeat split; try reflexivity; [left; reflexivity| |].
  - repeat constructor; vm_compute; try reflexivity; discriminate.
  - cbn. repeat constructor; cbn; intuition discriminate.
Qed.

(** Outside that set the round trip fails: a title with parentheses is cut at
    its first closing one... *)
Theorem C56_parentheses_refuted : exists t,
  mdTitle (parseInfoDict (formatDictionary (info_dict (fun d => d) (bs "D:2026") (mkMeta t [] [] [] [] [] [] [] [])))) <> t.
Proof. exists (bs "Report (draft) 1"). vm_compute. discriminate. Qed.
Print Assumptions C56_parentheses_refuted.
(** ... and one that ends in " R" is written without parentheses and lost. *)
Theorem C56_reference_refuted : exists t, forallb (fun b => is_word b || beqb b " ") t = true /\ t <> [] /\
  mdTitle (parseInfoDict (formatDictionary (info_dict (fun d => d) (bs "D:2026") (mkMeta t [] [] [] [] [] [] [] [])))) = [].
Proof. exists (bs "Introduction to R"). vm_compute. repeat split. discriminate. Qed.
Print Assumptions C56_reference_refuted.
