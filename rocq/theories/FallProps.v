(** C104: XFA read from a document whose cross-reference table is missing. *)
From Verif Require Import Util Scan WriterModel ParseModel XfaModel XfaSpec FallModel FallSpec FallProofs.
From Verif Require XfaProps.
Local Open Scope Z_scope.

(** The form object is found without the table, whole, and a document that is
    not encrypted is never written to. *)
Theorem C104_form_partial : forall inflate f spare n t, 0 <= n < 2 ^ 63 -> stands f n t ->
  findAndDecryptAcroForm inflate None (f ++ spare) (length f) n = (Ok (whole n t), f ++ spare).
Proof. exact form_found. Qed.
Print Assumptions C104_form_partial.
Theorem C104_unencrypted_untouched : forall inflate mem len n, snd (findAndDecryptAcroForm inflate None mem len n) = mem.
Proof. exact plain_untouched. Qed.
Print Assumptions C104_unencrypted_untouched.
(** A stream is found without the table, with exactly its data. *)
Theorem C104_stream_partial : forall inflate f n dict d,
  0 <= n < 2 ^ 63 -> stands f n (stream_of dict d) -> gives_length dict (flen d) -> plain_dict dict -> d <> [] -> flen f < 2 ^ 62 ->
  extractStreamFromPDF inflate None f n = Ok d.
Proof. exact stream_found. Qed.
Print Assumptions C104_stream_partial.
(** A document without a table still gives all the XFA streams its form names. *)
Theorem C104_recovery_partial : forall inflate dec zl fl f k es (data : bytes * Z -> bytes),
  flen f < 2 ^ 62 -> contains (bs "startxref") f = false -> form_number f k -> 0 < k < 2 ^ 63 -> stands f k (nl ++ xfa_form es ++ nl) ->
  es <> [] -> NoDup (map fst es) -> flen (flat_map xfa_entry es) < 10000 ->
  (forall e, In e es -> In (fst e) stream_names /\ 0 <= snd e < 2 ^ 63 /\ recoverable f (snd e) (data e)) ->
  exists xs, ExtractAllXFAStreams zl fl (GetObject inflate dec f) (form_reader inflate f) (stream_reader inflate f) f = Ok xs /\
    (forall e, In e es -> kget (fst e) xs = Some (mkSI (fst (DecompressStream zl fl (data e))) (snd e) (snd (DecompressStream zl fl (data e))))) /\
    (forall name, ~ In name (map fst es) -> kget name xs = None).
Proof. exact recovered_file. Qed.
Print Assumptions C104_recovery_partial.

Definition ex_pre : bytes := bs "%PDF-1.7" ++ nl ++ bs "1 0 obj" ++ nl ++ bs "<</Type/Catalog/AcroForm 2 0 R>>" ++ nl ++ bs "endobj" ++ nl.
Definition ex_entries : list (bytes * Z) := [(bs "template", 3)].
Definition ex_dict : bytes := bs "<</Length 11>>".
Definition ex_data : bytes := bs "<template/>".
Definition ex_form_object : bytes := whole 2 (nl ++ xfa_form ex_entries ++ nl) ++ nl.
Definition ex_file : bytes := ex_pre ++ ex_form_object ++ whole 3 (stream_of ex_dict ex_data) ++ nl.
Lemma ex_form_stands : stands ex_file 2 (nl ++ xfa_form ex_entries ++ nl).
Proof.
  exists ex_pre, (nl ++ whole 3 (stream_of ex_dict ex_data) ++ nl). split; [reflexivity|]. split; [|split; reflexivity].
  right. exists (bs "%PDF-1.7" ++ nl ++ bs "1 0 obj" ++ nl ++ bs "<</Type/Catalog/AcroForm 2 0 R>>" ++ nl ++ bs "endobj"), x0a. split; [reflexivity|left; reflexivity].
Qed.
Lemma ex_stream_stands : stands ex_file 3 (stream_of ex_dict ex_data).
Proof.
  exists (ex_pre ++ ex_form_object), nl. split; [reflexivity|]. split; [|split; reflexivity].
  right. exists (ex_pre ++ whole 2 (nl ++ xfa_form ex_entries ++ nl)), x0a. split; [reflexivity|left; reflexivity].
Qed.
Example C104_example_hypotheses :
  contains (bs "startxref") ex_file = false /\ form_number ex_file 2 /\ stands ex_file 2 (nl ++ xfa_form ex_entries ++ nl) /\ NoDup (map fst ex_entries) /\
  flen (flat_map xfa_entry ex_entries) < 10000 /\
  (forall e, In e ex_entries -> In (fst e) stream_names /\ 0 <= snd e < 2 ^ 63 /\ recoverable ex_file (snd e) ex_data).
Proof.
  split; [reflexivity|]. split.
  { exists (bs "%PDF-1.7" ++ nl ++ bs "1 0 obj" ++ nl ++ bs "<</Type/Catalog"),
      (bs ">>" ++ nl ++ bs "endobj" ++ nl ++ ex_form_object ++ whole 3 (stream_of ex_dict ex_data) ++ nl). split; reflexivity. }
  split; [exact ex_form_stands|]. split; [repeat constructor; intros []|]. split; [reflexivity|].
  intros e [<-|[]]. split; [left; reflexivity|]. cbn [snd]. split; [split; [discriminate|reflexivity]|].
  exists ex_dict. split; [exact ex_stream_stands|]. split.
  { exists (bs "<<"), (bs " "), (bs ">>"). split; [reflexivity|]. split; [reflexivity|]. split; [reflexivity|]. split; [discriminate|reflexivity]. }
  split; [split; reflexivity|]. split; [discriminate|]. split; reflexivity.
Qed.
Example C104_example : ExtractAllXFAStreams XfaProps.ex_zl XfaProps.no_inflate (GetObject XfaProps.no_inflate None ex_file)
  (form_reader XfaProps.no_inflate ex_file) (stream_reader XfaProps.no_inflate ex_file) ex_file = Ok [(bs "template", mkSI (bs "<template/>") 3 false)].
Proof. vm_compute. reflexivity. Qed.

(** Reading the form of an encrypted document writes the decrypted text over
    the caller's own bytes of the document (objectHeader is a slice of them and
    append writes into it). *)
Theorem C104_caller_refuted : forall inflate e f spare n pre w d post x,
  0 <= n < 2 ^ 63 -> placed f n pre (w ++ d) post -> forallb is_blank w = true ->
  match d with [] => False | b :: _ => is_blank b = false end ->
  contains (bs "stream") (whole n (w ++ d)) = false ->
  cpV e <> 4 -> cpV e <> 5 -> cpDecrypt e d n 0 = Ok x -> length x = length d ->
  findAndDecryptAcroForm inflate (Some e) (f ++ spare) (length f) n =
    (Ok (whole n (w ++ x)), pre ++ whole n (w ++ x) ++ post ++ spare).
Proof. exact caller_changed. Qed.
Print Assumptions C104_caller_refuted.
Definition ex_flip (b : byte) : byte := n2b (N.lxor (b2n b) 128).
Definition ex_cipher : cipher := mkCipher 2 (fun d _ _ => Ok (map ex_flip d)).
Definition ex_secret : bytes := map ex_flip (bs "<</Fields[]>>").
Definition ex_locked : bytes := nl ++ bs "4 0 obj" ++ nl ++ ex_secret ++ bs "endobj" ++ nl.
Example C104_caller_example : placed ex_locked 4 nl (nl ++ ex_secret) nl /\ contains (bs "stream") (whole 4 (nl ++ ex_secret)) = false /\
  cpDecrypt ex_cipher ex_secret 4 0 = Ok (bs "<</Fields[]>>") /\
  findAndDecryptAcroForm XfaProps.no_inflate (Some ex_cipher) ex_locked (length ex_locked) 4 =
    (Ok (bs "4 0 obj" ++ nl ++ bs "<</Fields[]>>endobj"), nl ++ bs "4 0 obj" ++ nl ++ bs "<</Fields[]>>endobj" ++ nl).
Proof.
  split; [|vm_compute; auto]. split; [reflexivity|]. split; [|split; vm_compute; reflexivity]. right. exists [], x0a. split; [reflexivity|left; reflexivity].
Qed.
(** Whatever stands before the first two angle brackets of a stream's data is
    lost when the stream is read without the table. *)
Theorem C104_cut_refuted : forall zl fl u v, contains (bs "stream") (u ++ bs "<<" ++ v) = false -> contains (bs "<<") u = false -> ~ In "<"%byte u ->
  extractStreamDataFromObject zl fl (u ++ bs "<<" ++ v) = Ok (bs "<<" ++ v).
Proof. exact brackets_cut. Qed.
Print Assumptions C104_cut_refuted.
Definition ex_cut_file : bytes := ex_pre ++ ex_form_object ++ whole 3 (stream_of ex_dict (bs "ab << c / d")) ++ nl.
Example C104_cut_example : ExtractAllXFAStreams XfaProps.ex_zl XfaProps.no_inflate (GetObject XfaProps.no_inflate None ex_cut_file)
  (form_reader XfaProps.no_inflate ex_cut_file) (stream_reader XfaProps.no_inflate ex_cut_file) ex_cut_file = Ok [(bs "template", mkSI (bs "<< c / d") 3 false)].
Proof. vm_compute. reflexivity. Qed.
(** A table that places the form far behind the end of the file stops the
    program instead of giving an error. *)
Theorem C104_panic_refuted : forall f idx n, index (object_header n) f = None -> flen f + 1000 < idx -> findObjectBoundaries f idx n = Panic.
Proof. exact far_panics. Qed.
Print Assumptions C104_panic_refuted.
Definition ex_far : bytes := bs "/AcroForm 1 0 R" ++ nl ++ bs "xref" ++ nl ++ bs "0 2" ++ nl ++ bs "0000000000 65535 f " ++ nl ++ bs "0000009999 00000 n " ++ nl ++
  bs "trailer<<>>" ++ nl ++ bs "startxref" ++ nl ++ bs "16" ++ nl ++ bs "%%EOF".
Example C104_panic_example : ExtractAllXFAStreams XfaProps.ex_zl XfaProps.no_inflate (GetObject XfaProps.no_inflate None ex_far)
  (form_reader XfaProps.no_inflate ex_far) (stream_reader XfaProps.no_inflate ex_far) ex_far = Panic.
Proof. vm_compute. reflexivity. Qed.
(** The number can be followed by a tab or a line end instead of a space: if
    the file then has no header in the usual writing and the place the table
    gives is within a thousand bytes, the object is found whole.  The number
    must not stand earlier within those thousand bytes. *)
Theorem C104_loose_header_partial : forall f n pre c t post idx, 0 <= n -> placed_loosely f n pre c t post ->
  idx - 1000 <= Z.of_nat (length pre) -> Z.of_nat (length pre + length (decZ n)) <= idx + 1000 ->
  contains (decZ n) (skipn (Z.to_nat (idx - 1000)) pre) = false ->
  findObjectBoundaries f idx n = Ok (length pre, (length pre + (length (decZ n) + 6 + length t + 6))%nat).
Proof. exact loosely_found. Qed.
Print Assumptions C104_loose_header_partial.
Definition ex_loose : bytes := nl ++ bs "5" ++ [x09] ++ bs "0 obj<</A 1>>endobj" ++ nl.
Example C104_loose_header_example : placed_loosely ex_loose 5 nl x09 (bs "<</A 1>>") nl /\ findObjectBoundaries ex_loose 0 5 = Ok (1%nat, 22%nat).
Proof.
  split; [|vm_compute; reflexivity]. split; [reflexivity|]. split; [left; reflexivity|]. split; [right; exists [], x0a; split; [reflexivity|left; reflexivity]|].
  split; vm_compute; reflexivity.
Qed.
