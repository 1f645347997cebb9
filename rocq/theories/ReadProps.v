(** Property theorems: what is written can be read back; which revision is
    used; object search; when the parser panics. *)
From Verif Require Import WriterModel WriterSpec WriterProps ParseModel ParseSpec ParseProofs ParseProps ReadProofs PanicProofs.
Local Open Scope Z_scope.

(** C08, full statement: for every writer [w] and every object number [n] with
    text [t], opening the written bytes and asking for [n] gives
    [object_text n t].  Proved for documents written with the default options
    (classic table, no object streams, no encryption), at most 499 object
    numbers, and texts the reader's keyword searches do not trip over. *)
Theorem C08_open_read_back_partial : forall deflate order inflate crypt w out,
  is_order order -> useXRefStream w = false -> useObjectStream w = false -> encryptRef w = None ->
  1 <= nextObjNum w <= 499 -> all_readable w ->
  fst (Write deflate order None w) = out -> Z.of_nat (length out) < 10 ^ 10 ->
  exists p, Open inflate crypt out = Ok p /\
    (forall n, PHasObject p n = (1 <=? n) && (n <? nextObjNum w) && mem n (objects w)) /\
    (forall n, PHasObject p n = false -> PGetObject inflate p n = Err) /\
    (forall n t, 1 <= n < nextObjNum w -> stored_text (updateCatalogWithOutlines w) n t ->
       PGetObject inflate p n = Ok (object_text n t)) /\
    (forall r, rootRef w = Some r -> 0 <= r -> pRoot p = ref r /\ pSize p = nextObjNum w).
Proof. exact read_back. Qed.
Print Assumptions C08_open_read_back_partial.

Theorem C08_get_read_back_partial : forall deflate order inflate w out,
  is_order order -> useXRefStream w = false -> useObjectStream w = false -> encryptRef w = None ->
  1 <= nextObjNum w <= 499 -> all_readable w ->
  fst (Write deflate order None w) = out -> Z.of_nat (length out) < 10 ^ 10 ->
  forall n t, 1 <= n < nextObjNum w -> stored_text (updateCatalogWithOutlines w) n t ->
    GetObject inflate None out n = Ok (object_text n t).
Proof. exact read_back_get. Qed.
Print Assumptions C08_get_read_back_partial.

(** The byte-perfect reader: any number of objects. *)
Theorem C08_document_read_back_partial : forall deflate order inflate w out,
  is_order order -> useXRefStream w = false -> useObjectStream w = false -> encryptRef w = None ->
  1 <= nextObjNum w -> plain_version (pdfVersion w) = true ->
  (forall n t, stored_text (updateCatalogWithOutlines w) n t -> plain t) ->
  fst (Write deflate order None w) = out -> Z.of_nat (length out) < 10 ^ 10 ->
  exists d, ParsePDFDocument inflate out = Ok d /\ DBytes d = out /\
    (forall n, ~ (1 <= n < nextObjNum w) \/ mem n (objects w) = false -> DGetObject d n = None) /\
    (forall n t, 1 <= n < nextObjNum w -> stored_text (updateCatalogWithOutlines w) n t ->
       exists o, DGetObject d n = Some o /\ roNumber o = n /\ roBytes o = object_text n t).
Proof. exact read_back_document. Qed.
Print Assumptions C08_document_read_back_partial.

(** The texts of stream objects are among the readable ones. *)
Theorem C08_streams_readable : forall d s,
  contains (bs "endobj") d = false -> contains (bs "startxref") d = false -> contains (bs "/Encrypt") d = false ->
  contains (bs "endstream") d = false ->
  contains (bs "endobj") s = false -> contains (bs "startxref") s = false -> contains (bs "/Encrypt") s = false ->
  contains (bs "endstream") s = false ->
  match d with [] => False | b :: _ => is_blank b = false end ->
  readable (d ++ bs "
stream
" ++ s ++ bs "
endstream").
Proof. exact readable_stream. Qed.
Print Assumptions C08_streams_readable.

Definition C08_writer (c : bytes) : writer :=
  SetRoot 1 (SetObject 3 (Some (bs "(three)")) (SetObject 2 (Some c) (SetObject 1 (Some (bs "<</Type/Catalog>>")) NewPDFWriter))).
Definition C08_out (c : bytes) : bytes := fst (Write id_deflate same_order None (C08_writer c)).
Definition C08_read (c : bytes) (n : Z) : result bytes :=
  rbind (Open stored no_crypt (C08_out c)) (fun p => PGetObject stored p n).

Example C08_example_readable : all_readable (C08_writer (bs "<</A (b)>>")).
Proof.
  split; [reflexivity|]. split; [reflexivity|]. intros n t [o [H T]].
  change (objects (updateCatalogWithOutlines (C08_writer (bs "<</A (b)>>"))))
    with (objects (C08_writer (bs "<</A (b)>>"))) in H.
  change (objects (C08_writer (bs "<</A (b)>>")))
    with (mset 3 (mkObj (Some (bs "(three)")) None None) (mset 2 (mkObj (Some (bs "<</A (b)>>")) None None)
          [(1, mkObj (Some (bs "<</Type/Catalog>>")) None None)])) in H.
  rewrite !mget_mset in H.
  destruct (n =? 3); [|destruct (n =? 2); [|cbn [mget fst snd] in H; destruct (n =? 1); [|discriminate H]]];
  injection H as <-; cbn in T; subst t; (repeat split; try reflexivity; left; reflexivity).
Qed.
Example C08_example : C08_read (bs "<</A (b)>>") 2 = Ok (bs "2 0 obj
<</A (b)>>
endobj").
Proof. vm_compute. reflexivity. Qed.

(** Full property refuted.  Text containing the word "stream" comes back with
    the beginning of the next object; *)
Theorem C08_stream_word_refuted : C08_read (bs "(a stream)") 2 = Ok (bs "2 0 obj
(a stream)
endobj
3 
endobj").
Proof. vm_compute. reflexivity. Qed.
Print Assumptions C08_stream_word_refuted.

(** text containing "endobj" is cut; *)
Theorem C08_endobj_word_refuted : C08_read (bs "(endobj)") 2 = Ok (bs "2 0 obj
(
endobj").
Proof. vm_compute. reflexivity. Qed.
Print Assumptions C08_endobj_word_refuted.

(** leading white space is lost; *)
Theorem C08_leading_blank_refuted : C08_read (bs " (x)") 2 = C08_read (bs "(x)") 2.
Proof. vm_compute. reflexivity. Qed.
Print Assumptions C08_leading_blank_refuted.

(** objects whose entry lies beyond the first 10000 bytes of the table are lost. *)
Theorem C08_object_600_refuted :
  let out := fst (Write id_deflate same_order None (SetObject 600 (Some (bs "(six)")) (C08_writer (bs "(x)")))) in
  rmap (fun p => (PHasObject p 3, PHasObject p 600)) (Open stored no_crypt out) = Ok (true, false).
Proof. vm_compute. reflexivity. Qed.
Print Assumptions C08_object_600_refuted.

(** C18, full statement: if FindObjectByNumber f n returns p then the header
    of object n stands at p and no digit stands before it.  Proved for files
    made by the writer whose texts do not contain " 0 obj". *)
Theorem C18_find_written_partial : forall deflate order inflate w out n,
  is_order order -> useXRefStream w = false -> useObjectStream w = false ->
  (forall m, mem m (objects w) = true -> 0 <= m) ->
  contains (bs " 0 obj") (pdfVersion w) = false ->
  (forall m t, stored_text (updateCatalogWithOutlines w) m t -> contains (bs " 0 obj") t = false) ->
  fst (Write deflate order None w) = out -> mem n (objects w) = true ->
  exists p t, FindObjectByNumber inflate out n = Ok p /\ stored_text (updateCatalogWithOutlines w) n t /\
    occurs_at out p (decZ n ++ bs " 0 obj
" ++ t ++ bs "
endobj
") /\
    (exists b, nth_error out (Z.to_nat (p - 1)) = Some b /\ is_digit b = false).
Proof. exact find_written. Qed.
Print Assumptions C18_find_written_partial.

Example C18_example :
  let w := SetObject 15 (Some (bs "(fifteen)")) (SetObject 5 (Some (bs "(five)")) NewPDFWriter) in
  let out := fst (Write id_deflate same_order None w) in
  rmap (fun p => take 14 (from p out)) (FindObjectByNumber stored out 5) = Ok (bs "5 0 obj
(five)").
Proof. vm_compute. reflexivity. Qed.

(** Refuted for other files: object 15 before object 5. *)
Theorem C18_number_suffix_refuted :
  let f := bs "%PDF-1.7
15 0 obj
(fifteen)
endobj
5 0 obj
(five)
endobj
" in
  FindObjectByNumber stored f 5 = Ok 10 /\ from 9 f = bs "15 0 obj
(fifteen)
endobj
5 0 obj
(five)
endobj
".
Proof. vm_compute. split; reflexivity. Qed.
Print Assumptions C18_number_suffix_refuted.

(** C19: the location used by Open is the value of the last startxref of the
    file, if no other one stands in the 100 bytes before it; [a] is any text. *)
Theorem C19_last_startxref_partial : forall a x, 0 <= x < 2 ^ 63 ->
  contains (bs "startxref") (skipn (length a - 100) a) = false ->
  findLastStartXRef ((a ++ nl) ++ bs "startxref
" ++ decZ x ++ bs "
%%EOF
") = Ok x.
Proof. exact last_startxref_window. Qed.
Print Assumptions C19_last_startxref_partial.

Example C19_example : findLastStartXRef two_revisions = Ok 268.
Proof. vm_compute. reflexivity. Qed.

(** Refuted: with another startxref within 100 bytes, the earlier one is used. *)
Theorem C19_short_update_refuted :
  let f := bs "%PDF-1.7
1 0 obj
<</Type/Catalog>>
endobj
xref
0 2
0000000000 65535 f 
0000000009 00000 n 
trailer
<</Size 2/Root 1 0 R>>
startxref
42
%%EOF
xref
0 0
trailer
<</Size 4/Root 2 0 R/Prev 42>>
startxref
141
%%EOF
" in
  prefixb (bs "xref") (from 141 f) = true /\ findLastStartXRef f = Ok 42.
Proof. vm_compute. split; reflexivity. Qed.
Print Assumptions C19_short_update_refuted.

(** Refuted for ParsePDFTrailer, which reports the first startxref together
    with the last trailer, and for GetObject, which looks the object up in the
    first revision (here the revisions are 10000 bytes apart). *)
Theorem C19_trailer_refuted : rmap tStartXRef (ParsePDFTrailer two_revisions) = Ok 86.
Proof. vm_compute. reflexivity. Qed.
Print Assumptions C19_trailer_refuted.

Theorem C19_get_object_refuted :
  let f := firstn 228 two_revisions ++ repeat x20 (N.to_nat 10000) ++ bs "3 0 obj
(three, second revision)
endobj
xref
3 1
0000010228 00000 n 
trailer
<</Size 4/Root 1 0 R/Prev 86>>
startxref
10268
%%EOF
" in
  findLastStartXRef f = Ok 10268 /\
  rbind (Open stored no_crypt f) (fun p => PGetObject stored p 3) = Ok (bs "3 0 obj
(three, second revision)
endobj") /\
  GetObject stored None f 3 = Ok (bs "3 0 obj
(three)
endobj").
Proof. vm_compute. repeat split; reflexivity. Qed.
Print Assumptions C19_get_object_refuted.

(** C17.  These never panic: *)
Theorem C17_raw_object : forall f n g off, ParseRawObject f n g off <> Panic.
Proof. exact raw_no_panic. Qed.
Print Assumptions C17_raw_object.

Theorem C17_trailer : forall f, ParsePDFTrailer f <> Panic.
Proof. exact trailer_no_panic. Qed.
Print Assumptions C17_trailer.

Theorem C17_revision : forall f k, ExtractRevision f k <> Panic.
Proof. exact extract_no_panic. Qed.
Print Assumptions C17_revision.

(** Opening a file panics only in the reader of cross-reference streams, and
    there exactly when no object header is found and fewer than 500 bytes
    follow, or when the first "<<" is more than 500 bytes away. *)
Theorem C17_open_partial : forall inflate crypt f, Open inflate crypt f = Panic ->
  crypt f = Panic \/ exists x, x < flen f /\ read_xref_stream inflate f x = Panic.
Proof. exact open_panic. Qed.
Print Assumptions C17_open_partial.

Theorem C17_document_partial : forall inflate f, ParsePDFDocument inflate f = Panic ->
  exists x, 0 <= x < flen f /\ prefixb (bs "xref") (from x f) = false /\ read_xref_stream inflate f x = Panic.
Proof. exact document_panic. Qed.
Print Assumptions C17_document_partial.

Theorem C17_xref_stream_exactly : forall inflate f x,
  read_xref_stream inflate f x = Panic <->
  (found (find m_any0obj (take 500 (from x f))) = false /\ flen f < x + 500) \/
  (exists d, index (bs "<<") (from x f) = Some d /\ (length (take 500 (from x f)) < d)%nat /\
     (found (find m_any0obj (take 500 (from x f))) = true \/
      found (find m_any0obj (sub (if 100 <? x then Z.to_nat (x - 100) else 0) (Z.to_nat (x + 500)) f)) = true)).
Proof. exact xref_stream_panic. Qed.
Print Assumptions C17_xref_stream_exactly.

(** Reading an object in place never panics in a file in which at least three
    bytes follow every "endobj". *)
Theorem C17_direct_object_partial : forall f n off,
  (forall i, prefixb (bs "endobj") (skipn i f) = true -> (i + 9 <= length f)%nat) ->
  GetDirectObject None f n off <> Panic.
Proof. exact direct_no_panic. Qed.
Print Assumptions C17_direct_object_partial.

(** An object stream: only if the data is shorter than /First or an offset is
    negative or above the next one. *)
Theorem C17_object_stream_partial : forall n idx first data,
  object_in_stream n idx first data = Panic ->
  flen data < first \/ idx < 0 \/
  exists t, In t (pairs_of (fields is_space (firstn (Z.to_nat first) data))) /\ fst t = n /\
    (first + snd t < 0 \/
     match nth_error (pairs_of (fields is_space (firstn (Z.to_nat first) data))) (S (Z.to_nat idx)) with
     | Some nx => snd nx < snd t
     | None => False
     end).
Proof. exact in_stream_panic. Qed.
Print Assumptions C17_object_stream_partial.

(** Refuted: a truncated file whose startxref points into garbage that
    mentions "obj"; *)
Theorem C17_open_refuted : Open stored no_crypt (bs "%PDF-1.7
an object
startxref
9
%%EOF
") = Panic.
Proof. vm_compute. reflexivity. Qed.
Print Assumptions C17_open_refuted.

(** a file that ends in an object mentioning "stream"; *)
Theorem C17_direct_refuted : GetDirectObject None (bs "%PDF-1.7
1 0 obj
(a stream)
endobj") 1 9 = Panic.
Proof. vm_compute. reflexivity. Qed.
Print Assumptions C17_direct_refuted.

(** object streams with a wrong /First or decreasing offsets. *)
Theorem C17_object_stream_refuted :
  object_in_stream 1 0 9 (bs "1 0 (a)") = Panic /\
  object_in_stream 1 0 8 (bs "1 9 2 0 (a)(bcdefghijkl)") = Panic.
Proof. vm_compute. split; reflexivity. Qed.
Print Assumptions C17_object_stream_refuted.
