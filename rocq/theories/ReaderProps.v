(** Property theorems: reading conforming files.  Tables of any shape the
    standard allows (any number of subsections, any generation, LF, CR LF or
    space LF line ends), chains of revisions, cross-reference streams with
    /Index, encrypted object streams, recovery, stream data and the bounds of
    revisions.  The files are described in ReaderSpec. *)
From Verif Require Import Scan WriterModel WriterSpec ParseModel ParseSpec ReadProofs ReaderSpec XrefProps
  ReaderProofs ReaderProofs2 ReaderProofs3 ReaderProofs4.
Local Open Scope Z_scope.

(** C14: a file that ends in "startxref x %%EOF", where [x] is the newest of a
    chain of tables linked by /Prev, opens; each object is found where the
    newest table that has it in use says, and is returned as it stands in the
    file, whatever its generation; objects no table has in use are not found;
    root and size are those of the newest trailer.
    Partial: a table that frees an object does not hide older entries
    (C14_freed_object_refuted), and a chain mixing tables and streams is not
    covered. *)
Theorem C14_conforming_chain_partial : forall inflate crypt f a x c,
  f = (a ++ nl) ++ startxref_text x -> 0 <= x < 2 ^ 63 ->
  contains (bs "startxref") (skipn (length a - 100) a) = false ->
  table_chain f x c -> contains (bs "/Encrypt") f = false ->
  exists p, Open inflate crypt f = Ok p /\
    (forall n, chain_says c n = None -> PGetObject inflate p n = Err /\ PHasObject p n = false) /\
    (forall n g t pre post, chain_says c n = Some (flen pre) -> f = pre ++ gen_object n g t ++ post ->
       0 <= n < 2 ^ 63 -> 0 <= g < 2 ^ 63 -> readable t ->
       PGetObject inflate p n = Ok (gen_object n g t) /\ PHasObject p n = true) /\
    (forall subs d older, c = (x, subs, d) :: older ->
       (forall n g, 0 <= n -> 0 <= g -> states (bs "/Root") (reference n g) d -> pRoot p = reference n g) /\
       (forall k, 0 <= k < 2 ^ 63 -> states (bs "/Size") (decZ k) d -> pSize p = k)).
Proof. exact open_chain_text. Qed.
Print Assumptions C14_conforming_chain_partial.

Definition ex_a1 : bytes := bs "%PDF-1.4" ++ nl ++ gen_object 1 0 (bs "<</Type /Catalog>>") ++ nl.
Definition ex_subs1 : list subsection := [mkSub 0 nl [mkRowText 0 65535 false [" "%byte; x0a]; mkRowText 9 0 true [" "%byte; x0a]]].
Definition ex_d1 : bytes := bs "/Size 2 /Root 1 0 R".
Definition ex_r1 : bytes := ex_a1 ++ table_text nl ex_subs1 ++ bs "trailer" ++ nl ++ bs "<<" ++ ex_d1 ++ bs ">>" ++ nl ++ startxref_text (flen ex_a1).
Definition ex_a2 : bytes := ex_r1 ++ gen_object 2 3 (bs "[7]") ++ nl.
Definition ex_subs2 : list subsection := [mkSub 2 [x0d; x0a] [mkRowText (flen ex_r1) 3 true [x0d; x0a]]].
Definition ex_d2 : bytes := bs "/Size 3 /Root 1 0 R /Prev " ++ decZ (flen ex_a1).
Definition ex_f2 : bytes := ex_a2 ++ table_text [x0d; x0a] ex_subs2 ++ bs "trailer" ++ nl ++ bs "<<" ++ ex_d2 ++ bs ">>" ++ nl ++ startxref_text (flen ex_a2).
Definition ex_chain : list (Z * list subsection * bytes) := [(flen ex_a2, ex_subs2, ex_d2); (flen ex_a1, ex_subs1, ex_d1)].
Example C14_chain_meets : table_chain ex_f2 (flen ex_a2) ex_chain.
Proof.
  apply (chain_newer ex_f2 (flen ex_a2) (flen ex_a1)).
  - vm_compute. split; reflexivity.
  - exists ex_a2, [x0d; x0a], nl, (nl ++ startxref_text (flen ex_a2)). split; [reflexivity|]. split; [reflexivity|].
    split; [right; left; reflexivity|]. split; [|split; [|split]].
    + constructor; [|constructor]. split; [vm_compute; split; [discriminate|reflexivity]|]. split; [reflexivity|].
      split; [right; left; reflexivity|]. constructor; [|constructor]. split; [vm_compute; split; [discriminate|reflexivity]|].
      split; [vm_compute; split; [discriminate|reflexivity]|]. right; left; reflexivity.
    + intros b [<-|[]]. reflexivity.
    + apply plain_balanced. vm_compute. reflexivity.
    + vm_compute. discriminate.
  - exists (bs "/Size 3 /Root 1 0 R "), (bs " "), []. split; [vm_compute; reflexivity|]. split; [reflexivity|].
    split; [discriminate|]. split; [intros b [<-|[]]; reflexivity|exact I].
  - apply chain_oldest; [reflexivity| |reflexivity].
    exists ex_a1, nl, nl, (nl ++ startxref_text (flen ex_a1) ++ gen_object 2 3 (bs "[7]") ++ nl ++
      table_text [x0d; x0a] ex_subs2 ++ bs "trailer" ++ nl ++ bs "<<" ++ ex_d2 ++ bs ">>" ++ nl ++ startxref_text (flen ex_a2)).
    split; [vm_compute; reflexivity|]. split; [reflexivity|]. split; [left; reflexivity|]. split; [|split; [|split]].
    + constructor; [|constructor]. split; [vm_compute; split; [discriminate|reflexivity]|]. split; [reflexivity|].
      split; [left; reflexivity|]. repeat (apply Forall_cons; [split; [vm_compute; split; [discriminate|reflexivity]|];
      split; [vm_compute; split; [discriminate|reflexivity]|]; right; right; reflexivity|]). constructor.
    + intros b [<-|[]]. reflexivity.
    + apply plain_balanced. reflexivity.
    + vm_compute. discriminate.
Qed.
Example C14_chain_example : rmap (fun p => (PGetObject ex_inflate p 1, PGetObject ex_inflate p 2, PGetObject ex_inflate p 0, pRoot p, pSize p))
  (Open ex_inflate no_crypt ex_f2)
  = Ok (Ok (gen_object 1 0 (bs "<</Type /Catalog>>")), Ok (gen_object 2 3 (bs "[7]")), Err, bs "1 0 R", 3).
Proof. vm_compute. reflexivity. Qed.

(** A table whose entries end in space and carriage return (the third line end
    ISO 32000-1 7.5.4 allows) is not read: the file opens, without objects. *)
Definition ex_cr_table : bytes := ex_a1 ++ bs "xref" ++ [x0d] ++ bs "0 2" ++ [x0d] ++
  bs "0000000000 65535 f " ++ [x0d] ++ bs "0000000009 00000 n " ++ [x0d] ++ bs "trailer" ++ nl ++ bs "<<" ++ ex_d1 ++ bs ">>" ++ nl ++ startxref_text (flen ex_a1).
Theorem C14_cr_table_refuted :
  rmap (fun p => (PObjects p, PGetObject ex_inflate p 1)) (Open ex_inflate no_crypt ex_cr_table) = Ok ([], Err).
Proof. vm_compute. reflexivity. Qed.
Print Assumptions C14_cr_table_refuted.

(** The listing of objects: no duplicates, as many as counted, exactly those
    that PDF.HasObject affirms. *)
Theorem C14_objects_listed : forall p, NoDup (PObjects p) /\ length (PObjects p) = PObjectCount p /\
  forall n, In n (PObjects p) <-> PHasObject p n = true.
Proof. exact objects_listed. Qed.
Print Assumptions C14_objects_listed.

(** C10: a conforming cross-reference stream with any field widths (the first
    not 0) and any subsections listed in /Index is read exactly: the lists of
    offsets and of members, later entries first.
    Partial: the dictionary up to and including /Index has to lie in the first
    500 bytes (C10_long_index_refuted), the first width must not be 0
    (C10_default_type_refuted), and no predictor is used (see C20). *)
Theorem C10_indexed_stream_partial : forall inflate sn size w1 w2 w3 subs extra comp pre post f rest,
  f = pre ++ xref_stream_text sn size w1 w2 w3 subs extra comp ++ post ->
  0 <= sn < 2 ^ 63 -> 0 <= size < 2 ^ 63 ->
  (1 <= w1)%nat -> Z.of_nat w1 < 2 ^ 63 -> Z.of_nat w2 < 2 ^ 63 -> Z.of_nat w3 < 2 ^ 63 ->
  subs <> [] -> (forall s, In s subs -> 0 <= fst s < 2 ^ 63 /\ Z.of_nat (length (snd s)) < 2 ^ 63 /\ Forall (xref_row_ok w2 w3) (snd s)) ->
  (xref_head_length sn size w1 w2 w3 subs <= 500)%nat ->
  contains (bs "stream") extra = false -> contains (bs "/DecodeParms") (take 500 (from (flen pre) f)) = false ->
  match comp with [] => False | b :: _ => is_blank b = false end -> contains (bs "endstream") comp = false ->
  inflate (comp ++ nl) = Some (xref_data w1 w2 w3 subs ++ rest) -> (length rest < w1 + w2 + w3)%nat ->
  ParseXRefStreamFull inflate f (flen pre) = Ok (rev (stream_offsets subs), rev (stream_members subs)).
Proof. exact indexed_stream. Qed.
Print Assumptions C10_indexed_stream_partial.

Definition ex_subs : list (Z * list xref_row) := [(3, [EAt 17 0; EFree 0 1]); (10, [EIn 5 1; EAt 300 2])].
Definition ex_xfile : bytes := bs "%PDF" ++ nl ++ xref_stream_text 9 12 1 2 1 ex_subs [] (ex_deflate (xref_data 1 2 1 ex_subs)).
Example C10_indexed_example : ParseXRefStreamFull ex_inflate ex_xfile 5 = Ok ([(11, 300); (3, 17)], [(10, (5, 1))])
  /\ (xref_head_length 9 12 1 2 1 ex_subs <= 500)%nat /\ Forall (fun s => Forall (xref_row_ok 2 1) (snd s)) ex_subs
  /\ ex_inflate (ex_deflate (xref_data 1 2 1 ex_subs) ++ nl) = Some (xref_data 1 2 1 ex_subs ++ []).
Proof.
  split; [vm_compute; reflexivity|]. split; [apply Nat.leb_le; vm_compute; reflexivity|]. split; [|vm_compute; reflexivity].
  repeat (apply Forall_cons; [repeat (apply Forall_cons; [vm_compute; repeat split; discriminate|]); apply Forall_nil|]). apply Forall_nil.
Qed.

(** With /Index beyond the first 500 bytes the entries are numbered from 0. *)
Theorem C10_long_index_refuted :
  let f := bs "9 0 obj <</Type /XRef /Size 12 /W [1 2 1] /Root 1 0 R /Info (" ++ repeat "x"%byte 460 ++ bs ") /Index [3 2 10 2]>>" ++ nl ++
    bs "stream" ++ nl ++ ex_deflate (xref_data 1 2 1 ex_subs) ++ nl ++ bs "endstream" in
  ParseXRefStreamFull ex_inflate f 0 = Ok ([(3, 300); (0, 17)], [(2, (5, 1))]).
Proof. vm_compute. reflexivity. Qed.
Print Assumptions C10_long_index_refuted.

(** With a first width of 0 every entry is of type 1 (ISO 32000-1, 7.5.8.2);
    here they are all taken as free. *)
Theorem C10_default_type_refuted :
  let f := bs "9 0 obj <</Type /XRef /Size 2 /W [0 2 1]>>" ++ nl ++ bs "stream" ++ nl ++ ex_deflate (be 2 17 ++ be 1 0 ++ be 2 40 ++ be 1 0) ++ nl ++ bs "endstream" in
  ParseXRefStreamFull ex_inflate f 0 = Ok ([], []).
Proof. vm_compute. reflexivity. Qed.
Print Assumptions C10_default_type_refuted.

(** C21: objects of a conforming object stream, with LF or CR LF after the
    keyword "stream", and with the stream's data encrypted or not. *)
Theorem C21_stream_read : forall inflate dec f pre eol sn objs raw raw' post n d i,
  f = pre ++ objstm_with eol sn (Z.of_nat (length objs)) (conforming_first objs) raw ++ post -> stream_eol eol ->
  (forall j, (j < length pre)%nat -> m_num0obj sn (skipn j f) = None) ->
  decrypted dec sn raw raw' -> inflate raw' = Some (conforming_objstm objs) ->
  nth_error objs i = Some (n, d) -> tidy d ->
  0 <= sn -> flen raw < 2 ^ 63 ->
  (forall o, In o objs -> 0 <= fst o < 2 ^ 63) -> flen (conforming_objstm objs) < 2 ^ 63 ->
  GetObjectFromStream inflate dec f n sn (Z.of_nat i) = Ok d.
Proof. exact conforming_read_with. Qed.
Print Assumptions C21_stream_read.
(** decryption that swaps the case bit of each byte *)
Definition ex_dec : decryptor := fun b _ _ => Ok (map (fun c => n2b (N.lxor (b2n c) 32)) b).
Example C21_read_example :
  let raw := map (fun c => n2b (N.lxor (b2n c) 32)) (ex_deflate (conforming_objstm ex_objs)) in
  let f := bs "%PDF-1.7" ++ nl ++ objstm_with [x0d; x0a] 9 3 (conforming_first ex_objs) raw in
  decrypted (Some ex_dec) 9 raw (ex_deflate (conforming_objstm ex_objs)) /\
  map (fun ni => GetObjectFromStream ex_inflate (Some ex_dec) f (fst ni) 9 (snd ni)) [(11, 0); (12, 1); (7, 2)]
  = [Ok (bs "<</A 1>>"); Ok (bs "(text)"); Ok (bs "[1 2]")].
Proof. vm_compute. split; reflexivity. Qed.

(** C21, whole file: GetObject on a file whose startxref points to such a
    cross-reference stream returns members of object streams by their text and
    direct objects as they stand. *)
Theorem C21_compressed_file_partial : forall inflate f sn size w1 w2 w3 subs extra comp pre post rest a tail,
  f = pre ++ xref_stream_text sn size w1 w2 w3 subs extra comp ++ post ->
  f = (a ++ nl) ++ (bs "startxref" ++ nl ++ decZ (flen pre) ++ nl) ++ tail -> contains (bs "startxref") a = false -> 0 < flen pre < 2 ^ 63 ->
  0 <= sn < 2 ^ 63 -> 0 <= size < 2 ^ 63 ->
  (1 <= w1)%nat -> Z.of_nat w1 < 2 ^ 63 -> Z.of_nat w2 < 2 ^ 63 -> Z.of_nat w3 < 2 ^ 63 ->
  subs <> [] -> (forall s, In s subs -> 0 <= fst s < 2 ^ 63 /\ Z.of_nat (length (snd s)) < 2 ^ 63 /\ Forall (xref_row_ok w2 w3) (snd s)) ->
  (xref_head_length sn size w1 w2 w3 subs <= 500)%nat ->
  contains (bs "stream") extra = false -> contains (bs "/DecodeParms") (take 500 (from (flen pre) f)) = false ->
  match comp with [] => False | b :: _ => is_blank b = false end -> contains (bs "endstream") comp = false ->
  inflate (comp ++ nl) = Some (xref_data w1 w2 w3 subs ++ rest) -> (length rest < w1 + w2 + w3)%nat ->
  (forall n dec k i pre' eol objs raw raw' post' t,
    mget n (rev (stream_members subs)) = Some (k, Z.of_nat i) ->
    f = pre' ++ objstm_with eol k (Z.of_nat (length objs)) (conforming_first objs) raw ++ post' -> stream_eol eol ->
    (forall j, (j < length pre')%nat -> m_num0obj k (skipn j f) = None) ->
    decrypted dec k raw raw' -> inflate raw' = Some (conforming_objstm objs) ->
    nth_error objs i = Some (n, t) -> tidy t -> 0 <= k -> flen raw < 2 ^ 63 ->
    (forall o, In o objs -> 0 <= fst o < 2 ^ 63) -> flen (conforming_objstm objs) < 2 ^ 63 ->
    GetObject inflate dec f n = Ok t) /\
  (forall n g t pre' post', mget n (rev (stream_members subs)) = None -> mget n (rev (stream_offsets subs)) = Some (flen pre') ->
    f = pre' ++ gen_object n g t ++ post' -> 0 <= n < 2 ^ 63 -> 0 <= g < 2 ^ 63 -> readable t ->
    GetObject inflate None f n = Ok (gen_object n g t)).
Proof. exact get_compressed. Qed.
Print Assumptions C21_compressed_file_partial.

Definition ex_head : bytes := bs "%PDF-1.5" ++ nl ++ gen_object 4 2 (bs "(four)") ++ nl.
Definition ex_body : bytes := ex_head ++ objstm_with nl 9 3 (conforming_first ex_objs) (ex_deflate (conforming_objstm ex_objs)).
Definition ex_rows : list (Z * list xref_row) := [(4, [EAt 9 2]); (7, [EIn 9 2; EFree 0 0; EAt (flen ex_head) 0]); (11, [EIn 9 0; EIn 9 1])].
Definition ex_cfile : bytes := ex_body ++ xref_stream_text 10 13 1 2 1 ex_rows (bs " /Root 4 2 R") (ex_deflate (xref_data 1 2 1 ex_rows)) ++ nl ++
  (bs "startxref" ++ nl ++ decZ (flen ex_body) ++ nl) ++ bs "%%EOF".
Example C21_file_example : map (GetObject ex_inflate None ex_cfile) [11; 12; 7; 4]
  = [Ok (bs "<</A 1>>"); Ok (bs "(text)"); Ok (bs "[1 2]"); Ok (gen_object 4 2 (bs "(four)"))].
Proof. vm_compute. reflexivity. Qed.

(** C17: the object stream reader panics exactly when /First exceeds the data,
    the index is negative, or the offsets of the object and its successor are
    out of order or negative. *)
Theorem C17_object_stream_exactly : forall n idx first data,
  let entries := pairs_of (fields is_space (firstn (Z.to_nat first) data)) in
  object_in_stream n idx first data = Panic <->
  flen data < first \/
  (first <= flen data /\ idx < 0) \/
  (first <= flen data /\ 0 <= idx < Z.of_nat (length entries) /\
   exists e t, nth_error entries (Z.to_nat idx) = Some e /\
     (if fst e =? n then Some e else List.find (fun e => fst e =? n) entries) = Some t /\
     let s := first + snd t in
     let stop := match nth_error entries (S (Z.to_nat idx)) with Some nx => first + snd nx | None => flen data end in
     s < flen data /\ stop <= flen data /\ (s < 0 \/ stop < s)).
Proof. exact in_stream_panic_iff. Qed.
Print Assumptions C17_object_stream_exactly.
Example C17_no_panic_example : object_in_stream 2 1 8 (bs "1 0 2 4 (a) (bc)") = Ok (bs "(bc)").
Proof. vm_compute. reflexivity. Qed.

(** C18: when startxref points to neither a table nor an object, the object is
    searched: the result is the first place where its header stands at the
    start of the file or after white space, and an error exactly when there is
    none.  (Files without form feeds.) *)
Theorem C18_recovery : forall inflate f n d x,
  value_of (find m_startxref f) = Some d -> atoi d = Some x -> 0 < x < flen f ->
  contains (bs "obj") (take 100 (from x f)) = false -> prefixb (bs "xref") (from x f) = false ->
  0 <= n -> ~ In x0c f ->
  match FindObjectLocation inflate f n with
  | Ok (AtOffset off) => exists i, off = Z.of_nat i /\ header_at f n i /\ after_white f i /\
      forall j, (j < i)%nat -> header_at f n j -> ~ after_white f j
  | Err => forall j, header_at f n j -> ~ after_white f j
  | _ => False
  end.
Proof. exact recovery. Qed.
Print Assumptions C18_recovery.
Example C18_recovery_example :
  let f := bs "%PDF" ++ nl ++ bs "12 0 obj (x) endobj" ++ nl ++ bs "2 0 obj (y) endobj " ++ repeat "."%byte 120 ++ nl ++ bs "startxref" ++ nl ++ bs "50" ++ nl ++ bs "%%EOF" in
  FindObjectLocation ex_inflate f 2 = Ok (AtOffset 25) /\ FindObjectLocation ex_inflate f 3 = Err.
Proof. vm_compute. split; reflexivity. Qed.

(** C19: ParsePDFTrailer reads /Root and /Info from the last trailer. *)
Theorem C19_last_trailer : forall f p w d post,
  f = p ++ bs "trailer" ++ w ++ bs "<<" ++ d ++ bs ">>" ++ post ->
  white w -> balanced d -> (length d + 2 <= 5000)%nat -> contains (bs "trailer") (d ++ bs ">>" ++ post) = false ->
  exists t, ParsePDFTrailer f = Ok t /\
    (forall a v n g b, d = a ++ bs "/Root" ++ v ++ reference n g ++ b -> contains (bs "/Root") a = false ->
       v <> [] -> white v -> 0 <= n -> 0 <= g -> tRoot t = bs "/Root" ++ v ++ reference n g) /\
    (forall a v n g b, d = a ++ bs "/Info" ++ v ++ reference n g ++ b -> contains (bs "/Info") a = false ->
       v <> [] -> white v -> 0 <= n -> 0 <= g -> tInfo t = bs "/Info" ++ v ++ reference n g).
Proof. exact parse_trailer. Qed.
Print Assumptions C19_last_trailer.
Example C19_trailer_example : rmap (fun t => (tRoot t, tInfo t)) (ParsePDFTrailer (bs "trailer <</Root 9 0 R>> trailer" ++ nl ++
  bs "<</X <</Y 1>> /Root 1 0 R /Info 3 0 R>> startxref")) = Ok (bs "/Root 1 0 R", bs "/Info 3 0 R").
Proof. vm_compute. reflexivity. Qed.

(** C16: the raw bytes, the dictionary and the data of a stream object. *)
Theorem C16_stream_data : forall f pre n g d e1 data e2 post,
  f = pre ++ raw_stream n g d e1 data e2 ++ post -> 0 <= n -> 0 <= g -> balanced d -> stream_eol e1 -> data_end e2 ->
  contains (bs "stream") d = false -> contains (bs "endobj") d = false ->
  contains (bs "endobj") data = false -> contains (bs "endstream") data = false ->
  (e2 = [x0a] -> forall x, data <> x ++ [x0d]) ->
  exists o, ParseRawObject f n g (flen pre) = Ok o /\ roBytes o = raw_stream n g d e1 data e2 /\ roIsStream o = true /\
    roDict o = Some (bs "<<" ++ d ++ bs ">>") /\ roStream o = Some data.
Proof. exact raw_stream_data. Qed.
Print Assumptions C16_stream_data.
Example C16_stream_example :
  let f := bs "%PDF" ++ nl ++ raw_stream 5 1 (bs "/A <</B 2>> /Length 4") [x0d; x0a] (bs "q Q" ++ [x0a]) [x0a] in
  rmap (fun o => (roDict o, roStream o)) (ParseRawObject f 5 1 5) = Ok (Some (bs "<</A <</B 2>> /Length 4>>"), Some (bs "q Q" ++ [x0a])).
Proof. vm_compute. reflexivity. Qed.

(** C16: every revision ends after a %%EOF marker and its line ends; its
    objects lie between the end of the revision before (or the header) and
    its marker; markers increase. *)
Theorem C16_revision_bounds : forall inflate f d, ParsePDFDocument inflate f = Ok d ->
  forall k r, nth_error (dRevisions d) k = Some r ->
  prefixb (bs "%%EOF") (skipn (rvEOF r) f) = true /\ ends_after_marker f (rvEOF r) (firstn (rvEnd r) f) /\
  forall n o, DGetObjectInRevision d n (Z.of_nat k + 1) = Some o -> roOffset o < Z.of_nat (rvEOF r) /\
    match k with
    | O => Z.of_nat (header_len f) <= roOffset o
    | S j => forall r', nth_error (dRevisions d) j = Some r' -> (rvEOF r' < rvEOF r)%nat /\ Z.of_nat (rvEnd r') <= roOffset o
    end.
Proof. exact document_bounds. Qed.
Print Assumptions C16_revision_bounds.

(** The header that bounds the first revision: the version line and, if there
    is one, the comment line after it. *)
Theorem C16_header : forall f v e rest, f = bs "%PDF-" ++ v ++ e ++ rest -> (length v <= 15)%nat ->
  (forall b, In b v -> is_eol b = false) -> e <> [] -> (forall b, In b e -> is_eol b = true) ->
  match rest with [] => True | c :: _ => is_eol c = false end ->
  (length (bs "%PDF-" ++ v ++ e) <= header_len f)%nat /\
  (match rest with [] => True | c :: _ => c <> "%"%byte end -> header_len f = length (bs "%PDF-" ++ v ++ e)) /\
  (forall c e2 rest2, rest = bs "%" ++ c ++ e2 ++ rest2 -> (forall b, In b c -> is_eol b = false) -> e2 <> [] ->
     (forall b, In b e2 -> is_eol b = true) -> match rest2 with [] => True | c :: _ => is_eol c = false end ->
     header_len f = length (bs "%PDF-" ++ v ++ e ++ bs "%" ++ c ++ e2)).
Proof. exact header_lines. Qed.
Print Assumptions C16_header.
Example C16_bounds_example :
  match ParsePDFDocument ex_inflate ex_f2 with
  | Ok d => (map rvEOF (dRevisions d), map rvEnd (dRevisions d), option_map roOffset (DGetObjectInRevision d 2 2), header_len ex_f2)
  | _ => ([], [], None, 0%nat)
  end = ([137; 248]%nat, [143; 254]%nat, Some 143, 9%nat).
Proof. vm_compute. reflexivity. Qed.
