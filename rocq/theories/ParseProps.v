(** Property theorems for the parser: revisions and byte-perfect documents. *)
From Verif Require Import WriterModel WriterSpec ParseModel ParseSpec ParseProofs.
Local Open Scope Z_scope.

(** A file with two revisions: the second replaces object 3 and frees object 2. *)
Definition two_revisions : bytes := bs "%PDF-1.7
1 0 obj
<</Type/Catalog>>
endobj
2 0 obj
(two)
endobj
3 0 obj
(three)
endobj
xref
0 4
0000000000 65535 f 
0000000009 00000 n 
0000000042 00000 n 
0000000063 00000 n 
trailer
<<
/Size 4
/Root 1 0 R
>>
startxref
86
%%EOF
3 0 obj
(three, second revision)
endobj
xref
2 2
0000000000 00001 f 
0000000228 00000 n 
trailer
<<
/Size 4
/Root 1 0 R
/Prev 86
>>
startxref
268
%%EOF
".

Definition moved_object : bytes := bs "%PDF-1.7
1 0 obj
<</Type/Catalog>>
endobj
4 0 obj
<</Type/ObjStm/N 1/First 4/Length 13>>
stream
2 0 (old two)
endstream
endobj
5 0 obj
<</Type/XRef/Size 6/W [1 1 1]/Root 1 0 R/Length 18>>
stream
" ++ [x00; x00; x00; x01; x09; x00; x02; x04; x00; x00; x00; x00; x01; x2a; x00; x01; x7f; x00] ++ bs "
endstream
endobj
startxref
127
%%EOF
2 0 obj
(new two)
endobj
xref
2 1
0000000251 00000 n 
trailer
<<
/Size 6
/Root 1 0 R
/Prev 127
>>
startxref
276
%%EOF
".

(** C13 *)
Theorem C13_count : forall f, CountRevisions f = length (positions_of (bs "%%EOF") f).
Proof. exact count_revisions. Qed.
Print Assumptions C13_count.

(** Revision k+1 ends after the marker of index k; there is no other. *)
Theorem C13_extract : forall f k,
  match nth_error (positions_of (bs "%%EOF") f) k with
  | Some i => exists r, ExtractRevision f (Z.of_nat k + 1) = Ok r /\ ends_after_marker f i r
  | None => ExtractRevision f (Z.of_nat k + 1) = Err
  end.
Proof. exact extract_revision. Qed.
Print Assumptions C13_extract.

Theorem C13_numbers_start_at_one : forall f k, k < 1 -> ExtractRevision f k = Err.
Proof. exact extract_low. Qed.
Print Assumptions C13_numbers_start_at_one.

Theorem C13_increasing : forall f k k' r r', k < k' ->
  ExtractRevision f k = Ok r -> ExtractRevision f k' = Ok r' -> (length r < length r')%nat.
Proof. exact revisions_increase. Qed.
Print Assumptions C13_increasing.

Example C13_example :
  CountRevisions two_revisions = 2%nat /\
  rmap (@length byte) (ExtractRevision two_revisions 1) = Ok 228%nat /\
  ExtractRevision two_revisions 2 = Ok two_revisions /\ ExtractRevision two_revisions 3 = Err.
Proof. vm_compute. repeat split. Qed.

(** C15: the chain of /Prev offsets followed from [x] ends, for every file; no
    offset is followed twice (only the last one may repeat an earlier one). *)
Theorem C15_prev_chain : forall f x,
  exists l, prev_chain (S (S (length f))) f [] x = Some l /\ prev_path f x l /\
    (forall y, In y l -> 0 < y < flen f) /\ NoDup (x :: removelast l).
Proof. exact prev_chain_terminates. Qed.
Print Assumptions C15_prev_chain.

(** Two sections pointing at each other. *)
Definition cyclic_file : bytes := bs "%PDFxref trailer<</Prev 29>>" ++ nl ++ bs "xref trailer<</Prev 4>>".
Example C15_example : prev_chain (S (S (length cyclic_file))) cyclic_file [] 29 = Some [4; 29].
Proof. vm_compute. reflexivity. Qed.

(** C14.  [sections_at inflate f (x :: l)] are the sections of the chain,
    newest first. *)
Theorem C14_newest_direct_partial : forall inflate crypt f p objs streams secs,
  Open inflate crypt f = Ok p -> parseIncremental inflate f = Ok (objs, streams, secs) ->
  exists x l, findLastStartXRef f = Ok x /\ prev_path f x l /\
    forall n,
      (forall s, In s (sections_at inflate f (x :: l)) -> mget n (xsStreams s) = None) ->
      mget n (pXref p) = option_map AtOffset (newest_binding n (map xsObjects (sections_at inflate f (x :: l)))).
Proof. exact open_newest_direct. Qed.
Print Assumptions C14_newest_direct_partial.

Theorem C14_newest_compressed_partial : forall inflate crypt f p objs streams secs,
  Open inflate crypt f = Ok p -> parseIncremental inflate f = Ok (objs, streams, secs) ->
  exists x l, findLastStartXRef f = Ok x /\ prev_path f x l /\
    forall n si,
      newest_binding n (map xsStreams (sections_at inflate f (x :: l))) = Some si ->
      mget n (pXref p) = Some (InStream (fst si) (snd si)).
Proof. exact open_newest_compressed. Qed.
Print Assumptions C14_newest_compressed_partial.

Example C14_example :
  rbind (Open stored no_crypt two_revisions) (fun p => PGetObject stored p 3) = Ok (bs "3 0 obj
(three, second revision)
endobj").
Proof. vm_compute. reflexivity. Qed.

(** Full property refuted: an object freed by the newest revision is still found ... *)
Theorem C14_freed_object_refuted :
  rbind (Open stored no_crypt two_revisions) (fun p => PGetObject stored p 2) = Ok (bs "2 0 obj
(two)
endobj").
Proof. vm_compute. reflexivity. Qed.
Print Assumptions C14_freed_object_refuted.

(** ... and an object that moves out of an object stream keeps its old value. *)
Theorem C14_moved_object_refuted :
  rbind (Open stored no_crypt moved_object) (fun p => PGetObject stored p 2) = Ok (bs "(old two)").
Proof. vm_compute. reflexivity. Qed.
Print Assumptions C14_moved_object_refuted.

(** C16 *)
Theorem C16_bytes : forall inflate f d, ParsePDFDocument inflate f = Ok d -> DBytes d = f.
Proof. exact doc_bytes. Qed.
Print Assumptions C16_bytes.

Theorem C16_raw_objects : forall inflate f d n o,
  ParsePDFDocument inflate f = Ok d -> DGetObject d n = Some o ->
  roNumber o = n /\ 0 <= roOffset o /\ roOffset o < roEnd o <= flen f /\
  roBytes o = sub (Z.to_nat (roOffset o)) (Z.to_nat (roEnd o)) f /\
  suffixb (bs "endobj") (roBytes o) = true.
Proof. exact doc_raw. Qed.
Print Assumptions C16_raw_objects.

Theorem C16_lookup_agrees : forall d n, DGetObject d n = mget n (DAllObjects d).
Proof. exact doc_get_all. Qed.
Print Assumptions C16_lookup_agrees.

Theorem C16_count : forall d, DObjectCount d = length (mkeys (DAllObjects d)).
Proof. exact doc_count. Qed.
Print Assumptions C16_count.

Theorem C16_newest_revision : forall d n,
  DGetObject d n = newest_binding n (rev (map rvObjects (dRevisions d))).
Proof. exact doc_in_revision. Qed.
Print Assumptions C16_newest_revision.

Example C16_example :
  rmap (fun d => (DObjectCount d, option_map RContent (DGetObject d 3), option_map RContent (DGetObjectInRevision d 3 1),
                  option_map roOffset (DGetObject d 1))) (ParsePDFDocument stored two_revisions)
  = Ok (3%nat, Some (bs "(three, second revision)"), Some (bs "(three)"), Some 9).
Proof. vm_compute. reflexivity. Qed.
