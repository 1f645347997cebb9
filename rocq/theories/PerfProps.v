(** C119.  The byte-perfect mode of the parse API. *)
From Verif Require Import Util WriterSpec ParseModel ParseSpec ParseProps PerfModel PerfSpec PerfProofs.
Local Open Scope Z_scope.

(** Byte-perfect means byte-perfect: what comes back is the file. *)
Theorem C119_bytes : forall inflate crypt f p, OpenPerfect inflate crypt f = Ok p -> QBytes p = f /\ QRaw p = f.
Proof. exact perfect_bytes. Qed.
Print Assumptions C119_bytes.

(** An object is there exactly if some revision holds it, exactly if its raw
    object can be asked for; and that is the one of the last revision that
    holds it. *)
Theorem C119_lookup : forall inflate crypt f p n, OpenPerfect inflate crypt f = Ok p ->
  (QHasObject p n = true <-> exists o, QGetRawObject p n = Ok o) /\
  (QHasObject p n = true <-> in_some_revision (qDoc p) n) /\
  (forall o, QGetRawObject p n = Ok o <-> in_last_revision (qDoc p) n o).
Proof. exact listed_iff. Qed.
Print Assumptions C119_lookup.

(** The list of objects, whatever the order of the Go map: every object that is
    there, once. *)
Theorem C119_list : forall inflate crypt f p order, is_order order -> OpenPerfect inflate crypt f = Ok p ->
  NoDup (QObjects order p) /\ (forall n, In n (QObjects order p) <-> QHasObject p n = true) /\ length (QObjects order p) = QObjectCount p.
Proof. exact objects_listed. Qed.
Print Assumptions C119_list.

(** GetObject reads at the place of the raw object, with the decryption the
    password opened (none if the document is not encrypted); what is not there
    cannot be read either way. *)
Theorem C119_place : forall inflate crypt f p n, OpenPerfect inflate crypt f = Ok p ->
  (forall o, QGetRawObject p n = Ok o -> QGetObject p n = GetDirectObject (qDec p) f n (roOffset o)) /\
  (QHasObject p n = false -> QGetObject p n = Err /\ QGetRawObject p n = Err) /\
  (if mentions_encrypt f then crypt f = Ok (qDec p) else qDec p = None).
Proof. exact read_place. Qed.
Print Assumptions C119_place.

(** Both ways to read an object of a document that is not encrypted give its
    text: GetObject all of it up to "endobj" (up to "endstream" for a stream),
    Content without the white space at the end. *)
Theorem C119_read_partial : forall inflate crypt f p n g ws t t1 o, OpenPerfect inflate crypt f = Ok p -> mentions_encrypt f = false ->
  QGetRawObject p n = Ok o -> 0 <= n < 2 ^ 63 -> 0 <= g < 2 ^ 63 ->
  roBytes o = object_bytes n g ws t -> blanks ws -> starts_here t -> cut_after_stream t t1 ->
  QGetObject p n = Ok (given_text n g t1) /\ trimmed_end t (RContent o).
Proof. exact both_readings. Qed.
Print Assumptions C119_read_partial.

(** The number of revisions is that of the markers that could be read; the
    other mode counts every marker. *)
Theorem C119_revisions_partial : forall inflate crypt f p, OpenPerfect inflate crypt f = Ok p ->
  (1 <= QRevisionCount p <= length (FindAllEOFMarkers f))%nat.
Proof. exact revision_counts. Qed.
Print Assumptions C119_revisions_partial.

(** The hypotheses are met. *)
Example C119_example :
  rmap (fun p => (QRevisionCount p, map (QHasObject p) [1; 2; 3; 4])) (OpenPerfect stored no_crypt two_revisions) = Ok (2%nat, [true; true; true; false]) /\
  rbind (OpenPerfect stored no_crypt two_revisions) (fun p => QGetObject p 3) = Ok (given_text 3 0 (bs "(three, second revision)
")) /\
  rbind (OpenPerfect stored no_crypt two_revisions) (fun p => rmap roBytes (QGetRawObject p 3)) = Ok (object_bytes 3 0 [x0a] (bs "(three, second revision)
")).
Proof. vm_compute. repeat split. Qed.
Example C119_example_stream : forall p, OpenPerfect stored no_crypt (firstn 251 moved_object) = Ok p -> exists t t1 o, QGetRawObject p 4 = Ok o /\
  roBytes o = object_bytes 4 0 [x0a] t /\ starts_here t /\ cut_after_stream t t1 /\ QGetObject p 4 = Ok (given_text 4 0 t1).
Proof.
  intros p H. vm_compute in H. injection H as <-.
  exists (bs "<</Type/ObjStm/N 1/First 4/Length 13>>
stream
2 0 (old two)
endstream
"), (bs "<</Type/ObjStm/N 1/First 4/Length 13>>
stream
2 0 (old two)
endstream").
  eexists. split; [vm_compute; reflexivity|]. split; [vm_compute; reflexivity|]. split; [reflexivity|]. split; [|vm_compute; reflexivity].
  right. exists (bs "<</Type/ObjStm/N 1/First 4/Length 13>>
stream
2 0 (old two)
"), [x0a]. split; [reflexivity|]. split; vm_compute; reflexivity.
Qed.

(** The two modes are not two views of one document.  An object in an object
    stream is there in the standard mode only ... *)
Theorem C119_compressed_refuted :
  rmap (fun p => PHasObject p 2) (Open stored no_crypt (firstn 251 moved_object)) = Ok true /\
  rmap (fun p => QHasObject p 2) (OpenPerfect stored no_crypt (firstn 251 moved_object)) = Ok false.
Proof. vm_compute. split; reflexivity. Qed.
Print Assumptions C119_compressed_refuted.
(** ... one that moved out of an object stream has its new text in the
    byte-perfect mode only ... *)
Theorem C119_moved_refuted :
  rbind (Open stored no_crypt moved_object) (fun p => PGetObject stored p 2) = Ok (bs "(old two)") /\
  rbind (OpenPerfect stored no_crypt moved_object) (fun p => QGetObject p 2) = Ok (given_text 2 0 (bs "(new two)
")).
Proof. vm_compute. split; reflexivity. Qed.
Print Assumptions C119_moved_refuted.
(** ... and they count the revisions differently when there is a marker of the
    end of a file in a comment. *)
Definition stray_marker : bytes := bs "%PDF-1.7
%%EOF
1 0 obj
<</Type/Catalog>>
endobj
2 0 obj
(old)
endobj
xref
0 3
0000000000 65535 f 
0000000015 00000 n 
0000000048 00000 n 
trailer
<<
/Size 3
/Root 1 0 R
>>
startxref
69
%%EOF
".
Theorem C119_count_refuted :
  rmap PRevisionCount (Open stored no_crypt stray_marker) = Ok 2%nat /\
  rmap QRevisionCount (OpenPerfect stored no_crypt stray_marker) = Ok 1%nat.
Proof. vm_compute. split; reflexivity. Qed.
Print Assumptions C119_count_refuted.
(** Nor do the two ways to read an object agree: if its offset is one byte
    early, GetObject looks for the number up to 100 bytes before and finds
    object 12 for object 2, while the raw object is the right one. *)
Definition early_offset : bytes := bs "%PDF-1.7
1 0 obj
<</Type/Catalog>>
endobj
12 0 obj
(twelve)
endobj
2 0 obj
(two)
endobj
xref
0 3
0000000000 65535 f 
0000000009 00000 n 
0000000066 00000 n 
12 1
0000000042 00000 n 
trailer
<<
/Size 13
/Root 1 0 R
>>
startxref
88
%%EOF
".
Theorem C119_same_object_refuted :
  rbind (OpenPerfect stored no_crypt early_offset) (fun p => QGetObject p 2) = Ok (given_text 2 0 (bs "(twelve)
")) /\
  rbind (OpenPerfect stored no_crypt early_offset) (fun p => rmap RContent (QGetRawObject p 2)) = Ok (bs "(two)").
Proof. vm_compute. split; reflexivity. Qed.
Print Assumptions C119_same_object_refuted.
