(** The pieces of a byte-perfect document: revisions, objects, header (C109),
    cross-reference section and trailer (C110). *)
From Verif Require Import WriterModel WriterSpec WriterProps ParseModel ParseSpec ParseProps ReadProps PieceModel PieceSpec PieceProofs.
Local Open Scope Z_scope.

(* ---------------------------------------------------------------- *)
(** C109 *)

(** Whatever the file, every object of every revision is the part of the file
    between its two offsets, ends in the first "endobj" and begins before the
    end-of-file marker of its revision. *)
Theorem C109_objects : forall inflate f d r o, ParsePDFDocument inflate f = Ok d -> In r (dRevisions d) -> revision_object r o ->
  0 <= roOffset o < Z.of_nat (rvEOF r) /\ part f (roOffset o) (roEnd o) (roBytes o) /\
  exists t, roBytes o = t ++ bs "endobj" /\ index (bs "endobj") (roBytes o) = Some (length t).
Proof. exact revision_objects_ok. Qed.
Print Assumptions C109_objects.

(** The bytes of a revision are the part of the file from its first object or
    cross-reference section to the end of its end-of-file marker. *)
Theorem C109_revision_bytes : forall inflate f d r order, is_order order -> ParsePDFDocument inflate f = Ok d -> In r (dRevisions d) ->
  rvStartXRef r <= Z.of_nat (rvEnd r) \/ (exists o, revision_object r o) ->
  exists s t, revision_start r s /\ RevisionBytes order (dRaw d) r = Ok (Some t) /\ part f s (Z.of_nat (rvEnd r)) t /\
    ends_after_marker f (rvEOF r) (firstn (rvEnd r) f).
Proof. exact revision_bytes_ok. Qed.
Print Assumptions C109_revision_bytes.

(** Otherwise - and only then - asking for them panics. *)
Theorem C109_panic_refuted : forall inflate f d r order, is_order order -> ParsePDFDocument inflate f = Ok d -> In r (dRevisions d) ->
  RevisionBytes order (dRaw d) r = Panic <-> Z.of_nat (rvEnd r) < rvStartXRef r /\ forall o, ~ revision_object r o.
Proof. exact revision_bytes_panic. Qed.
Print Assumptions C109_panic_refuted.

Definition forward_file : bytes := bs "%PDF-1.4
startxref
32
%%EOF
% c
xref
0 1
0000000000 65535 f 
trailer
<<>>
startxref
32
%%EOF
".
Definition map_results {A B} (g : A -> B) (r : result (list A)) : result (list B) := rmap (map g) r.
Example C109_panic_example :
  map_results (RevisionBytes same_order forward_file) (rmap dRevisions (ParsePDFDocument stored forward_file)) =
  Ok [Panic; Ok (Some (skipn 32 forward_file))].
Proof. vm_compute. reflexivity. Qed.

(** The objects of a revision come after the revision before it, and so does
    the whole revision if its cross-reference section does. *)
Theorem C109_revisions_follow : forall inflate f d a r r' b s, ParsePDFDocument inflate f = Ok d -> dRevisions d = a ++ r :: r' :: b ->
  (forall o, revision_object r' o -> Z.of_nat (rvEnd r) <= roOffset o) /\
  (Z.of_nat (rvEnd r) <= rvStartXRef r' -> revision_start r' s -> Z.of_nat (rvEnd r) <= s).
Proof. exact revisions_follow. Qed.
Print Assumptions C109_revisions_follow.

Example C109_example : exists d h,
  ParsePDFDocument stored two_revisions = Ok d /\ length (dRevisions d) = 2%nat /\ ParsePDFHeader two_revisions = Ok h /\
  exists t1 t2, map (RevisionBytes same_order two_revisions) (dRevisions d) = [Ok (Some t1); Ok (Some t2)] /\
    two_revisions = hRaw h ++ t1 ++ t2.
Proof.
  eexists. eexists. split; [vm_compute; reflexivity|]. split; [reflexivity|]. split; [vm_compute; reflexivity|].
  eexists. eexists. split; [vm_compute; reflexivity|]. vm_compute. reflexivity.
Qed.

(** If it does not - a second marker after the first, say, that names the same
    section - the bytes of the two revisions overlap. *)
Definition repeated_footer : bytes := bs "%PDF-1.4
1 0 obj
<<>>
endobj
xref
0 2
0000000000 65535 f 
0000000009 00000 n 
trailer
<<>>
startxref
29
%%EOF
startxref
29
%%EOF
".
Theorem C109_overlap_refuted :
  map_results (RevisionBytes same_order repeated_footer) (rmap dRevisions (ParsePDFDocument stored repeated_footer)) =
  Ok [Ok (Some (sub 9 110 repeated_footer)); Ok (Some (skipn 29 repeated_footer))].
Proof. vm_compute. reflexivity. Qed.
Print Assumptions C109_overlap_refuted.

(** The bytes of an object need not begin with its header: the reader accepts
    a header somewhere in the next 50 bytes. *)
Definition shifted_file : bytes := bs "%PDF-1.4
junk 1 0 obj
<<>>
endobj
xref
0 2
0000000000 65535 f 
0000000009 00000 n 
trailer
<<>>
startxref
34
%%EOF
".
Theorem C109_object_header_refuted : exists d o,
  ParsePDFDocument stored shifted_file = Ok d /\ DGetObject d 1 = Some o /\ roBytes o = bs "junk 1 0 obj
<<>>
endobj".
Proof. eexists. eexists. split; [vm_compute; reflexivity|]. split; [vm_compute; reflexivity|]. vm_compute. reflexivity. Qed.
Print Assumptions C109_object_header_refuted.

(** A document written by this library is its header followed by its one
    revision; nothing is left over. *)
Theorem C109_written_partial : forall deflate order inflate w out order',
  is_order order -> useXRefStream w = false -> useObjectStream w = false -> encryptRef w = None ->
  1 <= nextObjNum w -> plain_version (pdfVersion w) = true ->
  (forall n, mem n (objects w) = true -> 1 <= n < nextObjNum w) ->
  (forall n t, stored_text (updateCatalogWithOutlines w) n t -> plain t) ->
  fst (Write deflate order None w) = out -> Z.of_nat (length out) < 10 ^ 10 -> is_order order' ->
  exists d r h t, ParsePDFDocument inflate out = Ok d /\ dRevisions d = [r] /\
    ParsePDFHeader out = Ok h /\ RevisionBytes order' out r = Ok (Some t) /\
    hRaw h = pdf_header (pdfVersion w) /\ hRaw h ++ t = out.
Proof. exact written_tiles. Qed.
Print Assumptions C109_written_partial.

Example C109_written_example : let w := C08_writer (bs "<</A (b)>>") in
  useXRefStream w = false /\ useObjectStream w = false /\ encryptRef w = None /\ 1 <= nextObjNum w /\ plain_version (pdfVersion w) = true /\
  (forall n, mem n (objects w) = true -> 1 <= n < nextObjNum w) /\
  (forall n t, stored_text (updateCatalogWithOutlines w) n t -> plain t).
Proof.
  cbv zeta. repeat (split; [first [reflexivity|vm_compute; discriminate]|]). split.
  - intros n. unfold mem. 
    change (objects (C08_writer (bs "<</A (b)>>")))
    with (mset 3 (mkObj (Some (bs "(three)")) None None) (mset 2 (mkObj (Some (bs "<</A (b)>>")) None None)
          [(1, mkObj (Some (bs "<</Type/Catalog>>")) None None)])).
    change (nextObjNum (C08_writer (bs "<</A (b)>>"))) with 4.
    rewrite !mget_mset. destruct (n =? 3) eqn:E3; [lia|]. destruct (n =? 2) eqn:E2; [lia|]. cbn [mget fst snd]. destruct (n =? 1) eqn:E1; [lia|discriminate].
  - intros n t H. destruct (C08_example_readable) as (_ & _ & R). 
    destruct H as [o [H T]].
    change (objects (updateCatalogWithOutlines (C08_writer (bs "<</A (b)>>"))))
      with (mset 3 (mkObj (Some (bs "(three)")) None None) (mset 2 (mkObj (Some (bs "<</A (b)>>")) None None)
          [(1, mkObj (Some (bs "<</Type/Catalog>>")) None None)])) in H.
    rewrite !mget_mset in H.
    destruct (n =? 3); [|destruct (n =? 2); [|cbn [mget fst snd] in H; destruct (n =? 1); [|discriminate H]]];
    injection H as <-; cbn in T; subst t; repeat split; reflexivity.
Qed.

(** The header says the version. *)
Theorem C109_header_version : forall a b s, 0 <= a < 2 ^ 63 -> 0 <= b < 2 ^ 63 ->
  let v := decZ a ++ bs "." ++ decZ b in (length v <= 15)%nat ->
  match s with [] => True | c :: _ => is_eol c = false end ->
  ParsePDFHeader (pdf_header v ++ s) = Ok (mkHeader v a b (pdf_header v)).
Proof. exact header_values. Qed.
Print Assumptions C109_header_version.
Example C109_header_example : rmap (fun h => (hMajor h, hMinor h, hRaw h)) (ParsePDFHeader (pdf_header (bs "1.7") ++ bs "1 0 obj")) = Ok (1, 7, pdf_header (bs "1.7")).
Proof. reflexivity. Qed.

(* ---------------------------------------------------------------- *)
(** C110 *)

(** A classic cross-reference section, its trailer and the keyword startxref
    follow each other without a gap. *)
Theorem C110_sections : forall f x t, 0 <= x < flen f -> prefixb (bs "xref") (from x f) = true -> index (bs "trailer") (from x f) = Some t ->
  exists a td rest, XRefRaw f x = Ok a /\ ParseTrailerDataRaw f x = Ok td /\ from x f = a ++ tdRaw td ++ rest /\ tdOffset td = x + flen a /\
    prefixb (bs "trailer") (tdRaw td) = true /\ (rest = [] \/ prefixb (bs "startxref") rest = true).
Proof. exact sections_tile. Qed.
Print Assumptions C110_sections.
Example C110_sections_example : prefixb (bs "xref") (from 86 two_revisions) = true /\ index (bs "trailer") (from 86 two_revisions) = Some 89%nat /\
  ParseTrailerDataRaw two_revisions 268 = Ok (mkTD 317 (bs "trailer
<<
/Size 4
/Root 1 0 R
/Prev 86
>>
") 4 (bs "1 0 R") [] [] 86).
Proof. vm_compute. repeat split. Qed.

(** The trailer of a written document says its size, root and information
    dictionary. *)
Theorem C110_written_partial : forall deflate order inflate w out,
  is_order order -> useXRefStream w = false -> useObjectStream w = false -> encryptRef w = None ->
  1 <= nextObjNum w < 2 ^ 63 -> plain_version (pdfVersion w) = true ->
  (forall n, mem n (objects w) = true -> 1 <= n < nextObjNum w) ->
  (forall n t, stored_text (updateCatalogWithOutlines w) n t -> plain t) ->
  fst (Write deflate order None w) = out -> Z.of_nat (length out) < 10 ^ 10 ->
  no_negative (rootRef w) -> no_negative (infoRef w) ->
  exists d r x td, ParsePDFDocument inflate out = Ok d /\ dRevisions d = [r] /\
    XRefRaw out (rvStartXRef r) = Ok x /\ ParseTrailerDataRaw out (rvStartXRef r) = Ok td /\
    tdOffset td = rvStartXRef r + flen x /\ tdSize td = nextObjNum w /\ tdRoot td = ref_or_nothing (rootRef w) /\
    tdInfo td = ref_or_nothing (infoRef w) /\ tdEncrypt td = [] /\ tdPrev td = 0.
Proof. exact written_trailer. Qed.
Print Assumptions C110_written_partial.
Example C110_written_example : ref_or_nothing (rootRef (C08_writer (bs "<</A (b)>>"))) = bs "1 0 R" /\
  rmap tdRoot (ParseTrailerDataRaw (C08_out (bs "<</A (b)>>")) 92) = Ok (bs "1 0 R") /\ rmap tdSize (ParseTrailerDataRaw (C08_out (bs "<</A (b)>>")) 92) = Ok 4.
Proof. vm_compute. repeat split. Qed.

(** Asking for a trailer outside the file panics. *)
Theorem C110_outside_refuted : forall f x, x < 0 \/ flen f < x -> ParseTrailerDataRaw f x = Panic.
Proof. exact trailer_outside. Qed.
Print Assumptions C110_outside_refuted.
