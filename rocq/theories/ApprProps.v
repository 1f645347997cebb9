(** Property theorems: the appearance of a form field (C103). *)
From Verif Require Import Util WriterModel WriterSpec WriterProps ParseModel ParseSpec ReadProofs FormsModel ActsModel ActsSpec ApprModel ApprSpec ApprProofs.
Local Open Scope Z_scope.

(** C103, full statement: GetFieldAppearance gives the drawing of a field: the
    data of the stream that the field names as its normal appearance (the one of
    its state, when there are several), as it was before it was compressed. *)

(** Missing: the data is one line, is not compressed, and there is only one
    appearance. *)
Theorem C103_one_line_partial : forall get n t p q h d b,
  get n = Ok t -> shows t p q -> get p = Ok (stream_object h d b) ->
  contains (bs "stream") h = false -> clean_data d -> none_of x0a d -> GetFieldAppearance get n = Ok d.
Proof. exact one_line. Qed.
Print Assumptions C103_one_line_partial.
Theorem C103_no_panic : forall get n, (forall m, get m <> Panic) -> GetFieldAppearance get n <> Panic.
Proof. exact never_panics. Qed.
Print Assumptions C103_no_panic.
(** A drawing of more than one line is not found: the answer is the whole
    object, its number and dictionary included. *)
Theorem C103_lines_refuted : forall get n t p q h d b,
  get n = Ok t -> shows t p q -> get p = Ok (stream_object h d b) ->
  contains (bs "stream") h = false -> clean_data d -> In x0a d -> contains (bs "stream") b = false ->
  GetFieldAppearance get n = Ok (stream_object h d b).
Proof. exact more_lines. Qed.
Print Assumptions C103_lines_refuted.
(** A field with an appearance for each of its states is said to have none. *)
Theorem C103_states_refuted : forall get n t, get n = Ok t -> shows_states t -> GetFieldAppearance get n = Err.
Proof. exact states_none. Qed.
Print Assumptions C103_states_refuted.
(** Of every document this library writes with an appearance that it made, the
    compressed data comes back, or the whole object when there happens to be a
    line feed in the compressed data. *)
Theorem C103_compressed_refuted : forall deflate order inflate w out n t p q d content,
  is_order order -> useXRefStream w = false -> useObjectStream w = false -> encryptRef w = None -> outlinesRef w = None ->
  1 <= nextObjNum w <= 499 -> all_readable w ->
  fst (Write deflate order None w) = out -> Z.of_nat (length out) < 10 ^ 10 ->
  1 <= n < nextObjNum w -> stored_text w n t -> shows t p q ->
  1 <= p < nextObjNum w -> form_xobject deflate w p d content ->
  let z := deflate content in
  let head := formatDictionary (d ++ [(bs "Filter", VStr (bs "/FlateDecode")); (bs "Length", VInt (Z.of_nat (length z)))]) in
  contains (bs "stream") head = false -> clean_data z ->
  (none_of x0a z -> GetFieldAppearance (GetObject inflate None out) n = Ok z) /\
  (In x0a z -> GetFieldAppearance (GetObject inflate None out) n = Ok (object_text p (head ++ nl ++ bs "stream" ++ nl ++ z ++ nl ++ bs "endstream"))).
Proof. exact written_shown. Qed.
Print Assumptions C103_compressed_refuted.

Definition ex_objects (o : bytes) (n : Z) : result bytes :=
  if n =? 4 then Ok (bs "4 0 obj
<< /FT /Tx /T (a) /AP << /D 6 0 R /N 5 0 R >> /MK << >> >>
endobj") else if n =? 5 then Ok o else
  if n =? 6 then Ok (bs "6 0 obj
<< /FT /Btn /T (b) /AP << /N << /Yes 5 0 R /Off 7 0 R >> >> /AS /Yes >>
endobj") else Err.
Definition ex_stream (d : bytes) : bytes := stream_object (bs "5 0 obj
<< /Subtype /Form >>
") d (bs "
endobj").
Example C103_example :
  shows (match ex_objects [] 4 with Ok t => t | _ => [] end) 5 0 /\
  shows_states (match ex_objects [] 6 with Ok t => t | _ => [] end) /\
  clean_data (bs "0 0 m 9 9 l S") /\
  GetFieldAppearance (ex_objects (ex_stream (bs "0 0 m 9 9 l S"))) 4 = Ok (bs "0 0 m 9 9 l S") /\
  GetFieldAppearance (ex_objects (ex_stream (bs "0 0 m
S"))) 4 = Ok (bs "5 0 obj
<< /Subtype /Form >>
stream
0 0 m
S
endstream
endobj") /\
  GetFieldAppearance (ex_objects (ex_stream (bs "S"))) 6 = Err.
Proof.
  split.
  { split; [lia|]. split; [lia|].
    exists (bs "4 0 obj
<< /FT /Tx /T (a) "), (bs " "), (bs " /D 6 0 R "), (bs " "), (bs " "), (bs " "), (bs " "), (bs " /MK << >> >>
endobj"). repeat split; (reflexivity || discriminate). }
  split.
  { exists (bs "6 0 obj
<< /FT /Btn /T (b) "), (bs " "), (bs " "), (bs " "), (bs " /Yes 5 0 R /Off 7 0 R "), (bs " >> /AS /Yes >>
endobj"). repeat split; reflexivity. }
  split; [split; reflexivity|]. repeat split; vm_compute; reflexivity.
Qed.
(** A document with a text field and its appearance; nothing is compressed here. *)
Definition ex_drawn : writer :=
  let w := SetRoot 1 (SetObject 2 (Some (bs "<< /FT /Tx /T (a) >>")) (SetObject 1 (Some (bs "<</Type/Catalog>>")) NewPDFWriter)) in
  let (n, w) := add_stream id_deflate (drawing (bs "9") (bs "9")) (Some (bs "S")) true w in
  match AddAppearanceToField 2 n w with Ok w => w | _ => w end.
Example C103_example2 : is_order same_order /\ all_readable ex_drawn /\ nextObjNum ex_drawn = 4 /\
  stored_text ex_drawn 2 (bs "<< /FT /Tx /T (a) /AP << /N 3 0 R >> >>") /\
  form_xobject id_deflate ex_drawn 3 (drawing (bs "9") (bs "9")) (bs "S") /\
  GetFieldAppearance (GetObject (fun _ => None) None (fst (Write id_deflate same_order None ex_drawn))) 2 = Ok (id_deflate (bs "S")).
Proof.
  split; [intros l; apply Permutation_refl|]. split.
  { split; [reflexivity|]. split; [reflexivity|]. intros n t [o [H T]].
    let l := eval vm_compute in (objects (updateCatalogWithOutlines ex_drawn)) in change (objects (updateCatalogWithOutlines ex_drawn)) with l in H.
    cbn [mget fst snd] in H.
    repeat match type of H with context [if ?c then _ else _] => destruct c end; try discriminate H; injection H as <-;
      vm_compute in T; subst t; (repeat split; try reflexivity; first [left; reflexivity | right; reflexivity]). }
  split; [reflexivity|]. split; [eexists; split; [vm_compute; reflexivity|vm_compute; reflexivity]|].
  split; [eexists; split; vm_compute; reflexivity|]. vm_compute. reflexivity.
Qed.
