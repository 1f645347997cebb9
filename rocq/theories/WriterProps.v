(** Property theorems for the writer (core/write/writer.go). *)
From Verif Require Import WriterModel WriterSpec WriterProofs.
Local Open Scope Z_scope.

(** Compression used in the examples; the theorems hold for any. *)
Definition id_deflate (b : bytes) : bytes := x78 :: b.
Definition same_order (l : list Z) : list Z := l.

(** C06: after any sequence of calls, numbers handed out are new and
    GetObject returns what was stored last; the next number is above all. *)
Theorem C06_registry : forall deflate cs w evs,
  do_calls deflate cs NewPDFWriter [] = Ok (w, evs) ->
  fresh_numbers evs /\
  (forall n, WGetObject n w = match latest n evs with Some b => Ok b | None => Err end) /\
  (forall n, In n (map ev_num evs) -> n < NextObjectNumber w).
Proof. exact registry. Qed.
Print Assumptions C06_registry.

Definition C06_calls : list call :=
  [CDict [(bs "Type", VStr (bs "/XObject"))]; CAdd (Some (bs "a")); CSet 7 (Some (bs "b"));
   CAddStream 0 (Some (bs "data")) true; CSet 1 (Some (bs "c")); CAdd (Some (bs "d"))].
Example C06_example :
  match do_calls id_deflate C06_calls NewPDFWriter [] with
  | Ok (w, evs) => (map ev_num evs, WGetObject 1 w, WGetObject 7 w, WGetObject 8 w, WGetObject 2 w)
                   = ([9; 1; 8; 7; 1], Ok (bs "c"), Ok (bs "b"), Ok (bs "xdata"), Err)
  | _ => False
  end.
Proof. vm_compute. reflexivity. Qed.

(** C07 *)
Theorem C07_xref_table : forall deflate order enc w out,
  is_order order -> useXRefStream w = false -> useObjectStream w = false ->
  fst (Write deflate order enc w) = out ->
  Z.of_nat (length out) < 10 ^ 10 ->
  exists x body, out = body ++ startxref_text x /\
    table_ok out x (nextObjNum w) (fun i => mem i (objects w))
      (fun i t => enc = None -> stored_text (updateCatalogWithOutlines w) i t).
Proof. exact write_table. Qed.
Print Assumptions C07_xref_table.

Definition C07_writer : writer :=
  SetRoot 1 (SetObject 4 (Some (bs "(x)")) (SetObject 1 (Some (bs "<</Type/Catalog>>")) NewPDFWriter)).
Example C07_example :
  fst (Write id_deflate same_order None C07_writer) = bs "%PDF-1.7
" ++ [x25; xe2; xe3; xcf; xd3; x0a] ++ bs "1 0 obj
<</Type/Catalog>>
endobj
4 0 obj
(x)
endobj
xref
0 5
0000000000 65535 f 
0000000015 00000 n 
0000000000 00001 f 
0000000000 00001 f 
0000000048 00000 n 
trailer
<<
/Size 5
/Root 1 0 R
>>
startxref
67
%%EOF
".
Proof. vm_compute. reflexivity. Qed.

(** The 10^10 limit is needed: beyond it an entry is longer than 20 bytes. *)
Theorem C07_big_offset_entry : forall i p positions,
  mget i positions = Some p -> 10 ^ 10 <= p -> length (table_entry positions i) <> 20%nat.
Proof. exact table_entry_too_long. Qed.
Print Assumptions C07_big_offset_entry.

(** C09 *)
Theorem C09_map_order : forall deflate o1 o2 enc w,
  is_order o1 -> is_order o2 -> useObjectStream w = false ->
  Write deflate o1 enc w = Write deflate o2 enc w.
Proof. exact write_order. Qed.
Print Assumptions C09_map_order.

Theorem C09_dictionary_order : forall v v', same_value v v' -> formatValue v = formatValue v'.
Proof. exact same_value_format. Qed.
Print Assumptions C09_dictionary_order.

Theorem C09_write_twice_partial : forall deflate order w,
  is_order order -> useXRefStream w = false -> useObjectStream w = false ->
  fst (Write deflate order None (snd (Write deflate order None w))) = fst (Write deflate order None w).
Proof. exact write_twice. Qed.
Print Assumptions C09_write_twice_partial.

(** Missing: with object streams the bytes depend on the map order ... *)
Theorem C09_object_stream_order_refuted : exists w o1 o2,
  is_order o1 /\ is_order o2 /\
  fst (Write id_deflate o1 None w) <> fst (Write id_deflate o2 None w).
Proof.
  exists (UseObjectStream true (SetObject 2 (Some (bs "b")) (SetObject 1 (Some (bs "a")) NewPDFWriter))).
  exists (fun l => l), (@rev Z). split; [intros l; reflexivity|]. split; [intros l; symmetry; apply Permutation_rev|].
  vm_compute. discriminate.
Qed.
Print Assumptions C09_object_stream_order_refuted.

(** ... and with a cross-reference stream the second Write differs. *)
Theorem C09_write_twice_xref_stream_refuted : exists w, useObjectStream w = false /\
  fst (Write id_deflate same_order None (snd (Write id_deflate same_order None w)))
    <> fst (Write id_deflate same_order None w).
Proof.
  exists (UseXRefStream true (SetObject 1 (Some (bs "a")) NewPDFWriter)). split; [reflexivity|].
  vm_compute. discriminate.
Qed.
Print Assumptions C09_write_twice_xref_stream_refuted.

Example C09_example :
  is_order (@rev Z) /\
  fst (Write id_deflate (@rev Z) None C07_writer) = fst (Write id_deflate same_order None C07_writer) /\
  same_value (VDict [(bs "a", VInt 1); (bs "b", VArr [VDict [(bs "x", VInt 2); (bs "y", VInt 3)]])])
             (VDict [(bs "b", VArr [VDict [(bs "y", VInt 3); (bs "x", VInt 2)]]); (bs "a", VInt 1)]).
Proof.
  split; [intros l; symmetry; apply Permutation_rev|]. split; [vm_compute; reflexivity|].
  eapply sv_dict with (d1 := [(bs "a", VInt 1); (bs "b", VArr [VDict [(bs "y", VInt 3); (bs "x", VInt 2)]])]).
  - constructor; [split; [reflexivity|apply sv_refl]|]. constructor; [|constructor].
    split; [reflexivity|]. apply sv_arr. constructor; [|constructor].
    eapply sv_dict with (d1 := [(bs "x", VInt 2); (bs "y", VInt 3)]).
    + repeat constructor.
    + apply perm_swap.
    + repeat constructor; cbn; intuition discriminate.
  - apply perm_swap.
  - repeat constructor; cbn; intuition discriminate.
Qed.

(** C53: the map given with a stream states that stream's length, as long as
    the caller gives each stream its own map. *)
Theorem C53_stream_length_partial : forall deflate cs w evs a l,
  do_calls deflate cs NewPDFWriter [] = Ok (w, evs) ->
  latest_length a evs = Some l ->
  exists d, mget a (dicts w) = Some d /\ kget (bs "Length") d = Some (VInt l).
Proof. exact stream_lengths. Qed.
Print Assumptions C53_stream_length_partial.

(** Missing: one map passed for two streams gives the first stream the second
    stream's length. *)
Theorem C53_shared_dictionary_refuted : exists cs w evs,
  do_calls id_deflate cs NewPDFWriter [] = Ok (w, evs) /\
  WGetObject 1 w = Ok (bs "abcdef") /\ stored_text w 1 (bs "<</Length 1 >>
stream
abcdef
endstream").
Proof.
  exists [CDict []; CAddStream 0 (Some (bs "abcdef")) false; CAddStream 0 (Some (bs "x")) false].
  eexists. eexists. split; [reflexivity|]. split; [vm_compute; reflexivity|].
  eexists. split; [reflexivity|]. vm_compute. reflexivity.
Qed.
Print Assumptions C53_shared_dictionary_refuted.

(** C54: a stream without data loses its dictionary in the output. *)
Theorem C54_nil_stream_refuted : exists cs w evs,
  do_calls id_deflate cs NewPDFWriter [] = Ok (w, evs) /\
  evs = [mkEvent true 1 None (Some 0)] /\ mget 0 (dicts w) = Some [(bs "Type", VStr (bs "/XObject")); (bs "Length", VInt 0)] /\
  stored_text w 1 [].
Proof.
  exists [CDict [(bs "Type", VStr (bs "/XObject"))]; CAddStream 0 None true].
  eexists. eexists. split; [reflexivity|]. split; [reflexivity|]. split; [vm_compute; reflexivity|].
  eexists. split; reflexivity.
Qed.
Print Assumptions C54_nil_stream_refuted.

(** ... while with data, empty or not, the dictionary and the data are written. *)
Theorem C54_stream_text : forall deflate n a d data cmp w w',
  mget a (dicts w) = Some d ->
  SetStreamObject deflate n a (Some data) cmp w = Ok w' ->
  exists s d', stored_bytes deflate (Some data) cmp = Some s /\ mget a (dicts w') = Some d' /\
    kget (bs "Length") d' = Some (VInt (Z.of_nat (length s))) /\
    (forall k, k <> bs "Length" -> k <> bs "Filter" -> kget k d' = kget k d) /\
    stored_text w' n (formatDictionary d' ++ bs "
stream
" ++ s ++ bs "
endstream").
Proof. exact set_stream_text. Qed.
Print Assumptions C54_stream_text.

(** C55: adding bookmarks to a document whose catalog was given as text
    replaces the page tree reference by a broken one and drops other keys. *)
Theorem C55_outlines_catalog_refuted : exists c c',
  c = bs "<</Type/Catalog/Pages 2 0 R/Lang(en)>>" /\
  stored_text (updateCatalogWithOutlines (set_outlines 9 (SetRoot 1 (SetObject 1 (Some c) NewPDFWriter)))) 1 c' /\
  c' = bs "<</Outlines 9 0 R /Pages (2) /Type /Catalog >>".
Proof.
  eexists. eexists. split; [reflexivity|]. split; [|reflexivity].
  eexists. split; [reflexivity|]. vm_compute. reflexivity.
Qed.
Print Assumptions C55_outlines_catalog_refuted.
