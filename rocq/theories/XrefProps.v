(** Property theorems: cross-reference streams, predictors, object streams. *)
From Verif Require Import WriterModel WriterSpec ParseModel ParseSpec ParseProofs XrefProofs.
Local Open Scope Z_scope.

(** Compression used in the examples (not zlib): a marker byte in front; the
    line feed before "endstream" is dropped, as zlib ignores what follows its data. *)
Definition ex_deflate (b : bytes) : bytes := x78 :: b.
Definition ex_inflate (b : bytes) : option bytes :=
  match b with x78 :: r => Some (if suffixb nl r then firstn (length r - 1) r else r) | _ => None end.
Definition ex_order (l : list Z) : list Z := l.

(** C10: a table with direct entries [positions] (number to offset) and
    compressed entries [sm] (number to stream and index), written by the
    writer after [pre] and read back from the resulting file.  The hypotheses
    about [comp] are facts about zlib output (its first byte is 0x78) and
    exclude that the compressed bytes happen to spell a keyword the reader
    looks for; [inflate] is asked for the compressed data followed by a line
    feed.  The stream's own entry has number [next]. *)
Theorem C10_stream_roundtrip : forall deflate inflate next positions sm pre post f,
  f = pre ++ writeXRefStream deflate next (flen pre) positions sm ++ post ->
  let comp := deflate (xs_data next (flen pre) positions sm) in
  1 <= next < 2 ^ 62 -> 0 < flen pre < 2 ^ 63 ->
  (forall p, In p positions -> 0 < snd p < 2 ^ 63) ->
  (forall e, In e sm -> 0 <= fst (snd e) < 2 ^ 63 /\ 0 <= snd (snd e) < 2 ^ 63) ->
  Z.of_nat (length comp) < 2 ^ 63 ->
  match comp with [] => False | b :: _ => is_blank b = false end ->
  contains (bs "endstream") comp = false ->
  inflate (comp ++ nl) = Some (xs_data next (flen pre) positions sm) ->
  contains (bs "/Index") (take 500 (from (flen pre) f)) = false ->
  contains (bs "/DecodeParms") (take 500 (from (flen pre) f)) = false ->
  exists m s, ParseXRefStreamFull inflate f (flen pre) = Ok (m, s) /\
    forall i,
      mget i m = (if (1 <=? i) && (i <? next) && negb (mem i sm) then mget i positions
                  else if i =? next then Some (flen pre) else None) /\
      mget i s = (if (1 <=? i) && (i <? next) then mget i sm else None).
Proof. exact xref_stream_roundtrip. Qed.
Print Assumptions C10_stream_roundtrip.

(** The same for the bare entry data, with up to one incomplete entry after it. *)
Theorem C10_data_roundtrip : forall next buflen positions sm w2 w3 rest i,
  xs_widths buflen positions sm = (w2, w3) ->
  1 <= next -> 0 < buflen < 2 ^ 63 ->
  (forall i p, mget i positions = Some p -> 0 < p < 2 ^ 63) ->
  (forall i s k, mget i sm = Some (s, k) -> 0 <= s < 2 ^ 63 /\ 0 <= k < 2 ^ 63) ->
  (length rest < 1 + w2 + w3)%nat ->
  let data := xs_data next buflen positions sm ++ rest in
  let m := xref_maps 1 w2 w3
             (number_entries [(0, next + 1)] (chunks (length data) (1 + w2 + w3) data)) in
  mget i (fst m) = (if (1 <=? i) && (i <? next) && negb (mem i sm) then mget i positions
                    else if i =? next then Some buflen else None) /\
  mget i (snd m) = (if (1 <=? i) && (i <? next) then mget i sm else None).
Proof. exact xref_data_roundtrip. Qed.
Print Assumptions C10_data_roundtrip.

Definition ex_pre : bytes := bs "%PDF-1.7" ++ repeat "."%byte 300.
Definition ex_positions : zmap Z := [(1, 15); (4, 300)].
Definition ex_sm : zmap (Z * Z) := [(2, (4, 0)); (3, (4, 1))].
Definition ex_file : bytes := ex_pre ++ writeXRefStream ex_deflate 7 (flen ex_pre) ex_positions ex_sm ++ bs "startxref".
Example C10_example :
  let comp := ex_deflate (xs_data 7 (flen ex_pre) ex_positions ex_sm) in
  contains (bs "endstream") comp = false /\
  ex_inflate (comp ++ nl) = Some (xs_data 7 (flen ex_pre) ex_positions ex_sm) /\
  contains (bs "/Index") (take 500 (from (flen ex_pre) ex_file)) = false /\
  contains (bs "/DecodeParms") (take 500 (from (flen ex_pre) ex_file)) = false /\
  rmap (fun ms => (mget 1 (fst ms), mget 4 (fst ms), mget 7 (fst ms), mget 3 (snd ms), mget 5 (fst ms)))
    (ParseXRefStreamFull ex_inflate ex_file (flen ex_pre))
  = Ok (Some 15, Some 300, Some 308, Some (4, 1), None).
Proof. vm_compute. repeat split. Qed.

(** C20: rows filtered with None, Sub and Up are recovered ... *)
Theorem C20_predictor_partial : forall s p pr co columns rows rest,
  value_of (find m_decodeparms (xstr s)) = Some p ->
  value_of (find (m_key (bs "/Predictor")) p) = Some pr ->
  value_of (find (m_key (bs "/Columns")) p) = Some co ->
  10 <= atoi_clip pr <= 15 -> atoi_clip co = Z.of_nat columns ->
  xdata s = png_encode columns rows ++ rest -> rows <> [] ->
  (forall tr, In tr rows -> (tag_value (fst tr) <= 2)%N /\ length (snd tr) = columns) ->
  (length rest <= columns)%nat ->
  apply_predictor s = concat (map snd rows).
Proof. exact apply_predictor_rows. Qed.
Print Assumptions C20_predictor_partial.

Definition ex_rows : list (png_tag * bytes) :=
  [(TUp, [x01; x00; x09]); (TSub, [x01; xff; x03]); (TUp, [x02; x04; x00]); (TNone, [x00; x00; x01])].
Definition ex_xstream (data : bytes) : xstream :=
  mkXStream 1 1 1 [(0, 4)] data (bs "9 0 obj <</Type/XRef/W [1 1 1]/DecodeParms <</Columns 3/Predictor 12>>>>").
Example C20_example :
  apply_predictor (ex_xstream (png_encode 3 ex_rows)) = [x01; x00; x09; x01; xff; x03; x02; x04; x00; x00; x00; x01].
Proof. vm_compute. reflexivity. Qed.

(** ... rows filtered with Average or Paeth are not. *)
Theorem C20_average_paeth_refuted :
  let rows := [(TUp, [x01; x10; x09]); (TAverage, [x01; x20; x09])] in
  let rows' := [(TUp, [x01; x10; x09]); (TPaeth, [x01; x20; x09])] in
  apply_predictor (ex_xstream (png_encode 3 rows)) <> concat (map snd rows) /\
  apply_predictor (ex_xstream (png_encode 3 rows')) <> concat (map snd rows').
Proof. vm_compute. split; discriminate. Qed.
Print Assumptions C20_average_paeth_refuted.

(** C21 *)
Theorem C21_conforming_stream : forall inflate f pre sn objs raw post n d i,
  f = pre ++ objstm_object sn (Z.of_nat (length objs)) (conforming_first objs) raw ++ post ->
  (forall j, (j < length pre)%nat -> m_num0obj sn (skipn j f) = None) ->
  inflate raw = Some (conforming_objstm objs) ->
  nth_error objs i = Some (n, d) -> tidy d ->
  0 <= sn -> flen raw < 2 ^ 63 ->
  (forall o, In o objs -> 0 <= fst o < 2 ^ 63) -> flen (conforming_objstm objs) < 2 ^ 63 ->
  GetObjectFromStream inflate None f n sn (Z.of_nat i) = Ok d.
Proof. exact conforming_read. Qed.
Print Assumptions C21_conforming_stream.

Definition ex_objs : list (Z * bytes) := [(11, bs "<</A 1>>"); (12, bs "(text)"); (7, bs "[1 2]")].
Definition ex_objstm : bytes := bs "%PDF-1.7
" ++ objstm_object 9 3 (conforming_first ex_objs) (ex_deflate (conforming_objstm ex_objs)) ++ bs "xref".
Example C21_example : map (fun ni => GetObjectFromStream ex_inflate None ex_objstm (fst ni) 9 (snd ni)) [(11, 0); (12, 1); (7, 2)]
  = [Ok (bs "<</A 1>>"); Ok (bs "(text)"); Ok (bs "[1 2]")].
Proof. vm_compute. reflexivity. Qed.

(** Without the condition on the text before the object (no earlier match of
    its header) the wrong object is read: "19 0 obj" is taken for object 9. *)
Theorem C21_number_suffix_refuted :
  GetObjectFromStream ex_inflate None
    (objstm_object 19 1 5 (ex_deflate (bs "11 0 (wrong)")) ++ ex_objstm) 11 9 0 = Ok (bs "(wrong)").
Proof. vm_compute. reflexivity. Qed.
Print Assumptions C21_number_suffix_refuted.

(** C11 is refuted: a document written with object streams does not read back,
    because the writer's offsets include the length of the index. *)
Definition ex_writer : writer :=
  UseObjectStream true (SetRoot 1 (SetObject 2 (Some (bs "<</Type/Pages>>"))
    (SetObject 1 (Some (bs "<</Type/Catalog/Pages 2 0 R>>")) NewPDFWriter))).
Theorem C11_object_stream_refuted :
  let out := fst (Write ex_deflate ex_order None ex_writer) in
  rbind (Open ex_inflate no_crypt out) (fun p => PGetObject ex_inflate p 1) = Ok (bs "Catalog/Pages 2 0 R>>") /\
  rbind (Open ex_inflate no_crypt out) (fun p => PGetObject ex_inflate p 2) = Ok (bs "Pages>> <</Type/").
Proof. vm_compute. split; reflexivity. Qed.
Print Assumptions C11_object_stream_refuted.
