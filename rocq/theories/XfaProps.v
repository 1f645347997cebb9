(** C80-C83: XFA streams built, read back, updated, replaced and rebuilt. *)
From Verif Require Import Util Scan XfaModel XfaSpec XfaProofs3 XfaProofs4 XfaProofs5 XfaProofs6 XfaProofs7.
From Verif Require WriterProps.
From Coq Require Import Permutation.
Local Open Scope Z_scope.

Definition no_inflate (b : bytes) : option bytes := None.
(** A reader that undoes [WriterProps.id_deflate] and accepts nothing else. *)
Definition ex_zl (b : bytes) : option bytes := match b with c :: r => if beqb c x78 then Some r else None | [] => None end.
Definition no_object (n : Z) : result bytes := Err.

(* ---------------------------------------------------------------- *)
(** C80.  A document built from XFA streams gives the same streams back. *)
Theorem C80_build_extract_partial : forall deflate order inflate zl fl ff sf l out,
  is_order order -> l <> [] -> NoDup (map xdName l) -> Forall (good_stream deflate zl fl) l ->
  fst (Write deflate order None (BuildFromXFA deflate l)) = out -> Z.of_nat (length out) < 10 ^ 10 ->
  exists xs, ExtractAllXFAStreams zl fl (GetObject inflate None out) ff sf out = Ok xs /\
    (forall s n, In (s, n) (numbered_from 1 l) -> kget (xdName s) xs = Some (mkSI (xdData s) n false)) /\
    (forall name, ~ In name (map xdName l) -> kget name xs = None).
Proof. exact build_extract. Qed.
Print Assumptions C80_build_extract_partial.
Theorem C80_streams_extract_partial : forall deflate order inflate zl fl ff sf (xs : xstreams) out,
  is_order order -> (exists n i, In n packet_names /\ kget n xs = Some i /\ siData i <> []) ->
  (forall n i, In n packet_names -> kget n xs = Some i -> siData i <> [] -> good_stream deflate zl fl (mkXD n (siData i) true)) ->
  fst (Write deflate order None (BuildPDFFromXFAStreams deflate xs)) = out -> Z.of_nat (length out) < 10 ^ 10 ->
  exists ys, ExtractAllXFAStreams zl fl (GetObject inflate None out) ff sf out = Ok ys /\
    (forall n i, In n packet_names -> kget n xs = Some i -> siData i <> [] -> exists k, kget n ys = Some (mkSI (siData i) k false)) /\
    (forall n, (~ In n packet_names \/ forall i, kget n xs = Some i -> siData i = []) -> kget n ys = None).
Proof. exact streams_extract. Qed.
Print Assumptions C80_streams_extract_partial.
Definition ex_xfa : list xfa_data :=
  [mkXD (bs "template") (bs "<template/>") true; mkXD (bs "datasets") (bs "<data></data>") false; mkXD (bs "xmp") [] true].
Example C80_example_hypotheses : is_order WriterProps.same_order /\ NoDup (map xdName ex_xfa) /\ Forall (good_stream WriterProps.id_deflate ex_zl no_inflate) ex_xfa.
Proof.
  split; [intros l; apply Permutation_refl|]. split.
  - repeat (constructor; [intros Q; cbn [map xdName ex_xfa In] in Q; repeat (destruct Q as [Q|Q]; [discriminate Q|]); exact Q|]). constructor.
  - repeat (constructor; [unfold good_stream, quiet, in_file; cbn [xdName xdData xdCompress]; repeat split; try reflexivity; try (intros; congruence);
      cbn [In stream_names]; tauto|]). constructor.
Qed.
Definition ex_xfa_out : bytes := fst (Write WriterProps.id_deflate WriterProps.same_order None (BuildFromXFA WriterProps.id_deflate ex_xfa)).
Example C80_example :
  ExtractAllXFAStreams ex_zl no_inflate (GetObject no_inflate None ex_xfa_out) no_object no_object ex_xfa_out =
  Ok [(bs "template", mkSI (bs "<template/>") 1 false); (bs "datasets", mkSI (bs "<data></data>") 2 false); (bs "xmp", mkSI [] 3 false)].
Proof. vm_compute. reflexivity. Qed.

(** BuildPDFFromXFAStreams drops the signature and sourceSet streams, whatever they hold. *)
Theorem C80_signature_refuted : forall deflate xs i j,
  BuildPDFFromXFAStreams deflate (xs ++ [(bs "signature", i); (bs "sourceSet", j)]) = BuildPDFFromXFAStreams deflate xs.
Proof. exact signature_dropped. Qed.
Print Assumptions C80_signature_refuted.
(** Data that happens to be a deflate stream is inflated once more when it is
    read; the Compressed flag then says so, although it is false for every
    stream that was stored compressed. *)
Theorem C80_inflated_twice_refuted :
  let l := [mkXD (bs "config") (x78 :: bs "abc") false] in
  let out := fst (Write WriterProps.id_deflate WriterProps.same_order None (BuildFromXFA WriterProps.id_deflate l)) in
  ExtractAllXFAStreams ex_zl no_inflate (GetObject no_inflate None out) no_object no_object out = Ok [(bs "config", mkSI (bs "abc") 1 true)].
Proof. vm_compute. reflexivity. Qed.
Print Assumptions C80_inflated_twice_refuted.
(** Data that claims to be deflated and is not is handed out as it is. *)
Theorem C80_undecodable : forall zl fl, zl (bs "abc") = None -> fl (bs "abc") = None ->
  extractStreamDataFromObject zl fl (bs "1 0 obj
<</Filter/FlateDecode/Length 3>>
stream
abc
endstream") = Ok (bs "abc").
Proof.
  intros zl fl H1 H2. unfold extractStreamDataFromObject. 
  match goal with |- context [index (bs "stream") ?o] => set (x := o) end.
  replace (index (bs "stream") x) with (Some 41%nat) by (vm_compute; reflexivity).
  replace (index (bs "endstream") (skipn 41 x)) with (Some 11%nat) by (vm_compute; reflexivity).
  cbv zeta. match goal with |- rbind ?a _ = _ => replace a with (Ok (bs "abc")) by (vm_compute; reflexivity) end.
  cbn [rbind]. replace (contains (bs "/FlateDecode") (firstn 41 x)) with true by (vm_compute; reflexivity). unfold inflated. rewrite H1, H2. reflexivity.
Qed.
Print Assumptions C80_undecodable.
(** A Length entry near the largest integer crashes the reader. *)
Theorem C80_length_refuted : forall zl fl,
  extractStreamDataFromObject zl fl (bs "1 0 obj
<</Length 9223372036854775807>>
stream
abc
endstream") = Panic.
Proof. intros. vm_compute. reflexivity. Qed.
Print Assumptions C80_length_refuted.
(** The array of streams is only found if it ends within 10000 bytes. *)
Theorem C80_long_array_refuted : forall a, (length a >= array_limit)%nat -> forallb (fun b => negb (beqb b "[") && negb (beqb b "]") ) a = true ->
  findXFAArrayContent (bs "<</XFA[" ++ a ++ bs "]>>") = Err.
Proof. exact long_array. Qed.
Print Assumptions C80_long_array_refuted.

(* ---------------------------------------------------------------- *)
(** C81.  Updating the fields of an XFA document: the first field of each name
    gets its value, everything else stays, in whatever order Go's map delivers
    the values. *)
Theorem C81_update_fields_partial : forall d data, clean_doc d -> NoDup (map fst data) ->
  Forall (fun nv => plain_name (fst nv) /\ no_tags (snd nv)) data ->
  UpdateXFAFieldValues (render d) data = render (filled data d).
Proof. exact update_fields. Qed.
Print Assumptions C81_update_fields_partial.
Theorem C81_update_order_partial : forall d data data', clean_doc d -> NoDup (map fst data) ->
  Forall (fun nv => plain_name (fst nv) /\ no_tags (snd nv)) data ->
  Permutation data data' -> UpdateXFAFieldValues (render d) data' = UpdateXFAFieldValues (render d) data.
Proof. exact update_order. Qed.
Print Assumptions C81_update_order_partial.
(** The same within the data section, and when there is none. *)
Theorem C81_update_section_partial : forall pre d post data x y,
  clean_doc d -> NoDup (map fst data) -> Forall (fun nv => plain_name (fst nv) /\ no_tags (snd nv)) data ->
  render d = bs "<data" ++ x -> render d = y ++ bs "</data>" ->
  contains (bs "<data") pre = false -> contains (bs "</data>") post = false ->
  UpdateXFAValues (pre ++ render d ++ post) data = Ok (pre ++ render (filled data d) ++ post).
Proof. exact update_section. Qed.
Print Assumptions C81_update_section_partial.
Theorem C81_update_whole_partial : forall d data,
  clean_doc d -> NoDup (map fst data) -> Forall (fun nv => plain_name (fst nv) /\ no_tags (snd nv)) data ->
  contains (bs "<data") (render d) = false \/ contains (bs "</data>") (render d) = false ->
  UpdateXFAValues (render d) data = Ok (render (filled data d)).
Proof. exact update_whole. Qed.
Print Assumptions C81_update_whole_partial.
Definition ex_doc : xfa_doc :=
  mkXDoc [(bs "<data>", mkXF (bs "name") (Valued (bs ">") (bs "old") []));
          ([], mkXF (bs "city") (Bare (bs "><ui/>"))); (bs " ", mkXF (bs "name") (Bare (bs ">")))] (bs "</data>").
Example C81_example :
  clean_doc ex_doc /\
  UpdateXFAValues (bs "<x>" ++ render ex_doc ++ bs "</x>") [(bs "city", bs "Bern"); (bs "name", bs "Ann"); (bs "zip", bs "1")] =
  Ok (bs "<x><data><field name=""name""><value>Ann</value></field><field name=""city""><ui/><value>Bern</value></field> <field name=""name""></field></data></x>").
Proof.
  split; [|vm_compute; reflexivity]. split; [|reflexivity].
  repeat (constructor; [unfold no_field, clean_field, plain_name, clean_body, no_tags; cbn [fst snd xfName xfBody]; repeat split; try reflexivity;
    intros Q; cbn in Q; repeat (destruct Q as [Q|Q]; [discriminate Q|]); exact Q|]). constructor.
Qed.
(** Values are inserted without escaping: a value with a tag in it breaks the
    document, can set a field that was not named, and makes the result depend
    on the order of the map. *)
Theorem C81_injection_refuted :
  let xml := bs "<field name=""a""><value></value></field><field name=""b""><value></value></field>" in
  let v := bs "</value></field><field name=""b""><value>x</value></field><field name=""c""><value>" in
  UpdateXFAFieldValues xml [(bs "a", v)] =
    bs "<field name=""a""><value></value></field><field name=""b""><value>x</value></field><field name=""c""><value></value></field><field name=""b""><value></value></field>" /\
  UpdateXFAFieldValues xml [(bs "a", v); (bs "b", bs "y")] <> UpdateXFAFieldValues xml [(bs "b", bs "y"); (bs "a", v)].
Proof. split; [vm_compute; reflexivity|]. vm_compute. intros H. discriminate H. Qed.
Print Assumptions C81_injection_refuted.
(** A name that is not there is ignored without an error; a closing data tag
    before the first opening one crashes; datasets counts as data. *)
Theorem C81_section_refuted :
  UpdateXFAValues (bs "<field name=""a""></field>") [(bs "b", bs "1")] = Ok (bs "<field name=""a""></field>") /\
  UpdateXFAValues (bs "</data><p/><data>") [] = Panic /\
  (exists xml, UpdateXFAValues xml [(bs "a", bs "1")] = Ok xml /\
    xml = bs "<form><field name=""a""><value></value></field></form><datasets><data></data></datasets>").
Proof. split; [vm_compute; reflexivity|]. split; [vm_compute; reflexivity|]. eexists. split; [|reflexivity]. vm_compute. reflexivity. Qed.
Print Assumptions C81_section_refuted.

(* ---------------------------------------------------------------- *)
(** C82.  ReplaceStreamInPDF: if the new data is not longer than the old (in
    bytes and in the digits of its length), or too long for the array behind
    the caller's slice, the result is the file with the new length and the new
    data. *)
Theorem C82_replace_partial : forall pre obj a digits b ws data post new spare,
  findable pre obj a digits b ws data post ->
  (length (decZ (flen new)) <= length digits)%nat ->
  (length (decZ (flen new)) + length new <= length digits + length data \/
   length spare + 9 + length post + length digits + length data < length (decZ (flen new)) + length new)%nat ->
  let f := stream_file pre obj a digits b ws data post in
  exists after, ReplaceStreamInPDF (f ++ spare) (length f) obj new = Ok (stream_file pre obj a (decZ (flen new)) b ws new post, after).
Proof. exact replace_clear. Qed.
Print Assumptions C82_replace_partial.
(** The caller's array is overwritten with the result. *)
Theorem C82_caller_refuted : forall pre obj a digits b ws data post new spare,
  findable pre obj a digits b ws data post ->
  (length (decZ (flen new)) <= length digits)%nat -> (length (decZ (flen new)) + length new <= length digits + length data)%nat ->
  let f := stream_file pre obj a digits b ws data post in
  let g := stream_file pre obj a (decZ (flen new)) b ws new post in
  exists after, ReplaceStreamInPDF (f ++ spare) (length f) obj new = Ok (g, after) /\ firstn (length g) after = g.
Proof. exact replace_mutates. Qed.
Print Assumptions C82_caller_refuted.
(** Longer data with as many digits, within the array: the data overwrites what
    follows it before that is copied, so the tail of the new data comes twice
    and as many bytes are missing from the keyword endstream on. *)
Theorem C82_longer_refuted : forall pre obj a digits b ws data post new spare,
  findable pre obj a digits b ws data post ->
  length (decZ (flen new)) = length digits -> (length data < length new)%nat -> (length new <= length data + 9 + length post + length spare)%nat ->
  let f := stream_file pre obj a digits b ws data post in
  exists after, ReplaceStreamInPDF (f ++ spare) (length f) obj new =
    Ok (pre ++ decZ obj ++ bs " 0 obj" ++ a ++ bs "/Length " ++ decZ (flen new) ++ b ++ bs "stream" ++ ws ++ new ++
        firstn (9 + length post) (skipn (length data) new ++ skipn (length new - length data) (bs "endstream" ++ post ++ spare)), after).
Proof. exact replace_overlap. Qed.
Print Assumptions C82_longer_refuted.
Definition ex_pdf : bytes := stream_file (bs "%PDF-1.7
") 5 (bs "
<<") (bs "3") (bs ">>
") nl (bs "abc") (bs "
endobj
").
Example C82_example_hypotheses : findable (bs "%PDF-1.7
") 5 (bs "
<<") (bs "3") (bs ">>
") nl (bs "abc") (bs "
endobj
").
Proof.
  unfold findable. repeat split; try (vm_compute; congruence); try (apply nostartb_ok; reflexivity).
Qed.
Example C82_example : rmap fst (ReplaceStreamInPDF ex_pdf (length ex_pdf) 5 (bs "xy")) = Ok (bs "%PDF-1.7
5 0 obj
<</Length 2>>
stream
xyendstream
endobj
").
Proof. vm_compute. reflexivity. Qed.
Theorem C82_longer_example_refuted : rmap fst (ReplaceStreamInPDF ex_pdf (length ex_pdf) 5 (bs "abcd")) = Ok (bs "%PDF-1.7
5 0 obj
<</Length 4>>
stream
abcddndstream
endobj
").
Proof. vm_compute. reflexivity. Qed.
Print Assumptions C82_longer_example_refuted.
(** Object 5 is also found in the header of object 15. *)
Theorem C82_object_refuted : rmap fst (ReplaceStreamInPDF (bs "15 0 obj
<</Length 3>>
stream
abcendstream
endobj
" ++ ex_pdf) (59 + length ex_pdf) 5 (bs "xyz")) = Ok (bs "15 0 obj
<</Length 3>>
stream
xyzendstream
endobj
" ++ firstn (length ex_pdf) ex_pdf).
Proof. vm_compute. reflexivity. Qed.
Print Assumptions C82_object_refuted.

(* ---------------------------------------------------------------- *)
(** C83.  Rebuilding: the dictionary of a stream is read key by key, each with
    the trimmed text up to the next slash. *)
Theorem C83_dictionary_partial : forall l w1 w2, slashless l -> forallb is_space w1 = true -> forallb is_space w2 = true ->
  parseDictionary (w1 ++ dict_text l ++ w2) = fold_left (fun d e => kset (fst e) (dict_value (trim is_space (snd e))) d) l [].
Proof. exact dict_parsed. Qed.
Print Assumptions C83_dictionary_partial.
Example C83_example :
  slashless [(bs "Length", bs " 12"); (bs "BBox", bs " [0 0 10 10]")] /\
  parseDictionary (bs " " ++ dict_text [(bs "Length", bs " 12"); (bs "BBox", bs " [0 0 10 10]")] ++ nl) =
    [(bs "Length", VInt 12); (bs "BBox", VStr (bs "[0 0 10 10]"))].
Proof.
  split; [|vm_compute; reflexivity].
  repeat (constructor; [cbn [fst snd]; repeat split; try discriminate; intros Q; cbn in Q; repeat (destruct Q as [Q|Q]; [discriminate Q|]); exact Q|]). constructor.
Qed.
(** Of the values read, integers and references are written again as they were;
    every other value without a slash is written between parentheses. *)
Theorem C83_values_partial : forall t, ~ In "/"%byte t ->
  formatValue (dict_value t) =
    match atoi t with Some z => decZ z | None => if suffixb (bs " R") t then t else bs "(" ++ t ++ bs ")" end.
Proof. exact values_kept. Qed.
Print Assumptions C83_values_partial.
Theorem C83_array_refuted :
  formatDictionary (parseDictionary (bs "<</Length 0 /BBox [0 0 10 10] /Gamma 1.5 /Mask 7 0 R>>")) =
  bs "<</BBox ([0 0 10 10]) /Gamma (1.5) /Length 0 /Mask 7 0 R >>".
Proof. vm_compute. reflexivity. Qed.
Print Assumptions C83_array_refuted.
(** A value that is a name is lost: the key gets an empty value and the name
    becomes a key. *)
Theorem C83_name_value_refuted : forall k n, word k -> word n -> k <> n ->
  parseDictionary (bs "<</" ++ k ++ bs " /" ++ n ++ bs ">>") = [(k, VStr []); (n, VStr [])].
Proof. exact name_lost. Qed.
Print Assumptions C83_name_value_refuted.
(** Rebuilding a file: every object is written again, a text as it is, a stream
    with its data and its dictionary as read; a stream for which new data is
    given gets that, compressed. *)
Theorem C83_rebuilt_partial : forall deflate inflate get order pre post os updates m f,
  is_order order -> nofire m_obj_header pre -> nofire m_obj_header post ->
  Forall (fun p => 0 <= fst p < 2 ^ 63 /\ plain_object (snd p)) os -> NoDup (map fst os) ->
  f = pre ++ file_text os ++ post ->
  (findStartXRef f <= 0 \/ ParseXRefStreamFull inflate f (findStartXRef f) = Err) ->
  findXFAStreamMap get f = Ok m -> NoDup updates ->
  exists w, BuildFromOriginal deflate inflate get order f updates = Ok w /\
  (forall n o, In (n, o) os -> (forall u, In u updates -> kget (fst u) m <> Some n) -> stored_text w n (rewritten o)) /\
  (forall n o u, In (n, o) os -> In u updates -> kget (fst u) m = Some n -> (forall v, In v updates -> kget (fst v) m = Some n -> v = u) ->
     stored_text w n (rewritten_with deflate (snd u) o)).
Proof. exact rebuilt. Qed.
Print Assumptions C83_rebuilt_partial.
Ltac calm_tac := let b := fresh in let j := fresh in let Hj := fresh in
  intros b j Hj; repeat (destruct j as [|j]; [reflexivity|]); cbn in Hj; lia.
Definition ex_objects : list (Z * file_object) :=
  [(1, TextObject (bs "<</XFA[(datasets)2 0 R]>>")); (2, StreamObject [(bs "Length", bs " 3")] (bs "abc")); (3, TextObject (bs "<</Type/Catalog/AcroForm 1 0 R>>"))].
Definition ex_file : bytes := bs "%PDF-1.7
" ++ file_text ex_objects ++ bs "trailer<</Root 3 0 R>>".
Example C83_rebuilt_hypotheses :
  Forall (fun p => 0 <= fst p < 2 ^ 63 /\ plain_object (snd p)) ex_objects /\ NoDup (map fst ex_objects) /\
  findStartXRef ex_file <= 0 /\ findXFAStreamMap (fun n => Ok (bs "<</XFA[(datasets)2 0 R]>>")) ex_file = Ok [(bs "datasets", 2)].
Proof.
  assert (W : forall k, In k [bs "Length"] -> word k) by (intros k [<-|[]]; split; [discriminate|reflexivity]).
  split; [|split; [repeat (constructor; [cbn; lia|]); constructor|split; vm_compute; congruence]].
  repeat (constructor; [cbn [fst snd]; split; [lia|]; unfold plain_object, calm; split; [split; [calm_tac|apply nostartb_ok; reflexivity]|split; [vm_compute; reflexivity|]]|]).
  - split; [reflexivity|]. split; [discriminate|apply nostartb_ok; reflexivity].
  - split; [|split; [apply nostartb_ok; reflexivity|split; [vm_compute; reflexivity|reflexivity]]].
    constructor; [|constructor]. cbn [fst snd]. split; [apply W; left; reflexivity|]. split; [|reflexivity].
    intros Q; cbn in Q; repeat (destruct Q as [Q|Q]; [discriminate Q|]); exact Q.
  - split; [reflexivity|]. split; [discriminate|apply nostartb_ok; reflexivity].
  - constructor.
Qed.
Example C83_rebuilt_example :
  rmap (fun w => contains (bs "2 0 obj
<</Filter /FlateDecode /Length 5 >>
stream
xnewx
endstream
endobj
") (fst (Write (fun d => bs "x" ++ d ++ bs "x") WriterProps.same_order None w)))
  (BuildFromOriginal (fun d => bs "x" ++ d ++ bs "x") no_inflate (fun n => Ok (bs "<</XFA[(datasets)2 0 R]>>")) (fun l => l) ex_file [(bs "datasets", bs "new")]) = Ok true.
Proof. vm_compute. reflexivity. Qed.
(** So every compressed stream of the original loses its filter. *)
Definition ex_original : bytes := bs "%PDF-1.7
1 0 obj
<</Type /Catalog>>
endobj
2 0 obj
<</Filter /FlateDecode /Length 4>>
stream
abcd
endstream
endobj
trailer<</Root 1 0 R>>".
Theorem C83_filter_refuted :
  rmap (fun w => contains (bs "2 0 obj
<</Filter () /FlateDecode () /Length 4 >>
stream
abcd
endstream
endobj
") (fst (Write WriterProps.id_deflate WriterProps.same_order None w)))
    (BuildFromOriginal WriterProps.id_deflate no_inflate no_object (fun l => l) ex_original []) = Ok true.
Proof. vm_compute. reflexivity. Qed.
Print Assumptions C83_filter_refuted.
(** An unterminated array of streams, and a negative length, crash it. *)
Theorem C83_panic_refuted :
  parseXFAArrayFromContent (bs "<</XFA[(template)1 0 R") = Panic /\
  parse_object (bs "<</Length -5>>
stream
abcd
endstream
endobj") = Panic.
Proof. split; vm_compute; reflexivity. Qed.
Print Assumptions C83_panic_refuted.
