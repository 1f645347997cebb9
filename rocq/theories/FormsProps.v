(** Property theorems: interactive forms. *)
From Verif Require Import Util WriterModel WriterSpec ParseModel ParseSpec ReadProofs ManipModel TextModel FormsModel FormsSpec
  FormsProofs FormsProofs2 FormsProofs3 FormsProofs4 XrefProps.
Local Open Scope Z_scope.

Definition ex_attrs (n : Z) (ft name : string) (ff : Z) (v : fvalue) (maxlen : Z) (opts : list bytes) : attrs :=
  mkAttrs n 0 (bs ft) (bs name) [] ff v FNil maxlen opts [].
Definition ex_leaf n ft name ff v maxlen opts := Field (ex_attrs n ft name ff v maxlen opts) [].
(** A form with a group of two fields and a choice. *)
Definition ex_form : list field :=
  [Field (ex_attrs 1 "" "person" 0 FNil 0 [])
     [ex_leaf 2 "Tx" "name" 2 (FStr (bs "Ann")) 8 []; ex_leaf 3 "Tx" "city" 0 FNil 0 []];
   ex_leaf 4 "Ch" "color" 0 (FStr (bs "red")) 0 [bs "red"; bs "blue"]].
(** Three levels, and names that collide. *)
Definition ex_deep : list field :=
  [Field (ex_attrs 1 "" "a" 0 FNil 0 [])
     [Field (ex_attrs 2 "" "b" 0 FNil 0 []) [ex_leaf 3 "Tx" "c" 2 (FStr (bs "x")) 0 []]]].
Definition ex_clash : list field :=
  [Field (ex_attrs 1 "" "old" 0 FNil 0 []) [ex_leaf 2 "Tx" "name" 0 (FStr (bs "inner")) 0 []];
   ex_leaf 3 "Tx" "name" 0 (FStr (bs "outer")) 0 []].

(* ---------------------------------------------------------------- *)
(** C41: validation. *)
Theorem C41_validate_field : forall a v, ValidateField a v = true <-> accepts a v.
Proof. exact validate_field_spec. Qed.
Print Assumptions C41_validate_field.

(** Missing: forms with more than two levels (see the refutation). *)
Theorem C41_validate_form_data_partial : forall fs data, two_levels fs ->
  (ValidateFormData fs data = [] <-> valid_data fs data).
Proof. exact validate_form_data_spec. Qed.
Print Assumptions C41_validate_form_data_partial.

(** The iteration order over the data does not matter. *)
Theorem C41_order : forall fs d1 d2, Permutation d1 d2 -> Permutation (ValidateFormData fs d1) (ValidateFormData fs d2).
Proof. exact validate_form_data_perm. Qed.
Print Assumptions C41_order.

Theorem C41_validate_answer : forall matches parse q v,
  ValidateFieldValue matches parse q v = true <-> valid_answer matches parse q v.
Proof. exact validate_value_spec. Qed.
Print Assumptions C41_validate_answer.
Theorem C41_validate_schema : forall matches parse qs data,
  ValidateFormSchema matches parse qs data = [] <-> valid_answers matches parse qs data.
Proof. exact validate_schema_spec. Qed.
Print Assumptions C41_validate_schema.

(** A required field at the third level is not asked for. *)
Theorem C41_deep_required_refuted :
  ValidateFormData ex_deep [] = [] /\ ~ valid_data ex_deep [].
Proof.
  split; [vm_compute; reflexivity|]. intros [_ H].
  apply (H ([bs "a"; bs "b"; bs "c"], ex_attrs 3 "Tx" "c" 2 (FStr (bs "x")) 0 [])); [vm_compute; auto|reflexivity].
Qed.
Print Assumptions C41_deep_required_refuted.
(** ... and cannot be supplied either. *)
Theorem C41_deep_supplied_refuted : ValidateFormData ex_deep [(bs "a.b.c", FStr (bs "x"))] = [EUnknown (bs "a.b.c")].
Proof. vm_compute. reflexivity. Qed.
Print Assumptions C41_deep_supplied_refuted.
(** An optional choice, and an optional short text, may not be left out with nil. *)
Theorem C41_absent_value_refuted :
  ValidateField (ex_attrs 4 "Ch" "color" 0 FNil 0 [bs "red"; bs "blue"]) FNil = false /\
  ValidateField (ex_attrs 4 "Tx" "zip" 0 FNil 4 []) FNil = false.
Proof. vm_compute. split; reflexivity. Qed.
Print Assumptions C41_absent_value_refuted.
(** MaxLen counts bytes, not characters: one "é" exceeds a maximum of 1. *)
Theorem C41_characters_refuted :
  ValidateField (ex_attrs 4 "Tx" "initial" 0 FNil 1 []) (FStr [xc3; xa9]) = false.
Proof. vm_compute. reflexivity. Qed.
Print Assumptions C41_characters_refuted.
Example C41_example : two_levels ex_form /\
  ValidateFormData ex_form [(bs "color", FStr (bs "blue")); (bs "person.name", FStr (bs "Bob"))] = [] /\
  ValidateFormData ex_form [(bs "color", FStr (bs "green")); (bs "person.nam", FStr (bs "Bob"))]
    = [EInvalid (bs "color"); EUnknown (bs "person.nam"); EMissing (bs "person.name")] /\
  ValidateFormData ex_form [(bs "person.name", FStr (bs "Bartholomew"))] = [EInvalid (bs "person.name")].
Proof.
  split; [|vm_compute; repeat split; reflexivity].
  intros f k [<-|[<-|[]]] Hk; cbn in Hk; repeat (destruct Hk as [<-|Hk]; [reflexivity|]); destruct Hk.
Qed.

(* ---------------------------------------------------------------- *)
(** C42: names. *)
Theorem C42_full_name : forall ancestors f,
  GetFullName ancestors f = dotted (map (fun f => aT (f_attrs f)) (ancestors ++ [f])).
Proof. exact get_full_name. Qed.
Print Assumptions C42_full_name.

(** Lookup: the first field in document order that has the name as its full
    name or as its own name.  Missing: forms with more than two levels. *)
Theorem C42_find_partial : forall fs name, two_levels fs ->
  match first_named fs name with
  | Some e => found_path fs name e
  | None => FindFieldByName fs name = None
  end.
Proof. exact find_field_spec. Qed.
Print Assumptions C42_find_partial.
(** A field is found by its full name when no other field has that name. *)
Theorem C42_find_full_name_partial : forall fs e, two_levels fs -> In e (all_fields fs) ->
  (forall e', In e' (all_fields fs) -> has_name (full_name_of e) e' = true -> e' = e) ->
  found_path fs (full_name_of e) e.
Proof. exact find_field_exact. Qed.
Print Assumptions C42_find_full_name_partial.
(** The current values by full name.  Missing: more than two levels. *)
Theorem C42_values_partial : forall fs n, two_levels fs -> kget n (GetFieldValues fs) = current_value fs n.
Proof. exact get_values_spec. Qed.
Print Assumptions C42_values_partial.
(** A field at the third level is not found and its value is not listed. *)
Theorem C42_deep_refuted :
  In ([bs "a"; bs "b"; bs "c"], ex_attrs 3 "Tx" "c" 2 (FStr (bs "x")) 0 []) (all_fields ex_deep) /\
  FindFieldByName ex_deep (bs "a.b.c") = None /\ GetFieldValues ex_deep = [].
Proof. split; [vm_compute; auto|]. split; vm_compute; reflexivity. Qed.
Print Assumptions C42_deep_refuted.
(** A field with that full name exists, but a kid with the same partial name
    before it is returned. *)
Theorem C42_shadowed_refuted :
  (exists e, In e (all_fields ex_clash) /\ full_name_of e = bs "name" /\ aNum (snd e) = 3) /\
  option_map (fun fp => aNum (f_attrs (fst fp))) (FindFieldByName ex_clash (bs "name")) = Some 2.
Proof. split; [eexists; split; [right; right; left; reflexivity|split; reflexivity]|vm_compute; reflexivity]. Qed.
Print Assumptions C42_shadowed_refuted.
Example C42_example :
  option_map (fun fp => aNum (f_attrs (fst fp))) (FindFieldByName ex_form (bs "person.name")) = Some 2 /\
  option_map (fun fp => aNum (f_attrs (fst fp))) (FindFieldByName ex_form (bs "city")) = Some 3 /\
  FindFieldByName ex_form (bs "person.zip") = None /\
  kget (bs "person.name") (GetFieldValues ex_form) = Some (FStr (bs "Ann")) /\
  kget (bs "person.city") (GetFieldValues ex_form) = None /\
  (forall e', In e' (all_fields ex_form) -> has_name (bs "person.name") e' = true ->
     e' = ([bs "person"; bs "name"], ex_attrs 2 "Tx" "name" 2 (FStr (bs "Ann")) 8 [])).
Proof.
  split; [vm_compute; reflexivity|]. split; [vm_compute; reflexivity|]. split; [vm_compute; reflexivity|].
  split; [vm_compute; reflexivity|]. split; [vm_compute; reflexivity|].
  intros e' [<-|[<-|[<-|[<-|[]]]]] H; try (vm_compute in H; discriminate). reflexivity.
Qed.

(* ---------------------------------------------------------------- *)
(** C43: flags. *)
Theorem C43_flags : forall calls d,
  Z.testbit (dFlags (run_flags d calls)) required_bit = last_required (Z.testbit (dFlags d) required_bit) calls /\
  Z.testbit (dFlags (run_flags d calls)) read_only_bit = last_read_only (Z.testbit (dFlags d) read_only_bit) calls /\
  (forall i, i <> required_bit -> i <> read_only_bit ->
     Z.testbit (dFlags (run_flags d calls)) i = Z.testbit (dFlags d) i) /\
  run_flags d calls = with_flags d (dFlags (run_flags d calls)).
Proof. exact run_flags_spec. Qed.
Print Assumptions C43_flags.
Example C43_example :
  dFlags (run_flags (AddCheckbox (bs "ok") []) [CRequired true; CReadOnly true; CRequired false; CRequired true; CReadOnly false]) = 0x8002.
Proof. reflexivity. Qed.

(* ---------------------------------------------------------------- *)
(** C63: a form that is built is read back. *)
Theorem C63_field_read_back_partial : forall stack get n d, 0 <= n -> simple_def d ->
  get n = Ok (object_text n (field_dict d)) ->
  parseField (S stack) get n 0 = Ok (Field (built n d) []).
Proof. exact field_read. Qed.
Print Assumptions C63_field_read_back_partial.
(** The whole document.  Missing: names and values with characters that PDF
    strings escape, encrypted or compressed output, outlines. *)
Theorem C63_form_read_back_partial : forall deflate order inflate crypt stack w ds form w1 cat w2 out,
  is_order order -> plain_writer w -> Forall simple_def ds ->
  (forall n t, stored_text w n t -> contains (bs "/AcroForm") t = false) ->
  contains (bs "/AcroForm") (pdfVersion w) = false ->
  BuildFields ds w = (Ok form, w1) ->
  (exists o c, mget cat (objects w) = Some o /\ oStream o = None /\ oContent o = Some c) ->
  AddAcroFormToCatalog cat form w1 = Ok w2 ->
  nextObjNum w2 <= 499 -> all_readable w2 ->
  fst (Write deflate order None w2) = out -> Z.of_nat (length out) < 10 ^ 10 ->
  ParseAcroForm (S stack) inflate crypt None out = Ok (mkForm (built_fields (nextObjNum w) ds) false).
Proof. exact form_read_back. Qed.
Print Assumptions C63_form_read_back_partial.

Definition ex_defs : list fielddef :=
  [SetValue (FStr (bs "Ann")) (AddTextField (bs "name") [bs "10.00"; bs "10.00"; bs "90.00"; bs "30.00"]);
   SetRequired true (SetValue (FStr (bs "red")) (AddChoiceField (bs "color") [bs "1.00"; bs "-2.00"; bs "3.00"; bs "4.00"] [bs "red"; bs "blue"]));
   SetMaxLength 3 (SetDefault (FInt 7) (AddTextField (bs "n") []))].
Definition ex_w0 : writer :=
  SetObject 2 (Some (bs "<</Type/Pages/Kids[]/Count 0>>")) (SetObject 1 (Some (bs "<</Type/Catalog/Pages 2 0 R>>")) (SetRoot 1 NewPDFWriter)).
Definition ex_w1 : writer := snd (BuildFields ex_defs ex_w0).
Definition ex_w2 : writer := match AddAcroFormToCatalog 1 6 ex_w1 with Ok w => w | _ => ex_w1 end.
Definition ex_out : bytes := fst (Write (fun b => b) ex_order None ex_w2).
Definition ex_noinflate (b : bytes) : option bytes := None.
Definition ex_nocrypt (b : bytes) : result (option decryptor) := Ok None.
Example C63_example : is_order ex_order /\ plain_writer ex_w0 /\ Forall simple_def ex_defs /\
  (forall n t, stored_text ex_w0 n t -> contains (bs "/AcroForm") t = false) /\
  contains (bs "/AcroForm") (pdfVersion ex_w0) = false /\
  BuildFields ex_defs ex_w0 = (Ok 6, ex_w1) /\
  (exists o c, mget 1 (objects ex_w0) = Some o /\ oStream o = None /\ oContent o = Some c) /\
  AddAcroFormToCatalog 1 6 ex_w1 = Ok ex_w2 /\ nextObjNum ex_w2 = 7 /\ all_readable ex_w2 /\
  fst (Write (fun b => b) ex_order None ex_w2) = ex_out /\
  Z.of_nat (length ex_out) < 10 ^ 10 /\
  map f_attrs (built_fields 3 ex_defs) =
    [mkAttrs 3 0 (bs "Tx") (bs "name") [] 0 (FStr (bs "Ann")) FNil 0 [] [bs "10.00"; bs "10.00"; bs "90.00"; bs "30.00"];
     mkAttrs 4 0 (bs "Ch") (bs "color") [] 2 (FStr (bs "red")) FNil 0 [bs "red"; bs "blue"] [bs "1.00"; bs "-2.00"; bs "3.00"; bs "4.00"];
     mkAttrs 5 0 (bs "Tx") (bs "n") [] 0 FNil (FStr (bs "7")) 3 [] []].
Proof.
  split; [intros l; apply Permutation_refl|].
  split.
  { split; [reflexivity|]. split; [reflexivity|]. split; [reflexivity|]. split; [reflexivity|]. split; [vm_compute; discriminate|].
    change (nextObjNum ex_w0) with 3. apply (numbers_all _ (fun n => 1 <= n < 3)). repeat constructor; cbn; lia. }
  split.
  { assert (N : forall s, forallb (fun b => is_digit b || beqb b "." || beqb b "-") (bs s) = true -> bs s <> [] -> numeral (bs s))
      by (intros s H1 H2; split; assumption).
    repeat (apply Forall_cons || apply Forall_nil); unfold simple_def; repeat (split || apply Forall_cons || apply Forall_nil);
      try (apply N); try reflexivity; try discriminate; vm_compute; auto. }
  split.
  { apply stored_all. repeat constructor. }
  split; [reflexivity|]. split; [vm_compute; reflexivity|].
  split; [exists (mkObj (Some (bs "<</Type/Catalog/Pages 2 0 R>>")) None None); eexists; split; [vm_compute; reflexivity|split; reflexivity]|].
  split; [vm_compute; reflexivity|]. split; [vm_compute; reflexivity|].
  split.
  { split; [reflexivity|]. split; [reflexivity|]. change (updateCatalogWithOutlines ex_w2) with ex_w2.
    apply stored_all. vm_compute. repeat constructor. }
  split; [reflexivity|]. split; [vm_compute; reflexivity|]. vm_compute. reflexivity.
Qed.

(** A closing parenthesis in a name: the name is read back cut and with the
    escape character. *)
Theorem C63_parenthesis_refuted :
  let d := AddTextField (bs "a)b") [] in
  attrs_of 3 0 (object_text 3 (field_dict d)) <> built 3 d /\
  aT (attrs_of 3 0 (object_text 3 (field_dict d))) = bs "a\".
Proof. split; [vm_compute; discriminate|vm_compute; reflexivity]. Qed.
Print Assumptions C63_parenthesis_refuted.
(** Nested fields cannot be built; the builder of a form without fields fails. *)
Theorem C63_no_fields : forall w, BuildFields [] w = (Err, w).
Proof. reflexivity. Qed.
Print Assumptions C63_no_fields.

(* ---------------------------------------------------------------- *)
(** C44: filling.  The text of the filled object: only the value changes. *)
Theorem C44_update_value_partial : forall a old b ft v,
  contains (bs "/V") a = false -> contains (bs "/V") b = false ->
  forallb (fun c => negb (beqb c ")")) old = true ->
  forallb (fun c => negb (beqb c "$")) (escapeFieldValue (formatFieldValue v ft)) = true ->
  updateFieldContent (a ++ bs "/V (" ++ old ++ bs ")" ++ b) ft v =
  Ok (a ++ bs "/V (" ++ escapeFieldValue (formatFieldValue v ft) ++ bs ")" ++ b).
Proof. exact update_existing. Qed.
Print Assumptions C44_update_value_partial.
Theorem C44_insert_value_partial : forall a b ft v,
  contains (bs "/V") (a ++ bs ">>" ++ b) = false ->
  (forall j, (0 < j)%nat -> (j <= length (bs ">>" ++ b))%nat -> prefixb (bs ">>") (skipn j (bs ">>" ++ b)) = false) ->
  updateFieldContent (a ++ bs ">>" ++ b) ft v =
  Ok (a ++ bs "/V (" ++ escapeFieldValue (formatFieldValue v ft) ++ bs ") " ++ bs ">>" ++ b).
Proof. exact update_absent. Qed.
Print Assumptions C44_insert_value_partial.
(** The bytes of the file outside the object stay.  What is missing is that
    the result can be read (refuted below). *)
Theorem C44_fill_value_partial : forall inflate dec f a t pre body post old x y v,
  GetObject inflate dec f (aNum a) = Ok t -> 0 <= aNum a -> 0 <= aGen a ->
  f = pre ++ (decZ (aNum a) ++ bs " " ++ decZ (aGen a) ++ bs " obj") ++ body ++ bs "endobj" ++ post ->
  (forall i, (i < length pre)%nat -> m_objhead (aNum a) (aGen a) (skipn i f) = None) ->
  contains (bs "endobj") body = false ->
  t = x ++ bs "/V (" ++ old ++ bs ")" ++ y -> contains (bs "/V") x = false -> contains (bs "/V") y = false ->
  forallb (fun c => negb (beqb c ")")) old = true ->
  forallb (fun c => negb (beqb c "$")) (escapeFieldValue (formatFieldValue v (aFT a))) = true ->
  FillFieldValue inflate dec f a v =
  Ok (pre ++ (decZ (aNum a) ++ bs " " ++ decZ (aGen a) ++ bs " obj") ++ nl ++
      (x ++ bs "/V (" ++ escapeFieldValue (formatFieldValue v (aFT a)) ++ bs ")" ++ y) ++ bs "
endobj
" ++ post).
Proof. exact fill_field. Qed.
Print Assumptions C44_fill_value_partial.

(** A document with the same form and some more objects. *)
Definition ex_big : bytes :=
  let w := fold_left (fun w _ => snd (AddObject (Some (bs "null")) w)) (seq 0 30) ex_w0 in
  match AddAcroFormToCatalog 1 36 (snd (BuildFields ex_defs w)) with
  | Ok w => fst (Write (fun b => b) ex_order None w)
  | _ => []
  end.
Definition ex_fill (v : fvalue) : result bytes :=
  FillFormFields 3 ex_noinflate (fun b => b) ex_nocrypt ex_nocrypt ex_order ex_big [(bs "name", v)].
(** Whether the document opens and its object [n] is found. *)
Definition ex_reads (r : result bytes) (n : Z) : bool :=
  match r with
  | Ok b => match Open ex_noinflate ex_nocrypt b with
            | Ok p => match PGetObject ex_noinflate p n with Ok _ => true | _ => false end
            | _ => false end
  | _ => false end.
Definition ex_has (r : result bytes) (s : bytes) : bool := match r with Ok b => contains s b | _ => false end.
(** No object of the filled document is found any more, neither the filled
    field nor the objects before and after it: the object is written with a
    second header and footer, so the cross-reference table has moved. *)
Theorem C44_unreadable_refuted :
  map (ex_reads (Ok ex_big)) [1; 2; 33; 34; 36] = [true; true; true; true; true] /\
  ex_has (ex_fill (FStr (bs "Bob"))) (bs "33 0 obj
33 0 obj
<< /FT /Tx /T (name) /Rect [10.00 10.00 90.00 30.00] /V (Bob) >>
endobj
endobj
") = true /\
  map (ex_reads (ex_fill (FStr (bs "Bob")))) [1; 2; 33; 34; 36] = [false; false; false; false; false].
Proof. vm_compute. repeat split; reflexivity. Qed.
Print Assumptions C44_unreadable_refuted.
(** A dollar sign in the value is taken as a reference to a group. *)
Theorem C44_dollar_refuted : ex_has (ex_fill (FStr (bs "$5 or $10"))) (bs "/V ( or )") = true.
Proof. vm_compute. reflexivity. Qed.
Print Assumptions C44_dollar_refuted.
(** The header of object 3 is also found inside the header of object 13. *)
Theorem C44_wrong_object_refuted : ReplaceFieldObject (bs "13 0 obj
(thirteen)
endobj
3 0 obj
(three)
endobj
") 3 0 (bs "(new)") = Ok (bs "13 0 obj
(new)
endobj

3 0 obj
(three)
endobj
").
Proof. vm_compute. reflexivity. Qed.
Print Assumptions C44_wrong_object_refuted.
(** A name that the form does not have is ignored without an error. *)
Theorem C44_unknown_name_refuted :
  FillFormFields 3 ex_noinflate (fun b => b) ex_nocrypt ex_nocrypt ex_order ex_big [(bs "nmae", FStr (bs "Bob"))] = Ok ex_big.
Proof. vm_compute. reflexivity. Qed.
Print Assumptions C44_unknown_name_refuted.
Example C44_example :
  let f := bs "1 0 obj
<</T (a)/V (x)/Ff 2>>
endobj
rest" in
  (forall i, (i < 0)%nat -> m_objhead 1 0 (skipn i f) = None) /\
  f = [] ++ (decZ 1 ++ bs " " ++ decZ 0 ++ bs " obj") ++ bs "
<</T (a)/V (x)/Ff 2>>
" ++ bs "endobj" ++ bs "
rest" /\
  updateFieldContent (bs "<</T (a)" ++ bs "/V (" ++ bs "x" ++ bs ")" ++ bs "/Ff 2>>") (bs "Tx") (FStr (bs "y(z"))
   = Ok (bs "<</T (a)/V (y\(z)/Ff 2>>") /\
  updateFieldContent (bs "<</T (a)" ++ bs ">>" ++ []) (bs "Btn") (FBool true) = Ok (bs "<</T (a)/V (Yes) >>").
Proof. split; [intros i Hi; inversion Hi|]. split; [vm_compute; reflexivity|]. split; vm_compute; reflexivity. Qed.

(* ---------------------------------------------------------------- *)
(** C45: the content and the index computed for a changed object stream. *)
Theorem C45_rebuild_partial : forall objs ups,
  Forall (fun o => tidy (snd o)) objs -> NoDup (map fst objs) ->
  (forall o, In o objs -> 0 <= fst o < 2 ^ 63) -> flen (conforming_objstm objs) < 2 ^ 63 ->
  rebuildStreamContent (mkObjStm (Some (Z.of_nat (length objs))) (Some (conforming_first objs)) (conforming_objstm objs)) ups
  = Ok (objstm_body (updated ups objs), objstm_index 0 (updated ups objs)).
Proof. exact rebuild_content. Qed.
Print Assumptions C45_rebuild_partial.
(** The stream that is written lacks the index: afterwards none of its
    objects can be read. *)
Definition ex_stream_doc : bytes :=
  let z := ex_deflate (conforming_objstm ex_objs) in
  fst (Write ex_deflate ex_order None
    (SetObject 2 (Some (bs "<</Type/ObjStm /N 3 /First " ++ decZ (conforming_first ex_objs) ++ bs " /Length " ++ decZ (flen z) ++ bs ">>
stream
" ++ z ++ bs "
endstream")) ex_w0)).
Definition ex_stream_read (r : result bytes) : list (result bytes) :=
  match r with
  | Ok f => map (fun ni => GetObjectFromStream ex_inflate None f (fst ni) 2 (snd ni)) [(11, 0); (12, 1); (7, 2)]
  | _ => []
  end.
Theorem C45_index_lost_refuted :
  ex_stream_read (Ok ex_stream_doc) = [Ok (bs "<</A 1>>"); Ok (bs "(text)"); Ok (bs "[1 2]")] /\
  ex_stream_read (RebuildObjectStream ex_inflate ex_deflate None ex_stream_doc 2 [(12, bs "(new)")]) = [Err; Err; Err].
Proof. split; vm_compute; reflexivity. Qed.
Print Assumptions C45_index_lost_refuted.
Example C45_example : Forall (fun o => tidy (snd o)) ex_objs /\ NoDup (map fst ex_objs) /\
  (forall o, In o ex_objs -> 0 <= fst o < 2 ^ 63) /\ flen (conforming_objstm ex_objs) < 2 ^ 63 /\
  updated [(12, bs "(new)")] ex_objs = [(11, bs "<</A 1>>"); (12, bs "(new)"); (7, bs "[1 2]")].
Proof.
  split; [repeat constructor; [exists (bs "<</A 1>"), ">"%byte|exists (bs "(text"), ")"%byte|exists (bs "[1 2"), "]"%byte]; split; reflexivity|].
  split; [repeat constructor; cbn; intuition discriminate|].
  split; [intros o [<-|[<-|[<-|[]]]]; cbn; lia|]. split; vm_compute; reflexivity.
Qed.

(* ---------------------------------------------------------------- *)
(** C64: FlattenForm removes the references to forms, but by cutting bytes out
    of the file without moving the cross-reference table; none of its objects
    is found afterwards. *)
Definition ex_flat : result bytes := FlattenForm 3 ex_noinflate ex_nocrypt ex_nocrypt ex_big.
Theorem C64_unreadable_refuted :
  ex_has ex_flat (bs "<</Type/Catalog/Pages 2 0 R >>") = true /\ ex_has ex_flat (bs "/AcroForm") = false /\
  map (ex_reads ex_flat) [1; 2; 33; 34; 36] = [false; false; false; false; false].
Proof. vm_compute. repeat split; reflexivity. Qed.
Print Assumptions C64_unreadable_refuted.
(** The values of the fields are not drawn on any page, and FlattenField
    changes nothing. *)
Theorem C64_field_unchanged_refuted : forall inflate dec f a b, FlattenField inflate dec f a = Ok b -> b = f.
Proof. exact flatten_field_same. Qed.
Print Assumptions C64_field_unchanged_refuted.
(* ---------------------------------------------------------------- *)
(** C65: the schema. *)
Theorem C65_schema_partial : forall fs i f, nth_error fs i = Some f ->
  exists q, nth_error (ToFormSchema fs) i = Some q /\ qName q = aT (f_attrs f) /\ qLabel q = aTU (f_attrs f) /\
    qRequired q = Z.testbit (aFf (f_attrs f)) required_bit /\ qReadOnly q = Z.testbit (aFf (f_attrs f)) read_only_bit /\
    qDefault q = aDV (f_attrs f) /\ qOptions q = aOpt (f_attrs f) /\
    (0 < aMaxLen (f_attrs f) -> qMaxLength q = Some (aMaxLen (f_attrs f))).
Proof. exact schema_question. Qed.
Print Assumptions C65_schema_partial.
(** Questions of different top-level fields have different IDs. *)
Theorem C65_schema_ids : forall fs, NoDup (map (fun f => aNum (f_attrs f)) fs) ->
  Forall (fun f => 0 <= aNum (f_attrs f)) fs -> NoDup (map qID (ToFormSchema fs)).
Proof. exact schema_ids. Qed.
Print Assumptions C65_schema_ids.
(** The fields inside a group are missing from the schema. *)
Theorem C65_kids_refuted :
  map qName (ToFormSchema ex_form) = [bs "person"; bs "color"] /\
  In ([bs "person"; bs "name"], ex_attrs 2 "Tx" "name" 2 (FStr (bs "Ann")) 8 []) (all_fields ex_form).
Proof. split; [reflexivity|]. right. left. reflexivity. Qed.
Print Assumptions C65_kids_refuted.
(** What a builder call creates is read as that kind of question... *)
Theorem C65_built_types : forall n name rect opts calls,
  qType (ToQuestion (built n (run_flags (AddTextField name rect) calls))) = RText /\
  qType (ToQuestion (built n (run_flags (AddCheckbox name rect) calls))) = RCheckbox /\
  qType (ToQuestion (built n (run_flags (AddRadioButton name rect) calls))) = RRadio /\
  qType (ToQuestion (built n (run_flags (AddButton name rect) calls))) = RButton /\
  qType (ToQuestion (built n (run_flags (AddChoiceField name rect opts) calls))) = RSelect.
Proof. exact built_types. Qed.
Print Assumptions C65_built_types.
(** ... but a PDF reader sees the kinds permuted: the flags are off by one bit
    position with respect to ISO 32000-1. *)
Theorem C65_iso_buttons_refuted : forall name rect,
  iso_button (dFlags (AddCheckbox name rect)) = RadioButton /\
  iso_button (dFlags (AddRadioButton name rect)) = PushButton /\
  iso_button (dFlags (AddButton name rect)) = CheckBox.
Proof. intros. repeat split; reflexivity. Qed.
Print Assumptions C65_iso_buttons_refuted.
Example C65_example : map (fun q => (qID q, qRequired q, qOptions q)) (ToFormSchema (built_fields 3 ex_defs)) =
  [(bs "field_3", false, []); (bs "field_4", true, [bs "red"; bs "blue"]); (bs "field_5", false, [])].
Proof. vm_compute. reflexivity. Qed.
