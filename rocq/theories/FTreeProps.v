(** C113: the field tree of a form is read as the file has it. *)
From Verif Require Import Util WriterModel ParseModel ManipModel TextModel FormsModel FTreeSpec FTreeProofs2.
Local Open Scope Z_scope.

(** For every tree of field dictionaries, with any entries in any order and any
    white space, the reader returns the field with its attributes and its kids,
    in order and without those that are not in the file.  Missing: strings with
    escapes or parentheses, the entries in other notations (which count as
    missing) and entries inherited from the parent, see the refutations. *)
Theorem C113_tree_partial : forall get n g es kids stack,
  in_file get (Node n g es kids) -> (tree_height (Node n g es kids) <= stack)%nat ->
  parseField stack get n g = Ok (Field (field_attrs n g es) (flat_map tree_fields kids)).
Proof. exact node_read. Qed.
Print Assumptions C113_tree_partial.
(** The form: all of its fields, and whether it has an /XFA entry. *)
Theorem C113_form_partial : forall get stack es fields d,
  a_form get es fields d -> (forall t, In t fields -> (tree_height t <= stack)%nat) ->
  parseAcroFormDict stack get d =
  Ok (mkForm (flat_map tree_fields fields) (match value_at es (bs "XFA") with Some _ => true | None => false end)).
Proof. exact form_read. Qed.
Print Assumptions C113_form_partial.
(** The file: the form is the object that the first /AcroForm entry refers to. *)
Theorem C113_file_partial : forall get stack es fields d before n g rest,
  object_number n -> object_number g -> contains (bs "/AcroForm") before = false ->
  get n = Ok d -> a_form get es fields d -> (forall t, In t fields -> (tree_height t <= stack)%nat) ->
  parseAcroFormFromBytes stack get (before ++ bs "/AcroForm " ++ ref_text (n, g) ++ rest) =
  Ok (mkForm (flat_map tree_fields fields) (match value_at es (bs "XFA") with Some _ => true | None => false end)).
Proof. exact file_read. Qed.
Print Assumptions C113_file_partial.

(** A form with a group of two fields, one of which is not in the file, and a
    choice with flags. *)
Definition ex_group : list entry := [mkEntry [] (bs "T") [] (VStr (bs "person")); mkEntry (bs " ") (bs "Kids") [] (VRefs [(5, 0); (9, 2)])].
Definition ex_name : list entry :=
  [mkEntry [] (bs "Parent") (bs " ") (VRef 4 0); mkEntry [] (bs "FT") [] (VName (bs "Tx")); mkEntry [] (bs "T") (bs " ") (VStr (bs "name"));
   mkEntry (bs " ") (bs "TU") [] (VStr (bs "Full name")); mkEntry (bs " ") (bs "MaxLen") (bs " ") (VNum 40);
   mkEntry [] (bs "Type") [] (VName (bs "Annot")); mkEntry [] (bs "MK") [] (VOther (bs "<</BG[1 1 1]>>")); mkEntry [] (bs "V") [] (VStr (bs "Ann/Ben"))].
Definition ex_choice : list entry :=
  [mkEntry (bs " ") (bs "FT") (bs " ") (VName (bs "Ch")); mkEntry (bs " ") (bs "Ff") (bs "  ") (VNum 131074); mkEntry (bs " ") (bs "T") (bs " ") (VName (bs "color"));
   mkEntry [x0a] (bs "Opt") [] (VStrs [bs "red"; bs "light blue"]); mkEntry [] (bs "Rect") [] (VWords [bs "10"; bs "20.5"; bs "110"; bs "40"]);
   mkEntry [] (bs "V") [] (VStrs [bs "red"]); mkEntry [] (bs "DV") [] (VStr (bs "red"))].
Definition ex_fields : list ftree := [Node 4 0 ex_group [Node 5 0 ex_name []; Gone 9 2]; Node 6 0 ex_choice []].
Definition ex_formdict : list entry :=
  [mkEntry [] (bs "DR") [] (VOther (bs "<</Font 8 0 R>>")); mkEntry [] (bs "Fields") [] (VRefs [(4, 0); (6, 0)]); mkEntry [] (bs "NeedAppearances") (bs " ") (VOther (bs "true"))].
Definition ex_object (n : Z) (es : list entry) : bytes := decZ n ++ bs " 0 obj<<" ++ flat_map entry_text es ++ bs " >>endobj".
Definition ex_getter (n : Z) : result bytes :=
  if n =? 3 then Ok (ex_object 3 ex_formdict) else if n =? 4 then Ok (ex_object 4 ex_group) else if n =? 5 then Ok (ex_object 5 ex_name)
  else if n =? 6 then Ok (ex_object 6 ex_choice) else Err.
Lemma ex_dictionary ks n es : In n [3; 4; 5; 6] -> NoDup (map eKey es) -> Forall (entry_ok ks) es -> (forall k, In k ks -> k <> []) -> dictionary ks es (ex_object n es).
Proof.
  intros Hn Hd He Hk. split; [exact Hd|]. split; [exact He|]. exists (decZ n ++ bs " 0 obj"), (bs " "), (bs "endobj"). split; [unfold ex_object; rewrite <- !app_assoc; reflexivity|].
  split; [reflexivity|]. split; intros k I; specialize (Hk k I); destruct k as [|b k]; try congruence.
  - destruct Hn as [<-|[<-|[<-|[<-|[]]]]]; reflexivity.
  - reflexivity.
Qed.
Ltac ok_entry := repeat split; try reflexivity; try discriminate; try (cbn; lia);
  try (intros k Hk; vm_compute in Hk; repeat (destruct Hk as [<-|Hk]; [vm_compute; reflexivity|]); destruct Hk);
  try (vm_compute; intuition discriminate).
Ltac ok_value := repeat match goal with |- Forall _ (_ :: _) => apply Forall_cons | |- Forall _ [] => apply Forall_nil end; ok_entry.
Ltac ok_entries := repeat apply Forall_cons; try apply Forall_nil;
  (split; [reflexivity|split; [reflexivity|split; [reflexivity|split; [cbn; first [exact I|discriminate|left; discriminate|right; reflexivity]|cbn [eVal val_ok]; ok_value]]]]).
Ltac no_dup := repeat (apply NoDup_cons; [vm_compute; intuition discriminate|]); apply NoDup_nil.
Example C113_example : a_form ex_getter ex_formdict ex_fields (ex_object 3 ex_formdict) /\
  parseAcroFormDict 2 ex_getter (ex_object 3 ex_formdict) = Ok (mkForm
    [Field (mkAttrs 4 0 [] (bs "person") [] 0 FNil FNil 0 [] [])
       [Field (mkAttrs 5 0 (bs "Tx") (bs "name") (bs "Full name") 0 (FStr (bs "Ann/Ben")) FNil 40 [] []) []];
     Field (mkAttrs 6 0 (bs "Ch") (bs "color") [] 131074 (FList [bs "red"]) (FStr (bs "red")) 0 [bs "red"; bs "light blue"] [bs "10"; bs "20.5"; bs "110"; bs "40"]) []]
    false).
Proof.
  assert (K : forall k, In k field_keys -> k <> []) by (intros k Hk; vm_compute in Hk; repeat (destruct Hk as [<-|Hk]; [discriminate|]); destruct Hk).
  assert (F : a_form ex_getter ex_formdict ex_fields (ex_object 3 ex_formdict)).
  { split.
    { apply ex_dictionary; [left; reflexivity|no_dup|ok_entries|intros k [<-|[<-|[]]]; discriminate]. }
    split; [intros e [<-|[<-|[<-|[]]]]; (split; [right; reflexivity|intros w E; discriminate])|]. split; [reflexivity|].
    apply Forall_cons; [|apply Forall_cons; [|apply Forall_nil]].
    - apply (in_node _ 4 0 _ _ (ex_object 4 ex_group)); [reflexivity|apply ex_dictionary; [right; left; reflexivity|no_dup|ok_entries|exact K]| |reflexivity|].
      + repeat split; intros v E; vm_compute in E; inversion E.
      + apply Forall_cons; [|apply Forall_cons; [|apply Forall_nil]].
        * apply (in_node _ 5 0 _ _ (ex_object 5 ex_name)); [reflexivity|apply ex_dictionary; [right; right; left; reflexivity|no_dup|ok_entries|exact K]| |reflexivity|apply Forall_nil].
          repeat split; intros v E; vm_compute in E; inversion E; exact I.
        * apply in_gone. reflexivity.
    - apply (in_node _ 6 0 _ _ (ex_object 6 ex_choice)); [reflexivity|apply ex_dictionary; [right; right; right; left; reflexivity|no_dup|ok_entries|exact K]| |reflexivity|apply Forall_nil].
      repeat split; intros v E; vm_compute in E; inversion E; try exact I. apply Forall_cons; [reflexivity|apply Forall_nil]. }
  split; [exact F|]. rewrite (C113_form_partial ex_getter 2 _ _ _ F); [reflexivity|].
  intros t [<-|[<-|[]]]; vm_compute; lia.
Qed.

(** What is not read as the file has it.  A flag that is a reference is taken
    for its object number. *)
Theorem C113_reference_refuted : attrs_of 4 0 (bs "<</FT/Tx/T(a)/Ff 7 0 R>>") = mkAttrs 4 0 (bs "Tx") (bs "a") [] 7 FNil FNil 0 [] [].
Proof. vm_compute. reflexivity. Qed.
Print Assumptions C113_reference_refuted.
(** Entries of a nested dictionary are taken for those of the field. *)
Theorem C113_nested_refuted : attrs_of 4 0 (bs "<</FT/Tx/AA<</V(other)>>/T(a)/V(mine)>>") = mkAttrs 4 0 (bs "Tx") (bs "a") [] 0 (FStr (bs "other")) FNil 0 [] [].
Proof. vm_compute. reflexivity. Qed.
Print Assumptions C113_nested_refuted.
(** The strings of a multiple choice are cut at spaces; the options of a choice
    with export values are cut at the first closing bracket. *)
Theorem C113_choice_refuted :
  aV (attrs_of 4 0 (bs "<</FT/Ch/T(a)/V[(New York) (Rome)]>>")) = FList [bs "(New"; bs "York)"; bs "Rome"] /\
  aOpt (attrs_of 4 0 (bs "<</FT/Ch/T(a)/Opt[[(1) (one)] [(2) (two)]]>>")) = [bs "1"; bs "one"].
Proof. vm_compute. split; reflexivity. Qed.
Print Assumptions C113_choice_refuted.
(** Escapes are not undone, hexadecimal strings are not read. *)
Theorem C113_strings_refuted :
  aT (attrs_of 4 0 (bs "<</FT/Tx/T(a\)b)>>")) = bs "a\" /\ aT (attrs_of 4 0 (bs "<</FT/Tx/T<4869>>>")) = [].
Proof. vm_compute. split; reflexivity. Qed.
Print Assumptions C113_strings_refuted.
(** A kid does not inherit the type, the flags or the value of its parent. *)
Definition ex_heir (n : Z) : result bytes :=
  if n =? 4 then Ok (bs "<</FT/Tx/T(a)/Ff 2/V(x)/Kids[5 0 R]>>") else if n =? 5 then Ok (bs "<</Parent 4 0 R/Rect[0 0 9 9]>>") else Err.
Theorem C113_inherited_refuted : parseField 2 ex_heir 4 0 =
  Ok (Field (mkAttrs 4 0 (bs "Tx") (bs "a") [] 2 (FStr (bs "x")) FNil 0 [] [])
        [Field (mkAttrs 5 0 [] [] [] 0 FNil FNil 0 [] [bs "0"; bs "0"; bs "9"; bs "9"]) []]).
Proof. vm_compute. reflexivity. Qed.
Print Assumptions C113_inherited_refuted.
