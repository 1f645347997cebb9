(** C84: form data written as a datasets stream and read back. *)
From Verif Require Import Util DatasetsModel DatasetsSpec DatasetsProofs.
From Coq Require Import Permutation.
Local Open Scope Z_scope.

(** Fields keep their names, whatever the order in which they are written and
    the spacing the encoder adds; the groups before the first one that holds
    another group come back in order, with their fields; nothing else does. *)
Theorem C84_roundtrip_partial : forall F (parseF : bytes -> option F) (formatF : F -> bytes) perm d us,
  (forall l, Permutation (perm l) l) -> NoDup (map fst (dsFields d)) ->
  Forall plain_group (dsGroups d) -> Forall (fun g => NoDup (map fst (group_fields g))) (dsGroups d) ->
  spaced false (DatasetsToXFA formatF perm d) us ->
  (forall k, k <> [] -> kget k (dsFields (ParseXFADatasets parseF us)) = option_map (reread parseF formatF) (kget k (dsFields d))) /\
  Forall2 (same_group parseF formatF) (leading (dsGroups d)) (dsGroups (ParseXFADatasets parseF us)).
Proof. exact @datasets_roundtrip. Qed.
Print Assumptions C84_roundtrip_partial.

(** Which values come back as they were. *)
Theorem C84_bool : forall F (parseF : bytes -> option F) (formatF : F -> bytes) b, reread parseF formatF (FBool b) = FBool b.
Proof. exact @reread_bool. Qed.
Print Assumptions C84_bool.
Theorem C84_int : forall F (parseF : bytes -> option F) (formatF : F -> bytes) z, - 2 ^ 63 <= z < 2 ^ 63 ->
  reread parseF formatF (FInt z) = if z =? 0 then FBool false else if z =? 1 then FBool true else FInt z.
Proof. exact @reread_int. Qed.
Print Assumptions C84_int.
Theorem C84_string : forall F (parseF : bytes -> option F) (formatF : F -> bytes) s,
  reread parseF formatF (FStr s) = FStr s <->
  TrimSpace s = s /\ s <> bs "true" /\ s <> bs "false" /\ atoi s = None /\ (s = [] \/ parseF s = None).
Proof. exact @reread_str. Qed.
Print Assumptions C84_string.
Theorem C84_float_partial : forall F (parseF : bytes -> option F) (formatF : F -> bytes) f,
  forallb solid (formatF f) = true -> In "."%byte (formatF f) -> parseF (formatF f) = Some f ->
  reread parseF formatF (FFloat f) = FFloat f.
Proof. exact @reread_float. Qed.
Print Assumptions C84_float_partial.

Ltac not_in := intros Q; vm_compute in Q; decompose [or] Q; try discriminate; contradiction.
(** The case: two fields, two flat groups, written in another order, indented. *)
Definition no_float (b : bytes) : option unit := None.
Definition show_float (f : unit) : bytes := bs "2.5".
Definition ex_data : datasets unit :=
  mkDS [(bs "name", FStr (bs "Ada")); (bs "age", FInt 36)]
       [Group (bs "address") [(bs "city", FStr (bs "London"))] []; Group (bs "prefs") [(bs "mail", FBool true)] []].
Definition ex_written : list token := DatasetsToXFA show_float (@rev _) ex_data.
Definition ex_indented : list token :=
  flat_map (fun t => match t with TStart n a => if bytes_eqb n (bs "field") then [TChars (bs "  "); t] else [t] | _ => [t] end) ex_written.
Example C84_example_hypotheses : (forall l : list (bytes * fval unit), Permutation (rev l) l) /\ NoDup (map fst (dsFields ex_data)) /\
  Forall plain_group (dsGroups ex_data) /\ Forall (fun g => NoDup (map fst (group_fields g))) (dsGroups ex_data) /\
  spaced false ex_written ex_indented.
Proof.
  split; [intros l; apply Permutation_sym, Permutation_rev|]. split.
  - constructor; [intros Q; cbn in Q; repeat (destruct Q as [Q|Q]; [discriminate Q|]); exact Q|]. constructor; [intros []|constructor].
  - split.
    + constructor; [apply pg; [not_in|constructor]|]. constructor; [apply pg; [not_in|constructor]|constructor].
    + split; [constructor; [constructor; [intros []|constructor]|constructor; [constructor; [intros []|constructor]|constructor]]|].
      unfold ex_indented, ex_written. cbn -[bs]. repeat first [apply sp_insert|apply sp_token|apply sp_nil].
Qed.
Example C84_example : ParseXFADatasets no_float ex_indented =
  mkDS [(bs "age", FInt 36); (bs "name", FStr (bs "Ada"))]
       [Group (bs "address") [(bs "city", FStr (bs "London"))] []; Group (bs "prefs") [(bs "mail", FBool true)] []].
Proof. vm_compute. reflexivity. Qed.

(** Numbers 0 and 1 come back as booleans, a postal code as a number, the
    string "true" as a boolean, and the blanks around a string are lost. *)
Theorem C84_zero_one_refuted : reread no_float show_float (FInt 0) = FBool false /\ reread no_float show_float (FInt 1) = FBool true.
Proof. split; reflexivity. Qed.
Theorem C84_text_refuted : reread no_float show_float (FStr (bs "007")) = FInt 7 /\ reread no_float show_float (FStr (bs "true")) = FBool true /\
  reread no_float show_float (FStr (bs " a ")) = FStr (bs "a").
Proof. repeat split; reflexivity. Qed.
Print Assumptions C84_text_refuted.
(** A group that holds a group is lost, with every group after it, and so are
    their fields. *)
Theorem C84_nested_refuted :
  let d := mkDS (F := unit) [] [Group (bs "a") [(bs "x", FInt 5)] [Group (bs "b") [] []]; Group (bs "c") [(bs "y", FInt 6)] []] in
  ParseXFADatasets no_float (DatasetsToXFA show_float (fun l => l) d) = mkDS [] [].
Proof. vm_compute. reflexivity. Qed.
Print Assumptions C84_nested_refuted.
(** A group whose name differs only by case from an element of the format is
    dissolved: its fields become fields of the document, and replace them. *)
Theorem C84_standard_group_refuted :
  let d := mkDS (F := unit) [(bs "x", FInt 5)] [Group (bs "Label") [(bs "x", FInt 6)] []] in
  ParseXFADatasets no_float (DatasetsToXFA show_float (fun l => l) d) = mkDS [(bs "x", FInt 6)] [].
Proof. vm_compute. reflexivity. Qed.
Print Assumptions C84_standard_group_refuted.
Theorem C84_reserved_refuted : forall F (parseF : bytes -> option F) (formatF : F -> bytes) n k v,
  In (ToLower n) reserved_names -> ~ In n [bs "data"; bs "field"; bs "value"] -> k <> [] ->
  ParseXFADatasets parseF (DatasetsToXFA formatF (fun l => l) (mkDS [] [Group n [(k, v)] []])) = mkDS [(k, reread parseF formatF v)] [].
Proof. exact @reserved_dissolved. Qed.
Print Assumptions C84_reserved_refuted.
Example C84_reserved_example : In (ToLower (bs "Script")) reserved_names /\ ~ In (bs "Script") [bs "data"; bs "field"; bs "value"].
Proof. split; [vm_compute; tauto|not_in]. Qed.
(** A field with an empty name is dropped. *)
Theorem C84_unnamed_refuted :
  ParseXFADatasets no_float (DatasetsToXFA show_float (fun l => l) (mkDS [([], FInt 5)] [])) = mkDS [] [].
Proof. vm_compute. reflexivity. Qed.
Print Assumptions C84_unnamed_refuted.
