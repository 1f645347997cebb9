(** Property theorems: warnings and errors. *)
From Verif Require Import WarnModel WarnSpec WarnProofs.

(** C39.  [extra] is how much spare capacity append allocates, [m] the rest of
    memory. *)
Theorem C39_collector : forall extra e m ops,
  let '(m', c) := run extra (NewWarningCollector e m) ops in
  let ws := expected e [] ops in
  read m' (Warnings c) = map Some ws /\ Count c = length ws /\ HasWarnings c = negb (match ws with [] => true | _ => false end) /\
  (forall lv, FilterByLevel m' c lv = Ok (List.filter (fun w => bytes_eqb (wLevel w) lv) ws)) /\
  (forall code, GetByCode m' c code = Ok (List.filter (fun w => bytes_eqb (wCode w) code) ws)).
Proof. exact collector_ok. Qed.
Print Assumptions C39_collector.

(** The list a caller got from Warnings stays as it was while more warnings
    are added ... *)
Theorem C39_snapshot_until_clear : forall extra e m ops1 ops2, no_clear ops2 = true ->
  let st1 := run extra (NewWarningCollector e m) ops1 in
  let st2 := run extra st1 ops2 in
  read (fst st2) (Warnings (snd st1)) = map Some (expected e [] ops1).
Proof. exact snapshot_ok. Qed.
Print Assumptions C39_snapshot_until_clear.

(** ... but after Clear it is overwritten. *)
Theorem C39_snapshot_refuted : exists ops1 ops2,
  let st1 := run (fun _ => 0) (NewWarningCollector true []) ops1 in
  let st2 := run (fun _ => 0) st1 ops2 in
  read (fst st2) (Warnings (snd st1)) <> read (fst st1) (Warnings (snd st1)).
Proof.
  exists [Add (Some (mkW (bs "info") [] (bs "first") []))], [Clear; Add (Some (mkW (bs "info") [] (bs "second") []))].
  vm_compute. discriminate.
Qed.
Print Assumptions C39_snapshot_refuted.

Example C39_example :
  let w1 := mkW (bs "info") (bs "A") [] [] in let w2 := mkW (bs "error") (bs "B") [] [] in let w3 := mkW (bs "error") (bs "A") [] [] in
  expected true [] [Add (Some w3); Clear; Add (Some w1); Add None; Disable; Add (Some w3); Enable; Add (Some w2); Add (Some w3)] = [w1; w2; w3].
Proof. reflexivity. Qed.

(** C40.  errors.Is recognises a code at any depth, and only then. *)
Theorem C40_errors_is : forall c e, errorsIs e c = true <-> exists d, layer e d /\ has_code c d.
Proof. exact is_layer. Qed.
Print Assumptions C40_errors_is.

(** The text of an error has the message of every error it wraps, and begins
    with its code. *)
Theorem C40_error_text : forall e,
  (forall d, layer e d -> exists pre post, error_text e = pre ++ message d ++ post) /\
  (forall c, has_code c e -> exists post, error_text e = bs "[" ++ c ++ bs "] " ++ post).
Proof. exact (fun e => conj (text_layer e) (text_code e)). Qed.
Print Assumptions C40_error_text.

(** The classification functions look at the outermost error only. *)
Theorem C40_classification_partial : forall e,
  (IsNotFound e = true <-> exists c, In c [bs "OBJECT_NOT_FOUND"; bs "FIELD_NOT_FOUND"] /\ has_code c e) /\
  (IsEncryptionError e = true <-> exists c, In c [bs "ENCRYPTED"; bs "DECRYPTION_FAILED"; bs "WRONG_PASSWORD"; bs "UNSUPPORTED_CRYPTO"] /\ has_code c e) /\
  (IsValidationError e = true <-> exists c, In c [bs "VALIDATION_ERROR"; bs "INVALID_VALUE"] /\ has_code c e).
Proof. exact (fun e => conj (code_in_spec _ e) (conj (code_in_spec _ e) (code_in_spec _ e))). Qed.
Print Assumptions C40_classification_partial.
Theorem C40_classification_refuted :
  let e := Wrapped (bs "reading page") (NewPDFError (bs "OBJECT_NOT_FOUND") (bs "object 5")) in
  errorsIs e (bs "OBJECT_NOT_FOUND") = true /\ IsNotFound e = false /\ GetErrorCode e = None.
Proof. vm_compute. repeat split. Qed.
Print Assumptions C40_classification_refuted.
Example C40_example : errorsIs (Wrapped (bs "a") (WrapError (bs "STREAM_ERROR") (bs "b") (Some (NewPDFError (bs "WRONG_PASSWORD") [])))) (bs "WRONG_PASSWORD") = true.
Proof. reflexivity. Qed.
