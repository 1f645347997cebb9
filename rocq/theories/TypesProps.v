(** Property theorems: the warning collector (C94) and errors (C95). *)
From Verif Require Import Util TypesModel TypesSpec TypesProofs.
Local Open Scope Z_scope.

(* ---------------------------------------------------------------- *)
(** C94, full statement: after every history of calls the collector holds
    exactly the warnings added while it was enabled since it was last cleared,
    in order; a list it has given out does not change afterwards; two
    collectors do not disturb each other. *)
Theorem C94_history : forall grow m enabled calls, sound m ->
  let (m0, c0) := NewWarningCollector enabled m in
  let (m', c) := wsteps grow (m0, c0) calls in
  cEnabled c = fst (held enabled calls) /\ seen m' (CWarnings c) = snd (held enabled calls) /\
  CCount c = length (snd (held enabled calls)) /\ (CHasWarnings c = true <-> snd (held enabled calls) <> []).
Proof. exact collected. Qed.
Print Assumptions C94_history.
Theorem C94_two_collectors : forall grow m enabled1 enabled2 calls, sound m ->
  let (m1, c1) := NewWarningCollector enabled1 m in
  let (m2, c2) := NewWarningCollector enabled2 m1 in
  let '(m', c1', c2') := wmix grow m2 c1 c2 calls in
  seen m' (CWarnings c1') = snd (held enabled1 (calls_of true calls)) /\
  seen m' (CWarnings c2') = snd (held enabled2 (calls_of false calls)).
Proof. exact two_collectors. Qed.
Print Assumptions C94_two_collectors.
(** A list given out stays as it is while the collector is not cleared ... *)
Theorem C94_list_kept_partial : forall grow m enabled before after, sound m -> ~ In WClear after ->
  let (m1, c1) := wsteps grow (NewWarningCollector enabled m) before in
  let (m2, _) := wsteps grow (m1, c1) after in
  seen m2 (CWarnings c1) = seen m1 (CWarnings c1).
Proof. exact snapshot. Qed.
Print Assumptions C94_list_kept_partial.
(** ... and no longer: whatever was in the list, the next warning after Clear
    is written over its first entry. *)
Theorem C94_list_overwritten_refuted : forall grow m enabled before new old rest, sound m ->
  let (m1, c1) := wsteps grow (NewWarningCollector enabled m) before in
  cEnabled c1 = true -> seen m1 (CWarnings c1) = old :: rest ->
  let (m2, _) := wsteps grow (m1, c1) [WClear; WAdd (Some new)] in
  seen m2 (CWarnings c1) = new :: rest.
Proof. exact overwritten. Qed.
Print Assumptions C94_list_overwritten_refuted.
(** The two filters keep exactly what is asked for, in order. *)
Theorem C94_filters : forall at_ key m c p,
  (In p (CFilterByLevel at_ key m c) <-> In p (seen m (CWarnings c)) /\ wLevel (at_ p) = key) /\
  (In p (CGetByCode at_ key m c) <-> In p (seen m (CWarnings c)) /\ wCode (at_ p) = key).
Proof. intros. split; (etransitivity; [apply filter_In|]); rewrite bytes_eqb_eq; reflexivity. Qed.
Print Assumptions C94_filters.
Definition ex_calls : list wcall := [WAdd (Some 7); WDisable; WAdd (Some 8); WEnable; WAdd None; WAdd (Some 9)].
Example C94_example : sound (mkMem [] 1) /\ held true ex_calls = (true, [7; 9]) /\
  (let (m1, c1) := wsteps (fun n => n) (NewWarningCollector true (mkMem [] 1)) ex_calls in
   cEnabled c1 = true /\ seen m1 (CWarnings c1) = [7; 9] /\
   seen (fst (wsteps (fun n => n) (m1, c1) [WClear; WAdd (Some 5)])) (CWarnings c1) = [5; 9]).
Proof. split; [intros a l H; discriminate|]. vm_compute. repeat split; reflexivity. Qed.

(* ---------------------------------------------------------------- *)
(** C95, full statement: errors.Is finds a code anywhere in the chain of
    causes; the helpers that classify errors agree with it; adding context
    changes neither code nor text nor cause. *)
Theorem C95_is : forall t e, errors_is e t = true <->
  exists x, in_chain x e /\ (eid x = eid t \/ exists c, has_code x c /\ has_code t c).
Proof. exact is_iff. Qed.
Print Assumptions C95_is.
(** For the package's own error values; their codes are all different. *)
Theorem C95_sentinel : forall id code e, (forall x, in_chain x e -> eid x <> id) ->
  (errors_is e (sentinel id code) = true <-> exists x, in_chain x e /\ has_code x code).
Proof. exact sentinel_iff. Qed.
Print Assumptions C95_sentinel.
Theorem C95_codes_distinct : NoDup codes.
Proof. exact in_codes_nodup. Qed.
Print Assumptions C95_codes_distinct.
Theorem C95_context : forall k v e, GetErrorCode (eWithContext k v e) = GetErrorCode e /\
  error_text (eWithContext k v e) = error_text e /\ unwrap (eWithContext k v e) = unwrap e /\
  forall t, errors_is (eWithContext k v e) t = errors_is e t.
Proof. exact context_keeps. Qed.
Print Assumptions C95_context.
(** The text of an error ends with the text of its cause. *)
Theorem C95_text : forall e c, unwrap e = Some c -> exists p, error_text e = p ++ error_text c.
Proof. exact texts. Qed.
Print Assumptions C95_text.
(** The helpers look at the outermost error only. *)
Theorem C95_helpers_partial : forall i c m cause x,
  (IsNotFound (PDFError i c m cause x) = true <-> In c [bs "OBJECT_NOT_FOUND"; bs "FIELD_NOT_FOUND"]) /\
  (IsEncryptionError (PDFError i c m cause x) = true <->
     In c [bs "ENCRYPTED"; bs "DECRYPTION_FAILED"; bs "WRONG_PASSWORD"; bs "UNSUPPORTED_CRYPTO"]) /\
  (IsValidationError (PDFError i c m cause x) = true <-> In c [bs "VALIDATION_ERROR"; bs "INVALID_VALUE"]) /\
  GetErrorCode (PDFError i c m cause x) = Some c.
Proof. exact kinds. Qed.
Print Assumptions C95_helpers_partial.
(** An error that was wrapped on its way is classified as nothing. *)
Theorem C95_wrapped_refuted : forall i before e,
  GetErrorCode (Wrapped i before e) = None /\ IsNotFound (Wrapped i before e) = false /\
  IsEncryptionError (Wrapped i before e) = false /\ IsValidationError (Wrapped i before e) = false.
Proof. exact outside_only. Qed.
Print Assumptions C95_wrapped_refuted.
(** So "not found" below a form error (forms/acroform/parser.go:154, wrapped
    again by fmt.Errorf) is found by errors.Is and not by IsNotFound. *)
Example C95_example :
  let inner := PDFError 1 ErrCodeObjectNotFound (bs "object 5 not found") None [(bs "object_number", bs "5")] in
  let outer := PDFError 2 (bs "INVALID_FORM") (bs "failed") (Some inner) [] in
  errors_is (Wrapped 3 (bs "extract") outer) (sentinel 90 ErrCodeObjectNotFound) = true /\
  errors_is (Wrapped 3 (bs "extract") outer) (sentinel 90 ErrCodeWrongPassword) = false /\
  IsNotFound inner = true /\ IsNotFound outer = false /\
  error_text (Wrapped 3 (bs "extract") outer) = bs "extract: [INVALID_FORM] failed: [OBJECT_NOT_FOUND] object 5 not found".
Proof. vm_compute. repeat split; reflexivity. Qed.
