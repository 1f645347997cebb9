(** Model of types/errors.go and types/warnings.go. *)
From Verif Require Export Util.

(* ---------------------------------------------------------------- *)
(** Warnings *)

(** types/warnings.go:18-24 Warning (context and time are not used by the
    collector; [wRest] stands for them). *)
Record warning := mkW { wLevel : bytes; wCode : bytes; wMessage : bytes; wRest : bytes }.

(** Go slices share arrays.  Memory is a list of arrays; a cell that was never
    written is [None] (a nil pointer); a slice starting at the beginning of its
    array is the array's number and a length.  The capacity is the length of
    the array. *)
Definition memory : Type := list (list (option warning)).
Record slice := mkSlice { sArr : nat; sLen : nat }.
(** types/warnings.go:75-78 WarningCollector *)
Record collector := mkColl { cWarnings : slice; cEnabled : bool }.

Fixpoint upd {A} (i : nat) (x : A) (l : list A) : list A :=
  match l, i with
  | [], _ => []
  | _ :: r, O => x :: r
  | a :: r, S i' => a :: upd i' x r
  end.
Definition array (m : memory) (i : nat) : list (option warning) := nth i m [].
Definition read (m : memory) (s : slice) : list (option warning) := firstn (sLen s) (array m (sArr s)).

(** types/warnings.go:81-86 NewWarningCollector: an empty array. *)
Definition NewWarningCollector (enabled : bool) (m : memory) : memory * collector :=
  (m ++ [[]], mkColl (mkSlice (length m) 0) enabled).

Section ops.
  (** The capacity append chooses when the array is full ([extra n] more than
      needed; the run-time decides). *)
  Context (extra : nat -> nat).

  (** The built-in append of one element. *)
  Definition append1 (m : memory) (s : slice) (w : warning) : memory * slice :=
    let a := array m (sArr s) in
    if sLen s <? length a then (upd (sArr s) (upd (sLen s) (Some w) a) m, mkSlice (sArr s) (S (sLen s)))
    else (m ++ [firstn (sLen s) a ++ [Some w] ++ repeat None (extra (sLen s))], mkSlice (length m) (S (sLen s))).

  Inductive op := Add (w : option warning) | Clear | Enable | Disable.

  (** types/warnings.go:89-93 Add, 128-130 Clear, 155-157 Enable, 160-162
      Disable.  AddWarning, AddWarningf and AddWarningWithCode (96-108) are Add
      of a new warning. *)
  Definition step (st : memory * collector) (o : op) : memory * collector :=
    let (m, c) := st in
    match o with
    | Add (Some w) => if cEnabled c then let (m', s) := append1 m (cWarnings c) w in (m', mkColl s (cEnabled c)) else st
    | Add None => st
    | Clear => (m, mkColl (mkSlice (sArr (cWarnings c)) 0) (cEnabled c))
    | Enable => (m, mkColl (cWarnings c) true)
    | Disable => (m, mkColl (cWarnings c) false)
    end.
  Definition run (st : memory * collector) (l : list op) : memory * collector := fold_left step l st.
End ops.

(** types/warnings.go:111-113 Warnings: the slice; its elements are [read]. *)
Definition Warnings (c : collector) : slice := cWarnings c.
(** types/warnings.go:116-123 Count and HasWarnings *)
Definition Count (c : collector) : nat := sLen (cWarnings c).
Definition HasWarnings (c : collector) : bool := 0 <? sLen (cWarnings c).
(** types/warnings.go:131-150 FilterByLevel and GetByCode.  A nil element would
    be dereferenced: [Panic]. *)
Fixpoint filter_loop (f : warning -> bool) (l : list (option warning)) : result (list warning) :=
  match l with
  | [] => Ok []
  | None :: _ => Panic
  | Some w :: r => match filter_loop f r with Ok x => Ok (if f w then w :: x else x) | Err => Err | Panic => Panic end
  end.
Definition FilterByLevel (m : memory) (c : collector) (level : bytes) : result (list warning) :=
  filter_loop (fun w => bytes_eqb (wLevel w) level) (read m (cWarnings c)).
Definition GetByCode (m : memory) (c : collector) (code : bytes) : result (list warning) :=
  filter_loop (fun w => bytes_eqb (wCode w) code) (read m (cWarnings c)).

(* ---------------------------------------------------------------- *)
(** Errors.  An error is a PDFError (types/errors.go:48-53, context left out),
    an error of fmt.Errorf with %w, or any other error. *)
Inductive goerr :=
| PDFError (code msg : bytes) (cause : option goerr)
| Wrapped (msg : bytes) (e : goerr)
| Other (msg : bytes).

(** types/errors.go:56-61 Error *)
Fixpoint error_text (e : goerr) : bytes :=
  match e with
  | PDFError code msg (Some c) => bs "[" ++ code ++ bs "] " ++ msg ++ bs ": " ++ error_text c
  | PDFError code msg None => bs "[" ++ code ++ bs "] " ++ msg
  | Wrapped msg e => msg ++ bs ": " ++ error_text e
  | Other msg => msg
  end.

(** errors.Is(e, target) for a target that is a PDFError of code [c]: the
    standard library asks the Is method of each error of the Unwrap chain
    (types/errors.go:64-74).  Being the same object implies the same code, so
    the pointer comparison adds nothing. *)
Fixpoint errorsIs (e : goerr) (c : bytes) : bool :=
  match e with
  | PDFError code _ cause => bytes_eqb code c || match cause with Some e' => errorsIs e' c | None => false end
  | Wrapped _ e' => errorsIs e' c
  | Other _ => false
  end.

(** types/errors.go:86-121 NewPDFError, NewPDFErrorf, WrapError, WrapErrorf *)
Definition NewPDFError (code msg : bytes) : goerr := PDFError code msg None.
Definition WrapError (code msg : bytes) (cause : option goerr) : goerr := PDFError code msg cause.

(** types/errors.go:167-172 GetErrorCode *)
Definition GetErrorCode (e : goerr) : option bytes := match e with PDFError code _ _ => Some code | _ => None end.
Definition code_in (l : list bytes) (e : goerr) : bool :=
  match e with PDFError code _ _ => existsb (bytes_eqb code) l | _ => false end.
(** types/errors.go:174-198 IsNotFound, IsEncryptionError, IsValidationError *)
Definition IsNotFound := code_in [bs "OBJECT_NOT_FOUND"; bs "FIELD_NOT_FOUND"].
Definition IsEncryptionError := code_in [bs "ENCRYPTED"; bs "DECRYPTION_FAILED"; bs "WRONG_PASSWORD"; bs "UNSUPPORTED_CRYPTO"].
Definition IsValidationError := code_in [bs "VALIDATION_ERROR"; bs "INVALID_VALUE"].
