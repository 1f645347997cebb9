(** Model of types/warnings.go and types/errors.go. *)
From Verif Require Import Util.
Local Open Scope Z_scope.

(* ---------------------------------------------------------------- *)
(** warnings.go *)

(** warnings.go:9-15; a level is a string *)
Definition LevelInfo : bytes := bs "info".
Definition LevelWarning : bytes := bs "warning".
Definition LevelError : bytes := bs "error".
(** warnings.go:18-24 without the time stamp; the context is the list of
    assignments, the last first *)
Record warning := mkWarning { wLevel : bytes; wMessage : bytes; wCode : bytes; wContext : list (bytes * bytes) }.
(** warnings.go:27-32 *)
Definition warning_text (w : warning) : bytes :=
  match wCode w with
  | [] => bs "[" ++ wLevel w ++ bs "] " ++ wMessage w
  | c => bs "[" ++ wLevel w ++ bs "] " ++ c ++ bs ": " ++ wMessage w
  end.
(** warnings.go:35-41 *)
Definition wWithContext (k v : bytes) (w : warning) : warning :=
  mkWarning (wLevel w) (wMessage w) (wCode w) (kset k v (wContext w)).
(** warnings.go:44-72 *)
Definition NewWarning (level msg : bytes) : warning := mkWarning level msg [] [].
Definition NewWarningWithCode (level code msg : bytes) : warning := mkWarning level msg code [].

(** Go's slices of warnings: an array somewhere in memory, and how much of it
    is seen.  The cells hold pointers to warnings; a pointer is its number. *)
Record slice := mkSlice { slArray : Z; slLen : nat }.
(** Memory: the arrays (all their cells), and the next free address. *)
Record memory := mkMem { arrays : zmap (list Z); free : Z }.
Definition cells (m : memory) (a : Z) : list Z := match mget a (arrays m) with Some l => l | None => [] end.
(** What a slice shows *)
Definition seen (m : memory) (s : slice) : list Z := firstn (slLen s) (cells m (slArray s)).
Fixpoint put (i : nat) (x : Z) (l : list Z) : list Z :=
  match l, i with [] , _ => [] | _ :: l', O => x :: l' | y :: l', S i => y :: put i x l' end.
(** The built-in append for one element; [grow n] cells more than the [n] in
    use are taken when the array is full (at least one) *)
Definition append1 (grow : nat -> nat) (m : memory) (s : slice) (x : Z) : memory * slice :=
  let c := cells m (slArray s) in
  if (slLen s <? length c)%nat
  then (mkMem (mset (slArray s) (put (slLen s) x c) (arrays m)) (free m), mkSlice (slArray s) (S (slLen s)))
  else let new := firstn (slLen s) c ++ x :: repeat 0 (grow (slLen s)) in
       (mkMem (mset (free m) new (arrays m)) (free m + 1), mkSlice (free m) (S (slLen s))).

(** warnings.go:75-78; the warnings themselves, by number, are kept beside *)
Record collector := mkColl { cWarnings : slice; cEnabled : bool }.
(** warnings.go:81-86: make([]*Warning, 0) *)
Definition NewWarningCollector (enabled : bool) (m : memory) : memory * collector :=
  (mkMem (mset (free m) [] (arrays m)) (free m + 1), mkColl (mkSlice (free m) 0) enabled).
(** warnings.go:89-93; None is nil *)
Definition CAdd (grow : nat -> nat) (w : option Z) (m : memory) (c : collector) : memory * collector :=
  match cEnabled c, w with
  | true, Some x => let (m, s) := append1 grow m (cWarnings c) x in (m, mkColl s (cEnabled c))
  | _, _ => (m, c)
  end.
(** warnings.go:111-113 *)
Definition CWarnings (c : collector) : slice := cWarnings c.
(** warnings.go:116-123 *)
Definition CCount (c : collector) : nat := slLen (cWarnings c).
Definition CHasWarnings (c : collector) : bool := (0 <? slLen (cWarnings c))%nat.
(** warnings.go:126-128 *)
Definition CClear (c : collector) : collector := mkColl (mkSlice (slArray (cWarnings c)) 0) (cEnabled c).
(** warnings.go:131-139, 142-150; [at_] reads a pointer *)
Definition CFilterByLevel (at_ : Z -> warning) (level : bytes) (m : memory) (c : collector) : list Z :=
  List.filter (fun p => bytes_eqb (wLevel (at_ p)) level) (seen m (cWarnings c)).
Definition CGetByCode (at_ : Z -> warning) (code : bytes) (m : memory) (c : collector) : list Z :=
  List.filter (fun p => bytes_eqb (wCode (at_ p)) code) (seen m (cWarnings c)).
(** warnings.go:153-165 *)
Definition CEnable (c : collector) : collector := mkColl (cWarnings c) true.
Definition CDisable (c : collector) : collector := mkColl (cWarnings c) false.

(** The calls that change a collector *)
Inductive wcall := WAdd (w : option Z) | WClear | WEnable | WDisable.
Definition wstep (grow : nat -> nat) (st : memory * collector) (k : wcall) : memory * collector :=
  let (m, c) := st in
  match k with
  | WAdd w => CAdd grow w m c
  | WClear => (m, CClear c)
  | WEnable => (m, CEnable c)
  | WDisable => (m, CDisable c)
  end.
Definition wsteps (grow : nat -> nat) (st : memory * collector) (l : list wcall) : memory * collector :=
  fold_left (wstep grow) l st.

(* ---------------------------------------------------------------- *)
(** errors.go *)

(** An error: a PDFError (errors.go:48-66), or one of another package, with or
    without an Unwrap method; [id] tells pointers apart. *)
Inductive error :=
| PDFError (id : Z) (code message : bytes) (cause : option error) (context : list (bytes * bytes))
| Other (id : Z) (text : bytes)
| Wrapped (id : Z) (before : bytes) (cause : error).        (* fmt.Errorf("...: %w", cause) *)
Definition eid (e : error) : Z := match e with PDFError i _ _ _ _ | Other i _ | Wrapped i _ _ => i end.

(** errors.go:57-62 *)
Fixpoint error_text (e : error) : bytes :=
  match e with
  | PDFError _ code msg (Some c) _ => bs "[" ++ code ++ bs "] " ++ msg ++ bs ": " ++ error_text c
  | PDFError _ code msg None _ => bs "[" ++ code ++ bs "] " ++ msg
  | Other _ t => t
  | Wrapped _ before c => before ++ bs ": " ++ error_text c
  end.
(** errors.go:65-67 and fmt's wrapError.Unwrap *)
Definition unwrap (e : error) : option error :=
  match e with PDFError _ _ _ c _ => c | Other _ _ => None | Wrapped _ _ c => Some c end.
(** errors.go:70-75 *)
Definition is_method (e target : error) : bool :=
  match e, target with PDFError _ c _ _ _, PDFError _ c' _ _ _ => bytes_eqb c c' | _, _ => false end.
(** errors.Is of the standard library (pointers compare by identity) *)
Fixpoint errors_is (e target : error) : bool :=
  (eid e =? eid target) || is_method e target ||
  match e with
  | PDFError _ _ _ (Some c) _ | Wrapped _ _ c => errors_is c target
  | _ => false
  end.
(** errors.go:78-84 *)
Definition eWithContext (k v : bytes) (e : error) : error :=
  match e with PDFError i c m ca ctx => PDFError i c m ca (kset k v ctx) | e => e end.

Definition ErrCodeObjectNotFound : bytes := bs "OBJECT_NOT_FOUND".
Definition ErrCodeFieldNotFound : bytes := bs "FIELD_NOT_FOUND".
Definition ErrCodeEncrypted : bytes := bs "ENCRYPTED".
Definition ErrCodeDecryptionFailed : bytes := bs "DECRYPTION_FAILED".
Definition ErrCodeWrongPassword : bytes := bs "WRONG_PASSWORD".
Definition ErrCodeUnsupportedCrypto : bytes := bs "UNSUPPORTED_CRYPTO".
Definition ErrCodeValidationError : bytes := bs "VALIDATION_ERROR".
Definition ErrCodeInvalidValue : bytes := bs "INVALID_VALUE".
(** errors.go:12-45: all codes *)
Definition codes : list bytes :=
  [bs "INVALID_PDF"; bs "MALFORMED_PDF"; bs "UNSUPPORTED_PDF"; ErrCodeObjectNotFound; bs "INVALID_OBJECT"; bs "STREAM_ERROR";
   bs "XREF_ERROR"; ErrCodeEncrypted; ErrCodeDecryptionFailed; ErrCodeWrongPassword; ErrCodeUnsupportedCrypto; bs "NO_FORMS";
   bs "INVALID_FORM"; ErrCodeFieldNotFound; ErrCodeInvalidValue; ErrCodeValidationError; bs "NO_CONTENT"; bs "EXTRACTION_ERROR";
   bs "FONT_ERROR"; bs "IMAGE_ERROR"; bs "WRITE_ERROR"; bs "INVALID_INPUT"; bs "IO_ERROR"].
(** errors.go:120-154: the sentinel of a code *)
Definition sentinel (id : Z) (code : bytes) : error := PDFError id code [] None [].
(** errors.go:158-171 *)
Definition GetErrorCode (e : error) : option bytes := match e with PDFError _ c _ _ _ => Some c | _ => None end.
(** errors.go:173-178 *)
Definition IsNotFound (e : error) : bool :=
  match e with PDFError _ c _ _ _ => bytes_eqb c ErrCodeObjectNotFound || bytes_eqb c ErrCodeFieldNotFound | _ => false end.
(** errors.go:181-189 *)
Definition IsEncryptionError (e : error) : bool :=
  match e with
  | PDFError _ c _ _ _ => bytes_eqb c ErrCodeEncrypted || bytes_eqb c ErrCodeDecryptionFailed ||
                          bytes_eqb c ErrCodeWrongPassword || bytes_eqb c ErrCodeUnsupportedCrypto
  | _ => false
  end.
(** errors.go:192-197 *)
Definition IsValidationError (e : error) : bool :=
  match e with PDFError _ c _ _ _ => bytes_eqb c ErrCodeValidationError || bytes_eqb c ErrCodeInvalidValue | _ => false end.
