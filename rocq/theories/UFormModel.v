(** Model of forms/forms.go, the unified interface, on top of the models of the
    two kinds of forms: FormsModel (forms/acroform), XfaModel (forms/xfa/xfa.go),
    XFormModel and DatasetsModel (the XFA translators).

    Parameters: [inflate], [zl], [fl] the decompressors, [deflate] and
    [rawdeflate] the compressors; [crypt pw f] what the encryption package finds
    in the file [f] with the password [pw]; [tokens] the tokens that encoding/xml
    reads from a text; [ff f], [sf f] the older searches that xfa.go falls back
    to when parse.GetObject fails on [f]; [order] the order of iteration over
    the changed object streams; [stack] the depth of the Go stack. *)
From Verif Require Import Util WriterModel ParseModel TextModel FormsModel.
From Verif Require XfaModel XFormModel DatasetsModel.
Local Open Scope Z_scope.

Section Forms.
Context {F : Type} (parseF : bytes -> option F).
Context (stack : nat) (inflate zl fl : bytes -> option bytes) (deflate rawdeflate : bytes -> bytes).
Context (crypt : bytes -> bytes -> result (option decryptor)) (tokens : bytes -> list DatasetsModel.token).
Context (ff sf : bytes -> Z -> result bytes) (order : list Z -> list Z).

(** forms.go:12-18; the third type, "unknown", only comes with an error *)
Inductive form_type := TypeAcroForm | TypeXFA.

(** forms.go:39-43,66-71: the two implementations of the interface *)
Inductive form :=
| AcroFormWrapper (a : acroform) (file pw : bytes)
| XFAFormWrapper (schema : XFormModel.schema F) (ds : option (DatasetsModel.datasets F)) (file pw : bytes).

(** forms/acroform/extract.go:14-33; a file without the text /Encrypt is not
    decrypted *)
Definition ExtractAcroForm (f pw : bytes) : result acroform :=
  rbind (if contains (bs "/Encrypt") f then crypt pw f else Ok None) (fun dec =>
  ParseAcroForm stack inflate (crypt []) dec f).

(** xfa.ExtractAllXFAStreams(pdfBytes, nil, verbose) *)
Definition xfa_streams (f : bytes) : result XfaModel.xstreams :=
  XfaModel.ExtractAllXFAStreams zl fl (GetObject inflate None f) (ff f) (sf f) f.

(** forms.go:110-126 *)
Definition Detect (f pw : bytes) : result form_type :=
  let try_xfa :=
    match xfa_streams f with
    | Panic => Panic
    | Err => Err
    | Ok s => match kget (bs "template") s with
              | Some i => match XfaModel.siData i with [] => Err | _ => Ok TypeXFA end
              | None => Err
              end
    end in
  match ExtractAcroForm f pw with
  | Panic => Panic
  | Err => try_xfa
  | Ok a => match fmFields a with [] => try_xfa | _ => Ok TypeAcroForm end
  end.

Definition datasets_of (s : XfaModel.xstreams) : option (DatasetsModel.datasets F) :=
  match kget (bs "datasets") s with
  | Some i => Some (DatasetsModel.ParseXFADatasets parseF (tokens (XfaModel.siData i)))
  | None => None
  end.

(** forms.go:128-162.  ParseXFAForm and ParseXFADatasets never return an error. *)
Definition Extract (f pw : bytes) : result form :=
  let try_xfa :=
    match xfa_streams f with
    | Panic => Panic
    | Err => Err
    | Ok s => match kget (bs "template") s with
              | Some i => match XfaModel.siData i with
                          | [] => Err
                          | b :: t => Ok (XFAFormWrapper (XFormModel.ParseXFAForm parseF (tokens (b :: t))) (datasets_of s) f pw)
                          end
              | None => Err
              end
    end in
  match ExtractAcroForm f pw with
  | Panic => Panic
  | Err => try_xfa
  | Ok a => match fmFields a with [] => try_xfa | _ => Ok (AcroFormWrapper a f pw) end
  end.

(** forms.go:171-188 *)
Definition ExtractXFA (f pw : bytes) : result (option (XFormModel.schema F) * option (DatasetsModel.datasets F)) :=
  rbind (xfa_streams f) (fun s =>
  Ok (match kget (bs "template") s with
      | Some i => Some (XFormModel.ParseXFAForm parseF (tokens (XfaModel.siData i)))
      | None => None
      end, datasets_of s)).

(** forms.go:45-47,74-76 *)
Definition Type_ (x : form) : form_type := match x with AcroFormWrapper _ _ _ => TypeAcroForm | XFAFormWrapper _ _ _ _ => TypeXFA end.
(** forms.go:49-51,78-80: the two kinds of schema *)
Definition Schema (x : form) : list question + XFormModel.schema F :=
  match x with AcroFormWrapper a _ _ => inl (ToFormSchema (fmFields a)) | XFAFormWrapper s _ _ _ => inr s end.
(** forms.go:53-55,81-94.  Both branches of the XFA wrapper pass nil for the
    encryption.  The values of an XFA form are printed with %v. *)
Definition Fill (x : form) (f : bytes) (data : list (bytes * fvalue)) (pw : bytes) : result bytes :=
  match x with
  | AcroFormWrapper _ _ _ => FillFormFields stack inflate deflate (crypt pw) (crypt []) order f data
  | XFAFormWrapper _ _ _ _ =>
      rmap fst (XfaModel.UpdateXFAInPDF zl fl rawdeflate (GetObject inflate None f) (ff f) (sf f) f (length f)
        (map (fun e => (fst e, show (snd e))) data))
  end.
(** forms.go:57-59,96-100 *)
Definition Validate (x : form) (data : list (bytes * fvalue)) : list verror :=
  match x with AcroFormWrapper a _ _ => ValidateFormData (fmFields a) data | XFAFormWrapper _ _ _ _ => [] end.
(** forms.go:61-63,104-109 *)
Definition GetValues (x : form) : list (bytes * (fvalue + DatasetsModel.fval F)) :=
  match x with
  | AcroFormWrapper a _ _ => map (fun e => (fst e, inl (snd e))) (GetFieldValues (fmFields a))
  | XFAFormWrapper _ (Some d) _ _ => map (fun e => (fst e, inr (snd e))) (DatasetsModel.dsFields d)
  | XFAFormWrapper _ None _ _ => []
  end.
End Forms.
