(** Model of forms/xfa/xfa_datasets_translator.go.

    The XML text is modelled by its tokens: encoding/xml's decoder and encoder,
    and the text they exchange, are trusted to turn the tokens that are written
    into the same tokens, with character data inserted by the indentation.
    [F] is the type of floating-point numbers, [parseF] and [formatF] are
    strconv's ParseFloat and FormatFloat(v, 'f', -1, 64). *)
From Verif Require Export Util.
Local Open Scope Z_scope.

Inductive token := TStart (name : bytes) (attrs : list (bytes * bytes)) | TEnd (name : bytes) | TChars (t : bytes).

Inductive fval (F : Type) := FBool (b : bool) | FInt (z : Z) | FFloat (f : F) | FStr (s : bytes).
Arguments FBool {F}. Arguments FInt {F}. Arguments FFloat {F}. Arguments FStr {F}.
Inductive group (F : Type) := Group (name : bytes) (fields : list (bytes * fval F)) (groups : list (group F)).
Arguments Group {F}.
Definition g_name {F} (g : group F) : bytes := match g with Group n _ _ => n end.
Record datasets (F : Type) := mkDS { dsFields : list (bytes * fval F); dsGroups : list (group F) }.
Arguments mkDS {F}. Arguments dsFields {F}. Arguments dsGroups {F}.

(** strings.ToLower.  Two letters outside ASCII have a lower-case form in ASCII,
    U+0130 and U+212A; the others stay outside, and are left alone here: the
    result is only ever compared with ASCII names. *)
Definition lower_byte (b : byte) : byte := if (65 <=? b2n b)%N && (b2n b <=? 90)%N then n2b (b2n b + 32) else b.
Fixpoint ToLower (s : bytes) : bytes :=
  match s with
  | xc4 :: xb0 :: r => "i"%byte :: ToLower r
  | xe2 :: x84 :: xaa :: r => "k"%byte :: ToLower r
  | b :: r => lower_byte b :: ToLower r
  | [] => []
  end.
(** strings.TrimSpace: the characters of unicode.IsSpace, in UTF-8 *)
Definition space_chars : list bytes :=
  [[x20]; [x09]; [x0a]; [x0b]; [x0c]; [x0d]; [xc2; x85]; [xc2; xa0]; [xe1; x9a; x80];
   [xe2; x80; x80]; [xe2; x80; x81]; [xe2; x80; x82]; [xe2; x80; x83]; [xe2; x80; x84]; [xe2; x80; x85]; [xe2; x80; x86];
   [xe2; x80; x87]; [xe2; x80; x88]; [xe2; x80; x89]; [xe2; x80; x8a]; [xe2; x80; xa8]; [xe2; x80; xa9]; [xe2; x80; xaf];
   [xe2; x81; x9f]; [xe3; x80; x80]].
Fixpoint cut (ps : list bytes) (s : bytes) : option bytes :=
  match ps with [] => None | p :: ps => if prefixb p s then Some (skipn (length p) s) else cut ps s end.
Fixpoint cut_all (fuel : nat) (ps : list bytes) (s : bytes) : bytes :=
  match fuel with
  | O => s
  | S fuel => match cut ps s with Some r => cut_all fuel ps r | None => s end
  end.
Definition TrimLeft (s : bytes) : bytes := cut_all (length s) space_chars s.
Definition TrimSpace (s : bytes) : bytes :=
  let t := TrimLeft s in rev (cut_all (length t) (map (@rev byte) space_chars) (rev t)).
(** xfa_datasets_translator.go:305-321 *)
Definition standard_names : list bytes :=
  [bs "data"; bs "field"; bs "value"; bs "items"; bs "text"; bs "label"; bs "desc"; bs "bind"; bs "validate"; bs "event"; bs "script"].
Definition isStandardXFAElement (n : bytes) : bool := existsb (bytes_eqb (ToLower n)) standard_names.

Section Floats.
Context {F : Type} (parseF : bytes -> option F) (formatF : F -> bytes).

(** xfa_datasets_translator.go:145-170 *)
Definition parseFieldValue (v : bytes) : fval F :=
  if bytes_eqb v (bs "true") || bytes_eqb v (bs "1") then FBool true
  else if bytes_eqb v (bs "false") || bytes_eqb v (bs "0") then FBool false
  else match v with
       | [] => FStr []
       | _ => match atoi v with
              | Some z => FInt z
              | None => match parseF v with Some f => FFloat f | None => FStr v end
              end
       end.
(** xfa_datasets_translator.go:283-303 *)
Definition formatFieldValue (v : fval F) : bytes :=
  match v with FBool true => bs "true" | FBool false => bs "false" | FInt z => decZ z | FFloat f => formatF f | FStr s => s end.

(** xfa_datasets_translator.go:16-141.  The state of the loop; an attribute
    "name" that comes later wins. *)
Record pstate := mkPS {
  psData : datasets F; psCur : option (group F); psStack : list (group F); psName : bytes; psValue : bytes;
  psInData : bool; psInField : bool; psInValue : bool; psInGroup : bool }.
Definition start_state : pstate := mkPS (mkDS [] []) None [] [] [] false false false false.
Definition last_attr (k : bytes) (attrs : list (bytes * bytes)) (old : bytes) : bytes :=
  fold_left (fun acc a => if bytes_eqb (fst a) k then snd a else acc) attrs old.

Definition on_start (s : pstate) (n : bytes) (attrs : list (bytes * bytes)) : pstate :=
  match s with mkPS d cur st nm v iD iF iV iG =>
    if bytes_eqb n (bs "data") then mkPS d cur st nm v true iF iV iG
    else if bytes_eqb n (bs "field") then mkPS d cur st (last_attr (bs "name") attrs nm) [] iD true iV iG
    else if bytes_eqb n (bs "value") then (if iF then mkPS d cur st nm [] iD iF true iG else s)
    else if iD && negb (isStandardXFAElement n)
    then mkPS d (Some (Group n [] [])) (match cur with Some g => g :: st | None => st end) nm v iD iF iV true
    else s
  end.
Definition put_field (n : bytes) (v : fval F) (g : group F) : group F :=
  match g with Group gn fs gs => Group gn (kset n v fs) gs end.
Definition put_group (c g : group F) : group F := match g with Group gn fs gs => Group gn fs (gs ++ [c]) end.
Definition on_end (s : pstate) (n : bytes) : pstate :=
  match s with mkPS d cur st nm v iD iF iV iG =>
    if bytes_eqb n (bs "data") then mkPS d cur st nm v false iF iV iG
    else if bytes_eqb n (bs "field") then
      match nm with
      | [] => mkPS d cur st [] [] iD false iV iG
      | _ =>
          let x := parseFieldValue (TrimSpace v) in
          match cur with
          | Some g => mkPS d (Some (put_field nm x g)) st [] [] iD false iV iG
          | None => mkPS (mkDS (kset nm x (dsFields d)) (dsGroups d)) cur st [] [] iD false iV iG
          end
      end
    else if bytes_eqb n (bs "value") then mkPS d cur st nm v iD iF false iG
    else match cur with
         | Some g =>
             if iG && bytes_eqb n (g_name g) then
               match st with
               | p :: st' => mkPS d (Some (put_group g p)) st' nm v iD iF iV false
               | [] => mkPS (mkDS (dsFields d) (dsGroups d ++ [g])) None [] nm v iD iF iV false
               end
             else s
         | None => s
         end
  end.
Definition on_chars (s : pstate) (t : bytes) : pstate :=
  match s with mkPS d cur st nm v iD iF iV iG => if iV && iF then mkPS d cur st nm (v ++ t) iD iF iV iG else s end.
Definition step (s : pstate) (t : token) : pstate :=
  match t with TStart n a => on_start s n a | TEnd n => on_end s n | TChars x => on_chars s x end.
Definition ParseXFADatasets (ts : list token) : datasets F := psData (fold_left step ts start_state).

(** xfa_datasets_translator.go:173-280: the tokens given to the encoder *)
Definition encodeField (e : bytes * fval F) : list token :=
  [TStart (bs "field") [(bs "name", fst e)]; TStart (bs "value") []; TChars (formatFieldValue (snd e)); TEnd (bs "value"); TEnd (bs "field")].
Fixpoint encodeFieldGroup (perm : list (bytes * fval F) -> list (bytes * fval F)) (g : group F) : list token :=
  match g with
  | Group n fs gs => TStart n [] :: flat_map encodeField (perm fs) ++ flat_map (encodeFieldGroup perm) gs ++ [TEnd n]
  end.
(** [perm]: the order in which Go iterates over the fields of a map *)
Definition DatasetsToXFA (perm : list (bytes * fval F) -> list (bytes * fval F)) (d : datasets F) : list token :=
  TStart (bs "data") [] :: flat_map encodeField (perm (dsFields d)) ++ flat_map (encodeFieldGroup perm) (dsGroups d) ++ [TEnd (bs "data")].
End Floats.
