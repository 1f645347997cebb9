(** What a user expects of the datasets translator. *)
From Verif Require Export DatasetsModel.
Local Open Scope Z_scope.

(** The tokens that are read, [us], are those that were written, [ts], with
    character data inserted anywhere but inside a value element, and empty
    character data left out.  The flag: inside a value element. *)
Definition after_token (b : bool) (t : token) : bool :=
  match t with TStart n _ => bytes_eqb n (bs "value") | TEnd _ => false | TChars _ => b end.
Inductive spaced : bool -> list token -> list token -> Prop :=
| sp_nil b : spaced b [] []
| sp_token b t ts us : spaced (after_token b t) ts us -> spaced b (t :: ts) (t :: us)
| sp_empty b ts us : spaced b ts us -> spaced b (TChars [] :: ts) us
| sp_insert x ts us : spaced false ts us -> spaced false ts (TChars x :: us).

(** A byte that is part of no white-space character. *)
Definition solid (b : byte) : bool := negb (existsb (existsb (beqb b)) space_chars).

Section Floats.
Context {F : Type} (parseF : bytes -> option F) (formatF : F -> bytes).

(** A group, with all groups inside it, whose name is not one that the reader
    treats in another way. *)
Definition reserved_names : list bytes :=
  [bs "data"; bs "field"; bs "value"; bs "items"; bs "text"; bs "label"; bs "desc"; bs "bind"; bs "validate"; bs "event"; bs "script"].
Inductive plain_group : group F -> Prop :=
| pg n fs gs : ~ In (ToLower n) reserved_names -> Forall plain_group gs -> plain_group (Group n fs gs).

(** The value of a field once it is written and read again. *)
Definition reread (v : fval F) : fval F := parseFieldValue parseF (TrimSpace (formatFieldValue formatF v)).

(** The groups before the first one that contains a group. *)
Fixpoint leading (gs : list (group F)) : list (group F) :=
  match gs with Group n fs [] :: gs => Group n fs [] :: leading gs | _ => [] end.

Definition same_group (g g' : group F) : Prop :=
  match g, g' with Group n fs _, Group n' fs' gs' => n' = n /\ gs' = [] /\ forall k, k <> [] -> kget k fs' = option_map reread (kget k fs) end.
Definition group_fields (g : group F) : list (bytes * fval F) := match g with Group _ fs _ => fs end.
End Floats.
