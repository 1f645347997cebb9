(** What a user of the warning collector and of the errors relies on. *)
From Verif Require Import Util TypesModel.
Local Open Scope Z_scope.

(** What a collector ought to hold after some calls: the warnings added while
    it was enabled, since it was last cleared, in order. *)
Definition held_step (st : bool * list Z) (k : wcall) : bool * list Z :=
  match k with
  | WAdd (Some w) => if fst st then (fst st, snd st ++ [w]) else st
  | WAdd None => st
  | WClear => (fst st, [])
  | WEnable => (true, snd st)
  | WDisable => (false, snd st)
  end.
Definition held (enabled : bool) (l : list wcall) : bool * list Z := fold_left held_step l (enabled, []).

(** Memory in use: every array lies below the next free address. *)
Definition sound (m : memory) : Prop := forall a l, mget a (arrays m) = Some l -> a < free m.

(** Calls on two collectors, in any order: [true] is the first. *)
Fixpoint wmix (grow : nat -> nat) (m : memory) (c1 c2 : collector) (l : list (bool * wcall)) : memory * collector * collector :=
  match l with
  | [] => (m, c1, c2)
  | (true, k) :: l' => let (m', c) := wstep grow (m, c1) k in wmix grow m' c c2 l'
  | (false, k) :: l' => let (m', c) := wstep grow (m, c2) k in wmix grow m' c1 c l'
  end.
Definition calls_of (b : bool) (l : list (bool * wcall)) : list wcall :=
  map snd (List.filter (fun p => Bool.eqb (fst p) b) l).

(** The error [x] is in the chain of causes of [e]. *)
Inductive in_chain (x : error) : error -> Prop :=
| chain_here : in_chain x x
| chain_cause e c : unwrap e = Some c -> in_chain x c -> in_chain x e.
Definition has_code (e : error) (code : bytes) : Prop := exists i m c x, e = PDFError i code m c x.
