(** What a collector and error classification should do. *)
From Verif Require Import WarnModel.

(** The warnings a collector should hold: those added while enabled since the
    last Clear, in order. *)
Fixpoint expected (enabled : bool) (acc : list warning) (l : list op) : list warning :=
  match l with
  | [] => acc
  | Add (Some w) :: r => expected enabled (if enabled then acc ++ [w] else acc) r
  | Add None :: r => expected enabled acc r
  | Clear :: r => expected enabled [] r
  | Enable :: r => expected true acc r
  | Disable :: r => expected false acc r
  end.
Definition no_clear (l : list op) : bool := forallb (fun o => match o with Clear => false | _ => true end) l.

(** [layer e d]: e is d or wraps, at any depth, d. *)
Inductive layer : goerr -> goerr -> Prop :=
| layer_here e : layer e e
| layer_cause code msg e d : layer e d -> layer (PDFError code msg (Some e)) d
| layer_wrap msg e d : layer e d -> layer (Wrapped msg e) d.

Definition has_code (c : bytes) (e : goerr) : Prop := exists msg cause, e = PDFError c msg cause.

(** The message an error was made with. *)
Definition message (e : goerr) : bytes :=
  match e with PDFError _ msg _ => msg | Wrapped msg _ => msg | Other msg => msg end.
