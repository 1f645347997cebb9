(** What the pieces of a byte-perfect document are (C109, C110). *)
From Verif Require Import WriterModel ParseModel ParseSpec WriterSpec PieceModel.
Local Open Scope Z_scope.

(** [s] is the part of [f] from [i] to [j]. *)
Definition part (f : bytes) (i j : Z) (s : bytes) : Prop :=
  exists a c, f = a ++ s ++ c /\ i = Z.of_nat (length a) /\ j = i + Z.of_nat (length s).

(** All lines end: only line ends from [e] on up to [stop]. *)
Definition line_ends (f : bytes) (e stop : nat) : Prop :=
  exists a l c, f = a ++ l ++ c /\ length a = e /\ stop = (e + length l)%nat /\ Forall (fun b => b = x0a \/ b = x0d) l /\
    match c with b :: _ => b <> x0a /\ b <> x0d | [] => True end.

(** The objects of a revision. *)
Definition revision_object (r : revision) (o : rawobj) : Prop := exists n, mget n (rvObjects r) = Some o.

(** [s] is where the revision begins: the smallest of the positions of its
    objects and of its cross-reference section. *)
Definition revision_start (r : revision) (s : Z) : Prop :=
  s <= rvStartXRef r /\ (forall o, revision_object r o -> s <= roOffset o) /\
  (s = rvStartXRef r \/ exists o, revision_object r o /\ roOffset o = s).

(** The reference text of an optional object number. *)
Definition ref_or_nothing (r : option Z) : bytes := match r with Some n => ref n | None => [] end.
Definition no_negative (r : option Z) : Prop := match r with Some n => 0 <= n | None => True end.
