(** What a user expects of GetFieldAppearance. *)
From Verif Require Import Util ParseModel ParseSpec WriterModel WriterSpec FormsModel.
Local Open Scope Z_scope.

Definition blanks (g : bytes) : Prop := forallb is_ws g = true.
Definition none_of (c : byte) (s : bytes) : Prop := forallb (fun b => negb (beqb b c)) s = true.
(** The field's text names object [p], of generation [q], as its normal
    appearance, and its appearances hold no other dictionary. *)
Definition shows (t : bytes) (p q : Z) : Prop :=
  0 <= p < 2 ^ 63 /\ 0 <= q /\
  exists a g c g1 g2 g3 e b,
    t = a ++ bs "/AP" ++ g ++ bs "<<" ++ (c ++ bs "/N" ++ g1 ++ decZ p ++ g2 ++ decZ q ++ g3 ++ bs "R" ++ e) ++ bs ">>" ++ b /\
    contains (bs "/AP") a = false /\ contains (bs "/N") c = false /\ none_of ">" c /\ none_of ">" e /\
    blanks g /\ blanks g1 /\ g1 <> [] /\ blanks g2 /\ g2 <> [] /\ blanks g3 /\ g3 <> [].
(** The normal appearance is one of several, by the state of the field: the
    usual one of a check box or a radio button. *)
Definition shows_states (t : bytes) : Prop :=
  exists a g g0 g1 x b,
    t = a ++ bs "/AP" ++ g ++ bs "<<" ++ (g0 ++ bs "/N" ++ g1 ++ bs "<<" ++ x) ++ bs ">>" ++ b /\
    contains (bs "/AP") a = false /\ contains (bs "/N") x = false /\ none_of ">" x /\
    blanks g /\ blanks g0 /\ blanks g1.
(** An object that is a stream: what stands before, the data, what follows. *)
Definition stream_object (h d b : bytes) : bytes := h ++ bs "stream" ++ nl ++ d ++ nl ++ bs "endstream" ++ b.
(** Nothing in the data that looks like the beginning or the end of a stream,
    and no white space before it. *)
Definition clean_data (d : bytes) : Prop :=
  contains (bs "stream") d = false /\ match d with [] => False | c :: _ => is_ws c = false end.
