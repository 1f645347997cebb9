(** When does a recursive reader exhaust its stack?  Walks through the objects
    of a document, stated on the texts of the objects. *)
From Verif Require Import Util ParseModel ManipModel FormsModel XPagesModel.
From Coq Require Import Relations.Relation_Operators.
Local Open Scope Z_scope.

(** One can go [k] steps from [a]. *)
Inductive walk {A} (step : A -> A -> Prop) : nat -> A -> Prop :=
| walk_here a : walk step 0 a
| walk_on k a b : step a b -> walk step k b -> walk step (S k) a.
(** From [a] one comes to a place from which one comes back to it. *)
Definition circular {A} (step : A -> A -> Prop) (a : A) : Prop :=
  exists b, clos_refl_trans A step a b /\ clos_trans A step b b.
(** [rank] goes down with each step. *)
Definition ranked {A} (step : A -> A -> Prop) (rank : A -> nat) : Prop := forall a b, step a b -> (rank b < rank a)%nat.

(** Object [m] is among the /Kids of object [n], which is not a page. *)
Definition page_kid (get : Z -> result bytes) (n m : Z) : Prop :=
  exists t r, get n = Ok t /\ extractDictValue t (bs "/Type") <> bs "/Page" /\
    In r (parseObjectRefArray (extractDictValue t (bs "/Kids"))) /\ parseObjectRef r = Ok m.
(** The page tree of the document goes down [k] levels (or more). *)
Definition pages_deep (k : nat) (s : source) : Prop :=
  exists cat t root, parseObjectRef (sRoot s) = Ok cat /\ sGet s cat = Ok t /\
    parseObjectRef (extractDictValue t (bs "/Pages")) = Ok root /\ walk (page_kid (sGet s)) k root.
(** The pages of the document can be listed. *)
Definition pages_listed (k : nat) (s : source) : Prop := exists pages, getAllPageObjectNumbers k s = Ok pages.

(** The same for the content reader, which looks for the type and the kids in
    its own way. *)
Definition content_kid (get : Z -> result bytes) (n m : Z) : Prop :=
  exists t r, get n = Ok t /\ is_page t = false /\ In r (kids_of t) /\ parseObjectRef r = Ok m.
(** The reference [r] is to an outline item, [r'] is its first child or its
    next item. *)
Definition next_item (get : Z -> result bytes) (r r' : bytes) : Prop :=
  exists n t key, parseObjectRef r = Ok n /\ get n = Ok t /\ (key = bs "/First" \/ key = bs "/Next") /\ r' = x_value t key /\ r' <> [].
(** Field [m] is among the /Kids of field [n]. *)
Definition field_kid (get : Z -> result bytes) (n m : Z) : Prop := exists t g, get n = Ok t /\ In (m, g) (get_Kids t).
(** The bytes of the line end at the start of a text: CR LF, CR, LF, or none. *)
Definition line_end (s : bytes) : nat :=
  match s with
  | a :: b :: _ => if beqb a x0d then (if beqb b x0a then 2 else 1) else if beqb a x0a then 1 else 0
  | [a] => if beqb a x0d || beqb a x0a then 1 else 0
  | [] => 0
  end.
(** The object has a stream (the words "stream" and, later, "endstream"), and
    the number after /Length in front of the word "stream" is so large that the
    end of the data is past the largest int (2^63 - 1). *)
Definition huge_length (o : bytes) : Prop :=
  exists st d, index (bs "stream") o = Some st /\ contains (bs "endstream") (skipn st o) = true /\
    value_of (find (m_key (bs "/Length")) (firstn st o)) = Some d /\
    2 ^ 63 - 1 < Z.of_nat st + 6 + Z.of_nat (line_end (skipn (st + 6) o)) + atoi_clip d.
(** Object [n] has the text [o], or, if it cannot be read, the second attempt
    finds the text [o]. *)
Definition object_text (get second : Z -> result bytes) (n : Z) (o : bytes) : Prop :=
  get n = Ok o \/ (get n = Err /\ second n = Ok o).
