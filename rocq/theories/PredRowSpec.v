(** Tables of rows filtered with any PNG predictors. *)
From Verif Require Export ParseSpec.
From Verif Require Import Util.
Local Open Scope Z_scope.

(** A table of cross-reference entries with any of the five row filters. *)
Definition table (columns : nat) (rows : list (png_tag * bytes)) : Prop := rows <> [] /\ forall tr, In tr rows -> length (snd tr) = columns.
(** Filtering left the bytes of the row as they were. *)
Definition untouched (t : png_tag) (prev row : bytes) : Prop := png_filter t prev row = n2b (tag_value t) :: row.
(** Every row filtered with Average or Paeth is such a row. *)
Fixpoint average_paeth_trivial (prev : bytes) (rows : list (png_tag * bytes)) : Prop :=
  match rows with
  | [] => True
  | (t, row) :: rows' => (match t with TAverage | TPaeth => untouched t prev row | _ => True end) /\ average_paeth_trivial row rows'
  end.
