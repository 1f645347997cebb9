(** The object streams that the writer makes, stated on their text. *)
From Verif Require Export ParseSpec.
From Verif Require Import Util WriterModel ParseModel.
Local Open Scope Z_scope.

(** The objects of a stream, one space between two. *)
Definition objects_text (l : list (Z * bytes)) : bytes := join (bs " ") (map snd l).
(** Where the [i]-th begins. *)
Definition begins (l : list (Z * bytes)) (i : nat) : nat := list_sum (map (fun o => S (length (snd o))) (firstn i l)).
(** Where it ends, with the space after it. *)
Definition ends (l : list (Z * bytes)) (i : nat) : nat :=
  if (S i <? length l)%nat then begins l (S i) else length (objects_text l).
(** The index with the offsets counted from the first object: "7 0 9 14 ..." *)
Fixpoint index_words (off : nat) (l : list (Z * bytes)) : list bytes :=
  match l with [] => [] | (n, d) :: l' => decZ n :: decZ (Z.of_nat off) :: index_words (off + S (length d)) l' end.
Definition index_length (l : list (Z * bytes)) : nat := length (join (bs " ") (index_words 0 l)).
(** The text of the [i]-th object, [k] bytes too late: what is read. *)
Definition read_late (k : nat) (l : list (Z * bytes)) (i : nat) : result bytes :=
  let t := objects_text l in
  let s := (k + begins l i)%nat in
  let e := if (S i <? length l)%nat then (k + begins l (S i))%nat else length t in
  if (length t <=? s)%nat || (length t <? e)%nat then Err else Ok (trim_right_blank (sub s e t)).
