(** Catalogs with and without bookmarks, stated on their text. *)
From Verif Require Export WriterSpec.
From Verif Require Import Util WriterModel.
Local Open Scope Z_scope.

(** The catalog was stored as text (as SetRoot's callers do). *)
Definition text_catalog (w : writer) (root out : Z) (c : bytes) : Prop :=
  rootRef w = Some root /\ root <> 0 /\ outlinesRef w = Some out /\ mget root (objects w) = Some (mkObj (Some c) None None).
(** [p] stands in [c] for the first time after [a]. *)
Definition first_after (a p c : bytes) : Prop := (exists b, c = a ++ p ++ b) /\ forall a' b', c = a' ++ p ++ b' -> (length a <= length a')%nat.
Definition last_after (a p c : bytes) : Prop := (exists b, c = a ++ p ++ b) /\ forall a' b', c = a' ++ p ++ b' -> (length a' <= length a)%nat.
Definition holds (p c : bytes) : Prop := exists a b, c = a ++ p ++ b.
(** A word of a dictionary, as far as the writer's search goes. *)
Definition word_byte (b : byte) : Prop := b <> " "%byte /\ b <> ">"%byte /\ b <> x0a.
