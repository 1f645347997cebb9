(** What the byte-perfect mode of the parse API should give (C119). *)
From Verif Require Import Util ParseModel PieceSpec.
Local Open Scope Z_scope.

(** The bytes of object [n] of generation [g]: header, white space, the text
    [t], end. *)
Definition object_bytes (n g : Z) (ws t : bytes) : bytes := decZ n ++ bs " " ++ decZ g ++ bs " obj" ++ ws ++ t ++ bs "endobj".
(** Blanks; a text that does not begin with white space. *)
Definition blanks (ws : bytes) : Prop := forallb is_blank ws = true.
Definition starts_here (t : bytes) : Prop := match t with b :: _ => is_white b = false | [] => False end.
(** What is left of the text [t]: all of it if it is not a stream, else
    everything up to the first "endstream". *)
Definition cut_after_stream (t t1 : bytes) : Prop :=
  (contains (bs "stream") t = false /\ t1 = t) \/
  (exists a b, t = a ++ bs "endstream" ++ b /\ index (bs "endstream") t = Some (length a) /\ t1 = a ++ bs "endstream").
(** The object as GetObject gives it: its header on a line, the text, a line
    end if the text has none. *)
Definition given_text (n g : Z) (t : bytes) : bytes :=
  decZ n ++ bs " " ++ decZ g ++ bs " obj" ++ [x0a] ++ t ++ (if suffixb [x0a] t then [] else [x0a]) ++ bs "endobj".
(** The text without the white space at its end. *)
Definition trimmed_end (t t' : bytes) : Prop :=
  (exists ws, t = t' ++ ws /\ forallb is_white ws = true) /\ (t' = [] \/ exists b c, t' = b ++ [c] /\ is_white c = false).
(** Some revision of the document holds object [n]; the last one that does
    holds [o]. *)
Definition in_some_revision (d : document) (n : Z) : Prop := exists r o, In r (dRevisions d) /\ mget n (rvObjects r) = Some o.
Definition in_last_revision (d : document) (n : Z) (o : rawobj) : Prop :=
  exists older r newer, dRevisions d = older ++ r :: newer /\ mget n (rvObjects r) = Some o /\
    forall r', In r' newer -> mget n (rvObjects r') = None.
