(** What a user of the form builder's actions and appearances relies on. *)
From Verif Require Import Util WriterModel TextModel TextSpec ActsModel.
Local Open Scope Z_scope.

(** The field's text is a dictionary: [x] up to its closing brackets, and
    nothing but other characters after them. *)
Definition closes (t x y : bytes) : Prop :=
  t = x ++ bs ">>" ++ y /\ forallb (fun b => negb (beqb b ">")) y = true.
(** What the action needs to be one: a known type and, to go somewhere, a
    place. *)
Definition usable (a : action) : Prop :=
  match actType a with
  | AURI | AJavaScript | ASubmit | AReset => True
  | AGoTo => actDest a <> [] \/ 0 < actPage a
  | AOther _ => False
  end.
(** [l] is a string object a PDF reader reads as the text [rs]. *)
Definition reads_as (l : bytes) (rs : list N) : Prop := forall rest, read_literal (l ++ rest) = Some (latin1 rs, rest).
(** Nothing but object [n] differs. *)
Definition only_object (n : Z) (w w' : writer) : Prop :=
  (forall m, m <> n -> mget m (objects w') = mget m (objects w)) /\
  nextObjNum w' = nextObjNum w /\ dicts w' = dicts w /\ rootRef w' = rootRef w /\ infoRef w' = infoRef w /\
  encryptRef w' = encryptRef w.
(** The keys of the events *)
Definition events : list (bytes * bytes) :=
  [(bs "onClick", bs "U"); (bs "onMouseUp", bs "U"); (bs "onMouseDown", bs "D"); (bs "onEnter", bs "E"); (bs "onExit", bs "X")].
(** How often [q] begins in [t] *)
Fixpoint times (q t : bytes) : nat :=
  match t with [] => 0 | _ :: t' => (if prefixb q t then 1 else 0) + times q t' end.
(** Object [n] is a compressed stream holding [content], with the dictionary
    entries [d] and what describes the compressed data. *)
Definition form_xobject (deflate : bytes -> bytes) (w : writer) (n : Z) (d : dict) (content : bytes) : Prop :=
  exists a, mget n (objects w) = Some (mkObj None (Some (deflate content)) (Some a)) /\
    mget a (dicts w) = Some (d ++ [(bs "Filter", VStr (bs "/FlateDecode"));
                                   (bs "Length", VInt (Z.of_nat (length (deflate content))))]).
(** The numbered objects that were there still are. *)
Definition kept (w w' : writer) : Prop := forall m o, m < nextObjNum w -> mget m (objects w) = Some o -> mget m (objects w') = Some o.
(** A drawing of the size [w] by [h], placed where the field is *)
Definition drawing (w h : bytes) : dict :=
  [(bs "/Type", VStr (bs "/XObject")); (bs "/Subtype", VStr (bs "/Form"));
   (bs "/BBox", VArr [VInt 0; VInt 0; VText w; VText h]);
   (bs "/Matrix", VArr [VInt 1; VInt 0; VInt 0; VInt 1; VInt 0; VInt 0])].
