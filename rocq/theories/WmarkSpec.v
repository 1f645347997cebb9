(** What the operators of a content stream draw, as far as watermarks use them:
    the meaning of the operators in the PDF standard (8.3.4, 8.4.2, 9.4), on
    exact numbers. *)
From Coq Require Import QArith.
From Verif Require Export WmarkModel.
From Verif Require Import PageModel.
Local Open Scope Q_scope.

Definition matrix : Type := Q * Q * Q * Q * Q * Q.
Definition point : Type := Q * Q.
Definition apply (m : matrix) (p : point) : point :=
  match m, p with (a, b, c, d, e, f), (x, y) => (a * x + c * y + e, b * x + d * y + f) end.
(** first [m], then [n] *)
Definition after (m n : matrix) : matrix :=
  match m, n with (a, b, c, d, e, f), (a', b', c', d', e', f') =>
    (a * a' + b * c', a * b' + b * d', c * a' + d * c', c * b' + d * d', e * a' + f * c' + e', e * b' + f * d' + f') end.
Definition same (p q : point) : Prop := fst p == fst q /\ snd p == snd q.
(** The graphics state: transformation, fill colour, font and size, and where
    the next text starts. *)
Record drawing := mkDr { dM : matrix; dFill : Q * Q * Q; dFont : bytes; dSize : Q; dAt : point }.
Inductive mark :=
| MImage (name : bytes) (m : matrix)                                     (* an image fills the square of side 1 *)
| MText (s : bytes) (font : bytes) (size : Q) (fill : Q * Q * Q) (m : matrix) (at_ : point).
Fixpoint drawn (l : list (ccall Q)) (stack : list drawing) (s : drawing) : list mark :=
  match l with
  | [] => []
  | c :: l' =>
      let go := drawn l' stack in
      match c with
      | SaveState _ => drawn l' (s :: stack) s
      | RestoreState _ => match stack with t :: stack' => drawn l' stack' t | [] => drawn l' [] s end
      | SetMatrix _ a b c d e f => go (mkDr (after (a, b, c, d, e, f) (dM s)) (dFill s) (dFont s) (dSize s) (dAt s))
      | Translate _ x y => go (mkDr (after (1, 0, 0, 1, x, y) (dM s)) (dFill s) (dFont s) (dSize s) (dAt s))
      | Scale _ x y => go (mkDr (after (x, 0, 0, y, 0, 0) (dM s)) (dFill s) (dFont s) (dSize s) (dAt s))
      | SetFillColorRGB _ r g b => go (mkDr (dM s) (r, g, b) (dFont s) (dSize s) (dAt s))
      | BeginText _ => go (mkDr (dM s) (dFill s) (dFont s) (dSize s) (0, 0))
      | SetFont _ n z => go (mkDr (dM s) (dFill s) n z (dAt s))
      | SetTextPosition _ x y => go (mkDr (dM s) (dFill s) (dFont s) (dSize s) (fst (dAt s) + x, snd (dAt s) + y))
      | ShowText _ t => MText t (dFont s) (dSize s) (dFill s) (dM s) (dAt s) :: go s
      | DrawImage _ n => MImage n (dM s) :: go s
      | _ => go s
      end
  end.
(** On a page whose transformation is the standard one. *)
Definition blank_drawing : drawing := mkDr (1, 0, 0, 1, 0, 0) (0, 0, 0) [] 0 (0, 0).

(** The middle of the watermark that is asked for. *)
Definition middle (W H : Q) (o : wopts) (c : point) : Prop :=
  (oX o == 0 /\ oY o == 0 /\ same c (W / 2, H / 2)) \/ (~ (oX o == 0 /\ oY o == 0) /\ same c (oX o, oY o)).
(** [p] turned by the angle of which these are cosine and sine *)
Definition turned (cos sin : Q) (p : point) : point := (cos * fst p - sin * snd p, sin * fst p + cos * snd p).
Definition moved (c p : point) : point := (fst c + fst p, snd c + snd p).
(** The width that the code expects of a text *)
Definition expected_width (t : bytes) (size : Q) : Q := inject_Z (Z.of_nat (length t)) * size * (6 # 10).
(** The colour in which a watermark is filled: the components are multiplied
    by an opacity below 1. *)
Definition fill_of (o : wopts) (c : Q * Q * Q) : Q * Q * Q :=
  match c with (r, g, b) => if below (oOpacity o) 1 then (r * oOpacity o, g * oOpacity o, b * oOpacity o) else (r, g, b) end.
(** What a colour of an opacity looks like on a ground *)
Definition seen (opacity ground colour : Q) : Q := opacity * colour + (1 - opacity) * ground.
(** Cosine and sine are functions of the angle's value, with the values of the
    angle 0. *)
Definition cosine_sine (cosd sind : Q -> Q) : Prop :=
  cosd 0 == 1 /\ sind 0 == 0 /\ (forall a b, a == b -> cosd a == cosd b) /\ (forall a b, a == b -> sind a == sind b).
