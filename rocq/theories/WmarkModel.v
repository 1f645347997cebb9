(** Model of the numbers of core/write/watermark.go, which PageModel leaves to
    its caller.  float64 arithmetic is the exact arithmetic of rational numbers
    (nothing is rounded, there is no infinity and no NaN); [cosd] and [sind]
    are math.Cos and math.Sin of an angle in degrees (Angle * Pi / 180). *)
From Coq Require Import QArith.
From Verif Require Import PageModel.
Local Open Scope Q_scope.

(** watermark.go:9-24 *)
Record wopts := mkWO {
  oText : bytes; oFontName : bytes; oFontSize : Q; oOpacity : Q; oAngle : Q; oColor : option (Q * Q * Q); oX : Q; oY : Q; oImageName : bytes }.
(** watermark.go:27-35 *)
Definition DefaultWatermarkOptions : wopts := mkWO [] (bs "Helvetica-Bold") 48 (3 # 10) 45 (Some (1 # 2, 1 # 2, 1 # 2)) 0 0 [].

Section Numbers.
Context (cosd sind : Q -> Q).
Definition is0 (q : Q) : bool := Qeq_bool q 0.
Definition below (p q : Q) : bool := negb (Qle_bool q p).
(** watermark.go:49-120, the numbers, for a page of the size W, H *)
Definition watermark_numbers (W H : Q) (o : wopts) : watermark (F := Q) :=
  mkWM (oText o) (oFontName o) (oFontSize o)
    (option_map (fun c : Q * Q * Q => match c with (r, g, b) =>
       if below (oOpacity o) 1 then (r * oOpacity o, g * oOpacity o, b * oOpacity o) else (r, g, b) end) (oColor o))
    (if is0 (oX o) && is0 (oY o) then (W / 2, H / 2) else (oX o, oY o))
    (if is0 (oAngle o) then None else Some (cosd (oAngle o), sind (oAngle o), - sind (oAngle o), cosd (oAngle o)))
    (oImageName o) (- W / 4, - H / 4) (W / 2, H / 2)
    (- (inject_Z (Z.of_nat (length (oText o))) * oFontSize o * (6 # 10)) / 2, - oFontSize o / 2).
Context (fmt : Q -> bytes).
(** watermark.go:39-130 *)
Definition AddWatermarkOptions (W H : Q) (o : option wopts) (pb : page_builder) (w : writer) : result (bool * page_builder * writer) :=
  AddWatermark fmt 1 0 (watermark_numbers W H (match o with Some o => o | None => DefaultWatermarkOptions end)) pb w.
(** watermark.go:133-143 *)
Definition AddTextWatermark (W H : Q) (text : bytes) (size angle : Q) (pb : page_builder) (w : writer) : result (bool * page_builder * writer) :=
  let d := DefaultWatermarkOptions in
  AddWatermarkOptions W H (Some (mkWO text (oFontName d) (if below 0 size then size else oFontSize d) (oOpacity d)
    (if negb (is0 angle) then angle else oAngle d) (oColor d) (oX d) (oY d) (oImageName d))) pb w.
End Numbers.
