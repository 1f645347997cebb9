(** Small specifications for reading a page's content: what a history of
    ContentStream calls shows. *)
From Verif Require Import ExtractModel Utf8 TextProofs.
Local Open Scope Z_scope.

Section seen.
(** [rd x] is the number x after printing it with four decimals and reading
    it back; [one] and [zero] are the constants 1 and 0. *)
Context (rd : float -> float) (one zero : float) (decoders : option (list (bytes * decoder))).
Notation call := (ccall float).

(** The value set by the last call of a kind before a point. *)
Definition last_of {A} (f : call -> option A) (d : A) (before : list call) : A :=
  fold_left (fun a c => match f c with Some v => v | None => a end) before d.
Definition font_name := last_of (fun c => match c with SetFont _ n _ => Some n | _ => None end) [].
Definition font_size := last_of (fun c => match c with SetFont _ _ s => Some (rd s) | _ => None end) fzero.
Definition char_spacing := last_of (fun c => match c with SetCharSpacing _ x => Some (rd x) | _ => None end) fzero.
Definition word_spacing := last_of (fun c => match c with SetWordSpacing _ x => Some (rd x) | _ => None end) fzero.
Definition text_rise := last_of (fun c => match c with SetTextRise _ x => Some (rd x) | _ => None end) fzero.
Definition text_matrix := last_of (fun c => match c with SetTextMatrix _ a b c d e f => Some (map rd [a; b; c; d; e; f]) | _ => None end) identity.
Definition line_width := last_of (fun c => match c with SetLineWidth _ x => Some (rd x) | _ => None end) fone.
Definition fill_color := last_of (fun c => match c with SetFillColorRGB _ r g b => Some (rd r, rd g, rd b) | _ => None end) (fzero, fzero, fzero).
Definition stroke_color := last_of (fun c => match c with SetStrokeColorRGB _ r g b => Some (rd r, rd g, rd b) | _ => None end) (fzero, fzero, fzero).
(** the decoder of the font *)
Definition font_decoder (before : list call) : option decoder :=
  match decoders with Some m => last_of (fun c => match c with SetFont _ n _ => Some (kget n m) | _ => None end) None before | None => None end.
(** The text position: moved by Td, set by Tm, one line (1.2 times the size)
    down after a '. *)
Fixpoint position (size x y : float) (cs : list call) : float * float :=
  match cs with
  | [] => (x, y)
  | SetFont _ _ s :: cs' => position (rd s) x y cs'
  | SetTextPosition _ dx dy :: cs' => position size (fadd x (rd dx)) (fadd y (rd dy)) cs'
  | SetTextMatrix _ _ _ _ _ e f :: cs' => position size (rd e) (rd f) cs'
  | ShowTextNextLine _ _ :: cs' => position size x (fsub y (fmul size f12)) cs'
  | _ :: cs' => position size x y cs'
  end.
Definition text_position (before : list call) : float * float := position fzero fzero fzero before.
(** The matrix images are drawn with, and the saved ones. *)
Definition matrix_call (c : call) : option (list float) :=
  match c with
  | SetMatrix _ a b c d e f => Some (map rd [a; b; c; d; e; f])
  | Translate _ x y => Some (map rd [one; zero; zero; one; x; y])
  | Scale _ x y => Some (map rd [x; zero; zero; y; zero; zero])
  | _ => None
  end.
Fixpoint matrices (m : list float) (saved : list (list float)) (cs : list call) : list float * list (list float) :=
  match cs with
  | [] => (m, saved)
  | c :: cs' =>
      match c, saved with
      | SaveState _, _ => matrices m (m :: saved) cs'
      | RestoreState _, m' :: saved' => matrices m' saved' cs'
      | _, _ => match matrix_call c with Some m' => matrices m' saved cs' | None => matrices m saved cs' end
      end
  end.
Definition image_matrix (before : list call) : list float := fst (matrices identity [] before).

(** What a call shows, after the calls [before]. *)
Definition string_of (e : tj_elem float) : bytes := match e with TJText _ s => s | _ => [] end.
Definition decoded (before : list call) (s : bytes) : bytes := match font_decoder before with Some d => Decode d s | None => s end.
Definition text_shown (before : list call) (c : call) : option bytes :=
  match c with
  | ShowText _ s => Some (decoded before s)
  | ShowTextNextLine _ s => Some (decoded before s)
  | ShowTextArray _ l => Some (flat_map (fun e => decoded before (string_of e)) l)
  | ShowTextHex _ s => Some (decodeTextWithFont s (font_decoder before) true)
  | _ => None
  end.
Definition texts_seen (before : list call) (c : call) : list text_element :=
  match text_shown before c with
  | Some t =>
      [mkTE t (fst (text_position before)) (snd (text_position before))
         (fmul (fmul (fint (Z.of_nat (length t))) (font_size before)) f06) (font_size before) (font_name before) (font_size before)
         (char_spacing before) (word_spacing before) (text_rise before) (text_matrix before)]
  | None => []
  end.
Definition shapes_seen (before : list call) (c : call) : list graphic :=
  match c with
  | Rectangle _ x y w h => [GRect (fill_color before) (stroke_color before) (line_width before)
                              (rd x) (rd y) (fadd (rd x) (rd w)) (fadd (rd y) (rd h))]
  | LineTo _ _ _ => [GLine (stroke_color before) (line_width before)]
  | _ => []
  end.
Definition image_with (name : bytes) (m : list float) : image_ref :=
  mkIR name (nth 4 m fzero) (nth 5 m fzero) (fabs (nth 0 m fzero)) (fabs (nth 3 m fzero)) m.
Definition images_seen (before : list call) (c : call) : list image_ref :=
  match c with
  | DrawImage _ n => [image_with n (image_matrix before)]
  | DrawImageAt _ n x y w h => [image_with n (map rd [w; zero; zero; h; x; y])]
  | _ => []
  end.
(** everything that is seen, in order *)
Fixpoint seen {A} (f : list call -> call -> list A) (before cs : list call) : list A :=
  match cs with
  | [] => []
  | c :: cs' => f before c ++ seen f (before ++ [c]) cs'
  end.
End seen.

(** The calls in scope: numbers that print as decimals and read back, resource
    names of letters and digits, strings without a backslash or a closing
    parenthesis (in an array: without a backslash or a bracket).  Raw content is
    out of scope. *)
Section ok.
Context (fmt : float -> bytes) (parse_float : bytes -> option float) (rd : float -> float).
Definition number_ok (x : float) : Prop :=
  fmt x <> [] /\ forallb is_numch (fmt x) = true /\ parse_float (fmt x) = Some (rd x).
Definition resource_ok (n : bytes) : Prop := exists m, n = bs "/" ++ m /\ forallb is_word m = true.
Definition string_ok (s : bytes) : Prop := valid_utf8 s /\ no_backslash s = true /\ ~ In ")"%byte s.
Definition elem_ok (e : tj_elem float) : Prop :=
  match e with
  | TJText _ s => valid_utf8 s /\ no_backslash s = true /\ ~ In "]"%byte s
  | TJInt _ _ => True
  | TJFloat _ x => number_ok x
  end.
Definition call_ok (c : ccall float) : Prop :=
  match c with
  | SaveState _ | RestoreState _ | Stroke _ | Fill _ | FillStroke _ | ClosePath _ | ClosePathStroke _ | BeginText _ | EndText _ | NextLine _
  | SetTextRenderMode _ _ => True
  | SetFillColorGray _ x | SetStrokeColorGray _ x | SetLineWidth _ x | SetTextLeading _ x | SetCharSpacing _ x | SetWordSpacing _ x
  | SetTextRise _ x => number_ok x
  | Translate _ x y | Scale _ x y | MoveTo _ x y | LineTo _ x y | SetTextPosition _ x y | MoveTextPosition _ x y => Forall number_ok [x; y]
  | SetFillColorRGB _ x y z | SetStrokeColorRGB _ x y z => Forall number_ok [x; y; z]
  | Rectangle _ a b c d | CurveToV _ a b c d | CurveToY _ a b c d => Forall number_ok [a; b; c; d]
  | SetMatrix _ a b c d e f | SetTextMatrix _ a b c d e f | CurveTo _ a b c d e f => Forall number_ok [a; b; c; d; e; f]
  | SetFont _ n x => resource_ok n /\ number_ok x
  | ShowText _ s | ShowTextNextLine _ s => string_ok s
  | ShowTextArray _ l => l <> [] /\ Forall elem_ok l
  | ShowTextHex _ s => forallb (fun b => is_hex b || beqb b " ") s = true
  | DrawImage _ n => resource_ok n
  | DrawImageAt _ n x y w h => resource_ok n /\ Forall number_ok [x; y; w; h]
  | SetLineDash _ l x => Forall number_ok (x :: l)
  | Raw _ _ => False
  end.
End ok.
