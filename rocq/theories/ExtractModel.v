(** Model of content/extract/content_stream.go. *)
From Verif Require Export Util Utf8 ManipModel TextModel EncodingModel CompareModel.
From Coq Require Import SpecFloat.
Local Open Scope Z_scope.

Definition fadd (x y : float) : float := SFadd 53 1024 x y.
Definition fone : float := fint 1.
(** the constants 0.6 and 1.2 as float64 *)
Definition f06 : float := S754_finite false 5404319552844595 (-53).
Definition f12 : float := S754_finite false 5404319552844595 (-52).

(** content_stream.go:331-350; [inText] is never read *)
Record tstate := mkTS {
  tsFont : bytes; tsSize : float; tsX : float; tsY : float;
  tsChar : float; tsWord : float; tsRise : float; tsMatrix : list float; tsDecoder : option decoder }.
Definition color : Type := float * float * float.
Record gstate := mkGS { gsWidth : float; gsFill : color; gsStroke : color }.
(** types.TextElement, types.Graphic, types.ImageRef *)
Record text_element := mkTE {
  teText : bytes; teX : float; teY : float; teWidth : float; teHeight : float; teFont : bytes; teSize : float;
  teChar : float; teWord : float; teRise : float; teMatrix : list float }.
Inductive graphic :=
| GRect (fill stroke : color) (width : float) (lx ly ux uy : float)
| GLine (stroke : color) (width : float).
Record image_ref := mkIR { imgID : bytes; imgX : float; imgY : float; imgW : float; imgH : float; imgT : list float }.
(** the variables of the loop, content_stream.go:20-48 *)
Record pstate := mkP {
  pText : tstate; pGraphics : gstate; pMatrix : list float; pStack : list (list float);
  pTexts : list text_element; pShapes : list graphic; pImages : list image_ref }.
Definition identity : list float := [fone; fzero; fzero; fone; fzero; fzero].
Definition start : pstate :=
  mkP (mkTS [] fzero fzero fzero fzero fzero fzero identity None)
      (mkGS fone (fzero, fzero, fzero) (fzero, fzero, fzero)) identity [] [] [] [].
Definition set_text (t : tstate) (p : pstate) : pstate := mkP t (pGraphics p) (pMatrix p) (pStack p) (pTexts p) (pShapes p) (pImages p).
Definition set_graphics (g : gstate) (p : pstate) : pstate := mkP (pText p) g (pMatrix p) (pStack p) (pTexts p) (pShapes p) (pImages p).
Definition set_matrix (m : list float) (st : list (list float)) (p : pstate) : pstate :=
  mkP (pText p) (pGraphics p) m st (pTexts p) (pShapes p) (pImages p).
Definition add_text (e : text_element) (p : pstate) : pstate :=
  mkP (pText p) (pGraphics p) (pMatrix p) (pStack p) (pTexts p ++ [e]) (pShapes p) (pImages p).
Definition add_shape (g : graphic) (p : pstate) : pstate :=
  mkP (pText p) (pGraphics p) (pMatrix p) (pStack p) (pTexts p) (pShapes p ++ [g]) (pImages p).
Definition add_image (i : image_ref) (p : pstate) : pstate :=
  mkP (pText p) (pGraphics p) (pMatrix p) (pStack p) (pTexts p) (pShapes p) (pImages p ++ [i]).
Definition move_text (x y : float) (t : tstate) : tstate :=
  mkTS (tsFont t) (tsSize t) x y (tsChar t) (tsWord t) (tsRise t) (tsMatrix t) (tsDecoder t).

(** content_stream.go:353-370 *)
Definition createTextElement (text : bytes) (t : tstate) : text_element :=
  mkTE text (tsX t) (tsY t) (fmul (fmul (fint (Z.of_nat (length text))) (tsSize t)) f06) (tsSize t) (tsFont t) (tsSize t)
       (tsChar t) (tsWord t) (tsRise t) (tsMatrix t).

(** content_stream.go:465-483 *)
Definition decodeHexToLatin1 (s : bytes) : bytes :=
  let s := strip_hex s in
  flat_map (fun h => match parse_hex_int h with Some v => write_rune v | None => [] end) (pieces 2 (length s) s).
(** content_stream.go:449-463 *)
Definition decodeTextWithFont (raw : bytes) (d : option decoder) (hex : bool) : bytes :=
  match d with
  | None => if hex then decodeHexToLatin1 raw else raw
  | Some d => if hex then DecodeHex d raw else Decode d raw
  end.

(** content_stream.go:404-421: the string up to the closing parenthesis *)
Fixpoint array_literal (depth : nat) (s : bytes) : option (bytes * bytes) :=
  match s with
  | [] => None
  | b :: s' =>
      let keep r := match r with Some (t, r') => Some (b :: t, r') | None => None end in
      if beqb b "\" then
        match s' with
        | c :: s'' => match array_literal depth s'' with Some (t, r) => Some (b :: c :: t, r) | None => None end
        | [] => None
        end
      else if beqb b "(" then keep (array_literal (S depth) s')
      else if beqb b ")" then
        match depth with
        | S (S _ as d) => keep (array_literal d s')
        | _ => Some ([], s')
        end
      else keep (array_literal depth s')
  end.
(** content_stream.go:378-444.  White space, digits of numbers and other
    characters are all skipped, here one at a time. *)
Fixpoint array_loop (fuel : nat) (d : option decoder) (s : bytes) : bytes :=
  match fuel with
  | O => []
  | S k =>
      match s with
      | [] => []
      | b :: s' =>
          if beqb b "(" then
            match array_literal 1 s' with
            | Some (t, r) => decodeTextWithFont (unescapePDFString t) d false ++ array_loop k d r
            | None => []
            end
          else if beqb b "<" then
            match index (bs ">") s' with
            | Some i => decodeTextWithFont (firstn i s') d true ++ array_loop k d (skipn (i + 1) s')
            | None => []
            end
          else array_loop k d s'
      end
  end.
Definition parseTextArrayWithDecoder (s : bytes) (d : option decoder) : bytes :=
  let s := trim_suffix (bs "]") (trim_prefix (bs "[") (trim is_space s)) in array_loop (length s) d s.

(* ---------------------------------------------------------------- *)
(** The patterns.  [\d\.\-]+ and the white space after it *)
Definition is_numch (b : byte) : bool := is_digit b || beqb b "." || beqb b "-".
Definition m_num (s : bytes) : option (bytes * bytes) :=
  match take_while is_numch s with
  | [] => None
  | n => do r <- ws1 (drop_while is_numch s); Some (n, r)
  end.
Fixpoint m_nums (k : nat) (s : bytes) : option (list bytes * bytes) :=
  match k with
  | O => Some ([], s)
  | S k' => do (n, r) <- m_num s; do (l, r) <- m_nums k' r; Some (n :: l, r)
  end.
(** ^n1 ... nk op *)
Definition m_op (k : nat) (op : bytes) (s : bytes) : option (list bytes) :=
  do (l, r) <- m_nums k s; if prefixb op r then Some l else None.
(** ^([/\w]+)\s+ *)
Definition is_namech (b : byte) : bool := is_word b || beqb b "/".
Definition m_resource (s : bytes) : option (bytes * bytes) :=
  match take_while is_namech s with
  | [] => None
  | n => do r <- ws1 (drop_while is_namech s); Some (n, r)
  end.
(** ^([/\w]+)\s+([\d\.\-]+)\s+Tf *)
Definition m_Tf (s : bytes) : option (bytes * bytes) :=
  do (n, r) <- m_resource s; do l <- m_op 1 (bs "Tf") r; match l with [x] => Some (n, x) | _ => None end.
(** ^([/\w]+)\s+Do *)
Definition m_Do (s : bytes) : option bytes := do (n, r) <- m_resource s; if prefixb (bs "Do") r then Some n else None.
(** "(" and "[^)]*" and ")" and "\s+" and the operator *)
Definition m_string (op : bytes) (s : bytes) : option bytes :=
  do r <- lit (bs "(") s;
  do u <- lit (bs ")") (drop_while (fun b => negb (beqb b ")")) r);
  do v <- ws1 u; if prefixb op v then Some (take_while (fun b => negb (beqb b ")")) r) else None.
(** "<" and "[0-9A-Fa-f\s]*" and ">" and "\s+" and the operator *)
Definition hex_or_ws (b : byte) : bool := is_hex b || is_ws b.
Definition m_hexstring (op : bytes) (s : bytes) : option bytes :=
  do r <- lit (bs "<") s;
  do u <- lit (bs ">") (drop_while hex_or_ws r);
  do v <- ws1 u; if prefixb op v then Some (take_while hex_or_ws r) else None.
(** "[" and "[^\]]+" and "]" and "\s+" and "TJ" *)
Definition m_TJ (s : bytes) : option bytes :=
  do r <- lit (bs "[") s;
  match take_while (fun b => negb (beqb b "]")) r with
  | [] => None
  | t => do u <- lit (bs "]") (drop_while (fun b => negb (beqb b "]")) r);
         do v <- ws1 u; if prefixb (bs "TJ") v then Some t else None
  end.

Section parser.
(** strconv.ParseFloat(s, 64): [None] if it reports an error *)
Context (parse_float : bytes -> option float).
(** the decoders by font name; [None] for a nil map *)
Context (decoders : option (list (bytes * decoder))).

(** content_stream.go:81-86 and the like: a number that does not parse is 0 *)
Definition matrix_of (l : list bytes) : list float := map (fun n => match parse_float n with Some v => v | None => fzero end) l.
(** all numbers, or nothing happens *)
Fixpoint floats (l : list bytes) : option (list float) :=
  match l with
  | [] => Some []
  | n :: l' => do x <- parse_float n; do xs <- floats l'; Some (x :: xs)
  end.
Definition with_floats (l : list bytes) (f : list float -> pstate -> pstate) (p : pstate) : pstate :=
  match floats l with Some xs => f xs p | None => p end.

Definition on_Td (xs : list float) (p : pstate) : pstate :=
  match xs with [tx; ty] => let t := pText p in set_text (move_text (fadd (tsX t) tx) (fadd (tsY t) ty) t) p | _ => p end.
Definition on_Tm (m : list float) (p : pstate) : pstate :=
  let t := pText p in
  set_text (mkTS (tsFont t) (tsSize t) (nth 4 m fzero) (nth 5 m fzero) (tsChar t) (tsWord t) (tsRise t) m (tsDecoder t)) p.
Definition on_Tf (name size : bytes) (p : pstate) : pstate :=
  let t := pText p in
  set_text (mkTS name (match parse_float size with Some v => v | None => tsSize t end) (tsX t) (tsY t) (tsChar t) (tsWord t)
    (tsRise t) (tsMatrix t) (match decoders with Some m => kget name m | None => tsDecoder t end)) p.
Definition on_Tc (xs : list float) (p : pstate) : pstate :=
  let t := pText p in
  match xs with [v] => set_text (mkTS (tsFont t) (tsSize t) (tsX t) (tsY t) v (tsWord t) (tsRise t) (tsMatrix t) (tsDecoder t)) p | _ => p end.
Definition on_Tw (xs : list float) (p : pstate) : pstate :=
  let t := pText p in
  match xs with [v] => set_text (mkTS (tsFont t) (tsSize t) (tsX t) (tsY t) (tsChar t) v (tsRise t) (tsMatrix t) (tsDecoder t)) p | _ => p end.
Definition on_Ts (xs : list float) (p : pstate) : pstate :=
  let t := pText p in
  match xs with [v] => set_text (mkTS (tsFont t) (tsSize t) (tsX t) (tsY t) (tsChar t) (tsWord t) v (tsMatrix t) (tsDecoder t)) p | _ => p end.
Definition show (text : bytes) (p : pstate) : pstate := add_text (createTextElement text (pText p)) p.
(** content_stream.go:156, 163: the next line *)
Definition next_line (p : pstate) : pstate :=
  let t := pText p in set_text (move_text (tsX t) (fsub (tsY t) (fmul (tsSize t) f12)) t) p.
Definition on_re (xs : list float) (p : pstate) : pstate :=
  match xs with
  | [x; y; w; h] =>
      let g := pGraphics p in add_shape (GRect (gsFill g) (gsStroke g) (gsWidth g) x y (fadd x w) (fadd y h)) p
  | _ => p
  end.
Definition on_l (p : pstate) : pstate := let g := pGraphics p in add_shape (GLine (gsStroke g) (gsWidth g)) p.
Definition on_q (p : pstate) : pstate := set_matrix (pMatrix p) (pMatrix p :: pStack p) p.
Definition on_Q (p : pstate) : pstate := match pStack p with m :: st => set_matrix m st p | [] => p end.
Definition on_cm (m : list float) (p : pstate) : pstate := set_matrix m (pStack p) p.
Definition on_w (xs : list float) (p : pstate) : pstate :=
  match xs with [v] => set_graphics (mkGS v (gsFill (pGraphics p)) (gsStroke (pGraphics p))) p | _ => p end.
Definition on_rg (xs : list float) (p : pstate) : pstate :=
  match xs with [r; g; b] => set_graphics (mkGS (gsWidth (pGraphics p)) (r, g, b) (gsStroke (pGraphics p))) p | _ => p end.
Definition on_RG (xs : list float) (p : pstate) : pstate :=
  match xs with [r; g; b] => set_graphics (mkGS (gsWidth (pGraphics p)) (gsFill (pGraphics p)) (r, g, b)) p | _ => p end.
Definition on_Do (name : bytes) (p : pstate) : pstate :=
  let m := pMatrix p in
  add_image (mkIR name (nth 4 m fzero) (nth 5 m fzero) (fabs (nth 0 m fzero)) (fabs (nth 3 m fzero)) m) p.

(** content_stream.go:51-326, one line *)
Definition parse_line (p : pstate) (raw : bytes) : pstate :=
  let line := trim is_space raw in
  let dec := tsDecoder (pText p) in
  match line with
  | [] => p
  | _ =>
  if prefixb (bs "BT") line then p else
  if prefixb (bs "ET") line then p else
  match m_op 2 (bs "Td") line with Some l => with_floats l on_Td p | None =>
  match m_op 6 (bs "Tm") line with Some l => on_Tm (matrix_of l) p | None =>
  match m_Tf line with Some (n, s) => on_Tf n s p | None =>
  match m_op 1 (bs "Tc") line with Some l => with_floats l on_Tc p | None =>
  match m_op 1 (bs "Tw") line with Some l => with_floats l on_Tw p | None =>
  match m_op 1 (bs "Ts") line with Some l => with_floats l on_Ts p | None =>
  match m_string (bs "Tj") line with Some t => show (decodeTextWithFont (unescapePDFString t) dec false) p | None =>
  match m_hexstring (bs "Tj") line with Some t => show (decodeTextWithFont t dec true) p | None =>
  match m_string (bs "'") line with Some t => next_line (show (decodeTextWithFont (unescapePDFString t) dec false) p) | None =>
  match m_hexstring (bs "'") line with Some t => next_line (show (decodeTextWithFont t dec true) p) | None =>
  match m_TJ line with Some t => show (parseTextArrayWithDecoder t dec) p | None =>
  match m_op 4 (bs "re") line with Some l => with_floats l on_re p | None =>
  match m_op 2 (bs "m") line with Some _ => p | None =>
  match m_op 2 (bs "l") line with Some _ => on_l p | None =>
  if prefixb (bs "S") line then p else
  if prefixb (bs "f") line then p else
  if bytes_eqb line (bs "q") then on_q p else
  if bytes_eqb line (bs "Q") then on_Q p else
  match m_op 6 (bs "cm") line with Some l => on_cm (matrix_of l) p | None =>
  match m_op 1 (bs "w") line with Some l => with_floats l on_w p | None =>
  match m_op 3 (bs "rg") line with Some l => with_floats l on_rg p | None =>
  match m_op 3 (bs "RG") line with Some l => with_floats l on_RG p | None =>
  match m_Do line with Some n => on_Do n p | None => p
  end end end end end end end end end end end end end end end end end end end
  end.
Definition parse_lines (s : bytes) (p : pstate) : pstate := fold_left parse_line (split_on x0a s) p.
(** content_stream.go:13-329 *)
Definition parseContentStream (s : bytes) : list text_element * list graphic * list image_ref :=
  let p := parse_lines s start in (pTexts p, pShapes p, pImages p).
End parser.
