(** PDF literal strings and content-stream tokens, from the PDF specification
    (ISO 32000-1, 7.2.3, 7.3.3-7.3.6), independently of the writer. *)
From Verif Require Import TextModel.
Local Open Scope Z_scope.

Definition octal_digit (b : byte) : bool := (48 <=? b2n b)%N && (b2n b <=? 55)%N.
Definition oval (b : byte) : N := (b2n b - 48)%N.
Definition out (b : byte) (r : option (bytes * bytes)) : option (bytes * bytes) :=
  option_map (fun p => (b :: fst p, snd p)) r.

(** 7.3.4.2, table 3 *)
Definition escape_char (e : byte) : byte :=
  if beqb e "n" then x0a else if beqb e "r" then x0d else if beqb e "t" then x09
  else if beqb e "b" then x08 else if beqb e "f" then x0c else e.

(** The bytes of a literal string after its opening parenthesis, and the text
    that follows its closing one.  [depth] counts open inner parentheses. *)
Fixpoint literal_body (depth : nat) (s : bytes) : option (bytes * bytes) :=
  match s with
  | [] => None
  | c :: s1 =>
      if beqb c ")" then
        match depth with O => Some ([], s1) | S d => out c (literal_body d s1) end
      else if beqb c "(" then out c (literal_body (S depth) s1)
      else if beqb c "\" then
        match s1 with
        | [] => None
        | e :: s2 =>
            if octal_digit e then
              match s2 with
              | f :: s3 =>
                  if octal_digit f then
                    match s3 with
                    | g :: s4 =>
                        if octal_digit g then out (n2b (oval e * 64 + oval f * 8 + oval g)) (literal_body depth s4)
                        else out (n2b (oval e * 8 + oval f)) (literal_body depth s3)
                    | [] => None
                    end
                  else out (n2b (oval e)) (literal_body depth s2)
              | [] => None
              end
            else if beqb e x0a then literal_body depth s2
            else if beqb e x0d then
              match s2 with
              | f :: s3 => if beqb f x0a then literal_body depth s3 else literal_body depth s2
              | [] => None
              end
            else out (escape_char e) (literal_body depth s2)
        end
      else if beqb c x0d then
        match s1 with
        | f :: s2 => if beqb f x0a then out x0a (literal_body depth s2) else out x0a (literal_body depth s1)
        | [] => None
        end
      else out c (literal_body depth s1)
  end.

(** A literal string at the start of [s]: its value and the rest. *)
Definition read_literal (s : bytes) : option (bytes * bytes) :=
  match s with c :: s' => if beqb c "(" then literal_body 0 s' else None | [] => None end.

(** Runes below 256 as one byte each (Latin-1). *)
Definition latin1 (rs : list N) : bytes := map n2b rs.

(** Tokens of a content stream. *)
Inductive token :=
| KNum (t : bytes) | KName (t : bytes) | KString (value : bytes) | KHex (digits : bytes)
| KOpen | KClose | KOp (t : bytes).

Definition is_delim (b : byte) : bool := existsb (beqb b) (bs "()<>[]{}/%").
Definition is_pdf_ws (b : byte) : bool := is_ws b || beqb b x00.
Definition is_regular (b : byte) : bool := negb (is_delim b) && negb (is_pdf_ws b).
Definition num_start (b : byte) : bool := is_digit b || beqb b "-" || beqb b "+" || beqb b ".".

Fixpoint tokens (fuel : nat) (s : bytes) : option (list token) :=
  match fuel with
  | O => None
  | S k =>
      match s with
      | [] => Some []
      | c :: s' =>
          if is_pdf_ws c then tokens k s'
          else if beqb c "(" then
            match literal_body 0 s' with Some (v, r) => option_map (cons (KString v)) (tokens k r) | None => None end
          else if beqb c "<" then
            let h := take_while (fun b => negb (beqb b ">")) s' in
            match skipn (length h) s' with _ :: r => option_map (cons (KHex h)) (tokens k r) | [] => None end
          else if beqb c "[" then option_map (cons KOpen) (tokens k s')
          else if beqb c "]" then option_map (cons KClose) (tokens k s')
          else if beqb c "/" then
            let n := take_while is_regular s' in
            option_map (cons (KName (c :: n))) (tokens k (skipn (length n) s'))
          else if is_delim c then None
          else
            let t := take_while is_regular s in
            option_map (cons (if num_start c then KNum t else KOp t)) (tokens k (skipn (length t) s))
      end
  end.
Definition tokenize (s : bytes) : option (list token) := tokens (S (length s)) s.

(** What each call of the content builder means. *)
Section meaning.
  Context {F : Type} (fmt : F -> bytes) (one zero : F).
  Definition op (l : list F) (o : string) : list token := map (fun x => KNum (fmt x)) l ++ [KOp (bs o)].
  Definition elem_token (e : tj_elem F) : token :=
    match e with TJText _ s => KString s | TJInt _ z => KNum (decZ z) | TJFloat _ x => KNum (fmt x) end.
  Definition call_tokens (c : ccall F) : list token :=
    match c with
    | SaveState _ => op [] "q"
    | RestoreState _ => op [] "Q"
    | SetMatrix _ a b c d e f => op [a; b; c; d; e; f] "cm"
    | Translate _ x y => op [one; zero; zero; one; x; y] "cm"
    | Scale _ x y => op [x; zero; zero; y; zero; zero] "cm"
    | SetFillColorRGB _ r g b => op [r; g; b] "rg"
    | SetStrokeColorRGB _ r g b => op [r; g; b] "RG"
    | SetFillColorGray _ g => op [g] "g"
    | SetStrokeColorGray _ g => op [g] "G"
    | MoveTo _ x y => op [x; y] "m"
    | LineTo _ x y => op [x; y] "l"
    | Rectangle _ x y w h => op [x; y; w; h] "re"
    | Stroke _ => op [] "S"
    | Fill _ => op [] "f"
    | FillStroke _ => op [] "B"
    | ClosePath _ => op [] "h"
    | ClosePathStroke _ => op [] "s"
    | SetLineWidth _ w => op [w] "w"
    | BeginText _ => op [] "BT"
    | EndText _ => op [] "ET"
    | SetFont _ n size => KName n :: op [size] "Tf"
    | SetTextPosition _ x y => op [x; y] "Td"
    | SetTextMatrix _ a b c d e f => op [a; b; c; d; e; f] "Tm"
    | ShowText _ s => KString s :: op [] "Tj"
    | ShowTextNextLine _ s => KString s :: op [] "'"
    | ShowTextArray _ l => KOpen :: map elem_token l ++ KClose :: op [] "TJ"
    | ShowTextHex _ s => KHex s :: op [] "Tj"
    | MoveTextPosition _ x y => op [x; y] "TD"
    | SetTextRenderMode _ m => KNum (decZ m) :: op [] "Tr"
    | SetTextLeading _ l => op [l] "TL"
    | NextLine _ => op [] "T*"
    | SetCharSpacing _ x => op [x] "Tc"
    | SetWordSpacing _ x => op [x] "Tw"
    | SetTextRise _ x => op [x] "Ts"
    | DrawImage _ n => KName n :: op [] "Do"
    | DrawImageAt _ n x y w h =>
        op [] "q" ++ op [w; zero; zero; h; x; y] "cm" ++ (KName n :: op [] "Do") ++ op [] "Q"
    | CurveTo _ a b c d e f => op [a; b; c; d; e; f] "c"
    | CurveToV _ a b c d => op [a; b; c; d] "v"
    | CurveToY _ a b c d => op [a; b; c; d] "y"
    | SetLineDash _ l p => KOpen :: map (fun x => KNum (fmt x)) l ++ KClose :: op [p] "d"
    | Raw _ s => []   (* excluded below *)
    end.
End meaning.

(** What "%.4f" yields for a finite number. *)
Definition number_text (t : bytes) : bool :=
  match t with
  | c :: _ => (is_digit c || beqb c "-") && forallb (fun b => is_digit b || beqb b "-" || beqb b ".") t
  | [] => false
  end.
Definition name_text (n : bytes) : bool := match n with c :: r => beqb c "/" && forallb is_regular r | [] => false end.

(** Calls with sensible arguments: names are names, texts are valid UTF-8, and
    no raw data. *)
Definition sensible {F} (c : ccall F) : Prop :=
  match c with
  | SetFont _ n _ | DrawImage _ n | DrawImageAt _ n _ _ _ _ => name_text n = true
  | ShowText _ s | ShowTextNextLine _ s => valid_utf8 s
  | ShowTextArray _ l => Forall (fun e => match e with TJText _ s => valid_utf8 s | _ => True end) l
  | ShowTextHex _ s => forallb (fun b => negb (beqb b ">")) s = true
  | Raw _ s => s = []
  | _ => True
  end.

(** Metadata that survives the Info dictionary: no parentheses or
    backslashes, and nothing the formatter takes for a name or a reference. *)
Definition simple_value (v : bytes) : bool :=
  forallb (fun b => negb (beqb b "(") && negb (beqb b ")") && negb (beqb b "\")) v &&
  negb (prefixb (bs "/") v) && negb (suffixb (bs " R") v).

(** A date in PDF form: "D:" and plain ASCII. *)
Definition pdf_date (d : bytes) : bool :=
  prefixb (bs "D:") d && simple_value d && forallb (fun b => (b2n b <? 128)%N) d.
(** A custom key of the Info dictionary: one or more of A-Z a-z 0-9 _, and not
    one of the standard keys. *)
Definition custom_key (k : bytes) : bool :=
  match k with [] => false | _ => forallb is_word k end && negb (existsb (bytes_eqb k) standard_fields).

(** Metadata the round trip is claimed for. *)
Definition simple_meta (m : metadata) : Prop :=
  simple_value (mdTitle m) = true /\ simple_value (mdAuthor m) = true /\ simple_value (mdSubject m) = true /\
  simple_value (mdKeywords m) = true /\ simple_value (mdCreator m) = true /\ simple_value (mdProducer m) = true /\
  (mdCreationDate m = [] \/ pdf_date (mdCreationDate m) = true) /\ pdf_date (mdModDate m) = true /\
  Forall (fun kv => custom_key (fst kv) = true /\ simple_value (snd kv) = true /\ snd kv <> []) (mdCustom m) /\
  NoDup (map fst (mdCustom m)).

(** Nesting of saved graphics states: [None] when a restore has no save. *)
Fixpoint token_depth (d : nat) (ts : list token) : option nat :=
  match ts with
  | [] => Some d
  | KOp o :: ts' =>
      if bytes_eqb o (bs "q") then token_depth (S d) ts'
      else if bytes_eqb o (bs "Q") then match d with S d' => token_depth d' ts' | O => None end
      else token_depth d ts'
  | _ :: ts' => token_depth d ts'
  end.
Fixpoint call_depth {F} (d : nat) (cs : list (ccall F)) : option nat :=
  match cs with
  | [] => Some d
  | SaveState _ :: cs' => call_depth (S d) cs'
  | RestoreState _ :: cs' => match d with S d' => call_depth d' cs' | O => None end
  | _ :: cs' => call_depth d cs'
  end.
