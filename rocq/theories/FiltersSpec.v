(** Independent specifications of the stream filters, from the PDF reference
    (ISO 32000 7.4), used in the statements of FiltersProps.v. *)
From Verif Require Import Base.
Local Open Scope N_scope.

(** [ws_insert s t]: [t] is [s] with white space inserted anywhere. *)
Inductive ws_insert : bytes -> bytes -> Prop :=
| wsi_nil : ws_insert [] []
| wsi_keep b s t : ws_insert s t -> ws_insert (b :: s) (b :: t)
| wsi_ws b s t : is_ws b = true -> ws_insert s t -> ws_insert s (b :: t).

(** ASCIIHex text: the part before the first '>', white space removed. *)
Definition hex_body (s : bytes) : bytes :=
  filter (fun b => negb (is_ws b)) (take_while (fun b => negb (b2n b =? 62)) s).

(** Value of a hexadecimal digit character. *)
Definition hex_value (b : byte) : option N :=
  let n := b2n b in
  if (48 <=? n) && (n <=? 57) then Some (n - 48)
  else if (65 <=? n) && (n <=? 70) then Some (n - 55)
  else if (97 <=? n) && (n <=? 102) then Some (n - 87)
  else None.

(** Pairs of digits are bytes; a lone last digit is followed by an implied 0. *)
Fixpoint hex_pairs (s : bytes) : option bytes :=
  match s with
  | [] => Some []
  | [a] => match hex_value a with Some x => Some [n2b (16 * x)] | None => None end
  | a :: b :: s' =>
      match hex_value a, hex_value b, hex_pairs s' with
      | Some x, Some y, Some r => Some (n2b (16 * x + y) :: r)
      | _, _, _ => None
      end
  end.

(** ASCII85: the groups of a text body from which white space is removed.
    A group of five digits c1..c5 stands for the four bytes, big-endian, of
    c1*85^4+...+c5 (here: modulo 2^32, see [C04_a85_overflow_refuted]). *)
Definition a85_digit (b : byte) : option N :=
  if (33 <=? b2n b) && (b2n b <=? 117) then Some (b2n b - 33) else None.

Definition group_bytes (v : N) : bytes :=
  [n2b (v / 2 ^ 24); n2b (v / 2 ^ 16); n2b (v / 2 ^ 8); n2b v].

Definition group_value (a b c d e : N) : N :=
  (a * 85 ^ 4 + b * 85 ^ 3 + c * 85 ^ 2 + d * 85 + e) mod 2 ^ 32.

Fixpoint a85_groups (s : bytes) : option bytes :=
  match s with
  | [] => Some []
  | c1 :: s1 =>
      if b2n c1 =? 122 then
        match a85_groups s1 with Some r => Some (x00 :: x00 :: x00 :: x00 :: r) | None => None end
      else
        match a85_digit c1, s1 with
        | None, _ => None
        | Some _, [] => Some []
        | Some d1, c2 :: s2 =>
            match a85_digit c2, s2 with
            | None, _ => None
            | Some d2, [] => Some (firstn 1 (group_bytes (group_value d1 d2 84 84 84)))
            | Some d2, c3 :: s3 =>
                match a85_digit c3, s3 with
                | None, _ => None
                | Some d3, [] => Some (firstn 2 (group_bytes (group_value d1 d2 d3 84 84)))
                | Some d3, c4 :: s4 =>
                    match a85_digit c4, s4 with
                    | None, _ => None
                    | Some d4, [] => Some (firstn 3 (group_bytes (group_value d1 d2 d3 d4 84)))
                    | Some d4, c5 :: s5 =>
                        match a85_digit c5, a85_groups s5 with
                        | Some d5, Some r => Some (group_bytes (group_value d1 d2 d3 d4 d5) ++ r)
                        | _, _ => None
                        end
                    end
                end
            end
        end
  end.

(** Text between the optional "<~" and the terminator "~>".  A '~' that is not
    followed by '>' is illegal; a missing terminator is tolerated. *)
Definition a85_body (s : bytes) : option bytes :=
  let s' := if prefixb (bs "<~") s then skipn 2 s else s in
  let body := filter (fun b => negb (is_ws b)) (take_while (fun b => negb (b2n b =? 126)) s') in
  match drop_while (fun b => negb (b2n b =? 126)) s' with
  | [] => Some body
  | rest => if prefixb (bs "~>") rest then Some body else None
  end.

(** RunLength: a list of runs and its serialisation. *)
Inductive run :=
| Literal (l : bytes)          (* 1 to 128 bytes *)
| Repeat (n : nat) (b : byte). (* n copies, 2 <= n <= 128 *)

Definition run_ok (r : run) : bool :=
  match r with
  | Literal l => (1 <=? length l)%nat && (length l <=? 128)%nat
  | Repeat n _ => (2 <=? n)%nat && (n <=? 128)%nat
  end.

Definition run_bytes (r : run) : bytes :=
  match r with
  | Literal l => n2b (N.of_nat (length l) - 1) :: l
  | Repeat n b => [n2b (257 - N.of_nat n); b]
  end.

Definition run_data (r : run) : bytes :=
  match r with
  | Literal l => l
  | Repeat n b => repeat b n
  end.

(** [data] consists of the runs [rs], then either its end or an end-of-data
    byte 128 followed by anything. *)
Definition rl_text (data : bytes) (rs : list run) : Prop :=
  forallb run_ok rs = true /\
  (data = flat_map run_bytes rs \/
   exists junk, data = flat_map run_bytes rs ++ n2b 128 :: junk).
