(** Model of the readers that forms/xfa falls back on when parse.GetObject fails:
    forms/xfa/xfa_utils.go:19-156 findObjectBoundaries, 177-427
    findAndDecryptAcroForm, 430-530 decryptInChunks, 661-701
    extractGenerationNumber, 703-800 extractStreamFromPDF.  Log output is not
    modelled. *)
From Verif Require Import Util WriterModel ParseModel XfaModel.
Local Open Scope Z_scope.

(** What is known of the encryption: its version and DecryptObject. *)
Record cipher := mkCipher { cpV : Z; cpDecrypt : decryptor }.

Definition object_header (n : Z) : bytes := decZ n ++ bs " 0 obj".
(** Back to the beginning of the line (xfa_utils.go:44-46, 59-61, 84-86) *)
Definition line_end (b : byte) : bool := beqb b x0a || beqb b x0d.
Definition line_start (f : bytes) (i : nat) : nat := (i - length (take_while (fun b => negb (line_end b)) (rev (firstn i f))))%nat.
(** pdfBytes[max(0,c-r):min(len,c+r)] and where it begins *)
Definition window (f : bytes) (c r : Z) : result (nat * bytes) :=
  let a := Z.max 0 (c - r) in let b := Z.min (flen f) (c + r) in
  if a <=? b then Ok (Z.to_nat a, firstn (Z.to_nat (b - a)) (skipn (Z.to_nat a) f)) else Panic.

(** xfa_utils.go:32-156: where the object begins and ends.  The check of line 114 never holds: the header
    it looks for is not in the file (line 53). *)
Definition ends_at (f : bytes) (s : nat) : result (nat * nat) :=
  if (length f <? s)%nat then Panic
  else match index (bs "endobj") (skipn s f) with Some e => Ok (s, (s + e + 6)%nat) | None => Err end.
Definition by_number (f : bytes) (idx n : Z) : result (option nat) :=
  rbind (window f idx 1000) (fun w =>
  let (a, area) := w in
  match index (decZ n) area with
  | None => Ok None
  | Some i =>
      let check := (a + i + length (decZ n))%nat in
      if (check + 10 <? length f)%nat then
        match skipn check f with
        | c :: r => if (beqb c " " || beqb c x09 || beqb c x0a || beqb c x0d) && prefixb (bs "0 obj") r then Ok (Some (line_start f (a + i))) else Ok None
        | [] => Ok None
        end
      else Ok None
  end).
Definition findObjectBoundaries (f : bytes) (idx n : Z) : result (nat * nat) :=
  rbind (if (0 <=? idx) && (idx <? flen f) then
           rbind (window f idx 2000) (fun w => Ok (option_map (fun i => line_start f (fst w + i)) (index (object_header n) (snd w))))
         else Ok None) (fun o =>
  match o with
  | Some s => ends_at f s
  | None =>
      match index (object_header n) f with
      | Some i => ends_at f (line_start f i)
      | None =>
          rbind (by_number f idx n) (fun o =>
          match o with
          | Some s => ends_at f s
          | None =>
              rbind (window f idx 5000) (fun w =>
              match index (bs "obj") (snd w) with
              | Some _ => if idx <? 0 then Panic else ends_at f (Z.to_nat idx)
              | None =>
                  let a := Z.max 0 (idx - 200) in let b := Z.min (flen f) (idx + 10000) in
                  if a <=? b then Ok (Z.to_nat a, Z.to_nat b) else Panic
              end)
          end)
      end
  end).

(** xfa_utils.go:664-701.  %d\s+(\d+)\s+obj is [m_objnum]; then %d\s*(\d+)\s*obj *)
Definition m_loose (n : Z) (s : bytes) : option bytes :=
  do r <- lit (decZ n) s; do (g, r) <- digits1 (ws0 r); do _ <- lit (bs "obj") (ws0 r); Some g.
Definition first_number (l : list (option bytes)) : option Z :=
  fold_right (fun o r => match o with Some d => match atoi d with Some z => Some z | None => r end | None => r end) None l.
Definition header_numbers (n : Z) (c : bytes) : option Z :=
  first_number [value_of (find (m_objnum n) c); value_of (find (m_loose n) c)].
Definition extractGenerationNumber (c : bytes) (n : Z) : Z :=
  match header_numbers n c with
  | Some g => g
  | None => if 1000 <? flen c then match header_numbers n (firstn 500 c) with Some g => g | None => 0 end else 0
  end.

(** xfa_utils.go:452-487: it looks like a dictionary.  The quotient of the
    printable bytes is compared with 0.3 exactly. *)
Definition printable (b : byte) : bool := ((32 <=? b2n b) && (b2n b <? 127))%N.
Definition looks_right (d : bytes) : bool :=
  let has k := contains (bs k) d in
  let keywords := has "/"%string && (has "/XFA"%string || has "/Fields"%string || has "/AcroForm"%string) in
  let dict := has "/Type"%string || has "/Subtype"%string || has "/Kids"%string in
  (has "<<"%string && has ">>"%string && (keywords || dict)) || (keywords && (3 * flen d <? 10 * flen (filter printable d))).
(** xfa_utils.go:441-515: the offsets from [i] on, [k] of them *)
Fixpoint try_offsets (dec : bytes -> result bytes) (data : bytes) (i k : nat) : result (option bytes) :=
  match k with
  | O => Ok None
  | S k =>
      let rest := skipn i data in
      if (flen rest <? 16) || negb (flen rest mod 16 =? 0) then try_offsets dec data (S i) k
      else match dec rest with
           | Panic => Panic
           | Err => try_offsets dec data (S i) k
           | Ok [] => try_offsets dec data (S i) k
           | Ok (c :: d) => if looks_right (c :: d) then Ok (Some (firstn i data ++ c :: d)) else try_offsets dec data (S i) k
           end
  end.
(** xfa_utils.go:430-530 *)
Definition decryptInChunks (e : cipher) (n g : Z) (data : bytes) : result bytes :=
  match data with
  | [] => Ok []
  | _ =>
      let dec s := cpDecrypt e s n g in
      if (cpV e =? 4) || (cpV e =? 5) then
        rbind (try_offsets dec data 0 (Nat.min 200 (length data))) (fun o => match o with Some d => Ok d | None => dec data end)
      else dec data
  end.

(** xfa_utils.go:206-426, on the array [arr] that begins with the object's text
    [c]: the answer, and the array afterwards.  objectHeader is a slice of the
    caller's array: append writes into it. *)
Definition blanks_from (c : bytes) (i : nat) : nat := (i + length (take_while is_blank (skipn i c)))%nat.
Definition decrypt_form (e : cipher) (arr c : bytes) (n : Z) (rel : Z) : result bytes * bytes :=
  let g := extractGenerationNumber c n in
  let k := index (bs "obj") c in
  let start := match k with Some k => blanks_from c (k + 3) | None => O end in
  let attempt (data : result bytes) (use : bytes -> result bytes * bytes) : result bytes * bytes :=
    match data with
    | Panic => (Panic, arr)
    | Err => (Err, arr)
    | Ok d => match decryptInChunks e n g d with
              | Panic => (Panic, arr)
              | Err => (Ok c, arr)
              | Ok d => use d
              end
    end in
  let put (d tail : bytes) (view : option (nat * nat)) : result bytes * bytes :=
    let st := go_append (arr, Shared start) d in
    let st := go_append st (match view with Some (a, b) => sub a b (fst st) | None => tail end) in
    (Ok (contents st), fst st) in
  match index (bs "stream") c with
  | Some sp => attempt (slice c start sp) (fun d => put d [] (Some (sp, length c)))
  | None =>
      match index (bs "endobj") c, k with
      | Some ep, Some _ => attempt (slice c start ep) (fun d => put d (bs "endobj") None)
      | Some ep, None => attempt (slice c start ep) (fun d => (Ok d, arr))
      | None, Some _ => attempt (slice c start (length c)) (fun d => let st := go_append (arr, Shared start) d in (Ok (contents st), fst st))
      | None, None =>
          let s := Z.max 0 rel in
          let l := (Z.min 10000 (flen c - s)) / 16 * 16 in
          if 16 <=? l then attempt (slice c (Z.to_nat s) (Z.to_nat (s + l))) (fun d => match d with [] => (Ok c, arr) | _ => (Ok d, arr) end)
          else (Ok c, arr)
      end
  end.
(** xfa_utils.go:178-427.  [mem] is the array behind the caller's slice, of
    which the first [len] bytes are the file. *)
Definition findAndDecryptAcroForm (inflate : bytes -> option bytes) (e : option cipher) (mem : bytes) (len : nat) (n : Z)
  : result bytes * bytes :=
  let f := firstn len mem in
  match rbind (FindObjectByNumber inflate f n) (fun idx => rmap (fun b => (idx, b)) (findObjectBoundaries f idx n)) with
  | Panic => (Panic, mem)
  | Err => (Err, mem)
  | Ok (idx, (s, t)) =>
      let c := sub s t f in
      match e with
      | None => (Ok c, mem)
      | Some e =>
          let (r, arr) := decrypt_form e (skipn s mem) c n (idx - Z.of_nat s) in
          (r, firstn s mem ++ arr)
      end
  end.

(** xfa_utils.go:704-800 *)
Definition extractStreamFromPDF (inflate : bytes -> option bytes) (e : option cipher) (f : bytes) (n : Z) : result bytes :=
  rbind (FindObjectByNumber inflate f n) (fun idx =>
  rbind (findObjectBoundaries f idx n) (fun b =>
  let c := sub (fst b) (snd b) f in
  match index (bs "obj") c with
  | None => Err
  | Some k =>
      let g := extractGenerationNumber c n in
      match index (bs "stream") c with
      | None => Err
      | Some sp =>
          rbind (slice c (blanks_from c (k + 3)) sp) (fun d =>
          let l := atoi0 (value_of (find (m_key (bs "/Length")) d)) in
          let start := skip_one_eol c (sp + 6) in
          rbind (if (0 <? l) && (Z.of_N int64_max <? Z.of_nat start + l) then Panic        (* the sum is negative *)
                 else if (0 <? l) && (Z.of_nat start + l <=? flen c) then Ok (sub start (start + Z.to_nat l) c)
                 else match index (bs "endstream") (skipn start c) with
                      | Some x => Ok (sub start (start + x) c)
                      | None => Err
                      end) (fun s =>
          match e with None => Ok s | Some e => cpDecrypt e s n g end))
      end
  end)).
