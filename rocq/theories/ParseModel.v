(** Model of core/parse: parser.go, incremental.go, get_object.go,
    xref_stream.go, object_stream.go, document_parser.go, document.go, api.go.

    Conventions.  Regular expressions are leftmost searches ([find]) of hand
    written matchers; all character classes in them are disjoint where greedy
    repetition could otherwise backtrack.  Integers are [Z] without overflow
    except where stated.  Decompression (zlib, then raw deflate) is the
    argument [inflate]; object decryption is the optional argument [dec].
    Slices of the file are assumed to have no spare capacity beyond the file.
    [strings.TrimSpace]/[Fields] are modelled for ASCII white space. *)
From Verif Require Export Util.
Local Open Scope Z_scope.

(** [x, _ := strconv.Atoi(digits)]: on range errors Go returns the limit. *)
Definition atoi_clip (d : bytes) : Z := Z.min (Z.of_N (num d)) (Z.of_N int64_max).

(** [s[i:j]] known to be in range. *)
Definition sub (i j : nat) (s : bytes) : bytes := firstn (j - i) (skipn i s).
Definition from (z : Z) (s : bytes) : bytes := skipn (Z.to_nat z) s.
Definition flen (s : bytes) : Z := Z.of_nat (length s).

(** Offsets of the successive non-overlapping occurrences of [p] (non-empty):
    the loop of incremental.go:463-471 and [FindAllIndex] of a literal. *)
Fixpoint occ (p s : bytes) (i skip : nat) : list nat :=
  match s with
  | [] => []
  | _ :: s' =>
      match skip with
      | S k => occ p s' (S i) k
      | O => if prefixb p s then i :: occ p s' (S i) (length p - 1) else occ p s' (S i) 0
      end
  end.

(** Matchers *)
(** startxref\s+(\d+) *)
Definition m_startxref (s : bytes) : option bytes :=
  do r <- lit (bs "startxref") s; do r <- ws1 r; do (d, _) <- digits1 r; Some d.
(** KEY\s+(\d+) *)
Definition m_key (key s : bytes) : option bytes :=
  do r <- lit key s; do r <- ws1 r; do (d, _) <- digits1 r; Some d.
(** KEY\s+\d+, what follows the match *)
Definition m_key_rest (key s : bytes) : option bytes :=
  do r <- lit key s; do r <- ws1 r; do (_, r) <- digits1 r; Some r.
(** KEY\s+(\d+\s+\d+\s+R) *)
Definition m_ref (key s : bytes) : option bytes :=
  do r <- lit key s; do r0 <- ws1 r;
  do (_, r) <- digits1 r0; do r <- ws1 r; do (_, r) <- digits1 r; do r <- ws1 r;
  do r <- lit (bs "R") r; Some (firstn (length r0 - length r) r0).
(** %d\s+(\d+)\s+obj *)
Definition m_objnum (n : Z) (s : bytes) : option bytes :=
  do r <- lit (decZ n) s; do r <- ws1 r; do (g, r) <- digits1 r; do r <- ws1 r;
  do _ <- lit (bs "obj") r; Some g.
(** %d\s+%d\s+obj *)
Definition m_objgen (n g : Z) (s : bytes) : option unit :=
  do r <- lit (decZ n) s; do r <- ws1 r; do r <- lit (decZ g) r; do r <- ws1 r;
  do _ <- lit (bs "obj") r; Some tt.
(** (\d+)\s+(\d+)\s+obj *)
Definition m_anyobj (s : bytes) : option (bytes * bytes) :=
  do (n, r) <- digits1 s; do r <- ws1 r; do (g, r) <- digits1 r; do r <- ws1 r;
  do _ <- lit (bs "obj") r; Some (n, g).
(** (\d+)\s+0\s+obj *)
Definition m_any0obj (s : bytes) : option bytes :=
  do (n, r) <- digits1 s; do r <- ws1 r; do r <- lit (bs "0") r; do r <- ws1 r;
  do _ <- lit (bs "obj") r; Some n.
Definition value_of {A} (o : option (nat * A)) : option A := option_map snd o.
Definition found {A} (o : option (nat * A)) : bool := match o with Some _ => true | None => false end.

(* ---------------------------------------------------------------- *)
(** Revisions: incremental.go *)

(** incremental.go:457-472 *)
Definition FindAllEOFMarkers (f : bytes) : list nat := occ (bs "%%EOF") f 0 0.

(** incremental.go:475-477 *)
Definition CountRevisions (f : bytes) : nat := length (FindAllEOFMarkers f).

(** incremental.go:508-516; the offsets are already increasing, so sort.Ints
    leaves them as they are (FindAllEOFMarkers_increasing). *)
Definition GetRevisionBoundaries (f : bytes) : list nat := map (fun i => (i + 5)%nat) (FindAllEOFMarkers f).

Definition is_eol (b : byte) : bool := beqb b x0d || beqb b x0a.

(** Position after the line ends starting at [e]. *)
Definition skip_eol (f : bytes) (e : nat) : nat := (e + length (take_while is_eol (skipn e f)))%nat.

(** incremental.go:520-538 *)
Definition ExtractRevision (f : bytes) (k : Z) : result bytes :=
  let b := GetRevisionBoundaries f in
  if (k <? 1) || (Z.of_nat (length b) <? k) then Err
  else match nth_error b (Z.to_nat (k - 1)) with
       | None => Panic
       | Some e => Ok (firstn (skip_eol f (Nat.min e (length f))) f)
       end.

(** incremental.go:90-127, and document_parser.go:126-139: the startxref value
    in the 100 bytes before the %%EOF at [e]. *)
Definition startxref_before (f : bytes) (e : nat) : option bytes :=
  value_of (find m_startxref (sub (e - 100) e f)).

Definition findLastStartXRef (f : bytes) : result Z :=
  match rev (FindAllEOFMarkers f) with
  | [] => Err
  | e :: _ =>
      match startxref_before f e with
      | None => Err
      | Some d => match atoi d with Some z => Ok z | None => Err end
      end
  end.

(** Bytes of a dictionary body up to and including the ">>" that closes it
    (depth counts the open "<<"), or to the end of [s]; incremental.go:208-223. *)
Fixpoint dict_scan (depth : nat) (s : bytes) : nat :=
  match depth with
  | O => 0%nat
  | S d =>
      match s with
      | [] => 0%nat
      | a :: s1 =>
          match s1 with
          | b :: s2 =>
              if beqb a "<" && beqb b "<" then (2 + dict_scan (S depth) s2)%nat
              else if beqb a ">" && beqb b ">" then (2 + dict_scan d s2)%nat
              else (1 + dict_scan depth s1)%nat
          | [] => 1%nat
          end
      end
  end.

(** The trailer dictionary after the first "trailer" of the section. *)
Definition trailer_dict (section : bytes) : option bytes :=
  do t <- index (bs "trailer") section;
  let r := skipn (t + 7) section in
  do d <- index (bs "<<") r;
  let r := skipn d r in
  Some (firstn (2 + dict_scan 1 (skipn 2 r)) r).

Definition parse_int64 (o : option bytes) : result Z :=
  match o with None => Err | Some d => match atoi d with Some z => Ok z | None => Err end end.

(** incremental.go:184-250 *)
Definition findPrevOffset (f : bytes) (x : Z) : result Z :=
  if flen f <=? x then Err
  else
    let section := from x f in
    if prefixb (bs "xref") section then
      match trailer_dict section with
      | None => Err
      | Some d => parse_int64 (value_of (find (m_key (bs "/Prev")) d))
      end
    else
      let n := match index (bs "stream") section with Some i => i | None => Nat.min (N.to_nat 2000) (length section) end in
      parse_int64 (value_of (find (m_key (bs "/Prev")) (firstn n section))).

(** incremental.go:138-153: the offsets found by following /Prev from [cur],
    after [cur] itself; [None] if [fuel] steps do not suffice. *)
Fixpoint prev_chain (fuel : nat) (f : bytes) (visited : list Z) (cur : Z) : option (list Z) :=
  if (0 <? cur) && negb (existsb (Z.eqb cur) visited) then
    match fuel with
    | O => None
    | S k =>
        match findPrevOffset f cur with
        | Ok prev => if (0 <? prev) && (prev <? flen f)
                     then option_map (cons prev) (prev_chain k f (cur :: visited) prev)
                     else Some []
        | _ => Some []
        end
    end
  else Some [].

(** Cross-reference section; incremental.go:13-22. *)
Record xsection := mkSection {
  xsObjects : zmap Z;
  xsStreams : zmap (Z * Z);
  xsPrev : Z;
  xsRoot : bytes;
  xsInfo : bytes;
  xsEncrypt : bytes;
  xsSize : Z
}.

(** Lines of an xref table: incremental.go:294-334 with [stop]/[first] as
    there; parser.go:203-237 and document_parser.go:232-275 differ in how
    lines are skipped.  [f] receives each entry. *)
Inductive xline :=
| XSub (first : Z)              (* subsection header *)
| XEntry (off : bytes) (gen : bytes) (flag : bytes)
| XOther.
Definition classify (ws : byte -> bool) (line : bytes) : xline :=
  match fields ws line with
  | [a; b] => match atoi a, atoi b with Some z, Some _ => XSub z | _, _ => XOther end
  | a :: b :: c :: _ => XEntry a b c
  | _ => XOther
  end.

(** incremental.go:294-334: [cur] is None outside a subsection. *)
Fixpoint table_lines (lines : list bytes) (cur : option Z) : zmap Z :=
  match lines with
  | [] => []
  | l :: ls =>
      let line := trim is_ws l in
      match line with
      | [] => table_lines ls cur
      | _ =>
          if prefixb (bs "trailer") line then []
          else match classify is_ws line with
          | XSub z => table_lines ls (Some z)
          | XEntry a b c =>
              match cur with
              | None => table_lines ls cur
              | Some n =>
                  match atoi a, atoi b with
                  | Some off, Some _ =>
                      if bytes_eqb c (bs "n") then
                        (* the last binding of a number counts *)
                        table_lines ls (Some (n + 1)) ++ [(n, off)]
                      else table_lines ls (Some (n + 1))
                  | _, _ => table_lines ls (Some (n + 1))
                  end
              end
          | XOther => table_lines ls cur
          end
      end
  end.

Definition def {A} (d : A) (o : option A) : A := match o with Some a => a | None => d end.
Definition atoi0 (o : option bytes) : Z := match o with Some d => atoi_clip d | None => 0 end.

(** incremental.go:278-389 *)
Definition parseTraditionalxrefSection (f : bytes) (x : Z) : xsection :=
  let data := from x f in
  let lines := split_on x0a (take 10000 data) in
  let lines := match lines with
               | l :: ls => if bytes_eqb (trim is_ws l) (bs "xref") then ls else lines
               | [] => []
               end in
  let t := trailer_dict data in
  let key k := match t with Some d => value_of (find (m_key (bs k)) d) | None => None end in
  let rf k := match t with Some d => def [] (value_of (find (m_ref (bs k)) d)) | None => [] end in
  mkSection (table_lines lines None) [] (atoi0 (key "/Prev"%string))
    (rf "/Root"%string) (rf "/Info"%string) (rf "/Encrypt"%string) (atoi0 (key "/Size"%string)).

(* ---------------------------------------------------------------- *)
(** Cross-reference streams: object_stream.go:32-261 *)

(** Go's [v = v<<8 | int(b)] over int64. *)
Definition be_num (s : bytes) : N := fold_left (fun acc c => (acc * 256 + b2n c)%N) s 0%N.
Definition int64_of (n : N) : Z :=
  let m := (n mod 2 ^ 64)%N in if (m <? 2 ^ 63)%N then Z.of_N m else Z.of_N m - 2 ^ 64.
Definition be64 (s : bytes) : Z := int64_of (be_num s).

(** [decompressed] cut into entries of [k] bytes; an incomplete rest is dropped. *)
Fixpoint chunks (fuel k : nat) (s : bytes) : list bytes :=
  match fuel with
  | O => []
  | S fu => if (length s <? k)%nat then [] else firstn k s :: chunks fu k (skipn k s)
  end.

(** object_stream.go:213-249: one entry, added to the two maps.
    (m1, m2) hold the later entries, which win. *)
Inductive xentry := XFree | XDirect (off : Z) | XComp (stream index : Z) | XNone.
Definition parse_xentry (w1 w2 w3 : nat) (e : bytes) : xentry :=
  let t := be64 (firstn w1 e) in
  let f2 := be64 (firstn w2 (skipn w1 e)) in
  let f3 := be64 (firstn w3 (skipn (w1 + w2) e)) in
  if t =? 0 then XFree
  else if t =? 1 then (if 0 <? f2 then XDirect f2 else XNone)
  else if t =? 2 then XComp f2 f3
  else XNone.

(** object_stream.go:206-253: numbers given to the successive entries. *)
Fixpoint number_entries (subs : list (Z * Z)) (entries : list bytes) : list (Z * bytes) :=
  match subs with
  | [] => []
  | (first, count) :: subs' =>
      let k := Z.to_nat (Z.min count (Z.of_nat (length entries))) in
      combine (map (fun i => first + Z.of_nat i) (seq 0 k)) (firstn k entries)
        ++ number_entries subs' (skipn k entries)
  end.

(** Entries in file order; a later one overrides an earlier one. *)
Definition xref_maps (w1 w2 w3 : nat) (l : list (Z * bytes)) : zmap Z * zmap (Z * Z) :=
  fold_left (fun m ne =>
    match parse_xentry w1 w2 w3 (snd ne) with
    | XDirect off => (mset (fst ne) off (fst m), snd m)
    | XComp s i => (fst m, mset (fst ne) (s, i) (snd m))
    | _ => m
    end) l ([], []).

(** PNG predictors, object_stream.go:157-196. *)
Fixpoint row_sub (left : byte) (row : bytes) : bytes :=
  match row with
  | [] => []
  | b :: r => let v := n2b (b2n b + b2n left)%N in v :: row_sub v r
  end.
Fixpoint row_up (prev row : bytes) : bytes :=
  match row, prev with
  | b :: r, p :: ps => n2b (b2n b + b2n p)%N :: row_up ps r
  | _, _ => []
  end.
Definition undo_row (prev : bytes) (row : bytes) : bytes :=
  match row with
  | [] => []
  | t :: r => if (b2n t =? 1)%N then row_sub x00 r
              else if (b2n t =? 2)%N then row_up prev r
              else r
  end.
Fixpoint undo_rows (prev : bytes) (rows : list bytes) : bytes :=
  match rows with
  | [] => []
  | row :: rows' => let d := undo_row prev row in d ++ undo_rows d rows'
  end.
Definition undo_predictor (columns : nat) (s : bytes) : bytes :=
  undo_rows (repeat x00 columns) (chunks (length s) (S columns) s).

(** /W\s*\[\s*(\d+)\s+(\d+)\s+(\d+)\s*\] *)
Definition m_w (s : bytes) : option (bytes * bytes * bytes) :=
  do r <- lit (bs "/W") s; do r <- lit (bs "[") (ws0 r);
  do (a, r) <- digits1 (ws0 r); do r <- ws1 r;
  do (b, r) <- digits1 r; do r <- ws1 r;
  do (c, r) <- digits1 r;
  do _ <- lit (bs "]") (ws0 r); Some (a, b, c).
(** /Index\s*\[\s*([^\]]+)\]; the group keeps trailing white space, which
    Fields drops.  (When only white space stands between the brackets the
    regexp backtracks and the group is white space: no fields either way.) *)
Definition m_index (s : bytes) : option bytes :=
  do r <- lit (bs "/Index") s; do r <- lit (bs "[") (ws0 r);
  let g := take_while (fun b => negb (beqb b "]")) r in
  match g with [] => None | _ => do _ <- lit (bs "]") (skipn (length g) r); Some g end.
(** /DecodeParms\s*<<([^>]+)>> *)
Definition m_decodeparms (s : bytes) : option bytes :=
  do r <- lit (bs "/DecodeParms") s; do r <- lit (bs "<<") (ws0 r);
  let g := take_while (fun b => negb (beqb b ">")) r in
  match g with [] => None | _ => do _ <- lit (bs ">>") (skipn (length g) r); Some g end.

(** Atoi of an arbitrary field; syntax errors give 0, range errors the limit. *)
Definition atoi_any (s : bytes) : Z :=
  match s with
  | [] => 0
  | c :: r =>
      let neg := beqb c "-" in
      let ds := if neg || beqb c "+" then r else s in
      match ds with
      | [] => 0
      | _ => if forallb is_digit ds
             then if neg then Z.max (- Z.of_N (num ds)) (- 2 ^ 63) else atoi_clip ds
             else 0
      end
  end.

Fixpoint pairs_of (l : list bytes) : list (Z * Z) :=
  match l with
  | a :: b :: l' => (atoi_any a, atoi_any b) :: pairs_of l'
  | _ => []
  end.

Definition is_blank (b : byte) : bool := beqb b x0d || beqb b x0a || beqb b " " || beqb b x09.

(** object_stream.go:38-139, the same as xref_stream.go:27-145: the widths, the
    subsections and the decompressed entries, and the first 500 bytes.  [x] is
    at most the length of the file (the callers check it). *)
Record xstream := mkXStream { xw1 : Z; xw2 : Z; xw3 : Z; xsubs : list (Z * Z); xdata : bytes; xstr : bytes }.
Definition read_xref_stream (inflate : bytes -> option bytes) (f : bytes) (x : Z) : result xstream :=
  let section := from x f in
  let str := take 500 section in
  let obj := if found (find m_any0obj str) then Ok true
             else if flen f <? x + 500 then Panic
             else Ok (found (find m_any0obj (sub (if 100 <? x then Z.to_nat (x - 100) else 0)
                                                 (Z.to_nat (x + 500)) f))) in
  rbind obj (fun ok =>
  if negb ok then Err else
  match index (bs "<<") section with
  | None => Err
  | Some d =>
      if (length str <? d)%nat then Panic else
      let dict := skipn d str in
      match value_of (find (m_key (bs "/Size")) dict), value_of (find m_w dict) with
      | Some size, Some (a, b, c) =>
          let subs := match value_of (find m_index dict) with
                      | Some g => pairs_of (fields is_space g)
                      | None => [(0, atoi_clip size)]
                      end in
          match index (bs "stream") (skipn d section) with
          | None => Err
          | Some k =>
              let data := drop_while is_blank (skipn (d + k + 6) section) in
              match index (bs "endstream") data with
              | None => Err
              | Some e =>
                  match inflate (firstn e data) with
                  | None => Err
                  | Some dc => Ok (mkXStream (atoi_clip a) (atoi_clip b) (atoi_clip c) subs dc str)
                  end
              end
          end
      | _, _ => Err
      end
  end).

(** The numbered entries (object_stream.go:200-214, xref_stream.go:147-162). *)
Definition stream_entries (s : xstream) (data : bytes) : list (Z * bytes) :=
  let size := xw1 s + xw2 s + xw3 s in
  if flen data <? size then []
  else number_entries (xsubs s) (chunks (length data) (Z.to_nat size) data).

(** object_stream.go:141-198 *)
Definition apply_predictor (s : xstream) : bytes :=
  match value_of (find m_decodeparms (xstr s)) with
  | None => xdata s
  | Some p =>
      match value_of (find (m_key (bs "/Predictor")) p), value_of (find (m_key (bs "/Columns")) p) with
      | Some pr, Some co =>
          if (10 <=? atoi_clip pr) && (atoi_clip pr <=? 15)
          then undo_predictor (Z.to_nat (Z.min (atoi_clip co) (flen (xdata s)))) (xdata s) else xdata s
      | _, _ => xdata s
      end
  end.

(** object_stream.go:32-261 ParseXRefStreamFull.  (A /Columns above the data
    length gives no rows, as does the clipped value used here.) *)
Definition ParseXRefStreamFull (inflate : bytes -> option bytes) (f : bytes) (x : Z)
  : result (zmap Z * zmap (Z * Z)) :=
  rbind (read_xref_stream inflate f x) (fun s =>
  if xw1 s + xw2 s + xw3 s =? 0 then Err
  else Ok (xref_maps (Z.to_nat (xw1 s)) (Z.to_nat (xw2 s)) (Z.to_nat (xw3 s))
             (stream_entries s (apply_predictor s)))).

(** xref_stream.go:24-204 *)
Definition ParseXRefStreamWithEncryption (inflate : bytes -> option bytes) (f : bytes) (x : Z)
  : result (zmap Z) :=
  rbind (read_xref_stream inflate f x) (fun s =>
  if xw1 s + xw2 s + xw3 s =? 0 then Err
  else
    let m := fold_left (fun m ne =>
               let t := be64 (firstn (Z.to_nat (xw1 s)) (snd ne)) in
               let off := be64 (firstn (Z.to_nat (xw2 s)) (skipn (Z.to_nat (xw1 s)) (snd ne))) in
               if ((t =? 1) && (0 <? off)) || ((t =? 0) && (100 <? off) && (off <? flen f))
               then mset (fst ne) off m else m) (stream_entries s (xdata s)) [] in
    match m with [] => Err | _ => Ok m end).

(** incremental.go:392-434 *)
Definition parseXRefStreamSection (inflate : bytes -> option bytes) (f : bytes) (x : Z) : result xsection :=
  rbind (ParseXRefStreamFull inflate f x) (fun m =>
  let str := take 2000 (from x f) in
  let key k := value_of (find (m_key (bs k)) str) in
  let rf k := def [] (value_of (find (m_ref (bs k)) str)) in
  Ok (mkSection (fst m) (snd m) (atoi0 (key "/Prev"%string))
        (rf "/Root"%string) (rf "/Info"%string) (rf "/Encrypt"%string) (atoi0 (key "/Size"%string)))).

(** incremental.go:253-275 *)
Definition parsexrefSection (inflate : bytes -> option bytes) (f : bytes) (x : Z) : result xsection :=
  if flen f <=? x then Err
  else
    let data := from x f in
    if prefixb (bs "xref") data then Ok (parseTraditionalxrefSection f x)
    else if (match m_anyobj (take 5000 data) with Some _ => true | None => false end)
            || contains (bs "obj") (take 100 data)
    then parseXRefStreamSection inflate f x
    else Err.

(** incremental.go:165-181: sections that parse, oldest first. *)
Fixpoint parse_sections (inflate : bytes -> option bytes) (f : bytes) (xs : list Z) : result (list xsection) :=
  match xs with
  | [] => Ok []
  | x :: xs' =>
      match parsexrefSection inflate f x with
      | Panic => Panic
      | Err => parse_sections inflate f xs'
      | Ok s => rmap (cons s) (parse_sections inflate f xs')
      end
  end.

(** incremental.go:132-181.  The fuel is enough for every file (C15). *)
Definition parseXRefChain (inflate : bytes -> option bytes) (f : bytes) (x : Z) : result (list xsection) :=
  match prev_chain (S (S (length f))) f [] x with
  | None => Err
  | Some l =>
      match parse_sections inflate f (rev (x :: l)) with
      | Ok [] => Err
      | r => r
      end
  end.

(** incremental.go:437-454: the newest binding of a number wins. *)
Definition merge {A} (ms : list (zmap A)) : zmap A := fold_left (fun acc m => m ++ acc) ms [].

(** incremental.go:46-65 *)
Definition parseIncremental (inflate : bytes -> option bytes) (f : bytes)
  : result (zmap Z * zmap (Z * Z) * list xsection) :=
  rbind (findLastStartXRef f) (fun x =>
  rbind (parseXRefChain inflate f x) (fun secs =>
  Ok (merge (map xsObjects secs), merge (map xsStreams secs), secs))).

(* ---------------------------------------------------------------- *)
(** get_object.go *)

Definition obj_result (n g : Z) (content : bytes) : bytes :=
  decZ n ++ bs " " ++ decZ g ++ bs " obj
" ++ content ++ (if suffixb [x0a] content then [] else [x0a]) ++ bs "endobj".

(** [lengthPattern.ReplaceAll(dictPart, repl)] *)
Fixpoint replace_all (m : bytes -> option bytes) (repl s : bytes) (skip : nat) : bytes :=
  match s with
  | [] => []
  | b :: s' =>
      match skip with
      | S k => replace_all m repl s' k
      | O => match m s with
             | Some r => repl ++ replace_all m repl s' (length s - length r - 1)
             | None => b :: replace_all m repl s' 0
             end
      end
  end.

(** get_object.go:216-224: position after one line end. *)
Definition skip_one_eol (s : bytes) (i : nat) : nat :=
  let i := match nth_error s i with Some b => if beqb b x0d then S i else i | None => i end in
  match nth_error s i with Some b => if beqb b x0a then S i else i | None => i end.

Definition decryptor := bytes -> Z -> Z -> result bytes.

(** get_object.go:204-263 *)
Definition decrypt_stream (d : decryptor) (n g : Z) (streamStart : nat) (content : bytes) : result bytes :=
  let dict := firstn streamStart content in
  let len := atoi0 (value_of (find (m_key (bs "/Length")) dict)) in
  let start := skip_one_eol content (streamStart + 6) in
  let data :=
    if (0 <? len) && (Z.of_nat start + len <=? flen content)
    then firstn (Z.to_nat len) (skipn start content)
    else match index (bs "endstream") (skipn start content) with
         | Some e => firstn e (skipn start content)
         | None => skipn start content
         end in
  match d data n g with
  | Panic => Panic
  | Err => Ok content
  | Ok p =>
      Ok (replace_all (m_key_rest (bs "/Length")) (bs "/Length " ++ dec (N.of_nat (length p))) dict 0
          ++ bs "stream
" ++ p ++ bs "
endstream")
  end.

(** get_object.go:172-283, from the bytes at the object on. *)
Definition read_object (dec : option decryptor) (n g : Z) (data : bytes) : result bytes :=
  match index (bs "endobj") data with
  | None => Err
  | Some e =>
      let cs := match index (bs "obj") (firstn e data) with
                | None => 0%nat
                | Some i => (i + 3 + length (take_while is_blank (sub (i + 3) e data)))%nat
                end in
      let content := sub cs e data in
      match index (bs "stream") content with
      | Some st =>
          let cut := match index (bs "endstream") content with
                     | Some k => Ok (firstn (k + 9) content)
                     | None => (* content[:len+9] reslices into the following bytes *)
                         if (length data <? e + 9)%nat then Panic else Ok (sub cs (e + 9) data)
                     end in
          rbind cut (fun content =>
          rbind (match dec with None => Ok content | Some d => decrypt_stream d n g st content end)
            (fun content => Ok (obj_result n g content)))
      | None =>
          match dec with
          | None => Ok (obj_result n g content)
          | Some d => match d content n g with
                      | Panic => Panic
                      | Err => Ok (obj_result n g content)
                      | Ok p => Ok (obj_result n g p)
                      end
          end
      end
  end.

(** get_object.go:135-284 *)
Definition GetDirectObject (dec : option decryptor) (f : bytes) (n off : Z) : result bytes :=
  if (off <? 0) || (flen f <=? off) then Err
  else
    let data := from off f in
    match m_objnum n (take 50 data) with
    | Some g => read_object dec n (atoi_clip g) data
    | None =>
        let lo := Z.to_nat (Z.max 0 (off - 100)) in
        let area := sub lo (Nat.min (length f) (Z.to_nat (off + 100))) f in
        match find (m_objnum n) area with
        | None => read_object dec n 0 data
        | Some (i, _) =>
            let data := skipn (lo + i) f in
            match m_objnum n (take 50 data) with
            | Some g => read_object dec n (atoi_clip g) data
            | None => read_object dec n 0 data
            end
        end
    end.

(** parser.go:203-237: the first line is skipped, nothing ends the table. *)
Fixpoint table_lines_all (lines : list bytes) (cur : option Z) : zmap Z :=
  match lines with
  | [] => []
  | l :: ls =>
      match classify is_space l with
      | XSub z => table_lines_all ls (Some z)
      | XEntry a b c =>
          match cur with
          | None => table_lines_all ls cur
          | Some n =>
              match atoi a, atoi b with
              | Some off, Some _ =>
                  if bytes_eqb c (bs "n") then
                    table_lines_all ls (Some (n + 1)) ++ [(n, off)]
                  else table_lines_all ls (Some (n + 1))
              | _, _ => table_lines_all ls (Some (n + 1))
              end
          end
      | XOther => table_lines_all ls cur
      end
  end.

(** parser.go:180-240 *)
Definition ParseTraditionalXRefTable (f : bytes) (x : Z) : result (zmap Z) :=
  let str := take 10000 (from x f) in
  match index (bs "xref") str with
  | None => Err
  | Some i =>
      match split_on x0a (skipn i str) with
      | [] => Ok []
      | _ :: lines => Ok (table_lines_all lines None)
      end
  end.

(** Where an object is: get_object.go:15-20. *)
Inductive location := AtOffset (off : Z) | InStream (stream index : Z).

(** get_object.go:92: (^|\s|[\r\n])%d\s+0\s+obj; the offset after the white
    space (lines 96-100; [\f] is matched by \s but not skipped). *)
Definition m_num0obj (n : Z) (s : bytes) : option unit :=
  do r <- lit (decZ n) s; do r <- ws1 r; do r <- lit (bs "0") r; do r <- ws1 r;
  do _ <- lit (bs "obj") r; Some tt.
Definition m_boundary (n : Z) (s : bytes) : option unit :=
  match s with b :: s' => if is_ws b then m_num0obj n s' else None | [] => None end.
Definition scan_object (n : Z) (f : bytes) : option Z :=
  match m_num0obj n f with
  | Some _ => Some (Z.of_nat (length (take_while is_blank f)))
  | None =>
      match find (m_boundary n) f with
      | Some (i, _) => Some (Z.of_nat (i + length (take_while is_blank (skipn i f))))
      | None => None
      end
  end.

(** get_object.go:23-108 *)
Definition FindObjectLocation (inflate : bytes -> option bytes) (f : bytes) (n : Z) : result location :=
  match value_of (find m_startxref f) with
  | None => Err
  | Some d =>
      match atoi d with
      | None => Err
      | Some x =>
          if (x <=? 0) || (flen f <=? x) then Err
          else
            let section := from x f in
            let r :=
              if contains (bs "obj") (take 100 section) then
                match ParseXRefStreamFull inflate f x with
                | Panic => Panic
                | Err => Ok None
                | Ok (m, s) =>
                    match mget n s with
                    | Some (k, i) => Ok (Some (InStream k i))
                    | None => Ok (option_map AtOffset (mget n m))
                    end
                end
              else if prefixb (bs "xref") section then
                match ParseTraditionalXRefTable f x with
                | Ok m => Ok (option_map AtOffset (mget n m))
                | _ => Ok None
                end
              else Ok None in
            rbind r (fun o =>
            match o with
            | Some l => Ok l
            | None => match scan_object n f with Some off => Ok (AtOffset off) | None => Err end
            end)
      end
  end.

(* ---------------------------------------------------------------- *)
(** object_stream.go:264-443 GetObjectFromStream *)

(** %d\s+0\s+obj *)
Definition trim_right_blank (s : bytes) : bytes := rtrim is_blank s.

(** object_stream.go:386-442 on the decompressed data. *)
Definition object_in_stream (n idx first : Z) (data : bytes) : result bytes :=
  if flen data <? first then Panic
  else
    let entries := pairs_of (fields is_space (firstn (Z.to_nat first) data)) in
    if Z.of_nat (length entries) <=? idx then Err
    else if idx <? 0 then Panic
    else match nth_error entries (Z.to_nat idx) with
    | None => Panic
    | Some e =>
        let target := if fst e =? n then Some e
                      else List.find (fun e => fst e =? n) entries in
        match target with
        | None => Err
        | Some t =>
            let s := first + snd t in
            let e := match nth_error entries (S (Z.to_nat idx)) with
                     | Some nx => first + snd nx
                     | None => flen data
                     end in
            if (flen data <=? s) || (flen data <? e) then Err
            else if (s <? 0) || (e <? s) then Panic
            else Ok (trim_right_blank (sub (Z.to_nat s) (Z.to_nat e) data))
        end
    end.

Definition GetObjectFromStream (inflate : bytes -> option bytes) (dec : option decryptor)
  (f : bytes) (n stream idx : Z) : result bytes :=
  match find (m_num0obj stream) f with
  | None => Err
  | Some (i, _) =>
      let section := skipn i f in
      match index (bs "<<") section with
      | None => Err
      | Some ds =>
          let dsec := skipn ds section in
          match index (bs ">>") dsec with
          | None => Err
          | Some de =>
              match value_of (find (m_key (bs "/Length")) (firstn (de + 2) dsec)) with
              | None => Err
              | Some ld =>
                  match index (bs "stream") dsec with
                  | None => Err
                  | Some k =>
                      let start := skip_one_eol section (ds + k + 6) in
                      if flen section <? Z.of_nat start + atoi_clip ld then Err
                      else
                        let raw := firstn (Z.to_nat (atoi_clip ld)) (skipn start section) in
                        rbind (match dec with None => Ok raw | Some d => d raw stream 0 end) (fun raw =>
                        match inflate raw with
                        | None => Err
                        | Some data =>
                            let dict := firstn k dsec in
                            match value_of (find (m_key (bs "/N")) dict),
                                  value_of (find (m_key (bs "/First")) dict) with
                            | Some _, Some fd => object_in_stream n idx (atoi_clip fd) data
                            | _, _ => Err
                            end
                        end)
                  end
              end
          end
      end
  end.

(** get_object.go:112-132 *)
Definition GetObject (inflate : bytes -> option bytes) (dec : option decryptor) (f : bytes) (n : Z) : result bytes :=
  rbind (FindObjectLocation inflate f n) (fun l =>
  match l with
  | AtOffset off => GetDirectObject dec f n off
  | InStream s i => GetObjectFromStream inflate dec f n s i
  end).

(* ---------------------------------------------------------------- *)
(** parser.go *)

(** parser.go:154-177 *)
Definition ParseCrossReferenceTable (inflate : bytes -> option bytes) (f : bytes) (x : Z) : result (zmap Z) :=
  if (x <=? 0) || (flen f <=? x) then Err
  else
    let str := take 5000 (from x f) in
    if contains (bs "/Type/XRef") str || contains (bs "/W[") str
    then ParseXRefStreamWithEncryption inflate f x
    else ParseTraditionalXRefTable f x.

(** parser.go:103-149: the position of the object. *)
Definition FindObjectByNumber (inflate : bytes -> option bytes) (f : bytes) (n : Z) : result Z :=
  match index (decZ n ++ bs " 0 obj") f with
  | Some i => Ok (Z.of_nat i)
  | None =>
      match value_of (find m_startxref f) with
      | None => Err
      | Some d =>
          match atoi d with
          | None => Err
          | Some x =>
              if x <=? 0 then Err
              else match ParseCrossReferenceTable inflate f x with
                   | Panic => Panic
                   | Err => Err
                   | Ok m => match mget n m with Some off => Ok off | None => Err end
                   end
          end
      end
  end.

(** trailer\s*<<, what follows *)
Definition m_trailer (s : bytes) : option bytes :=
  do r <- lit (bs "trailer") s; lit (bs "<<") (ws0 r).

(** The bytes after the last match (matches cannot overlap). *)
Fixpoint last_trailer (s : bytes) : option bytes :=
  match s with
  | [] => None
  | _ :: s' => match last_trailer s' with
               | Some r => Some r
               | None => m_trailer s
               end
  end.

(** parser.go:42-58: length of the dictionary body within the 5000-byte limit. *)
Fixpoint trailer_end (lim : nat) (depth : nat) (s : bytes) (i : nat) : option nat :=
  match lim with
  | O => None
  | S lim' =>
      match s with
      | a :: ((b :: s2) as s1) =>
          if beqb a "<" && beqb b "<" then trailer_end (pred lim') (S depth) s2 (i + 2)
          else if beqb a ">" && beqb b ">" then
            match depth with
            | S (S d) => trailer_end (pred lim') (S d) s2 (i + 2)
            | _ => Some (i + 2)%nat
            end
          else trailer_end lim' depth s1 (i + 1)
      | _ => None
      end
  end.

(** KEY\s+(\d+)\s+(\d+)\s+R: the whole match *)
Definition m_ref_full (key s : bytes) : option bytes :=
  do r <- lit key s; do r <- ws1 r;
  do (_, r) <- digits1 r; do r <- ws1 r; do (_, r) <- digits1 r; do r <- ws1 r;
  do r <- lit (bs "R") r; Some (firstn (length s - length r) s).

(** document.go:287-292 PDFTrailer *)
Record pdftrailer := mkTrailer { tRoot : bytes; tEncrypt : bytes; tInfo : bytes; tStartXRef : Z }.

(** parser.go:15-100 *)
Definition ParsePDFTrailer (f : bytes) : result pdftrailer :=
  match last_trailer f with
  | None => Err
  | Some body =>
      match trailer_end (N.to_nat 5000) 1 body 0 with
      | None => Err
      | Some e =>
          let t := firstn e body in
          let rf k := def [] (value_of (find (m_ref_full (bs k)) t)) in
          Ok (mkTrailer (rf "/Root"%string) (rf "/Encrypt"%string) (rf "/Info"%string)
                (match value_of (find m_startxref f) with
                 | Some d => match atoi d with Some z => z | None => 0 end
                 | None => 0
                 end))
      end
  end.

(* ---------------------------------------------------------------- *)
(** api.go, standard mode *)

(** A parsed document: the file, the object references, the decryptor. *)
Record pdf := mkPDF {
  pRaw : bytes;
  pXref : zmap location;
  pDec : option decryptor;
  pRoot : bytes;
  pSize : Z
}.

(** api.go:178-237.  Objects found in object streams override direct ones. *)
Definition parseStandard (inflate : bytes -> option bytes) (dec : option decryptor) (f : bytes) : result pdf :=
  match parseIncremental inflate f with
  | Panic => Panic
  | Ok (objs, streams, secs) =>
      let last := match rev secs with s :: _ => s | [] => mkSection [] [] 0 [] [] [] 0 end in
      Ok (mkPDF f (map (fun p => (fst p, InStream (fst (snd p)) (snd (snd p)))) streams
                   ++ map (fun p => (fst p, AtOffset (snd p))) objs)
            dec (xsRoot last) (xsSize last))
  | Err =>
      match ParsePDFTrailer f with
      | Panic => Panic
      | Err => Err
      | Ok t =>
          match ParseCrossReferenceTable inflate f (tStartXRef t) with
          | Panic => Panic
          | Ok m => Ok (mkPDF f (map (fun p => (fst p, AtOffset (snd p))) m) dec (tRoot t) 0)
          | Err => Ok (mkPDF f [] dec (tRoot t) 0)
          end
      end
  end.

(** encrypt/parser.go:19: /Encrypt\s+(\d+)\s+(\d+)\s+R anywhere in the file. *)
Definition mentions_encrypt (f : bytes) : bool := found (find (m_ref (bs "/Encrypt")) f).

(** api.go:82-136, standard mode.  [crypt] stands for the encryption package
    (ParseEncryptionDictionary + DecryptPDF) and is consulted only for files
    that mention /Encrypt: [Ok None] when the dictionary cannot be parsed. *)
Definition Open (inflate : bytes -> option bytes) (crypt : bytes -> result (option decryptor)) (f : bytes)
  : result pdf :=
  if flen f <? 8 then Err
  else rbind (if mentions_encrypt f then crypt f else Ok None) (fun dec => parseStandard inflate dec f).

(** api.go:283-296 *)
Definition PGetObject (inflate : bytes -> option bytes) (p : pdf) (n : Z) : result bytes :=
  match mget n (pXref p) with
  | None => Err
  | Some (InStream s i) => GetObjectFromStream inflate (pDec p) (pRaw p) n s i
  | Some (AtOffset off) => GetDirectObject (pDec p) (pRaw p) n off
  end.

(** api.go:262-279 *)
Definition PHasObject (p : pdf) (n : Z) : bool := mem n (pXref p).
Definition PObjects (p : pdf) : list Z := mkeys (pXref p).
Definition PObjectCount (p : pdf) : nat := length (mkeys (pXref p)).

(* ---------------------------------------------------------------- *)
(** document_parser.go and document.go: byte-perfect mode *)

(** document.go:34-49 *)
Record rawobj := mkRaw {
  roNumber : Z; roGeneration : Z; roOffset : Z; roEnd : Z; roBytes : bytes;
  roIsStream : bool; roDict : option bytes; roStream : option bytes
}.

(** document_parser.go:467-476: as [dict_scan], but a new step is only taken
    before position [lim]. *)
Fixpoint dict_scan_lim (lim depth : nat) (s : bytes) : nat :=
  match lim, depth with
  | S lim', S d =>
      match s with
      | [] => 0%nat
      | a :: s1 =>
          match s1 with
          | b :: s2 =>
              if beqb a "<" && beqb b "<" then (2 + dict_scan_lim (pred lim') (S depth) s2)%nat
              else if beqb a ">" && beqb b ">" then (2 + dict_scan_lim (pred lim') d s2)%nat
              else (1 + dict_scan_lim lim' depth s1)%nat
          | [] => 1%nat
          end
      end
  | _, _ => 0%nat
  end.

(** document_parser.go:497-503 *)
Definition trim_one_eol (s : bytes) : bytes :=
  match rev s with
  | b :: r => if beqb b x0a then
                match r with
                | c :: r' => if beqb c x0d then rev r' else rev r
                | [] => rev r
                end
              else if beqb b x0d then rev r else s
  | [] => s
  end.

(** document_parser.go:421-512 *)
Definition ParseRawObject (f : bytes) (n g off : Z) : result rawobj :=
  if (off <? 0) || (flen f <=? off) then Err
  else
    let section := from off f in
    if negb (prefixb (decZ n ++ bs " " ++ decZ g ++ bs " obj") section)
       && negb (found (find (m_objgen n g) (take 50 section))) then Err
    else
    match index (bs "endobj") section with
    | None => Err
    | Some e =>
        let raw := firstn (e + 6) section in
        match index (bs "stream") raw with
        | None => Ok (mkRaw n g off (off + Z.of_nat e + 6) raw false None None)
        | Some st =>
            let d := match index (bs "<<") raw with
                     | None => Ok None
                     | Some ds =>
                         let de := (ds + 2 + dict_scan_lim (st - (ds + 2)) 1 (skipn (ds + 2) raw))%nat in
                         Ok (Some (sub ds de raw))
                     end in
            let start := skip_one_eol raw (st + 6) in
            let sr := match index (bs "endstream") (skipn start raw) with
                      | None => None
                      | Some k => Some (trim_one_eol (firstn k (skipn start raw)))
                      end in
            rbind d (fun d => Ok (mkRaw n g off (off + Z.of_nat e + 6) raw true d sr))
        end
    end.

(** document_parser.go:516-534 *)
Definition ParseRawObjectAt (f : bytes) (off : Z) : result rawobj :=
  if (off <? 0) || (flen f <=? off) then Err
  else match m_anyobj (take 50 (from off f)) with
       | None => Err
       | Some (n, g) => ParseRawObject f (atoi_clip n) (atoi_clip g) off
       end.

(** document.go:73-86 XRefEntry without its raw bytes. *)
Record xrow := mkRow { rNum : Z; rGen : Z; rOff : Z; rInUse : bool; rInStream : option (Z * Z) }.

(** document_parser.go:232-275 *)
Fixpoint raw_rows (first : bool) (lines : list bytes) (cur : option Z) : list xrow :=
  match lines with
  | [] => []
  | l :: ls =>
      if first && bytes_eqb (trim is_space l) (bs "xref") then raw_rows false ls cur
      else match classify is_space l with
      | XSub z => raw_rows false ls (Some z)
      | XEntry a b c =>
          match cur, atoi a, atoi b with
          | Some n, Some off, Some gen =>
              mkRow n gen off (bytes_eqb c (bs "n")) None :: raw_rows false ls (Some (n + 1))
          | _, _, _ => raw_rows false ls cur
          end
      | XOther => raw_rows false ls cur
      end
  end.

(** document_parser.go:190-329.  For a stream the rows come from two Go maps,
    whose order does not matter for the uses below. *)
Definition ParseXRefDataRaw (inflate : bytes -> option bytes) (f : bytes) (x : Z) : result (bool * list xrow) :=
  if (x <? 0) || (flen f <=? x) then Err
  else
    let section := from x f in
    if prefixb (bs "xref") section then
      let t := match index (bs "trailer") section with Some t => t | None => Nat.min (N.to_nat 10000) (length section) end in
      Ok (true, raw_rows true (split_on x0a (firstn t section)) None)
    else
      match value_of (find m_anyobj (take 100 section)) with
      | None => Err
      | Some (n, g) =>
          rbind (ParseRawObject f (atoi_clip n) (atoi_clip g) x) (fun _ =>
          rbind (ParseXRefStreamFull inflate f x) (fun m =>
          Ok (false,
              map (fun k => mkRow k 0 (def 0 (mget k (fst m))) true None) (mkeys (fst m)) ++
              map (fun k => mkRow k 0 0 true (mget k (snd m))) (mkeys (snd m)))))
      end.

(** document.go:22-30 *)
Record revision := mkRev {
  rvNumber : nat; rvObjects : zmap rawobj; rvStartXRef : Z; rvEOF : nat; rvEnd : nat
}.

(** document_parser.go:112-187.  The trailer values are not used by lookups;
    a missing trailer makes the revision fail (table mode).  Later rows of the
    same number override earlier ones. *)
Definition revision_objects (f : bytes) (prevEnd : Z) (eof : nat) (rows : list xrow) : zmap rawobj :=
  fold_left (fun m r =>
    if rInUse r && (match rInStream r with None => true | Some _ => false end)
       && (prevEnd <=? rOff r) && (rOff r <? Z.of_nat eof)
    then match ParseRawObject f (rNum r) (rGen r) (rOff r) with
         | Ok o => mset (rNum r) o m
         | _ => m
         end
    else m) rows [].

Definition parseRevision (inflate : bytes -> option bytes) (f : bytes) (num eof : nat) (prevEnd : Z)
  : result revision :=
  match startxref_before f eof with
  | None => Err
  | Some d =>
      let x := atoi_clip d in
      rbind (ParseXRefDataRaw inflate f x) (fun t =>
      if fst t && negb (contains (bs "trailer") (from x f)) then Err
      else Ok (mkRev num (revision_objects f prevEnd eof (snd t)) x eof (skip_eol f (eof + 5))))
  end.

(** document_parser.go:86-106: length of the header. *)
Definition header_len (f : bytes) : nat :=
  let v := (5 + length (take_while (fun b => negb (is_eol b)) (sub 5 20 f)))%nat in
  let h := skip_eol f v in
  match nth_error f h with
  | Some b => if beqb b "%" then
                skip_eol f (h + length (take_while (fun b => negb (is_eol b)) (skipn h f)))
              else h
  | None => h
  end.

Fixpoint parse_revisions (inflate : bytes -> option bytes) (f : bytes) (i : nat) (eofs : list nat)
  (acc : list revision) : result (list revision) :=
  match eofs with
  | [] => Ok (rev acc)
  | e :: es =>
      let prevEnd := match acc with
                     | r :: _ => if (1 <? i)%nat then Z.of_nat (rvEnd r) else Z.of_nat (header_len f)
                     | [] => Z.of_nat (header_len f)
                     end in
      match parseRevision inflate f i e prevEnd with
      | Panic => Panic
      | Err => parse_revisions inflate f (S i) es acc
      | Ok r => parse_revisions inflate f (S i) es (r :: acc)
      end
  end.

(** document.go:6-10 *)
Record document := mkDoc { dRaw : bytes; dRevisions : list revision }.

(** document_parser.go:12-50 *)
Definition ParsePDFDocument (inflate : bytes -> option bytes) (f : bytes) : result document :=
  if (flen f <? 8) || negb (prefixb (bs "%PDF-") f) then Err
  else
    match FindAllEOFMarkers f with
    | [] => Err
    | eofs => rbind (parse_revisions inflate f 1 eofs []) (fun rs =>
              match rs with [] => Err | _ => Ok (mkDoc f rs) end)
    end.

(** document.go:104-123 *)
Definition DBytes (d : document) : bytes := dRaw d.

(** document.go:126-134 *)
Fixpoint newest (n : Z) (rs : list revision) : option rawobj :=
  match rs with
  | [] => None
  | r :: rs' => match mget n (rvObjects r) with Some o => Some o | None => newest n rs' end
  end.
Definition DGetObject (d : document) (n : Z) : option rawobj := newest n (rev (dRevisions d)).

(** document.go:137-142 *)
Definition DGetObjectInRevision (d : document) (n k : Z) : option rawobj :=
  if (k <? 1) || (Z.of_nat (length (dRevisions d)) <? k) then None
  else match nth_error (dRevisions d) (Z.to_nat (k - 1)) with
       | Some r => mget n (rvObjects r)
       | None => None
       end.

(** document.go:169-178 *)
Definition DAllObjects (d : document) : zmap rawobj := merge (map rvObjects (dRevisions d)).

(** document.go:158-166 *)
Definition DObjectCount (d : document) : nat :=
  length (nodup Z.eq_dec (flat_map (fun r => mkeys (rvObjects r)) (dRevisions d))).

(** document.go:280-282 *)
Definition is_white (b : byte) : bool := is_blank b || beqb b x0c.

(** document.go:186-224 *)
Definition RContent (o : rawobj) : bytes :=
  let r := roBytes o in
  let start := match index (bs "obj") (firstn (length r - 1) r) with
               | Some i => (i + 3 + length (take_while is_white (skipn (i + 3) r)))%nat
               | None => 0%nat
               end in
  match last_index (bs "endobj") r with
  | Some e => rtrim is_white (sub start e r)
  | None => skipn start r
  end.
