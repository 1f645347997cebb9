(** Model of forms/xfa/xfa.go, of forms/xfa/xfa_utils.go:533-651 and 788-922,
    and of core/write/xfa_builder.go.

    Oracles (arguments): [zl] and [fl], the zlib and the raw deflate readers of
    the standard library ([None]: they report an error); [deflate] and
    [rawdeflate], the two compressors; [get], the reader of objects of the file
    ([ParseModel.GetObject]); [formFallback] and [streamFallback], the older
    readers tried when [get] fails (findAndDecryptAcroForm, xfa_utils.go:20-530,
    and extractStreamFromPDF, xfa_utils.go:691-786), which FallModel models.
    Log output is not modelled.  Rebuilding an encrypted document is not
    modelled ([encryptInfo] is nil in [BuildFromOriginal]).  The values of form
    data are the texts that fmt's %v prints for them. *)
From Verif Require Export PageModel ParseModel ManipModel.
Local Open Scope Z_scope.

(** All matches of a pattern, leftmost first, not overlapping
    ([FindAllSubmatch]); a matcher returns its value and what follows. *)
Fixpoint matches {A} (m : bytes -> option (A * bytes)) (s : bytes) (skip : nat) : list (bytes * A * bytes) :=
  match s with
  | [] => []
  | _ :: s' =>
      match skip with
      | S k => matches m s' k
      | O => match m s with
             | Some (a, r) => (s, a, r) :: matches m s' (length s - length r - 1)
             | None => matches m s' 0
             end
      end
  end.

(* ---------------------------------------------------------------- *)
(** xfa_builder.go:34-83 *)

Record xfa_data := mkXD { xdName : bytes; xdData : bytes; xdCompress : bool }.

Definition embedded : dict := [(bs "Type", VStr (bs "/EmbeddedFile"))].

(** xfa_builder.go:50-65: the streams, and the entries of the XFA array *)
Fixpoint add_xfa (deflate : bytes -> bytes) (l : list xfa_data) (w : writer) : list (bytes * Z) * writer :=
  match l with
  | [] => ([], w)
  | s :: l =>
      let (n, w) := add_stream deflate embedded (Some (xdData s)) (xdCompress s) w in
      let (r, w) := add_xfa deflate l w in
      ((xdName s, n) :: r, w)
  end.

Definition xfa_entry (e : bytes * Z) : bytes := bs "(" ++ fst e ++ bs ")" ++ decZ (snd e) ++ bs " 0 R".
Definition xfa_form (es : list (bytes * Z)) : bytes := bs "<</Fields[]/XFA[" ++ flat_map xfa_entry es ++ bs "]>>".
Definition xfa_catalog (n : Z) : bytes := bs "<</Type/Catalog/AcroForm " ++ decZ n ++ bs " 0 R>>".

(** xfa_builder.go:42-83, before [Bytes] *)
Definition BuildFromXFA (deflate : bytes -> bytes) (l : list xfa_data) : writer :=
  let (es, w) := add_xfa deflate l NewPDFWriter in
  let (form, w) := AddObject (Some (xfa_form es)) w in
  let (cat, w) := AddObject (Some (xfa_catalog form)) w in
  SetRoot cat w.

(* ---------------------------------------------------------------- *)
(** xfa_utils.go:806-830 *)

Definition inflated (zl fl : bytes -> option bytes) (s : bytes) : option bytes :=
  match zl s with Some d => Some d | None => fl s end.
Definition DecompressStream (zl fl : bytes -> option bytes) (s : bytes) : bytes * bool :=
  match inflated zl fl s with Some d => (d, true) | None => (s, false) end.

(** xfa.go:21-95.  A Length that makes dataStart+length wrap around is a
    slice with a negative bound. *)
Definition extractStreamDataFromObject (zl fl : bytes -> option bytes) (o : bytes) : result bytes :=
  match index (bs "stream") o with
  | None => match index (bs "<<") o with Some i => Ok (skipn i o) | None => Ok o end
  | Some st =>
      match index (bs "endstream") (skipn st o) with
      | None => Err
      | Some e =>
          let start := skip_one_eol o (st + 6) in
          let upto_end := sub start (st + e) o in
          rbind (match value_of (find (m_key (bs "/Length")) (firstn st o)) with
                 | None => Ok upto_end
                 | Some d =>
                     let l := atoi_clip d in
                     if Z.of_N int64_max <? Z.of_nat start + l then Panic
                     else if Z.of_nat start + l <=? flen o then Ok (firstn (Z.to_nat l) (skipn start o))
                     else Ok upto_end
                 end) (fun data =>
          if contains (bs "/FlateDecode") (firstn st o)
          then match inflated zl fl data with Some d => Ok d | None => Ok data end
          else Ok data)
      end
  end.

(** The end of an array: position of the [ ] ] that closes depth [d], within
    the first [lim] bytes; [None] if there is none. *)
Fixpoint array_end (lim : nat) (d : nat) (s : bytes) : option nat :=
  match lim, s with
  | S lim, b :: s' =>
      if beqb b "[" then option_map S (array_end lim (S d) s')
      else if beqb b "]" then match d with
                              | S O => Some O
                              | S d' => option_map S (array_end lim d' s')
                              | O => option_map S (array_end lim O s')      (* depth below zero *)
                              end
      else option_map S (array_end lim d s')
  | _, _ => None
  end.

(** The end of a dictionary: the position after the bytes [ >> ] that bring
    the depth back to zero (xfa_utils.go:544-556; the last byte is not a start). *)
Fixpoint dict_close (d : nat) (s : bytes) : option nat :=
  match s with
  | a :: ((b :: s') as r) =>
      if beqb a "<" && beqb b "<" then option_map (fun i => (i + 2)%nat) (dict_close (S d) s')
      else if beqb a ">" && beqb b ">" then
        match d with
        | S O => Some 2%nat
        | S d' => option_map (fun i => (i + 2)%nat) (dict_close d' s')
        | O => None                                                  (* not reachable from an opening *)
        end
      else option_map S (dict_close d r)
  | _ => None
  end.

(** /[Xx][Ff][Aa] (xfa_utils.go:602-611; the loop stops three bytes before the end) *)
Definition m_anyxfa (s : bytes) : option unit :=
  match s with
  | a :: b :: c :: d :: _ =>
      if beqb a "/" && (beqb b "X" || beqb b "x") && (beqb c "F" || beqb c "f") && (beqb d "A" || beqb d "a") then Some tt else None
  | _ => None
  end.
Definition or_else {A} (a b : option A) : option A := match a with Some _ => a | None => b end.
Definition xfa_pos (c : bytes) : option nat :=
  or_else (match index (bs "<<") c with
           | None => None
           | Some i =>
               match dict_close 0 (skipn i c) with
               | None => None
               | Some k =>
                   let d := firstn k (skipn i c) in
                   option_map (Nat.add i) (or_else (index (bs "/XFA") d) (index (bs "/xfa") d))
               end
           end)
 (or_else (index (bs "/XFA") c)
 (or_else (index (bs "/xfa") c)
 (or_else (index (bs "/ XFA") c)
          (option_map fst (find m_anyxfa c))))).

Definition array_limit : nat := N.to_nat 10000.
(** xfa_utils.go:533-659.  The text returned ends with the closing bracket. *)
Definition findXFAArrayContent (c : bytes) : result bytes :=
  match xfa_pos c with
  | None => Err
  | Some p =>
      match index (bs "[") (skipn p c) with
      | None => Err
      | Some a =>
          let s := skipn (p + a + 1) c in
          match array_end array_limit 1 s with
          | None => Err
          | Some e => Ok (firstn (e + 1) s)
          end
      end
  end.

(** \(([^)]+)\)\s*(\d+)\s+(\d+)\s+R *)
Definition not_paren (b : byte) : bool := negb (beqb b ")").
Definition m_xfa_entry (s : bytes) : option (bytes * bytes * bytes) :=
  do r <- lit (bs "(") s;
  match take_while not_paren r with
  | [] => None
  | name => do r <- lit (bs ")") (drop_while not_paren r);
            do (d, r) <- digits1 (ws0 r); do r <- ws1 r; do (_, r) <- digits1 r; do r <- ws1 r; do r <- lit (bs "R") r;
            Some ((name, d), r)
  end.
Definition xfa_entries (s : bytes) : list (bytes * bytes) := map (fun m => snd (fst m)) (matches m_xfa_entry s 0).

(** /AcroForm\s+(\d+)\s+(\d+)\s+R *)
Definition m_acroform (s : bytes) : option bytes :=
  do r <- lit (bs "/AcroForm") s; do r <- ws1 r; do (d, r) <- digits1 r; do r <- ws1 r;
  do (_, r) <- digits1 r; do r <- ws1 r; do _ <- lit (bs "R") r; Some d.
Definition m_acro_inline (s : bytes) : option unit := do r <- lit (bs "/AcroForm") s; do _ <- lit (bs "<<") (ws0 r); Some tt.
(** /XFA\s*\[, what follows the bracket *)
Definition m_xfa_open (s : bytes) : option bytes := do r <- lit (bs "/XFA") s; lit (bs "[") (ws0 r).

(** xfa.go:98-115.  The nine fields of XFAStreams, by name; a field that is
    not there is nil. *)
Record sinfo := mkSI { siData : bytes; siNum : Z; siComp : bool }.
Definition xstreams := list (bytes * sinfo).
Definition stream_names : list bytes :=
  [bs "template"; bs "datasets"; bs "config"; bs "localeSet"; bs "connectionSet"; bs "stylesheet"; bs "xmp"; bs "signature"; bs "sourceSet"].
Definition known_stream (n : bytes) : bool := existsb (bytes_eqb n) stream_names.

(** xfa.go:229-305 *)
Fixpoint load_streams (zl fl : bytes -> option bytes) (get streamFallback : Z -> result bytes) (l : list (bytes * bytes)) (acc : xstreams)
  : result xstreams :=
  match l with
  | [] => Ok acc
  | (name, d) :: l =>
      match atoi d with
      | None => load_streams zl fl get streamFallback l acc
      | Some n =>
          let o := match get n with Ok o => Ok o | Panic => Panic | Err => streamFallback n end in
          match rbind o (extractStreamDataFromObject zl fl) with
          | Panic => Panic
          | Err => load_streams zl fl get streamFallback l acc
          | Ok data =>
              let (x, c) := DecompressStream zl fl data in
              load_streams zl fl get streamFallback l (if known_stream name then kset name (mkSI x n c) acc else acc)
          end
      end
  end.

(** xfa.go:118-306 *)
Definition xfa_array (get formFallback : Z -> result bytes) (f : bytes) : result bytes :=
  let inline :=
    match find m_xfa_open f with
    | None => Err
    | Some (_, r) => match array_end (array_limit - 1) 1 r with None => Err | Some e => Ok (firstn e r) end
    end in
  match value_of (find m_acroform f) with
  | Some d =>
      match atoi d with
      | None => Err
      | Some n =>
          if 0 <? n then
            rbind (match get n with Ok o => Ok o | Panic => Panic | Err => formFallback n end) findXFAArrayContent
          else inline
      end
  | None => if found (find m_acro_inline f) then inline else Err
  end.
Definition ExtractAllXFAStreams (zl fl : bytes -> option bytes) (get formFallback streamFallback : Z -> result bytes) (f : bytes)
  : result xstreams :=
  rbind (xfa_array get formFallback f) (fun a =>
  match xfa_entries a with
  | [] => Err
  | l => load_streams zl fl get streamFallback l []
  end).

(** xfa.go:310-323 *)
Definition FindXFADatasetsStream zl fl get ff sf f : result (bytes * Z) :=
  rbind (ExtractAllXFAStreams zl fl get ff sf f) (fun s =>
  match kget (bs "datasets") s with Some i => Ok (siData i, siNum i) | None => Err end).

(** xfa.go:371-428: the streams BuildPDFFromXFAStreams keeps, in its order *)
Definition built_names : list bytes :=
  [bs "template"; bs "datasets"; bs "config"; bs "localeSet"; bs "connectionSet"; bs "stylesheet"; bs "xmp"].
Definition kept_streams (names : list bytes) (s : xstreams) : list (bytes * bytes) :=
  flat_map (fun n => match kget n s with
                     | Some i => match siData i with [] => [] | d => [(n, d)] end
                     | None => [] end) names.
Definition BuildPDFFromXFAStreams (deflate : bytes -> bytes) (s : xstreams) : writer :=
  BuildFromXFA deflate (map (fun p => mkXD (fst p) (snd p) true) (kept_streams built_names s)).

(* ---------------------------------------------------------------- *)
(** xfa.go:512-559, one field of the form data *)
Definition field_pattern (name : bytes) : bytes := bs "<field name=""" ++ name ++ bs """".
Definition update_field (xml : bytes) (nv : bytes * bytes) : bytes :=
  let (name, v) := nv in
  match index (field_pattern name) xml with
  | None => xml
  | Some i =>
      match index (bs "</field>") (skipn i xml) with
      | None => xml
      | Some e =>
          let section := firstn e (skipn i xml) in
          match index (bs "<value>") section, index (bs "</value>") section with
          | Some a, Some b => firstn (i + a + 7) xml ++ v ++ skipn (i + b) xml
          | _, _ => firstn (i + e) xml ++ bs "<value>" ++ v ++ bs "</value>" ++ skipn (i + e) xml
          end
      end
  end.
(** The form data in the order in which Go's map iteration delivers it. *)
Definition UpdateXFAFieldValues (xml : bytes) (data : list (bytes * bytes)) : bytes := fold_left update_field data xml.

(** xfa.go:482-509: the section ends 7 bytes after the last </data>; if that is
    before the first <data, the slice panics. *)
Definition UpdateXFAValues (xml : bytes) (data : list (bytes * bytes)) : result bytes :=
  match index (bs "<data") xml, last_index (bs "</data>") xml with
  | Some a, Some b =>
      rbind (slice xml a (b + 7)) (fun section =>
      Ok (firstn a xml ++ UpdateXFAFieldValues section data ++ skipn (b + 7) xml))
  | _, _ => Ok (UpdateXFAFieldValues xml data)
  end.

(* ---------------------------------------------------------------- *)
(** Go slices that share an array.  [mem] is the whole array behind the
    caller's slice, up to its capacity; [Shared k] is the slice mem[:k], [Own b]
    a slice with an array of its own. *)
Inductive gslice := Shared (len : nat) | Own (b : bytes).
Definition write_at (k : nat) (xs mem : bytes) : bytes := firstn k mem ++ xs ++ skipn (k + length xs) mem.
Definition go_append (st : bytes * gslice) (xs : bytes) : bytes * gslice :=
  let (mem, s) := st in
  match s with
  | Shared k => if (k + length xs <=? length mem)%nat then (write_at k xs mem, Shared (k + length xs))
                else (mem, Own (firstn k mem ++ xs))
  | Own b => (mem, Own (b ++ xs))
  end.
Definition contents (st : bytes * gslice) : bytes :=
  match snd st with Shared k => firstn k (fst st) | Own b => b end.

(** %d\s+0\s+obj *)
Definition m_stream_obj (n : Z) (s : bytes) : option unit :=
  do r <- lit (decZ n) s; do r <- ws1 r; do r <- lit (bs "0") r; do r <- ws1 r; do _ <- lit (bs "obj") r; Some tt.
(** /Length\s+(\d+): the digits and what follows *)
Definition m_length_digits (s : bytes) : option (bytes * bytes) :=
  do r <- lit (bs "/Length") s; do r <- ws1 r; digits1 r.

(** Where ReplaceStreamInPDF cuts: the number of the Length entry from [l1] to
    [l2], the data of the stream from [s1] to [s2] (xfa_utils.go:868-907). *)
Definition stream_cut (f : bytes) (n : Z) : result (nat * nat * nat * nat) :=
  match find (m_stream_obj n) f with
  | None => Err
  | Some (p, _) =>
      match index (bs "stream") (skipn p f) with
      | None => Err
      | Some k =>
          let d := firstn k (skipn p f) in
          match find m_length_digits d with
          | None => Err
          | Some (_, (digits, r)) =>
              let l2 := (p + (length d - length r))%nat in
              let l1 := (l2 - length digits)%nat in
              let after := skipn (p + k + 6) f in
              let s1 := (p + k + 6 + length (take_while is_blank after))%nat in
              match index (bs "endstream") (skipn s1 f) with
              | None => Err
              | Some e => Ok (l1, l2, s1, (s1 + e)%nat)
              end
          end
      end
  end.

(** xfa_utils.go:855-922.  [mem] is the array behind the caller's slice, of
    which the first [n] bytes are the file.  The result, and the array
    afterwards.  The slices betweenLengthAndStream and afterStream are views of
    the caller's array, read when they are appended. *)
Definition ReplaceStreamInPDF (mem : bytes) (n : nat) (obj : Z) (new : bytes) : result (bytes * bytes) :=
  rbind (stream_cut (firstn n mem) obj) (fun c =>
  match c with (l1, l2, s1, s2) =>
    let st := (mem, Shared l1) in
    let st := go_append st (decZ (flen new)) in
    let st := go_append st (sub l2 s1 (fst st)) in
    let st := go_append st new in
    let st := go_append st (sub s2 n (fst st)) in
    Ok (contents st, fst st)
  end).

(** xfa.go:431-479 *)
Definition UpdateXFAInPDF (zl fl : bytes -> option bytes) (rawdeflate : bytes -> bytes) (get ff sf : Z -> result bytes)
  (mem : bytes) (n : nat) (data : list (bytes * bytes)) : result (bytes * bytes) :=
  rbind (FindXFADatasetsStream zl fl get ff sf (firstn n mem)) (fun ds =>
  let (xml, compressed) := DecompressStream zl fl (fst ds) in
  rbind (UpdateXFAValues xml data) (fun xml' =>
  ReplaceStreamInPDF mem n (snd ds) (if compressed then rawdeflate xml' else xml'))).

(* ---------------------------------------------------------------- *)
(** xfa_builder.go:286-328 *)

(** /(\w+)\s* *)
Definition m_dict_key (s : bytes) : option (bytes * bytes) :=
  do r <- lit (bs "/") s;
  match take_while is_word r with [] => None | k => Some (k, ws0 (drop_while is_word r)) end.
Definition dict_value (t : bytes) : value := match atoi t with Some z => VInt z | None => VStr t end.
Fixpoint dict_entries (l : list (bytes * bytes * bytes)) : list (bytes * value) :=
  match l with
  | [] => []
  | (_, k, r) :: l' =>
      let stop := match l' with (s, _, _) :: _ => length s | [] => O end in
      (k, dict_value (trim is_space (firstn (length r - stop) r))) :: dict_entries l'
  end.
Definition parseDictionary (data : bytes) : dict :=
  let s := trim_suffix (bs ">>") (trim is_space (trim_prefix (bs "<<") (trim is_space data))) in
  fold_left (fun d e => kset (fst e) (snd e) d) (dict_entries (matches m_dict_key s 0)) [].

(** xfa_builder.go:166-272: one match of (\d+)\s+(\d+)\s+obj *)
Record pobj := mkPO { poContent : option bytes; poStream : option bytes; poDict : option dict }.
Definition m_obj_header (s : bytes) : option (bytes * bytes) :=
  do (d, r) <- digits1 s; do r <- ws1 r; do (_, r) <- digits1 r; do r <- ws1 r; do r <- lit (bs "obj") r; Some (d, r).
Definition go_trim (s : bytes) : option bytes := match trim is_space s with [] => None | t => Some t end.
Definition parse_object (rest : bytes) : result (option pobj) :=
  match index (bs "endobj") rest with
  | None => Ok None
  | Some e =>
      let o := firstn e rest in
      match index (bs "stream") o with
      | None => Ok (Some (mkPO (go_trim o) None None))
      | Some st =>
          let d := parseDictionary (firstn st o) in
          let start := (st + 6 + length (take_while is_eol (skipn (st + 6) o)))%nat in
          let upto_end := match index (bs "endstream") (skipn start o) with
                          | Some k => firstn k (skipn start o)
                          | None => skipn start o
                          end in
          rbind (match kget (bs "Length") d with
                 | Some (VInt l) =>
                     if Z.of_N int64_max <? Z.of_nat start + l then Panic
                     else if Z.of_nat start + l <=? flen o
                     then (if l <? 0 then Panic else Ok (firstn (Z.to_nat l) (skipn start o)))
                     else Ok upto_end
                 | _ => Ok upto_end
                 end) (fun data =>
          Ok (Some (mkPO (go_trim (firstn st o)) (Some data) (Some d))))
      end
  end.
Fixpoint parse_objects (l : list (bytes * bytes * bytes)) (acc : zmap pobj) : result (zmap pobj) :=
  match l with
  | [] => Ok acc
  | (_, d, rest) :: l =>
      rbind (parse_object rest) (fun o =>
      parse_objects l (match o with Some o => mset (atoi_clip d) o acc | None => acc end))
  end.

(** xfa_builder.go:275-290 *)
Definition last_bytes (n : N) (f : bytes) : bytes := skipn (length f - N.to_nat n) f.
Definition findStartXRef (f : bytes) : Z :=
  match value_of (find m_startxref (last_bytes 1024 f)) with
  | Some d => match atoi d with Some x => x | None => -1 end
  | None => -1
  end.

(** xfa_builder.go:233-263 *)
Fixpoint add_from_streams (inflate : bytes -> option bytes) (f : bytes) (l : zmap (Z * Z)) (nums : list Z) (acc : zmap pobj)
  : result (zmap pobj) :=
  match nums with
  | [] => Ok acc
  | n :: nums =>
      match mget n l, mem n acc with
      | Some (s, i), false =>
          match GetObjectFromStream inflate None f n s i with
          | Panic => Panic
          | Err => add_from_streams inflate f l nums acc
          | Ok t => add_from_streams inflate f l nums (mset n (mkPO (go_trim t) None None) acc)
          end
      | _, _ => add_from_streams inflate f l nums acc
      end
  end.
Definition parseAllObjects (inflate : bytes -> option bytes) (f : bytes) : result (zmap pobj) :=
  rbind (parse_objects (matches m_obj_header f 0) []) (fun acc =>
  if 0 <? findStartXRef f then
    match ParseXRefStreamFull inflate f (findStartXRef f) with
    | Panic => Panic
    | Err => Ok acc
    | Ok (_, s) => add_from_streams inflate f s (mkeys s) acc
    end
  else Ok acc).

(** xfa_builder.go:331-361: /Key\s+(\d+)\s+\d+\s+R *)
Definition m_trailer_ref (key s : bytes) : option bytes :=
  do r <- lit key s; do r <- ws1 r; do (d, r) <- digits1 r; do r <- ws1 r; do (_, r) <- digits1 r; do r <- ws1 r; do _ <- lit (bs "R") r; Some d.
Definition trailer_num (key f : bytes) : Z := atoi0 (value_of (find (m_trailer_ref key) f)).

(** xfa_builder.go:364-476 *)
Definition parseXFAArrayContent (s : bytes) : list (bytes * Z) :=
  fold_left (fun m e => kset (fst e) (atoi_clip (snd e)) m) (xfa_entries s) [].
Definition parseXFAArrayFromContent (c : bytes) : result (list (bytes * Z)) :=
  match index (bs "/XFA") c with
  | None => Ok []
  | Some p =>
      match index (bs "[") (skipn p c) with
      | None => Ok []
      | Some a =>
          let s := skipn (p + a + 1) c in
          match array_end (length s) 1 s with
          | None => Panic                          (* content[arrayStart+1:arrayStart-1] *)
          | Some e => Ok (parseXFAArrayContent (firstn e s))
          end
      end
  end.
(** /XFA\s*\[([^\]]+)\] *)
Definition not_bracket (b : byte) : bool := negb (beqb b "]").
Definition m_xfa_array (s : bytes) : option bytes :=
  do r <- m_xfa_open s;
  match take_while not_bracket r with [] => None | t => do _ <- lit (bs "]") (drop_while not_bracket r); Some t end.
Definition findXFAStreamMap (get : Z -> result bytes) (f : bytes) : result (list (bytes * Z)) :=
  match value_of (find m_acroform f) with
  | None => match value_of (find m_xfa_array f) with Some t => Ok (parseXFAArrayContent t) | None => Ok [] end
  | Some d =>
      match atoi d with
      | None => Ok []
      | Some n => match get n with
                  | Ok o => parseXFAArrayFromContent o
                  | Err => Ok []
                  | Panic => Panic
                  end
      end
  end.

(** xfa_builder.go:114-140 *)
Definition update_stream (deflate : bytes -> bytes) (m : list (bytes * Z)) (objs : zmap pobj) (u : bytes * bytes) : zmap pobj :=
  match kget (fst u) m with
  | None => objs
  | Some n =>
      match mget n objs with
      | None => objs
      | Some o =>
          let s := deflate (snd u) in
          let d := match poDict o with Some d => d | None => [] end in
          mset n (mkPO (poContent o) (Some s)
                    (Some (kset (bs "Length") (VInt (flen s)) (kset (bs "Filter") (VStr (bs "/FlateDecode")) d)))) objs
      end
  end.
(** xfa_builder.go:143-149: a stream object always has a dictionary here *)
Definition copy_object (deflate : bytes -> bytes) (objs : zmap pobj) (w : writer) (n : Z) : writer :=
  match mget n objs with
  | None => w
  | Some o =>
      match poStream o with
      | Some s =>
          let a := fresh (dicts w) in
          let d := match poDict o with Some d => d | None => [] end in
          match SetStreamObject deflate n a (Some s) false (set_dicts w (mset a d (dicts w))) with Ok w => w | _ => w end
      | None => match poContent o with Some c => SetObject n (Some c) w | None => w end
      end
  end.

(** xfa_builder.go:86-165, before [Bytes]; [order] is the order in which Go
    iterates over the objects, [updates] the one over the new streams. *)
Definition BuildFromOriginal (deflate : bytes -> bytes) (inflate : bytes -> option bytes) (get : Z -> result bytes)
  (order : list Z -> list Z) (f : bytes) (updates : list (bytes * bytes)) : result writer :=
  rbind (parseAllObjects inflate f) (fun objs =>
  rbind (findXFAStreamMap get f) (fun m =>
  let objs := fold_left (update_stream deflate m) updates objs in
  let w := fold_left (copy_object deflate objs) (order (mkeys objs)) NewPDFWriter in
  let w := if 0 <? trailer_num (bs "/Root") f then SetRoot (trailer_num (bs "/Root") f) w else w in
  Ok (if 0 <? trailer_num (bs "/Info") f then SetInfo (trailer_num (bs "/Info") f) w else w))).

(** xfa.go:326-364; Go's map order over the new streams is [perm] *)
Definition RebuildPDFFromXFAStreams deflate inflate get order (perm : list (bytes * bytes) -> list (bytes * bytes)) (f : bytes) (s : xstreams)
  : result writer :=
  BuildFromOriginal deflate inflate get order f (perm (kept_streams stream_names s)).
