(** Model of core/manipulate: manipulate.go, rotation.go, deletion.go,
    insertion.go, extraction.go, splitting.go, merging.go.

    Regular expressions are leftmost searches of matchers as in ParseModel.
    Replacement texts never contain "$" (they are built from numbers and
    references), so ReplaceAllString inserts them literally.  Recursion over
    the page tree is bounded by [stack], which stands for the depth the
    goroutine stack allows: exceeding it kills the process ([Panic]). *)
From Verif Require Import WriterModel ParseModel.
Local Open Scope Z_scope.

(* ---------------------------------------------------------------- *)
(** manipulate.go *)

(** [^\s<>] *)
Definition is_tok (b : byte) : bool := negb (is_ws b || beqb b "<" || beqb b ">").
(** [^/\s<>] *)
Definition is_name_tok (b : byte) : bool := is_tok b && negb (beqb b "/").

(** KEY\s+([^\s<>]+): the group and what follows the match *)
Definition m_spaced (key s : bytes) : option (bytes * bytes) :=
  do r <- lit key s; do r <- ws1 r;
  match take_while is_tok r with [] => None | t => Some (t, drop_while is_tok r) end.
(** KEY/([^/\s<>]+) *)
Definition m_named (key s : bytes) : option (bytes * bytes) :=
  do r <- lit (key ++ bs "/") s;
  match take_while is_name_tok r with [] => None | t => Some (t, drop_while is_name_tok r) end.

(** manipulate.go:126-137: length of the array at the start of [s] up to the
    bracket that closes it. *)
Fixpoint array_end (depth : Z) (s : bytes) : option nat :=
  match s with
  | [] => None
  | b :: s' =>
      if beqb b "[" then option_map S (array_end (depth + 1) s')
      else if beqb b "]" then
        if depth - 1 =? 0 then Some 1%nat else option_map S (array_end (depth - 1) s')
      else option_map S (array_end depth s')
  end.
Definition array_at (s : bytes) : option nat :=
  match s with
  | b :: _ => if beqb b "[" then array_end 0 s else None
  | [] => None
  end.

(** manipulate.go:117-166; [""] when there is no value. *)
Definition extractDictValue (d key : bytes) : bytes :=
  match index key d with
  | None => []
  | Some i =>
      let r := drop_while is_blank (skipn (i + length key) d) in
      match array_at r with
      | Some e => firstn e r
      | None =>
          match find (m_spaced key) d with
          | Some (_, (t, _)) => t
          | None =>
              match find (m_named key) d with
              | Some (_, (t, _)) => bs "/" ++ t
              | None => []
              end
          end
      end
  end.

Definition trim_prefix (p s : bytes) : bytes := if prefixb p s then skipn (length p) s else s.
Definition trim_suffix (p s : bytes) : bytes := if suffixb p s then firstn (length s - length p) s else s.

(** manipulate.go:228-236 *)
Definition insert_entry (d key value : bytes) : bytes :=
  match last_index (bs ">>") d with
  | None => d
  | Some i => firstn i d ++ key ++ bs " " ++ value ++ bs " " ++ skipn i d
  end.

(** manipulate.go:187-225: replace an array value; [None] when there is none. *)
Definition replace_array (d key value : bytes) : option bytes :=
  do i <- index key d;
  let after := skipn (i + length key) d in
  let r := drop_while is_blank after in
  do e <- array_at r;
  let had_space := match after with b :: _ => is_blank b | [] => false end in
  Some (firstn i d ++ key ++ (if had_space then bs " " else []) ++ value ++ bs " " ++ skipn e r).

(** manipulate.go:169-237 *)
Definition setDictValue (d key value : bytes) : bytes :=
  match extractDictValue d key with
  | [] => insert_entry d key value
  | _ =>
      let by_array := match replace_array d key value with Some d' => d' | None => insert_entry d key value end in
      let by_name :=
        if found (find (m_named key) d)
        then replace_all (fun s => option_map snd (m_named key s)) (key ++ bs "/" ++ trim_prefix (bs "/") value) d 0
        else by_array in
      if found (find (m_spaced key) d) then
        let d' := replace_all (fun s => option_map snd (m_spaced key s)) (key ++ bs " " ++ value) d 0 in
        if bytes_eqb (extractDictValue d' key) value then d' else by_name
      else by_name
  end.

(** manipulate.go:104-114 *)
Definition parseObjectRef (r : bytes) : result Z :=
  match fields is_space r with
  | [] => Err
  | p :: _ => match atoi p with Some z => Ok z | None => Err end
  end.

(** What the manipulator reads of a parsed document (parse.PDF): the trailer
    references, GetObject, and Objects() in whatever order the map yields. *)
Record source := mkSource {
  sRoot : bytes;
  sInfo : bytes;
  sEncrypt : bytes;
  sGet : Z -> result bytes;
  sObjs : list Z
}.
(** The source of a document opened by parse.Open. Documents opened in
    standard mode are modelled without their Info and Encrypt references. *)
Definition source_of (inflate : bytes -> option bytes) (order : list Z -> list Z) (p : pdf) : source :=
  mkSource (pRoot p) [] [] (PGetObject inflate p) (order (PObjects p)).

(** manipulate.go:14-20; the writer is fresh and only used by Rebuild. *)
Record manip := mkManip { mSrc : source; mObjects : zmap bytes }.

(** manipulate.go:36-47: objects that cannot be read are left out. *)
Fixpoint copy_objects (get : Z -> result bytes) (l : list Z) : result (zmap bytes) :=
  match l with
  | [] => Ok []
  | n :: l' =>
      match get n with
      | Panic => Panic
      | Err => copy_objects get l'
      | Ok t => rmap (fun m => mset n t m) (copy_objects get l')
      end
  end.
(** manipulate.go:23-56 *)
Definition NewPDFManipulator (s : source) : result manip :=
  rmap (mkManip s) (copy_objects (sGet s) (sObjs s)).

(* ---------------------------------------------------------------- *)
(** rotation.go: the page tree *)

(** (\d+)\s+\d+\s+R: the object number's digits and what follows the match *)
Definition m_reference (s : bytes) : option (bytes * bytes) :=
  do (n, r) <- digits1 s; do r <- ws1 r; do (_, r) <- digits1 r; do r <- ws1 r;
  do r <- lit (bs "R") r; Some (n, r).

(** FindAllString: the successive non-overlapping matches. *)
Fixpoint find_all (m : bytes -> option (bytes * bytes)) (s : bytes) (skip : nat) : list bytes :=
  match s with
  | [] => []
  | b :: s' =>
      match skip with
      | S k => find_all m s' k
      | O => match m s with
             | Some (_, r) => firstn (length s - length r) s :: find_all m s' (length s - length r - 1)
             | None => find_all m s' 0
             end
      end
  end.

(** rotation.go:165-184 *)
Definition parseObjectRefArray (a : bytes) : list bytes :=
  find_all m_reference (trim_suffix (bs "]") (trim_prefix (bs "[") (trim is_space a))) 0.

(** Kids that cannot be followed are skipped (rotation.go:148-157). *)
Fixpoint follow_kids (go : Z -> result (list Z)) (refs : list bytes) : result (list Z) :=
  match refs with
  | [] => Ok []
  | r :: refs' =>
      match parseObjectRef r with
      | Ok n =>
          match go n with
          | Panic => Panic
          | Err => follow_kids go refs'
          | Ok l => rmap (app l) (follow_kids go refs')
          end
      | _ => follow_kids go refs'
      end
  end.
(** rotation.go:123-163, merging.go:132-166 *)
Fixpoint extractPageObjectNumbers (stack : nat) (get : Z -> result bytes) (n : Z) : result (list Z) :=
  match stack with
  | O => Panic
  | S k =>
      rbind (get n) (fun t =>
        if bytes_eqb (extractDictValue t (bs "/Type")) (bs "/Page") then Ok [n]
        else match extractDictValue t (bs "/Kids") with
             | [] => Ok []
             | kids => follow_kids (extractPageObjectNumbers k get) (parseObjectRefArray kids)
             end)
  end.
(** rotation.go:91-113 without the recursion, deletion.go:118-143,
    insertion.go:88-117, merging.go:107-129: the root of the page tree. *)
Definition pages_root (s : source) : result Z :=
  match sRoot s with
  | [] => Err
  | root =>
      rbind (parseObjectRef root) (fun n =>
        rbind (sGet s n) (fun t =>
          match extractDictValue t (bs "/Pages") with
          | [] => Err
          | r => parseObjectRef r
          end))
  end.
(** rotation.go:92-120, merging.go:101-129 *)
Definition getAllPageObjectNumbers (stack : nat) (s : source) : result (list Z) :=
  rbind (pages_root s) (extractPageObjectNumbers stack (sGet s)).

(** rotation.go:77-88 *)
Definition getPageObjectNumber (stack : nat) (s : source) (page : Z) : result Z :=
  rbind (getAllPageObjectNumbers stack s) (fun l =>
    if (page <? 1) || (Z.of_nat (length l) <? page) then Err
    else match nth_error l (Z.to_nat (page - 1)) with Some n => Ok n | None => Panic end).

(** rotation.go:31-46: the current rotation and the new one.  [Z.rem] is Go's
    remainder; the sum wraps around as a 64-bit int. *)
Definition wrap64 (z : Z) : Z := (z + 2 ^ 63) mod 2 ^ 64 - 2 ^ 63.
Definition current_int (t : bytes) : Z :=
  match t with [] => 0 | _ => match atoi t with Some z => z | None => 0 end end.
Definition new_rotation (cur angle : Z) : Z :=
  let r := Z.rem (wrap64 (cur + angle)) 360 in if r <? 0 then r + 360 else r.

(** rotation.go:12-55 *)
Definition RotatePage (stack : nat) (page angle : Z) (m : manip) : result manip :=
  if negb ((angle =? 90) || (angle =? 180) || (angle =? 270)) then Err
  else
    rbind (getPageObjectNumber stack (mSrc m) page) (fun n =>
      match mget n (mObjects m) with
      | None => Err
      | Some t =>
          let new := new_rotation (current_int (extractDictValue t (bs "/Rotate"))) angle in
          Ok (mkManip (mSrc m) (mset n (setDictValue t (bs "/Rotate") (decZ new)) (mObjects m)))
      end).

(** Calls in order until one fails; the manipulator keeps what was done. *)
Fixpoint run_until {A} (op : A -> manip -> result manip) (l : list A) (m : manip) : result unit * manip :=
  match l with
  | [] => (Ok tt, m)
  | a :: l' =>
      match op a m with
      | Ok m' => run_until op l' m'
      | Err => (Err, m)
      | Panic => (Panic, m)
      end
  end.
Definition page_numbers (n : nat) : list Z := map Z.of_nat (seq 1 n).

(** rotation.go:60-75 *)
Definition RotateAllPages (stack : nat) (angle : Z) (m : manip) : result unit * manip :=
  match getAllPageObjectNumbers stack (mSrc m) with
  | Ok l => run_until (fun p => RotatePage stack p angle) (page_numbers (length l)) m
  | Err => (Err, m)
  | Panic => (Panic, m)
  end.

(* ---------------------------------------------------------------- *)
(** deletion.go *)

(** deletion.go:152-202 *)
Fixpoint find_in_kids (get : Z -> result bytes) (go : Z -> result Z) (self target : Z) (refs : list bytes) : result Z :=
  match refs with
  | [] => Err
  | r :: refs' =>
      match parseObjectRef r with
      | Ok n =>
          if n =? target then Ok self
          else match get n with
               | Panic => Panic
               | Err => find_in_kids get go self target refs'
               | Ok t =>
                   if bytes_eqb (extractDictValue t (bs "/Type")) (bs "/Pages") then
                     match go n with
                     | Ok p => Ok p
                     | Panic => Panic
                     | Err => find_in_kids get go self target refs'
                     end
                   else find_in_kids get go self target refs'
               end
      | _ => find_in_kids get go self target refs'
      end
  end.
Fixpoint findParentRec (stack : nat) (get : Z -> result bytes) (target n : Z) : result Z :=
  match stack with
  | O => Panic
  | S k =>
      rbind (get n) (fun t =>
        if bytes_eqb (extractDictValue t (bs "/Type")) (bs "/Page") then Err
        else match extractDictValue t (bs "/Kids") with
             | [] => Err
             | kids => find_in_kids get (findParentRec k get target) n target (parseObjectRefArray kids)
             end)
  end.
(** deletion.go:119-149 *)
Definition findParentPagesObject (stack : nat) (s : source) (target : Z) : result Z :=
  rbind (pages_root s) (findParentRec stack (sGet s) target).

(** NUM\s+\d+\s+R, NUM the object number (deletion.go:46) *)
Definition m_page_ref (n : Z) (s : bytes) : option unit :=
  do r <- lit (decZ n) s; do r <- ws1 r; do (_, r) <- digits1 r; do r <- ws1 r;
  do _ <- lit (bs "R") r; Some tt.

(** deletion.go:63-72, insertion.go:61-69 *)
Definition kids_array (refs : list bytes) : bytes := bs "[" ++ join (bs " ") refs ++ bs " ]".
(** deletion.go:82-83, insertion.go:76-77 *)
Definition set_count (d : bytes) (n : Z) : bytes :=
  replace_all (m_key_rest (bs "/Count")) (bs "/Count " ++ decZ n) d 0.

(** deletion.go:203-236; the object is known to be there. *)
Definition adjust_count (d : bytes) (delta : Z) : bytes :=
  setDictValue d (bs "/Count") (decZ (Z.max 0 (current_int (extractDictValue d (bs "/Count")) + delta))).

(** deletion.go:11-103 *)
Definition DeletePage (stack : nat) (page : Z) (m : manip) : result manip :=
  rbind (getPageObjectNumber stack (mSrc m) page) (fun n =>
  rbind (findParentPagesObject stack (mSrc m) n) (fun parent =>
    match mget parent (mObjects m) with
    | None => Err
    | Some t =>
        match extractDictValue t (bs "/Kids") with
        | [] => Err
        | kids =>
            let refs := parseObjectRefArray kids in
            let keep := filter (fun r => negb (found (find (m_page_ref n) r))) refs in
            match refs with
            | [] => Err
            | _ =>
                if Nat.eqb (length keep) (length refs) then Err
                else if Nat.eqb (length keep) 0 then Err
                else
                  let d := setDictValue t (bs "/Kids") (kids_array keep) in
                  let d := set_count d (Z.of_nat (length keep)) in
                  Ok (mkManip (mSrc m) (mset parent (adjust_count d (-1)) (mObjects m)))
            end
        end
    end)).

(** deletion.go:107-116: from the last to the first *)
Definition DeletePages (stack : nat) (pages : list Z) (m : manip) : result unit * manip :=
  run_until (DeletePage stack) (rev pages) m.

(* ---------------------------------------------------------------- *)
(** insertion.go:11-85 *)
Definition insert_kid (page : Z) (r : bytes) (refs : list bytes) : list bytes :=
  if (page =? 0) || (Z.of_nat (length refs) <? page) then refs ++ [r]
  else firstn (Z.to_nat (page - 1)) refs ++ r :: skipn (Z.to_nat (page - 1)) refs.
Definition InsertPage (stack : nat) (page n : Z) (content : bytes) (m : manip) : result manip :=
  rbind (getAllPageObjectNumbers stack (mSrc m)) (fun l =>
    if (page <? 0) || (Z.of_nat (length l) + 1 <? page) then Err
    else
      rbind (pages_root (mSrc m)) (fun parent =>
        match mget parent (mObjects m) with
        | None => Err
        | Some t =>
            match extractDictValue t (bs "/Kids") with
            | [] => Err
            | kids =>
                let refs := insert_kid page (ref n) (parseObjectRefArray kids) in
                let d := setDictValue t (bs "/Kids") (kids_array refs) in
                let d := set_count d (Z.of_nat (length refs)) in
                Ok (mkManip (mSrc m) (mset parent d (mset n content (mObjects m))))
            end
        end)).

(* ---------------------------------------------------------------- *)
(** Writing the result *)

Definition set_all (objs : zmap bytes) (w : writer) : writer :=
  fold_right (fun kv w => SetObject (fst kv) (Some (snd kv)) w) w objs.
Definition with_ref (r : bytes) (f : Z -> writer -> writer) (w : writer) : writer :=
  match r with
  | [] => w
  | _ => match parseObjectRef r with Ok n => f n w | _ => w end
  end.
(** manipulate.go:58-101, for documents that are not encrypted: the writer
    whose Bytes() are returned. *)
Definition Rebuild (m : manip) : writer :=
  let w := set_all (mObjects m) NewPDFWriter in
  let w := with_ref (sRoot (mSrc m)) SetRoot w in
  let w := with_ref (sInfo (mSrc m)) SetInfo w in
  with_ref (sEncrypt (mSrc m)) SetEncryptRef w.

(** extraction.go:64-71, merging.go:82-89 *)
Definition new_kids (l : list Z) : bytes :=
  bs "[" ++ join (bs " ") (map (fun n => ref n ++ bs " ") l) ++ bs "]".
Definition pages_dict (l : list Z) : bytes :=
  bs "<</Type/Pages/Kids" ++ new_kids l ++ bs "/Count " ++ decZ (Z.of_nat (length l)) ++ bs ">>".
Definition catalog_dict (pages : Z) : bytes := bs "<</Type/Catalog/Pages " ++ ref pages ++ bs ">>".

(** extraction.go:41-61 *)
Fixpoint copy_pages (objs : zmap bytes) (pagesObj : Z) (l : list Z) (w : writer) : result writer :=
  match l with
  | [] => Ok w
  | n :: l' =>
      match mget n objs with
      | None => Err
      | Some t =>
          copy_pages objs pagesObj l'
            (SetObject n (Some (setDictValue t (bs "/Parent") (ref pagesObj))) (SetObject n (Some t) w))
      end
  end.
(** extraction.go:11-82: the writer whose Bytes() are returned. *)
Definition ExtractPages (stack : nat) (s : source) (pages : list Z) : result writer :=
  match pages with
  | [] => Err
  | _ =>
      rbind (NewPDFManipulator s) (fun m =>
      rbind (getAllPageObjectNumbers stack s) (fun all =>
        if existsb (fun p => (p <? 1) || (Z.of_nat (length all) <? p)) pages then Err
        else
          let nums := map (fun p => nth (Z.to_nat (p - 1)) all 0) pages in
          let (pagesObj, w) := AddObject (Some []) NewPDFWriter in
          rbind (copy_pages (mObjects m) pagesObj nums w) (fun w =>
            let w := SetObject pagesObj (Some (pages_dict nums)) w in
            let (cat, w) := AddObject (Some (catalog_dict pagesObj)) w in
            Ok (SetRoot cat w))))
  end.

(* ---------------------------------------------------------------- *)
(** splitting.go *)

(** splitting.go:87-94: [left] pages are still to be covered, from [start]. *)
Fixpoint ranges_from (fuel : nat) (start total per : Z) : list (Z * Z) :=
  match fuel with
  | O => []
  | S k =>
      if total <? start then []
      else (start, let e := start + per - 1 in if total <? e then total else e)
           :: ranges_from k (start + per) total per
  end.
(** [per >= 1], so at most [total] iterations. *)
Definition page_ranges (total per : Z) : list (Z * Z) := ranges_from (Z.to_nat total) 1 total per.

Definition bad_range (total : Z) (r : Z * Z) : bool :=
  (fst r <? 1) || (total <? fst r) || (snd r <? fst r) || (total <? snd r).
Definition range_pages (r : Z * Z) : list Z := map (fun i => fst r + Z.of_nat i) (seq 0 (Z.to_nat (snd r - fst r + 1))).

Fixpoint result_map {A B} (f : A -> result B) (l : list A) : result (list B) :=
  match l with
  | [] => Ok []
  | a :: l' => rbind (f a) (fun b => rmap (cons b) (result_map f l'))
  end.

(** splitting.go:10-59 *)
Definition SplitPDF (stack : nat) (s : source) (ranges : list (Z * Z)) : result (list writer) :=
  match ranges with
  | [] => Err
  | _ =>
      rbind (NewPDFManipulator s) (fun _ =>
      rbind (getAllPageObjectNumbers stack s) (fun all =>
        let total := Z.of_nat (length all) in
        if total =? 0 then Err
        else if existsb (bad_range total) ranges then Err
        else result_map (fun r => ExtractPages stack s (range_pages r)) ranges))
  end.
(** splitting.go:69-101 *)
Definition SplitPDFByPageCount (stack : nat) (s : source) (per : Z) : result (list writer) :=
  if per <? 1 then Err
  else
    rbind (NewPDFManipulator s) (fun _ =>
    rbind (getAllPageObjectNumbers stack s) (fun all =>
      let total := Z.of_nat (length all) in
      if total =? 0 then Err else SplitPDF stack s (page_ranges total per))).

(* ---------------------------------------------------------------- *)
(** merging.go *)

(** ReplaceAllStringFunc over [m_reference]. *)
Fixpoint replace_refs (f : bytes -> bytes -> bytes) (s : bytes) (skip : nat) : bytes :=
  match s with
  | [] => []
  | b :: s' =>
      match skip with
      | S k => replace_refs f s' k
      | O => match m_reference s with
             | Some (n, r) =>
                 f n (firstn (length s - length r) s) ++ replace_refs f s' (length s - length r - 1)
             | None => b :: replace_refs f s' 0
             end
      end
  end.
(** merging.go:170-193.  Sscanf leaves 0 when the number does not fit. *)
Definition updateObjectReferences (t : bytes) (map : zmap Z) : bytes :=
  replace_refs (fun n whole =>
    match mget (match atoi n with Some z => z | None => 0 end) map with
    | Some k => ref k
    | None => whole
    end) t 0.

(** merging.go:48-74: the objects of one document, in the order of Objects(). *)
Fixpoint merge_objects (get : Z -> result bytes) (pages : list Z) (l : list Z) (map : zmap Z)
  (next : Z) (w : writer) (acc : list Z) : result (Z * writer * list Z) :=
  match l with
  | [] => Ok (next, w, acc)
  | n :: l' =>
      match get n with
      | Panic => Panic
      | Err => merge_objects get pages l' map next w acc
      | Ok t =>
          let map' := mset n next map in
          merge_objects get pages l' map' (next + 1)
            (SetObject next (Some (updateObjectReferences t map')) w)
            (if existsb (Z.eqb n) pages then acc ++ [next] else acc)
      end
  end.
(** merging.go:23-75 *)
Fixpoint merge_docs (stack : nat) (docs : list source) (next : Z) (w : writer) (acc : list Z)
  : result (Z * writer * list Z) :=
  match docs with
  | [] => Ok (next, w, acc)
  | s :: docs' =>
      rbind (getAllPageObjectNumbers stack s) (fun pages =>
      rbind (merge_objects (sGet s) pages (sObjs s) [] next w acc) (fun '(next, w, acc) =>
        merge_docs stack docs' next w acc))
  end.
(** merging.go:13-98, after the documents have been opened: the writer whose
    Bytes() are returned. *)
Definition MergePDFs (stack : nat) (docs : list source) : result writer :=
  match docs with
  | [] => Err
  | _ =>
      rbind (merge_docs stack docs 1 NewPDFWriter []) (fun '(next, w, acc) =>
        let w := SetObject next (Some (pages_dict acc)) w in
        let w := SetObject (next + 1) (Some (catalog_dict next)) w in
        Ok (SetRoot (next + 1) w))
  end.
