(** Model of core/write/writer.go, core/write/xref_stream.go and
    core/write/object_stream.go.

    Object numbers, offsets and lengths are [Z] (Go int/int64 without
    overflow).  A Go map passed by reference (Dictionary) is an address into
    the writer's [dicts] store, because AddStreamObject mutates the caller's
    map and keeps a reference to it.  zlib compression is the argument
    [deflate].  The iteration order of the Go map [w.objects] is the argument
    [order].  Stream encryption is the optional argument [enc]
    (EncryptModel.v gives the concrete one).  PDFObject.IsFree is never set in
    /repo (grep) and PDFObject.Generation is always 0, so both are omitted. *)
From Verif Require Export Util.
Local Open Scope Z_scope.

(** writer.go:31 Dictionary values.  [VText] stands for the cases whose
    rendering is Go's own formatting (float64, and the [%v] default). *)
Inductive value :=
| VInt (z : Z)
| VText (t : bytes)
| VStr (s : bytes)
| VBytes (b : bytes)
| VArr (l : list value)
| VDict (d : list (bytes * value)).

Definition dict := list (bytes * value).

(** [fmt.Sprintf("%X", b)] *)
Definition hex_upper (v : N) : byte := if (v <? 10)%N then n2b (48 + v) else n2b (55 + v).
Definition hexX (b : bytes) : bytes :=
  flat_map (fun c => [hex_upper (b2n c / 16)%N; hex_upper (b2n c mod 16)%N]) b.

(** [strings.Join(items, " ")] *)
Fixpoint join (sep : bytes) (l : list bytes) : bytes :=
  match l with
  | [] => []
  | [x] => x
  | x :: l' => x ++ sep ++ join sep l'
  end.

(** writer.go:430-433: the key with its leading slash. *)
Definition slash_key (k : bytes) : bytes := if prefixb (bs "/") k then k else bs "/" ++ k.

(** writer.go:417-442, formatDictionary on already formatted values. *)
Definition format_pairs (l : list (bytes * bytes)) : bytes :=
  bs "<<" ++
  flat_map (fun kv => slash_key (fst kv) ++ bs " " ++ snd kv ++ bs " ") (sortK l) ++
  bs ">>".

(** writer.go:449-479, formatValue. *)
Fixpoint formatValue (v : value) : bytes :=
  match v with
  | VInt z => decZ z
  | VText t => t
  | VStr s => if prefixb (bs "/") s || suffixb (bs " R") s then s else bs "(" ++ s ++ bs ")"
  | VBytes b => bs "<" ++ hexX b ++ bs ">"
  | VArr l => bs "[" ++ join (bs " ") (map formatValue l) ++ bs "]"
  | VDict d => format_pairs (map (fun kv => (fst kv, formatValue (snd kv))) d)
  end.

(** writer.go:421-446 *)
Definition formatDictionary (d : dict) : bytes :=
  format_pairs (map (fun kv => (fst kv, formatValue (snd kv))) d).

(** writer.go:21-28 PDFObject; [None] is Go's nil. *)
Record obj := mkObj {
  oContent : option bytes;
  oStream : option bytes;
  oDict : option Z           (* address of the Dictionary *)
}.

(** writer.go:34-46.  References are kept as the object number they name
    (SetRoot etc. always store ["%d 0 R"]). *)
Record writer := mkWriter {
  objects : zmap obj;
  dicts : zmap dict;
  nextObjNum : Z;
  rootRef : option Z;
  infoRef : option Z;
  encryptRef : option Z;
  outlinesRef : option Z;
  fileID : bytes;
  pdfVersion : bytes;
  useXRefStream : bool;
  useObjectStream : bool
}.

(** writer.go:49-55 *)
Definition NewPDFWriter : writer :=
  mkWriter [] [] 1 None None None None [] (bs "1.7") false false.

Definition set_objects (w : writer) (m : zmap obj) : writer :=
  mkWriter m (dicts w) (nextObjNum w) (rootRef w) (infoRef w) (encryptRef w) (outlinesRef w)
    (fileID w) (pdfVersion w) (useXRefStream w) (useObjectStream w).
Definition set_dicts (w : writer) (h : zmap dict) : writer :=
  mkWriter (objects w) h (nextObjNum w) (rootRef w) (infoRef w) (encryptRef w) (outlinesRef w)
    (fileID w) (pdfVersion w) (useXRefStream w) (useObjectStream w).
Definition set_next (w : writer) (n : Z) : writer :=
  mkWriter (objects w) (dicts w) n (rootRef w) (infoRef w) (encryptRef w) (outlinesRef w)
    (fileID w) (pdfVersion w) (useXRefStream w) (useObjectStream w).

(** writer.go:164-166, 169-171 and 252-254 *)
Definition SetRoot (n : Z) (w : writer) : writer :=
  mkWriter (objects w) (dicts w) (nextObjNum w) (Some n) (infoRef w) (encryptRef w) (outlinesRef w)
    (fileID w) (pdfVersion w) (useXRefStream w) (useObjectStream w).
Definition SetInfo (n : Z) (w : writer) : writer :=
  mkWriter (objects w) (dicts w) (nextObjNum w) (rootRef w) (Some n) (encryptRef w) (outlinesRef w)
    (fileID w) (pdfVersion w) (useXRefStream w) (useObjectStream w).
Definition SetEncryptRef (n : Z) (w : writer) : writer :=
  mkWriter (objects w) (dicts w) (nextObjNum w) (rootRef w) (infoRef w) (Some n) (outlinesRef w)
    (fileID w) (pdfVersion w) (useXRefStream w) (useObjectStream w).
(** bookmarks.go:36, the assignment [w.outlinesRef = ...]. *)
Definition set_outlines (n : Z) (w : writer) : writer :=
  mkWriter (objects w) (dicts w) (nextObjNum w) (rootRef w) (infoRef w) (encryptRef w) (Some n)
    (fileID w) (pdfVersion w) (useXRefStream w) (useObjectStream w).
(** writer.go:58-60 *)
Definition SetVersion (v : bytes) (w : writer) : writer :=
  mkWriter (objects w) (dicts w) (nextObjNum w) (rootRef w) (infoRef w) (encryptRef w) (outlinesRef w)
    (fileID w) v (useXRefStream w) (useObjectStream w).
(** writer.go:70-83 *)
Definition UseXRefStream (b : bool) (w : writer) : writer :=
  mkWriter (objects w) (dicts w) (nextObjNum w) (rootRef w) (infoRef w) (encryptRef w) (outlinesRef w)
    (fileID w) (pdfVersion w) b (useObjectStream w).
Definition UseObjectStream (b : bool) (w : writer) : writer :=
  mkWriter (objects w) (dicts w) (nextObjNum w) (rootRef w) (infoRef w) (encryptRef w) (outlinesRef w)
    (fileID w) (pdfVersion w) (if b then true else useXRefStream w) b.

(** writer.go:86-97 *)
Definition AddObject (content : option bytes) (w : writer) : Z * writer :=
  let n := nextObjNum w in
  (n, set_next (set_objects w (mset n (mkObj content None None) (objects w))) (n + 1)).

(** writer.go:104-113 and 140-149: the stream bytes and the dictionary updates. *)
Definition stream_data (deflate : bytes -> bytes) (data : option bytes) (compress : bool) : option bytes * bool :=
  match data with
  | Some (b :: r) => if compress then (Some (deflate (b :: r)), true) else (data, false)
  | _ => (data, false)
  end.
Definition blen (o : option bytes) : Z := match o with Some b => Z.of_nat (length b) | None => 0 end.
Definition stream_dict (d : dict) (sd : option bytes) (compressed : bool) : dict :=
  kset (bs "Length") (VInt (blen sd))
    (if compressed then kset (bs "Filter") (VStr (bs "/FlateDecode")) d else d).

(** writer.go:100-124.  [a] is the address of the caller's map; a nil map
    (no such address) makes the assignment [dict["Length"] = ...] panic. *)
Definition AddStreamObject (deflate : bytes -> bytes) (a : Z) (data : option bytes) (compress : bool)
  (w : writer) : result (Z * writer) :=
  match mget a (dicts w) with
  | None => Panic
  | Some d =>
      let n := nextObjNum w in
      let (sd, c) := stream_data deflate data compress in
      Ok (n, set_next (set_dicts (set_objects w (mset n (mkObj None sd (Some a)) (objects w)))
                          (mset a (stream_dict d sd c) (dicts w))) (n + 1))
  end.

(** writer.go:127-136 *)
Definition SetObject (n : Z) (content : option bytes) (w : writer) : writer :=
  let w' := set_objects w (mset n (mkObj content None None) (objects w)) in
  if nextObjNum w <=? n then set_next w' (n + 1) else w'.

(** writer.go:139-165 *)
Definition SetStreamObject (deflate : bytes -> bytes) (n a : Z) (data : option bytes) (compress : bool)
  (w : writer) : result writer :=
  match mget a (dicts w) with
  | None => Panic
  | Some d =>
      let (sd, c) := stream_data deflate data compress in
      let w' := set_dicts (set_objects w (mset n (mkObj None sd (Some a)) (objects w)))
                  (mset a (stream_dict d sd c) (dicts w)) in
      Ok (if nextObjNum w <=? n then set_next w' (n + 1) else w')
  end.

(** writer.go:558-560 *)
Definition NextObjectNumber (w : writer) : Z := nextObjNum w.

(** writer.go:560-572 *)
Definition WGetObject (n : Z) (w : writer) : result bytes :=
  match mget n (objects w) with
  | None => Err
  | Some o => match oContent o with
              | Some c => Ok c
              | None => match oStream o with Some s => Ok s | None => Err end
              end
  end.

Definition ref (n : Z) : bytes := decZ n ++ bs " 0 R".

(** writer.go:234-249 extractDictValueFromString *)
Definition extractDictValueFromString (s key : bytes) : bytes :=
  match index (key ++ bs " ") s with
  | None => []
  | Some i =>
      take_while (fun b => negb (beqb b " ") && negb (beqb b ">") && negb (beqb b "010"))
        (skipn (i + length key + 1) s)
  end.

(** writer.go:178-226 updateCatalogWithOutlines.  The new Dictionary of the
    Content case gets a fresh address. *)
Definition fresh (h : zmap dict) : Z := fold_right (fun kv m => Z.max (fst kv + 1) m) 0 h.
Definition updateCatalogWithOutlines (w : writer) : writer :=
  match outlinesRef w, rootRef w with
  | Some out, Some root =>
      if root =? 0 then w
      else match mget root (objects w) with
      | None => w
      | Some o =>
          match oDict o with
          | Some a =>
              match mget a (dicts w) with
              | None => w
              | Some d =>
                  let d' := kset (bs "/Outlines") (VStr (ref out)) d in
                  set_dicts
                    (set_objects w (mset root (mkObj (Some (formatDictionary d')) (oStream o) (Some a)) (objects w)))
                    (mset a d' (dicts w))
              end
          | None =>
              let s := match oContent o with Some c => c | None => [] end in
              if contains (bs "/Type") s && contains (bs "/Pages") s then
                let d' := kset (bs "/Outlines") (VStr (ref out))
                            [(bs "/Type", VStr (bs "/Catalog"));
                             (bs "/Pages", VStr (extractDictValueFromString s (bs "/Pages")))] in
                let a := fresh (dicts w) in
                set_dicts
                  (set_objects w (mset root (mkObj (Some (formatDictionary d')) (oStream o) (Some a)) (objects w)))
                  (mset a d' (dicts w))
              else if contains (bs "/Outlines") s then w
              else match last_index (bs ">>") s with
                   | Some (S i) =>
                       let s' := firstn (S i) s ++ bs "/Outlines " ++ ref out ++ bs " " ++ skipn (S i) s in
                       set_objects w (mset root (mkObj (Some s') (oStream o) None) (objects w))
                   | _ => w
                   end
          end
      end
  | _, _ => w
  end.

(* ---------------------------------------------------------------- *)
(** object_stream.go *)

(** object_stream.go:81-90: the header built from (number, offset) pairs;
    TrimSpace removes the final space. *)
Definition objstm_header (l : list (Z * Z)) : bytes :=
  join (bs " ") (map (fun p => decZ (fst p) ++ bs " " ++ decZ (snd p)) l).

(** object_stream.go:70-78: offsets of consecutive data pieces, each followed
    by one separator byte. *)
Fixpoint objstm_offsets (start : Z) (l : list (Z * bytes)) : list (Z * Z) :=
  match l with
  | [] => []
  | (n, d) :: l' => (n, start) :: objstm_offsets (start + Z.of_nat (length d) + 1) l'
  end.

(** object_stream.go:58-132: header with the corrected offsets, and the
    uncompressed stream data. *)
Definition objstm_data (l : list (Z * bytes)) : bytes * bytes :=
  let h0 := objstm_header (objstm_offsets 0 l) in
  let start := Z.of_nat (length h0) + 1 in
  let h := objstm_header (objstm_offsets start l) in
  (h, h ++ bs " " ++ join (bs " ") (map snd l)).

(** object_stream.go:20-165.  [order] is the iteration order of [w.objects]. *)
Definition eligible (w : writer) (order : list Z -> list Z) : list (Z * bytes) :=
  flat_map (fun n => match mget n (objects w) with
                     | Some (mkObj (Some c) None _) => [(n, c)]
                     | _ => []
                     end) (order (mkeys (objects w))).

Fixpoint index_from (i : Z) (s : Z) (l : list (Z * bytes)) : zmap (Z * Z) :=
  match l with
  | [] => []
  | (n, _) :: l' => (n, (s, i)) :: index_from (i + 1) s l'
  end.

Definition createObjectStreams (deflate : bytes -> bytes) (order : list Z -> list Z) (w : writer)
  : option (zmap (Z * Z)) * writer :=
  if negb (useObjectStream w) then (None, w)
  else match eligible w order with
  | [] => (None, w)
  | l =>
      let sn := nextObjNum w in
      let (h, data) := objstm_data l in
      let comp := deflate data in
      let d := [(bs "/Type", VStr (bs "/ObjStm")); (bs "/N", VInt (Z.of_nat (length l)));
                (bs "/First", VInt (Z.of_nat (length h))); (bs "/Filter", VStr (bs "/FlateDecode"));
                (bs "/Length", VInt (Z.of_nat (length comp)))] in
      let a := fresh (dicts w) in
      (Some (index_from 0 sn l),
       set_next (set_dicts (set_objects w (mset sn (mkObj None (Some comp) (Some a)) (objects w)))
                   (mset a d (dicts w))) (sn + 1))
  end.

(* ---------------------------------------------------------------- *)
(** xref_stream.go *)

(** xref_stream.go:163-173 calculateBytesNeeded *)
Fixpoint bytes_needed (fuel : nat) (n : N) : nat :=
  match fuel with
  | O => O
  | S f => if (n =? 0)%N then O else S (bytes_needed f (n / 256)%N)
  end.
Definition calculateBytesNeeded (n : N) : nat :=
  if (n =? 0)%N then 1%nat else bytes_needed (N.size_nat n) n.

(** xref_stream.go:176-181 writeBigEndian: the low [width] bytes, most
    significant first. *)
Fixpoint bigEndian (width : nat) (v : N) : bytes :=
  match width with
  | O => []
  | S k => bigEndian k (v / 256)%N ++ [n2b (v mod 256)%N]
  end.

Definition maxZ (l : list Z) : Z := fold_right Z.max 0 l.

(** One entry: type, field 2 in w2 bytes, field 3 in w3 bytes. *)
Definition xref_entry (w2 w3 : nat) (t f2 f3 : N) : bytes :=
  n2b t :: bigEndian w2 f2 ++ bigEndian w3 f3.

(** xref_stream.go:73-108: entries 1 .. nextObjNum-1. *)
Definition xs_entry (w2 w3 : nat) (positions : zmap Z) (sm : zmap (Z * Z)) (i : Z) : bytes :=
  match mget i sm with
  | Some (s, k) => xref_entry w2 w3 2 (Z.to_N s) (Z.to_N k)
  | None => match mget i positions with
            | Some p => xref_entry w2 w3 1 (Z.to_N p) 0
            | None => xref_entry w2 w3 0 0 0
            end
  end.

(** The integers 1 .. n-1. *)
Definition range1 (n : Z) : list Z := map Z.of_nat (seq 1 (Z.to_nat (n - 1))).

(** xref_stream.go:22-64: field widths. *)
Definition xs_widths (buflen : Z) (positions : zmap Z) (sm : zmap (Z * Z)) : nat * nat :=
  let maxOffset := Z.max (maxZ (map snd positions)) (buflen + 200) in
  let maxStream := maxZ (map (fun p => fst (snd p)) sm) in
  let maxIndex := maxZ (map (fun p => snd (snd p)) sm) in
  ((if maxOffset <? maxStream then calculateBytesNeeded (Z.to_N maxStream)
    else calculateBytesNeeded (Z.to_N maxOffset)),
   calculateBytesNeeded (Z.to_N maxIndex)).

(** xref_stream.go:66-123: the uncompressed entry table. *)
Definition xs_data (next buflen : Z) (positions : zmap Z) (sm : zmap (Z * Z)) : bytes :=
  let (w2, w3) := xs_widths buflen positions sm in
  xref_entry w2 w3 0 0 0 ++
  flat_map (xs_entry w2 w3 positions sm) (range1 next) ++
  xref_entry w2 w3 1 (Z.to_N buflen) 0.

(** xref_stream.go:12-162 writeXRefStream: the bytes appended to the buffer
    (whose length is [buflen], which is also the returned position). *)
Definition writeXRefStream (deflate : bytes -> bytes) (next buflen : Z) (positions : zmap Z)
  (sm : zmap (Z * Z)) : bytes :=
  let (w2, w3) := xs_widths buflen positions sm in
  let comp := deflate (xs_data next buflen positions sm) in
  decZ next ++ bs " 0 obj" ++ [x0a] ++
  formatDictionary
    [(bs "/Type", VStr (bs "/XRef")); (bs "/Size", VInt (next + 1));
     (bs "/W", VArr [VInt 1; VInt (Z.of_nat w2); VInt (Z.of_nat w3)]);
     (bs "/Filter", VStr (bs "/FlateDecode")); (bs "/Length", VInt (Z.of_nat (length comp)))] ++
  [x0a] ++ bs "stream" ++ [x0a] ++ comp ++ [x0a] ++ bs "endstream" ++ [x0a] ++ bs "endobj" ++ [x0a].

(* ---------------------------------------------------------------- *)
(** Write *)

Definition nl : bytes := [x0a].

(** writer.go:263-265: header and binary marker line. *)
Definition pdf_header (version : bytes) : bytes :=
  bs "%PDF-" ++ version ++ nl ++ [x25; xe2; xe3; xcf; xd3; x0a].

(** writer.go:305-333: the text between the object header and "\nendobj\n",
    and the dictionary store after it (encryption rewrites Length in place). *)
Definition obj_body (enc : option (bytes -> Z -> Z -> result bytes)) (h : zmap dict) (n : Z) (o : obj)
  : bytes * zmap dict :=
  match oStream o with
  | Some s =>
      let d := match oDict o with Some a => match mget a h with Some d => d | None => [] end | None => [] end in
      let stream_text d s := formatDictionary d ++ nl ++ bs "stream" ++ nl ++ s ++ nl ++ bs "endstream" in
      match enc with
      | None => (stream_text d s, h)
      | Some e =>
          match e s n 0 with
          | Ok s' =>
              let d' := kset (bs "Length") (VInt (Z.of_nat (length s'))) d in
              (stream_text d' s', match oDict o with Some a => mset a d' h | None => h end)
          | _ => (stream_text d s, h)
          end
      end
  | None => match oContent o with Some c => (c, h) | None => ([], h) end
  end.

Definition obj_text (n : Z) (body : bytes) : bytes :=
  decZ n ++ bs " 0 obj" ++ nl ++ body ++ nl ++ bs "endobj" ++ nl.

(** writer.go:281-336: the object loop.  [pos] is [buf.Len()]; objects that
    are in an object stream are skipped.  Returns the bytes appended and the
    [positions] map. *)
Fixpoint write_objs (enc : option (bytes -> Z -> Z -> result bytes)) (objs : zmap obj) (sm : zmap (Z * Z))
  (h : zmap dict) (pos : Z) (nums : list Z) : bytes * zmap Z * zmap dict :=
  match nums with
  | [] => ([], [], h)
  | n :: nums' =>
      match mget n objs with
      | None => write_objs enc objs sm h pos nums'      (* not reachable: nums are keys *)
      | Some o =>
          if mem n sm then write_objs enc objs sm h pos nums'
          else
            let (body, h') := obj_body enc h n o in
            let t := obj_text n body in
            match write_objs enc objs sm h' (pos + Z.of_nat (length t)) nums' with
            | (rest, positions, h'') => (t ++ rest, (n, pos) :: positions, h'')
            end
      end
  end.

(** writer.go:378-391: one 20-byte table entry. *)
Definition table_entry (positions : zmap Z) (i : Z) : bytes :=
  match mget i positions with
  | Some p => dec_pad 10 (Z.to_N p) ++ bs " 00000 n " ++ nl
  | None => bs "0000000000 00001 f " ++ nl
  end.

(** writer.go:370-391: the xref table. *)
Definition xref_table (next : Z) (positions : zmap Z) : bytes :=
  bs "xref" ++ nl ++ bs "0 " ++ decZ next ++ nl ++
  bs "0000000000 65535 f " ++ nl ++
  flat_map (table_entry positions) (range1 next).

(** writer.go:348-368 and 393-410: the trailer.  (The call of
    updateCatalogWithOutlines in the middle changes nothing that is still
    to be written.) *)
Definition trailer_text (w : writer) (next : Z) : bytes :=
  bs "trailer" ++ nl ++ bs "<<" ++ nl ++
  bs "/Size " ++ decZ next ++ nl ++
  match rootRef w with Some r => bs "/Root " ++ ref r ++ nl | None => [] end ++
  match infoRef w with Some r => bs "/Info " ++ ref r ++ nl | None => [] end ++
  match encryptRef w with Some r => bs "/Encrypt " ++ ref r ++ nl | None => [] end ++
  match fileID w with
  | [] => []
  | id => bs "/ID [<" ++ hexX id ++ bs "><" ++ hexX id ++ bs ">]" ++ nl
  end ++
  bs ">>" ++ nl.

Definition startxref_text (p : Z) : bytes :=
  bs "startxref" ++ nl ++ decZ p ++ nl ++ bs "%%EOF" ++ nl.

(** writer.go:257-418 Write: the bytes produced and the writer afterwards. *)
Definition Write (deflate : bytes -> bytes) (order : list Z -> list Z)
  (enc : option (bytes -> Z -> Z -> result bytes)) (w0 : writer) : bytes * writer :=
  let w1 := updateCatalogWithOutlines w0 in
  let (smo, w) := createObjectStreams deflate order w1 in
  let sm := match smo with Some m => m | None => [] end in
  let head := pdf_header (pdfVersion w) in
  let nums := sortZ (order (mkeys (objects w))) in
  match write_objs enc (objects w) sm (dicts w) (Z.of_nat (length head)) nums with
  | (body, positions, h) =>
      let buf := head ++ body in
      let xpos := Z.of_nat (length buf) in
      let w' := set_dicts w h in
      if useXRefStream w then
        let x := writeXRefStream deflate (nextObjNum w) xpos positions sm in
        let w'' := set_next w' (nextObjNum w + 1) in
        (buf ++ x ++ trailer_text w (nextObjNum w + 1) ++ startxref_text xpos, w'')
      else
        (buf ++ xref_table (nextObjNum w) positions ++ trailer_text w (nextObjNum w) ++ startxref_text xpos, w')
  end.
