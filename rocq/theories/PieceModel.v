(** Model of the pieces of a byte-perfect document: the header, the
    cross-reference and trailer bytes, the bytes of a revision
    (core/parse/document_parser.go, core/parse/document.go). *)
From Verif Require Import WriterModel ParseModel.
Local Open Scope Z_scope.

(** document.go:13-18 *)
Record header := mkHeader { hVersion : bytes; hMajor : Z; hMinor : Z; hRaw : bytes }.

(** strconv.Atoi, its error ignored.  (The version has at most 15 bytes, so
    there is no overflow.) *)
Definition atoi_ignore (s : bytes) : Z := match atoi s with Some z => z | None => 0 end.

(** document_parser.go:53-109.  Where the raw bytes end is [header_len] of ParseModel.v. *)
Definition ParsePDFHeader (f : bytes) : result header :=
  if (flen f <? 8) || negb (prefixb (bs "%PDF-") f) then Err
  else
    let v := take_while (fun b => negb (is_eol b)) (sub 5 20 f) in
    let parts := split_on "."%byte v in
    Ok (mkHeader v
          (match parts with a :: _ => atoi_ignore a | [] => 0 end)
          (match parts with _ :: b :: _ => atoi_ignore b | _ => 0 end)
          (firstn (header_len f) f)).

(** document_parser.go:212-224 and 293-303: RawBytes of a cross-reference
    section; document.go:235-240 returns them (for a stream they are the
    bytes of its object). *)
Definition XRefRaw (f : bytes) (x : Z) : result bytes :=
  if (x <? 0) || (flen f <=? x) then Err
  else
    let section := from x f in
    if prefixb (bs "xref") section then
      Ok (firstn (match index (bs "trailer") section with Some t => t | None => Nat.min (N.to_nat 10000) (length section) end) section)
    else
      match value_of (find m_anyobj (take 100 section)) with
      | None => Err
      | Some (n, g) => rmap roBytes (ParseRawObject f (atoi_clip n) (atoi_clip g) x)
      end.

(** document.go:88-100.  (ID is never set.) *)
Record trailerdata := mkTD { tdOffset : Z; tdRaw : bytes; tdSize : Z; tdRoot : bytes; tdEncrypt : bytes; tdInfo : bytes; tdPrev : Z }.

(** document_parser.go:346-358, 399-415 *)
Definition trailer_values (off : Z) (raw s : bytes) : trailerdata :=
  let n k := match value_of (find (m_key (bs k)) s) with Some d => atoi_clip d | None => 0 end in
  let r k := def [] (value_of (find (m_ref (bs k)) s)) in
  mkTD off raw (n "/Size"%string) (r "/Root"%string) (r "/Encrypt"%string) (r "/Info"%string) (n "/Prev"%string).

(** document_parser.go:331-418; an offset outside the file panics. *)
Definition ParseTrailerDataRaw (f : bytes) (x : Z) : result trailerdata :=
  if (x <? 0) || (flen f <? x) then Panic
  else
    let section := from x f in
    if negb (prefixb (bs "xref") section) then
      let raw := match index (bs "<<") section with
                 | None => []
                 | Some ds => firstn (2 + dict_scan 1 (skipn (ds + 2) section)) (skipn ds section)
                 end in
      Ok (trailer_values 0 raw (take 5000 section))
    else
      match index (bs "trailer") section with
      | None => Err
      | Some t =>
          let rest := skipn t section in
          let raw := match index (bs "startxref") rest with Some k => firstn k rest | None => rest end in
          Ok (trailer_values (x + Z.of_nat t) raw raw)
      end.

(** document.go:249-278.  [order] is the order in which Go visits the map of
    objects; [Ok None] is nil. *)
Definition RevisionBytes (order : list Z -> list Z) (f : bytes) (r : revision) : result (option bytes) :=
  match f with
  | [] => Ok None
  | _ =>
      let start := fold_left (fun s n => match mget n (rvObjects r) with
                                         | Some o => if roOffset o <? s then roOffset o else s
                                         | None => s
                                         end) (order (mkeys (rvObjects r))) (rvStartXRef r) in
      let stop := if (rvEnd r =? 0)%nat then skip_eol f (rvEOF r + 5) else rvEnd r in
      if (flen f <=? start) || (length f <? stop)%nat then Ok None
      else if (start <? 0) || (Z.of_nat stop <? start) then Panic
      else Ok (Some (sub (Z.to_nat start) stop f))
  end.
