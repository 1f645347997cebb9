(** Model of content/extract/pages.go and of what it uses: dict_helpers.go,
    metadata.go:45-55, resources.go:345-616 (font decoders).

    Resources and annotations of a page (the fields Resources and Annotations
    of types.Page) are modelled in MarksModel.  Recursion over the page tree is bounded by
    [stack], which stands for the depth the goroutine stack allows: exceeding it
    kills the process ([Panic]). *)
From Verif Require Export ExtractModel ParseModel.
Local Open Scope Z_scope.

(** KEY\s*\[([^\]]+)\] *)
Definition m_bracketed (key s : bytes) : option bytes :=
  do r <- lit key s; do r <- lit (bs "[") (ws0 r);
  match take_while (fun b => negb (beqb b "]")) r with
  | [] => None
  | t => do _ <- lit (bs "]") (drop_while (fun b => negb (beqb b "]")) r); Some t
  end.
(** pages.go:313-338; [""] when there is no value *)
Definition x_value (d key : bytes) : bytes :=
  match find (m_spaced key) d with
  | Some (_, (t, _)) => t
  | None =>
      match find (m_named key) d with
      | Some (_, (t, _)) => bs "/" ++ t
      | None =>
          match find (m_bracketed key) d with
          | Some (_, t) => bs "[" ++ t ++ bs "]"
          | None => []
          end
      end
  end.
(** dict_helpers.go:7-51: the text between << and the >> that closes it.  The
    search for fonts in resources.go:358-386 is the same. *)
Fixpoint inline_end (depth : nat) (s : bytes) : option nat :=
  match s with
  | a :: s1 =>
      match s1 with
      | b :: s2 =>
          if beqb a ">" && beqb b ">" then
            match depth with
            | S (S _ as d) => option_map (fun k => S (S k)) (inline_end d s2)
            | _ => Some O
            end
          else if beqb a "<" && beqb b "<" then option_map (fun k => S (S k)) (inline_end (S depth) s2)
          else option_map S (inline_end depth s1)
      | [] => None
      end
  | [] => None
  end.
Definition is_gap (b : byte) : bool := beqb b " " || beqb b x0a || beqb b x0d.
Definition extractInlineDict (d key : bytes) : bytes :=
  match index key d with
  | None => []
  | Some i =>
      match lit (bs "<<") (drop_while is_gap (skipn (i + length key) d)) with
      | None => []
      | Some r => match inline_end 1 r with Some k => firstn k r | None => [] end
      end
  end.

(** resources.go:517-547 *)
Definition extractDifferencesArray (s : bytes) : bytes :=
  match index (bs "/Differences") s with
  | None => []
  | Some i =>
      let r := skipn i s in
      match index (bs "[") r with
      | None => []
      | Some j => let a := skipn j r in match array_end 0 a with Some e => firstn e a | None => [] end
      end
  end.
(** resources.go:602-616 *)
Definition standard14 : list bytes :=
  map bs ["Courier"; "Courier-Bold"; "Courier-BoldOblique"; "Courier-Oblique";
          "Helvetica"; "Helvetica-Bold"; "Helvetica-BoldOblique"; "Helvetica-Oblique";
          "Times-Roman"; "Times-Bold"; "Times-BoldItalic"; "Times-Italic"; "Symbol"; "ZapfDingbats"]%string.
Definition isStandard14Font (f : bytes) : bool := existsb (bytes_eqb (trim_prefix (bs "/") f)) standard14.
(** /Font\s*<<([^>]* )>>, then the search for a balanced dictionary *)
Definition m_font (s : bytes) : option bytes :=
  do r <- lit (bs "/Font") s; do r <- lit (bs "<<") (ws0 r);
  do _ <- lit (bs ">>") (drop_while (fun b => negb (beqb b ">")) r); Some (take_while (fun b => negb (beqb b ">")) r).
Definition font_entries_text (r : bytes) : bytes :=
  match find m_font r with Some (_, t) => t | None => extractInlineDict r (bs "/Font") end.
(** /(\w+)\s+(\d+)\s+\d+\s+R *)
Definition m_font_entry (s : bytes) : option ((bytes * bytes) * bytes) :=
  do r <- lit (bs "/") s;
  match take_while is_word r with
  | [] => None
  | n => do r <- ws1 (drop_while is_word r); do (d, r) <- digits1 r; do r <- ws1 r; do (_, r) <- digits1 r; do r <- ws1 r;
         do r <- lit (bs "R") r; Some ((n, d), r)
  end.

Section pages.
(** zlib decompression, strconv.ParseFloat and PDF.GetObject *)
Context (inflate : bytes -> option bytes) (parse_float : bytes -> option float) (get : Z -> result bytes).

(** an object, or nothing if it cannot be read *)
Definition try_get (n : Z) : result (option bytes) :=
  match get n with Ok t => Ok (Some t) | Err => Ok None | Panic => Panic end.

(** pages.go:245-287 and resources.go:561-599: the data of a stream object *)
Definition stream_start (s : bytes) : option nat :=
  do i <- index (bs "stream") s;
  let r := skipn (i + 6) s in
  let k := match r with b :: _ => if beqb b x0d || beqb b x0a then 1%nat else 0%nat | [] => 0%nat end in
  let k := match skipn k r with b :: _ => if beqb b x0a then S k else k | [] => k end in
  Some (i + 6 + k)%nat.
Definition stream_data (s : bytes) : option bytes :=
  do k <- stream_start s;
  do e <- index (bs "endstream") (skipn k s);
  let data := firstn e (skipn k s) in
  Some (if contains (bs "/FlateDecode") s then match inflate data with Some d => d | None => data end else data).

(** resources.go:549-599 *)
Definition extractStreamData (n : Z) : result bytes :=
  rmap (fun o => match o with Some t => match stream_data t with Some d => d | None => [] end | None => [] end) (try_get n).

(** resources.go:415-514; reading the descendant font has no effect *)
Definition parse_ref (r : bytes) : option Z := match parseObjectRef r with Ok n => Some n | _ => None end.
Definition base_encoding (font : bytes) (d : decoder) : result decoder :=
  match x_value font (bs "/Encoding") with
  | [] =>
      Ok (if isStandard14Font (x_value font (bs "/BaseFont")) || bytes_eqb (x_value font (bs "/Subtype")) (bs "/Type1")
             || bytes_eqb (x_value font (bs "/Subtype")) (bs "/TrueType")
          then SetBaseEncoding (bs "StandardEncoding") d else d)
  | enc =>
      if prefixb (bs "/") enc then Ok (SetBaseEncoding enc d)
      else match parse_ref enc with
           | None => Ok d
           | Some n => rmap (fun o => match o with
                | None => d
                | Some t =>
                    let d := match x_value t (bs "/BaseEncoding") with [] => d | b => SetBaseEncoding b d end in
                    match extractDifferencesArray t with [] => d | a => ParseDifferencesArray a d end
                end) (try_get n)
           end
  end.
Definition extractFontDecoder (n : Z) : result (option decoder) :=
  rbind (try_get n) (fun o =>
  match o with
  | None => Ok None
  | Some font =>
      rbind (base_encoding font NewFontDecoder) (fun d =>
      let d := match extractDifferencesArray font with [] => d | a => ParseDifferencesArray a d end in
      rmap Some
        match x_value font (bs "/ToUnicode") with
        | [] => Ok d
        | r => match parse_ref r with
               | None => Ok d
               | Some m => rmap (fun t => match t with [] => d | _ => ParseToUnicodeCMap t d end) (extractStreamData m)
               end
        end)
  end).
(** resources.go:345-410; a number too large for an int is 0 *)
Fixpoint font_decoders (l : list (bytes * bytes)) (acc : list (bytes * decoder)) : result (list (bytes * decoder)) :=
  match l with
  | [] => Ok acc
  | (n, d) :: l' =>
      rbind (extractFontDecoder (match atoi d with Some z => z | None => 0 end)) (fun o =>
      font_decoders l' (match o with Some x => kset (bs "/" ++ n) x acc | None => acc end))
  end.
Definition extractFontDecoders (r : bytes) : result (list (bytes * decoder)) :=
  font_decoders (matches m_font_entry (font_entries_text r) 0) [].

(** types.Page *)
Record xpage := mkXP {
  xpNumber : Z; xpMedia : option (list float); xpWidth : float; xpHeight : float; xpCrop : option (list float); xpRotation : Z;
  xpTexts : list text_element; xpShapes : list graphic; xpImages : list image_ref }.

(** pages.go:340-358; the white space after the bracket is skipped by Fields *)
Definition extractArrayValue (d key : bytes) : list float :=
  match find (m_bracketed key) d with
  | Some (_, t) => flat_map (fun p => match parse_float p with Some x => [x] | None => [] end) (fields is_space t)
  | None => []
  end.
Definition rectangle (l : list float) : option (list float) := match l with a :: b :: c :: d :: _ => Some [a; b; c; d] | _ => None end.

(** pages.go:188-214 *)
Definition page_resources (page : bytes) : result bytes :=
  match x_value page (bs "/Resources") with
  | [] => Ok (extractInlineDict page (bs "/Resources"))
  | r => match parse_ref r with
         | None => Ok []
         | Some n => rmap (fun o => match o with Some t => t | None => [] end) (try_get n)
         end
  end.
(** pages.go:221-296 *)
Fixpoint read_contents (decs : option (list (bytes * decoder))) (refs : list bytes)
  : result (list text_element * list graphic * list image_ref) :=
  match refs with
  | [] => Ok ([], [], [])
  | r :: refs' =>
      rbind match parse_ref r with
            | None => Ok ([], [], [])
            | Some n => rmap (fun o => match o with
                | None => ([], [], [])
                | Some t => parseContentStream parse_float decs (match stream_data t with Some d => d | None => t end)
                end) (try_get n)
            end (fun a => rmap (fun b =>
      (fst (fst a) ++ fst (fst b), snd (fst a) ++ snd (fst b), snd a ++ snd b)) (read_contents decs refs'))
  end.
Definition content_refs (page : bytes) : list bytes :=
  match x_value page (bs "/Contents") with
  | [] => []
  | c => match parseObjectRefArray c with [] => [c] | l => l end
  end.
(** pages.go:153-310 *)
Definition extractPage (page : bytes) : result xpage :=
  let media := rectangle (extractArrayValue page (bs "/MediaBox")) in
  rbind (page_resources page) (fun res =>
  rbind (match res with [] => Ok None | _ => rmap Some (extractFontDecoders res) end) (fun decs =>
  rmap (fun c =>
    mkXP 0 media
      (match media with Some [a; _; c; _] => fsub c a | _ => fzero end)
      (match media with Some [_; b; _; d] => fsub d b | _ => fzero end)
      (rectangle (extractArrayValue page (bs "/CropBox")))
      (match x_value page (bs "/Rotate") with [] => 0 | r => match atoi r with Some z => z | None => 0 end end)
      (fst (fst c)) (snd (fst c)) (snd c))
    (read_contents decs (content_refs page)))).

(** pages.go:85-96 *)
Definition is_pages (t : bytes) : bool := contains (bs "/Type/Pages") t || contains (bs "/Type /Pages") t.
Definition is_page (t : bytes) : bool := negb (is_pages t) && (contains (bs "/Type/Page") t || contains (bs "/Type /Page") t).
(** pages.go:124-140: kids that cannot be followed are skipped *)
Fixpoint kid_pages (go : Z -> result (list xpage)) (refs : list bytes) : result (list xpage) :=
  match refs with
  | [] => Ok []
  | r :: refs' =>
      match parse_ref r with
      | None => kid_pages go refs'
      | Some n =>
          match go n with
          | Panic => Panic
          | Err => kid_pages go refs'
          | Ok l => rmap (app l) (kid_pages go refs')
          end
      end
  end.
Definition kids_of (t : bytes) : list bytes :=
  match x_value t (bs "/Kids") with
  | [] => []
  | k => parseObjectRefArray (if prefixb (bs "[") k then k else bs "[" ++ k ++ bs "]")
  end.
(** pages.go:70-150 *)
Fixpoint extractPagesFromTree (stack : nat) (n : Z) : result (list xpage) :=
  match stack with
  | O => Panic
  | S k =>
      rbind (get n) (fun t =>
        if is_page t then rmap (fun p => [p]) (extractPage t)
        else kid_pages (extractPagesFromTree k) (kids_of t))
  end.
Definition number (i : nat) (p : xpage) : xpage :=
  mkXP (Z.of_nat i + 1) (xpMedia p) (xpWidth p) (xpHeight p) (xpCrop p) (xpRotation p) (xpTexts p) (xpShapes p) (xpImages p).
Fixpoint numbered (i : nat) (l : list xpage) : list xpage :=
  match l with [] => [] | p :: l' => number i p :: numbered (S i) l' end.
(** pages.go:14-62 *)
Definition XExtractPages (stack : nat) (root : bytes) : result (list xpage) :=
  match root with
  | [] => Err
  | _ =>
      rbind (parseObjectRef root) (fun n =>
      rbind (get n) (fun cat =>
      match x_value cat (bs "/Pages") with
      | [] => Err
      | r => rbind (parseObjectRef r) (fun m => rmap (numbered 0) (extractPagesFromTree stack m))
      end))
  end.
End pages.
