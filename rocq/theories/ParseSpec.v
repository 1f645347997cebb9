(** Small specifications used in the parser properties. *)
From Verif Require Import WriterModel ParseModel.
Local Open Scope Z_scope.

(** The positions at which [p] stands in [f], in increasing order. *)
Definition positions_of (p f : bytes) : list nat :=
  filter (fun i => prefixb p (skipn i f)) (seq 0 (length f)).

Definition starts_with_eol (s : bytes) : bool :=
  match s with b :: _ => beqb b x0d || beqb b x0a | [] => false end.

(** [r] is the part of [f] that ends after the end-of-file marker at [i] and
    the line ends that follow it. *)
Definition ends_after_marker (f : bytes) (i : nat) (r : bytes) : Prop :=
  exists eol rest,
    f = firstn i f ++ bs "%%EOF" ++ eol ++ rest /\
    r = firstn i f ++ bs "%%EOF" ++ eol /\
    forallb (fun b => beqb b x0d || beqb b x0a) eol = true /\
    starts_with_eol rest = false.

(** Each offset of [l] is the /Prev entry of the one before it. *)
Fixpoint prev_path (f : bytes) (x : Z) (l : list Z) : Prop :=
  match l with
  | [] => True
  | y :: l' => findPrevOffset f x = Ok y /\ prev_path f y l'
  end.

(** The newest map (the last of the list) that binds [n]. *)
Fixpoint newest_binding {A} (n : Z) (newest_first : list (zmap A)) : option A :=
  match newest_first with
  | [] => None
  | m :: ms => match mget n m with Some v => Some v | None => newest_binding n ms end
  end.

(** [inflate] for the examples: the data is stored uncompressed. *)
Definition stored (b : bytes) : option bytes := Some b.
Definition no_crypt (f : bytes) : result (option decryptor) := Ok None.

(** The cross-reference sections at the offsets [xs] (those that parse). *)
Definition sections_at (inflate : bytes -> option bytes) (f : bytes) (xs : list Z) : list xsection :=
  flat_map (fun x => match parsexrefSection inflate f x with Ok s => [s] | _ => [] end) xs.


(** PNG row filters (PNG specification, section 9, one byte per pixel): what an
    encoder writes for a row, given the unfiltered previous row. *)
Inductive png_tag := TNone | TSub | TUp | TAverage | TPaeth.
Definition tag_value (t : png_tag) : N :=
  match t with TNone => 0 | TSub => 1 | TUp => 2 | TAverage => 3 | TPaeth => 4 end.
Definition minus256 (a b : N) : byte := n2b (a + 256 - b).
Fixpoint png_sub (left : byte) (row : bytes) : bytes :=
  match row with [] => [] | b :: r => minus256 (b2n b) (b2n left) :: png_sub b r end.
Fixpoint png_up (prev row : bytes) : bytes :=
  match row, prev with
  | b :: r, p :: ps => minus256 (b2n b) (b2n p) :: png_up ps r
  | _, _ => []
  end.
Fixpoint png_average (left : byte) (prev row : bytes) : bytes :=
  match row, prev with
  | b :: r, p :: ps => minus256 (b2n b) ((b2n left + b2n p) / 2) :: png_average b ps r
  | _, _ => []
  end.
Definition paeth (a b c : Z) : Z :=
  let p := a + b - c in
  let pa := Z.abs (p - a) in let pb := Z.abs (p - b) in let pc := Z.abs (p - c) in
  if (pa <=? pb) && (pa <=? pc) then a else if pb <=? pc then b else c.
Fixpoint png_paeth (left upleft : byte) (prev row : bytes) : bytes :=
  match row, prev with
  | b :: r, p :: ps =>
      minus256 (b2n b) (Z.to_N (paeth (Z.of_N (b2n left)) (Z.of_N (b2n p)) (Z.of_N (b2n upleft)))) :: png_paeth b p ps r
  | _, _ => []
  end.
Definition png_filter (t : png_tag) (prev row : bytes) : bytes :=
  n2b (tag_value t) ::
  match t with
  | TNone => row
  | TSub => png_sub x00 row
  | TUp => png_up prev row
  | TAverage => png_average x00 prev row
  | TPaeth => png_paeth x00 x00 prev row
  end.
Fixpoint png_rows (prev : bytes) (rows : list (png_tag * bytes)) : list bytes :=
  match rows with
  | [] => []
  | (t, row) :: rows' => png_filter t prev row :: png_rows row rows'
  end.
Definition png_encode (columns : nat) (rows : list (png_tag * bytes)) : bytes :=
  concat (png_rows (repeat x00 columns) rows).

(** A conforming object stream (ISO 32000-1, 7.5.7): pairs of object number
    and offset relative to /First, then the objects, each followed by a line
    feed. *)
Fixpoint objstm_index (off : Z) (objs : list (Z * bytes)) : bytes :=
  match objs with
  | [] => []
  | (n, d) :: objs' => decZ n ++ bs " " ++ decZ off ++ bs " " ++ objstm_index (off + Z.of_nat (length d) + 1) objs'
  end.
Definition objstm_body (objs : list (Z * bytes)) : bytes := flat_map (fun o => snd o ++ [x0a]) objs.
Definition conforming_objstm (objs : list (Z * bytes)) : bytes := objstm_index 0 objs ++ objstm_body objs.
Definition conforming_first (objs : list (Z * bytes)) : Z := flen (objstm_index 0 objs).

(** An object's text: not empty, and its last byte is not white space. *)
Definition tidy (d : bytes) : Prop := exists u b, d = u ++ [b] /\ is_blank b = false.

(** The stream object as it stands in a file. *)
Definition objstm_object (sn count first : Z) (raw : bytes) : bytes :=
  decZ sn ++ bs " 0 obj" ++ nl ++ bs "<</Type /ObjStm /N " ++ decZ count ++ bs " /First " ++ decZ first ++
  bs " /Length " ++ decZ (flen raw) ++ bs ">>" ++ nl ++ bs "stream" ++ nl ++ raw ++ nl ++ bs "endstream" ++ nl ++ bs "endobj" ++ nl.


(** Text that the reader's searches for keywords do not trip over: what a
    stored object must look like to be read back (C08).  If it is a stream (or
    merely contains the word), its first "endstream" is its last word. *)
Definition readable (t : bytes) : Prop :=
  contains (bs "endobj") t = false /\
  contains (bs "startxref") t = false /\
  contains (bs "/Encrypt") t = false /\
  match t with [] => True | b :: _ => is_blank b = false end /\
  (contains (bs "stream") t = false \/
   index (bs "endstream") t = Some (length t - 9)%nat).

(** What GetObject returns for an object whose text is [t]. *)
Definition object_text (n : Z) (t : bytes) : bytes :=
  decZ n ++ bs " 0 obj" ++ nl ++ t ++ nl ++ bs "endobj".

(** What the byte-perfect reader needs of a stored text, and of the version
    line: no keyword that ends an object or a revision. *)
Definition plain (t : bytes) : Prop :=
  contains (bs "endobj") t = false /\ contains (bs "startxref") t = false /\ contains (bs "%%EOF") t = false.
Definition plain_version (v : bytes) : bool :=
  forallb (fun b => is_digit b || beqb b ".") v && (length v <=? 15)%nat.
