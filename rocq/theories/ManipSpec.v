(** Small specifications used in the page manipulation properties. *)
From Verif Require Import WriterModel ParseModel ManipModel.
Local Open Scope Z_scope.

(** White space between PDF tokens, and the bytes that may stand inside a
    simple value. *)
Definition space_byte (b : byte) : bool := existsb (beqb b) [" "; x09; x0a; x0c; x0d]%byte.
Definition plain_byte (b : byte) : bool := negb (space_byte b || beqb b "<" || beqb b ">").

Definition starts_with (f : byte -> bool) (s : bytes) : bool := match s with b :: _ => f b | [] => false end.

(** A dictionary key: "/" and a word without slashes and brackets. *)
Definition key_byte (b : byte) : bool :=
  plain_byte b && negb (beqb b "/") && negb (beqb b "[") && negb (beqb b "]").
Definition key_name (k : bytes) : Prop := exists w, k = "/"%byte :: w /\ forallb key_byte w = true.

(** A simple value: a word, not an array. *)
Definition word (v : bytes) : Prop :=
  v <> [] /\ forallb plain_byte v = true /\ starts_with (beqb "[") v = false.
(** A word that is neither a name nor part of an array (a number). *)
Definition plain_word (v : bytes) : Prop := v <> [] /\ forallb key_byte v = true.
(** A name without its "/". *)
Definition name_word (v : bytes) : Prop :=
  v <> [] /\ forallb (fun b => plain_byte b && negb (beqb b "/")) v = true.
(** A one-level array. *)
Definition flat_array (v : bytes) : Prop :=
  exists x, v = "["%byte :: x ++ ["]"%byte] /\ ~ In "["%byte x /\ ~ In "]"%byte x.

Definition gap (w : bytes) : Prop := w <> [] /\ forallb space_byte w = true.
(** What follows a word. *)
Definition word_ends (b : bytes) : Prop := starts_with plain_byte b = false.
Definition name_ends (b : bytes) : Prop := starts_with (fun b => plain_byte b && negb (beqb b "/")) b = false.

(** The three ways in which [key] can have a value in a dictionary text, with
    the text around it.  [key] occurs nowhere else. *)
Definition sole (key a b : bytes) : Prop := contains key a = false /\ contains key b = false.

(** [v] is the value of [key] in the dictionary text [d]: a word, a name or a
    one-level array.  For a reference "5 0 R" it is the object number. *)
Inductive has_value (d key v : bytes) : Prop :=
| hv_word a w b : d = a ++ key ++ w ++ v ++ b -> contains key a = false ->
    gap w -> word v -> word_ends b -> has_value d key v
| hv_name a n b : d = a ++ key ++ v ++ b -> v = "/"%byte :: n -> sole key a b ->
    name_word n -> name_ends b -> prefixb key v = false -> has_value d key v
| hv_array a w b : d = a ++ key ++ w ++ v ++ b -> contains key a = false ->
    forallb is_blank w = true -> flat_array v -> has_value d key v.

(* ---------------- rotation ---------------- *)

(** The page text [t] has the rotation [r], between [a] and [b]. *)
Definition rotation_is (t a b : bytes) (r : Z) : Prop :=
  exists w, gap w /\ t = a ++ bs "/Rotate" ++ w ++ decZ r ++ b.
Definition rotation_frame (a b : bytes) : Prop := sole (bs "/Rotate") a b /\ word_ends b.
Definition int64 (z : Z) : Prop := - 2 ^ 63 <= z < 2 ^ 63.

(** The total of the angles applied to the pages that are object [n]. *)
Definition turned (pages : list Z) (n : Z) (ops : list (Z * Z)) : Z :=
  fold_right (fun op s => (if nth (Z.to_nat (fst op - 1)) pages 0 =? n then snd op else 0) + s) 0 ops.
Definition touched (pages : list Z) (n : Z) (ops : list (Z * Z)) : bool :=
  existsb (fun op => nth (Z.to_nat (fst op - 1)) pages 0 =? n) ops.
Definition valid_rotation (pages : list Z) (op : Z * Z) : Prop :=
  1 <= fst op <= Z.of_nat (length pages) /\ In (snd op) [90; 180; 270].

(* ---------------- references and the page tree ---------------- *)

(** [s] lists references to the objects [l], in this order. *)
Inductive ref_list : list Z -> bytes -> Prop :=
| rl_nil s : forallb space_byte s = true -> ref_list [] s
| rl_cons n l pre w1 g w2 rest : forallb space_byte pre = true -> 0 <= n < 2 ^ 63 -> gap w1 ->
    g <> [] -> forallb is_digit g = true -> gap w2 -> ref_list l rest ->
    ref_list (n :: l) (pre ++ decZ n ++ w1 ++ g ++ w2 ++ bs "R" ++ rest).
Definition ref_array (l : list Z) (v : bytes) : Prop := exists s, v = "["%byte :: s ++ ["]"%byte] /\ ref_list l s.

(** A page tree: pages and the nodes above them. *)
Inductive ptree := PPage (n : Z) | PNode (n : Z) (kids : list ptree).
Definition pnum (t : ptree) : Z := match t with PPage n => n | PNode n _ => n end.
(** The pages from left to right. *)
Fixpoint page_list (t : ptree) : list Z :=
  match t with PPage n => [n] | PNode _ kids => flat_map page_list kids end.
Fixpoint height (t : ptree) : nat :=
  match t with PPage _ => 1 | PNode _ kids => S (fold_right (fun k m => Nat.max (height k) m) 0%nat kids) end.
Fixpoint all_nums (t : ptree) : list Z :=
  match t with PPage n => [n] | PNode n kids => n :: flat_map all_nums kids end.

Definition page_text (x : bytes) : Prop := has_value x (bs "/Type") (bs "/Page").
Definition node_text (x : bytes) (kids : list Z) : Prop :=
  has_value x (bs "/Type") (bs "/Pages") /\ exists v, has_value x (bs "/Kids") v /\ ref_array kids v.

(** The objects read by [get] form the page tree [t]. *)
Fixpoint forms_tree (get : Z -> result bytes) (t : ptree) : Prop :=
  match t with
  | PPage n => exists x, get n = Ok x /\ page_text x
  | PNode n kids =>
      (exists x, get n = Ok x /\ node_text x (map pnum kids)) /\
      fold_right (fun k P => forms_tree get k /\ P) True kids
  end.
(** The document's page tree. *)
Definition has_page_tree (s : source) (t : ptree) : Prop :=
  exists root x, 0 <= root < 2 ^ 63 /\ 0 <= pnum t < 2 ^ 63 /\
    (exists g, sRoot s = decZ root ++ bs " " ++ g) /\ sGet s root = Ok x /\
    has_value x (bs "/Pages") (decZ (pnum t)) /\ forms_tree (sGet s) t.

(* ---------------- extraction ---------------- *)

(** A writer read as a document: its root and its objects. *)
Definition written (w : writer) : source :=
  mkSource (match rootRef w with Some r => ref r | None => [] end) [] [] (fun n => WGetObject n w) (mkeys (objects w)).

(** The text of a page object, in front of and after the end of its
    dictionary.  Its type is /Page, followed by something, and it has no
    parent or a parent reference. *)
Definition page_object (t x y : bytes) : Prop :=
  t = x ++ bs ">>" ++ y /\ contains (bs ">>") (">"%byte :: y) = false /\ contains (bs "/Type") y = false /\
  has_value (x ++ bs "/") (bs "/Type") (bs "/Page") /\
  (contains (bs "/Parent") t = false \/
   exists a w v b, t = a ++ bs "/Parent" ++ w ++ v ++ b /\ sole (bs "/Parent") a b /\ gap w /\ plain_word v /\ word_ends b).
(** The same page with a new parent. *)
Definition with_parent (x y : bytes) (n : Z) : bytes := x ++ bs "/Parent " ++ ref n ++ bs " >>" ++ y.

(* ---------------- deletion and insertion ---------------- *)

(** The text around the kids and the count of a page tree node. *)
Record shape := mkShape { kids_first : bool; s_pre : bytes; s_mid : bytes; s_post : bytes }.
Definition node_at (sh : shape) (kids count : bytes) : bytes :=
  if kids_first sh
  then s_pre sh ++ bs "/Kids" ++ kids ++ s_mid sh ++ bs "/Count" ++ count ++ s_post sh
  else s_pre sh ++ bs "/Count" ++ count ++ s_mid sh ++ bs "/Kids" ++ kids ++ s_post sh.
(** The type comes first; /Type, /Kids and /Count occur once; the count does
    not touch what follows it. *)
Definition good_shape (sh : shape) : Prop :=
  has_value (s_pre sh ++ bs "/") (bs "/Type") (bs "/Pages") /\
  (forall k, In k [bs "/Kids"; bs "/Count"] ->
     contains k (s_pre sh) = false /\ contains k (s_mid sh) = false /\ contains k (s_post sh) = false) /\
  contains (bs "/Type") (s_mid sh) = false /\ contains (bs "/Type") (s_post sh) = false /\
  word_ends (if kids_first sh then s_post sh else s_mid sh ++ bs "/").
(** The node text [t] lists the kids [l] and says that there are [c]. *)
Definition node_is (sh : shape) (t : bytes) (l : list Z) (c : Z) : Prop :=
  exists arr g w, ref_array l arr /\ forallb space_byte g = true /\ gap w /\ t = node_at sh (arr ++ g) (w ++ decZ c).

(** The objects as they are after the edits. *)
Definition current (m : manip) : source :=
  mkSource (sRoot (mSrc m)) (sInfo (mSrc m)) (sEncrypt (mSrc m))
    (fun n => match mget n (mObjects m) with Some t => Ok t | None => Err end) (mkeys (mObjects m)).

(** The nodes of a tree, with their kids. *)
Fixpoint nodes (t : ptree) : list (Z * list ptree) :=
  match t with PPage _ => [] | PNode n kids => (n, kids) :: flat_map nodes kids end.
(** The kids that are left when the pages [d] are deleted. *)
Definition gone (d : list Z) (k : ptree) : bool := match k with PPage n => existsb (Z.eqb n) d | PNode _ _ => false end.
Definition left (d : list Z) (kids : list ptree) : list ptree := filter (fun k => negb (gone d k)) kids.

(** The decimal digits of [n] end those of [k]. *)
Definition ends_like (k n : Z) : Prop := exists x, decZ k = x ++ decZ n.

(** [s] has the page tree [t]; its objects, the catalog among them, are
    distinct and listed, and node [k] has the shape [sh k]. *)
Definition regular_doc (s : source) (t : ptree) (sh : Z -> shape) : Prop :=
  has_page_tree s t /\ NoDup (all_nums t) /\ incl (all_nums t) (sObjs s) /\ Z.of_nat (length (all_nums t)) < 2 ^ 63 /\
  (forall root, parseObjectRef (sRoot s) = Ok root -> In root (sObjs s) /\ ~ In root (all_nums t)) /\
  (forall k kids, In (k, kids) (nodes t) -> good_shape (sh k) /\
     exists x c, sGet s k = Ok x /\ node_is (sh k) x (map pnum kids) c /\ 0 <= c).
(** What is left of the pages [l]. *)
Definition except (d l : list Z) : list Z := filter (fun n => negb (existsb (Z.eqb n) d)) l.

(** The pages [l] with [n] as page number [page], or at the end when [page]
    is 0 or past the end. *)
Definition insert_at (page n : Z) (l : list Z) : list Z :=
  if (page =? 0) || (Z.of_nat (length l) <? page) then l ++ [n]
  else firstn (Z.to_nat (page - 1)) l ++ [n] ++ skipn (Z.to_nat (page - 1)) l.
(** A document, as edited, whose pages [l] are the kids of its root node [r]. *)
Definition flat_doc (m : manip) (sh : shape) (r : Z) (l : list Z) : Prop :=
  good_shape sh /\ ~ In r l /\ Z.of_nat (length l) < 2 ^ 63 - 1 /\
  pages_root (mSrc m) = Ok r /\ has_page_tree (current m) (PNode r (map PPage l)) /\
  exists t c, mget r (mObjects m) = Some t /\ node_is sh t l c /\ 0 <= c.

(* ---------------- merging ---------------- *)

(** A reference stands at the start of the text. *)
Definition ref_here (s : bytes) : Prop :=
  exists n w1 g w2 r, s = n ++ w1 ++ g ++ w2 ++ bs "R" ++ r /\
    n <> [] /\ forallb is_digit n = true /\ gap w1 /\ g <> [] /\ forallb is_digit g = true /\ gap w2.
(** An object text: references and the text between them, in which no
    reference starts. *)
Inductive piece := Text (b : bytes) | Refer (n : Z) (w1 g w2 : bytes).
Definition show (p : piece) : bytes :=
  match p with Text b => b | Refer n w1 g w2 => decZ n ++ w1 ++ g ++ w2 ++ bs "R" end.
Definition shown (l : list piece) : bytes := flat_map show l.
Fixpoint separated (l : list piece) : Prop :=
  match l with
  | [] => True
  | Text b :: l' => (forall j, (j < length b)%nat -> ~ ref_here (skipn j (b ++ shown l'))) /\ separated l'
  | Refer n w1 g w2 :: l' => 0 <= n < 2 ^ 63 /\ gap w1 /\ g <> [] /\ forallb is_digit g = true /\ gap w2 /\ separated l'
  end.
(** The same text with other targets. *)
Definition retarget (f : Z -> option Z) (p : piece) : piece :=
  match p with
  | Text b => Text b
  | Refer n w1 g w2 => match f n with Some k => Refer k (bs " ") (bs "0") (bs " ") | None => p end
  end.
Definition targets (l : list piece) : list Z := flat_map (fun p => match p with Refer n _ _ _ => [n] | _ => [] end) l.

(** The number that object [n] of the list gets when they are numbered from
    [base]. *)
Fixpoint place (base : Z) (l : list Z) (n : Z) : option Z :=
  match l with
  | [] => None
  | k :: l' => if n =? k then Some base else place (base + 1) l' n
  end.
(** The list up to and including [n]. *)
Fixpoint upto (n : Z) (l : list Z) : list Z :=
  match l with [] => [] | k :: l' => if n =? k then [k] else k :: upto n l' end.
(** The first number of each document. *)
Fixpoint bases (base : Z) (docs : list source) : list (Z * source) :=
  match docs with
  | [] => []
  | s :: docs' => (base, s) :: bases (base + Z.of_nat (length (sObjs s))) docs'
  end.
Definition total (docs : list source) : Z := fold_right (fun s n => Z.of_nat (length (sObjs s)) + n) 0 docs.
(** The numbers of the objects of [l] that are pages. *)
Definition page_places (base : Z) (objs pages : list Z) : list Z :=
  flat_map (fun n => if existsb (Z.eqb n) pages then match place base objs n with Some k => [k] | None => [] end else []) objs.
(** The document [s] has the pages [P s] and the objects [sObjs s], whose
    texts are [C s]. *)
Definition readable (stack : nat) (P : source -> list Z) (C : source -> Z -> list piece) (s : source) : Prop :=
  NoDup (sObjs s) /\ getAllPageObjectNumbers stack s = Ok (P s) /\
  forall n, In n (sObjs s) -> sGet s n = Ok (shown (C s n)) /\ separated (C s n).

(** The pages of [s] are objects of it, and pages wherever their references
    point. *)
Definition pages_known (P : source -> list Z) (C : source -> Z -> list piece) (s : source) : Prop :=
  forall n, In n (P s) -> In n (sObjs s) /\ forall f, page_text (shown (map (retarget f) (C s n))).
(** No object refers to an object that is listed after it. *)
Definition backward (C : source -> Z -> list piece) (s : source) : Prop :=
  forall n q, In n (sObjs s) -> In q (targets (C s n)) -> In q (sObjs s) -> In q (upto n (sObjs s)).
(** The pages are listed in page order. *)
Definition listed_in_order (P : source -> list Z) (s : source) : Prop :=
  NoDup (P s) /\ filter (fun n => existsb (Z.eqb n) (P s)) (sObjs s) = P s.
