(** Model of core/compare: the comparison of two extracted documents
    (compare.go, text_diff.go, myers_diff.go).  Content extraction itself is
    not part of this module: the comparison takes the extracted documents. *)
From Coq Require Export SpecFloat.
From Verif Require Export Utf8 Util.
Local Open Scope Z_scope.

(* ---------------------------------------------------------------- *)
(** float64: IEEE 754 binary64, the executable specification of the standard
    library. *)
Notation float := spec_float.
Definition fsub (x y : float) : float := SFsub 53 1024 x y.
Definition fmul (x y : float) : float := SFmul 53 1024 x y.
Definition flt (x y : float) : bool := SFltb x y.
Definition fle (x y : float) : bool := SFleb x y.
Definition feq (x y : float) : bool := SFeqb x y.
Definition fint (z : Z) : float := binary_normalize 53 1024 z 0 false.
Definition fzero : float := S754_zero false.
(** the constant 0.1 *)
Definition f01 : float := S754_finite false 7205759403792794 (-56).

(** compare.go:539-544 *)
Definition fabs (x : float) : float := if flt x fzero then SFopp x else x.
(** compare.go:534-536 *)
Definition positionsMatch (x1 y1 x2 y2 tol : float) : bool :=
  flt (fabs (fsub x1 x2)) tol && flt (fabs (fsub y1 y2)) tol.

(* ---------------------------------------------------------------- *)
(** Text elements and options *)

(** types/content_types.go:58-74.  [eRest] stands for the fields the
    comparison never looks at. *)
Record elem := mkElem {
  eText : bytes; eX : float; eY : float; eFont : bytes; eSize : float; eRest : bytes }.

Inductive granularity := GElement | GWord | GChar.
Inductive sensitivity := Strict | Normal | Relaxed.

(** compare.go:168-193 CompareOptions (GraphicTolerance and Verbose are not
    used by the comparison). *)
Record options := mkOpts {
  oIgnoreMetadata : bool; oIgnoreProducer : bool; oIgnoreDates : bool;
  oTolerance : float; oGranularity : granularity; oSensitivity : sensitivity;
  oDetectMoves : bool; oMoveTolerance : float; oMinChange : float;
  oIgnoreWhitespace : bool; oIgnoreCase : bool }.

(** compare.go:196-203; the unset granularity and sensitivity are the default
    branches of the switches, the unset numbers are 0. *)
Definition DefaultCompareOptions : options :=
  mkOpts false true true (fint 5) GElement Normal false fzero fzero false false.

(** text_diff.go:233-254 normalizeTextForComparison *)
Definition lower_rune (r : N) : N := if (65 <=? r)%N && (r <=? 90)%N then (r + 32)%N else r.
Definition space_rune (r : N) : bool := (r =? 32)%N || (r =? 9)%N || (r =? 10)%N || (r =? 13)%N.
Definition normalize (o : options) (t : bytes) : bytes :=
  let t := if oIgnoreCase o then utf8 (map lower_rune (runes t)) else t in
  if oIgnoreWhitespace o then utf8 (List.filter (fun r => negb (space_rune r)) (runes t)) else t.

Definition same_font (a b : elem) : bool :=
  bytes_eqb (eFont a) (eFont b) && flt (fabs (fsub (eSize a) (eSize b))) f01.
Definition same_place (tol : float) (a b : elem) : bool := positionsMatch (eX a) (eY a) (eX b) (eY b) tol.
Definition same_text (o : options) (a b : elem) : bool := bytes_eqb (normalize o (eText a)) (normalize o (eText b)).

(** myers_diff.go:162-187 elementsEqual.  The last test of the Go code
    is [abs(d) >= 0.1] for "different". *)
Definition elementsEqual (o : options) (a b : elem) : bool :=
  same_text o a b && same_place (oTolerance o) a b && bytes_eqb (eFont a) (eFont b) &&
  negb (fle f01 (fabs (fsub (eSize a) (eSize b)))).

(* ---------------------------------------------------------------- *)
(** Greedy matching: the double loops over text1 and text2 with their maps of
    matched indices, kept here as one flag per element. *)
Section greedy.
  Context {A B : Type}.
  (** The inner loop: the first unmatched element for which [p] holds. *)
  Fixpoint claim (p : nat -> B -> bool) (i : nat) (l : list (B * bool)) : option (B * list (B * bool)) :=
    match l with
    | [] => None
    | (b, m) :: l' =>
        if negb m && p i b then Some (b, (b, true) :: l')
        else match claim p (S i) l' with Some (x, l'') => Some (x, (b, m) :: l'') | None => None end
    end.

  (** The outer loop.  [p] may look at the current flags of text2; the pairs
    matched are returned in order. *)
  Fixpoint phase (p : list (B * bool) -> A -> nat -> B -> bool) (l1 : list (A * bool)) (l2 : list (B * bool))
    : list (A * bool) * list (B * bool) * list (A * B) :=
    match l1 with
    | [] => ([], l2, [])
    | (a, true) :: r => let '(r', l2', ms) := phase p r l2 in ((a, true) :: r', l2', ms)
    | (a, false) :: r =>
        match claim (p l2 a) 0 l2 with
        | Some (b, l2') => let '(r', l2'', ms) := phase p r l2' in ((a, true) :: r', l2'', (a, b) :: ms)
        | None => let '(r', l2', ms) := phase p r l2 in ((a, false) :: r', l2', ms)
        end
    end.
End greedy.
Definition fresh_flags {A} (l : list A) : list (A * bool) := map (fun a => (a, false)) l.
(** The elements whose flag is not set, in order. *)
Definition unmatched {A} (l : list (A * bool)) : list A := map fst (List.filter (fun p => negb (snd p)) l).

(* ---------------------------------------------------------------- *)
(** Longest common subsequence: myers_diff.go:196-258 findLCSMatches *)
Section lcs.
  Context {A B : Type} (eq : A -> B -> bool).

  (** The inner loop of lines 223-235: the cells of row i from column j on;
      [diag] is dp[i-1][j-1], [left] is dp[i][j-1]. *)
  Fixpoint fill (a : A) (diag left : nat) (prev : list nat) (l2 : list B) : list nat :=
    match l2, prev with
    | b :: l2', up :: prev' =>
        let v := if eq a b then S diag else if (left <? up)%nat then up else left in
        v :: fill a up v prev' l2'
    | _, _ => []
    end.
  Definition next_row (a : A) (prev : list nat) (l2 : list B) : list nat :=
    match prev with
    | [] => []
    | d :: p => 0%nat :: fill a d 0 p l2
    end.
  (** The table: row 0 is all zero. *)
  Fixpoint rows (row : list nat) (l1 : list A) (l2 : list B) : list (list nat) :=
    match l1 with
    | [] => [row]
    | a :: l1' => row :: rows (next_row a row l2) l1' l2
    end.
  Definition table (l1 : list A) (l2 : list B) : list (list nat) := rows (repeat 0%nat (S (length l2))) l1 l2.
  Definition cell (t : list (list nat)) (i j : nat) : nat := nth j (nth i t []) 0%nat.

  (** Lines 238-251: backtracking from (i, j); the pairs are found from the
      last to the first.  [fuel] is i + j. *)
  Fixpoint backtrack (fuel : nat) (t : list (list nat)) (l1 : list A) (l2 : list B) (i j : nat) : list (nat * nat) :=
    match fuel, i, j with
    | S f, S i', S j' =>
        match nth_error l1 i', nth_error l2 j' with
        | Some a, Some b =>
            if eq a b then (i', j') :: backtrack f t l1 l2 i' j'
            else if (cell t i j' <? cell t i' j)%nat then backtrack f t l1 l2 i' j
            else backtrack f t l1 l2 i j'
        | _, _ => []
        end
    | _, _, _ => []
    end.
  (** Lines 196-258; the reversal of lines 254-256 is [rev]. *)
  Definition findLCSMatches (l1 : list A) (l2 : list B) : list (nat * nat) :=
    match l1, l2 with
    | [], _ | _, [] => []
    | _, _ => rev (backtrack (length l1 + length l2) (table l1 l2) l1 l2 (length l1) (length l2))
    end.
End lcs.

(** myers_diff.go:216-220 textEqual *)
Definition textEqual (o : options) (a b : elem) : bool := same_text o a b && same_font a b.

(* ---------------------------------------------------------------- *)
(** Text diffs *)

(** compare.go:91-101 *)
Record textdiff := mkDiff { dAdded : list elem; dRemoved : list elem; dModified : list (elem * elem) }.

(** Phase 2 of myersDiff, lines 60-98: same position, different text, and no
    other unmatched element of text2 has the text of [a]. *)
Definition better_elsewhere (o : options) (l2 : list (elem * bool)) (a : elem) (i : nat) : bool :=
  existsb (fun jb => negb (fst jb =? i)%nat && negb (snd (snd jb)) && same_text o a (fst (snd jb)))
    (combine (seq 0 (length l2)) l2).
Definition phase2_pred (o : options) (l2 : list (elem * bool)) (a : elem) (i : nat) (b : elem) : bool :=
  same_place (oTolerance o) a b && negb (same_text o a b) && negb (better_elsewhere o l2 a i).

Definition pair_at (l1 l2 : list elem) (m : nat * nat) : list (elem * elem) :=
  match nth_error l1 (fst m), nth_error l2 (snd m) with Some a, Some b => [(a, b)] | _, _ => [] end.
(** The elements whose index is not in [used]. *)
Fixpoint drop_used {A} (used : list nat) (i : nat) (l : list A) : list A :=
  match l with
  | [] => []
  | a :: l' => if existsb (Nat.eqb i) used then drop_used used (S i) l' else a :: drop_used used (S i) l'
  end.

(** myers_diff.go:10-159 myersDiff; [None] is nil.  The indices of lines
    102-119 only translate positions in the unmatched lists, whose order is
    that of the texts; LCS uses no positions, so the relaxed tolerance of line
    124 has no effect. *)
Definition myersDiff (o : options) (t1 t2 : list elem) : option textdiff :=
  match t1, t2 with
  | [], [] => None
  | [], _ => Some (mkDiff t2 [] [])
  | _, [] => Some (mkDiff [] t1 [])
  | _, _ =>
      let '(f1, f2, _) := phase (fun _ a _ b => elementsEqual o a b) (fresh_flags t1) (fresh_flags t2) in
      let '(f1, f2, mods) := phase (phase2_pred o) f1 f2 in
      let u1 := unmatched f1 in
      let u2 := unmatched f2 in
      let ms := findLCSMatches (textEqual o) u1 u2 in
      let mods2 := List.filter (fun ab => negb (elementsEqual o (fst ab) (snd ab))) (flat_map (pair_at u1 u2) ms) in
      Some (mkDiff (drop_used (map snd ms) 0 u2) (drop_used (map fst ms) 0 u1) (mods ++ mods2))
  end.

(** text_diff.go:425-442 splitWords *)
Definition word_rune (r : N) : bool :=
  ((97 <=? r) && (r <=? 122) || (65 <=? r) && (r <=? 90) || (48 <=? r) && (r <=? 57))%N.
Fixpoint split_runes (cur : list N) (rs : list N) : list (list N) :=
  match rs with
  | [] => match cur with [] => [] | _ => [cur] end
  | r :: rs' =>
      if word_rune r then split_runes (cur ++ [r]) rs'
      else match cur with [] => split_runes [] rs' | _ => cur :: split_runes [] rs' end
  end.
Definition splitWords (t : bytes) : list bytes := map utf8 (split_runes [] (runes t)).

(** text_diff.go:444-454 wordsEqual *)
Fixpoint wordsEqual (a b : list bytes) : bool :=
  match a, b with
  | [], [] => true
  | x :: a', y :: b' => bytes_eqb x y && wordsEqual a' b'
  | _, _ => false
  end.

(** text_diff.go:279-333 and 336-387: wordLevelDiff and charLevelDiff differ
    only in when two elements at the same place are the same. *)
Definition place_diff (o : options) (same : elem -> elem -> bool) (t1 t2 : list elem) : textdiff :=
  let '(f1, f2, ms) := phase (fun _ a _ b => same_place (oTolerance o) a b) (fresh_flags t1) (fresh_flags t2) in
  mkDiff (unmatched f2) (unmatched f1) (List.filter (fun ab => negb (same (fst ab) (snd ab))) ms).
Definition words_same (o : options) (a b : elem) : bool :=
  wordsEqual (splitWords (normalize o (eText a))) (splitWords (normalize o (eText b))).
Definition wordLevelDiff (o : options) := place_diff o (words_same o).
Definition charLevelDiff (o : options) := place_diff o (same_text o).

(** text_diff.go:456-480 calculateChangeRatio, as the exact fraction
    differences / longer length.  (The Go code divides two float64; below 2^53
    bytes the comparison with 0.1 has the same outcome.) *)
Fixpoint count_diffs (a b : bytes) : Z :=
  match a, b with
  | x :: a', y :: b' => (if beqb x y then 0 else 1) + count_diffs a' b'
  | _, _ => 0
  end.
Definition changeRatio (a b : bytes) : Z * Z :=
  let la := Z.of_nat (length a) in
  let lb := Z.of_nat (length b) in
  if (la =? 0) && (lb =? 0) then (0, 1)
  else (count_diffs a b + Z.abs (la - lb), Z.max la lb).
Definition ratio_gt_tenth (r : Z * Z) : bool := snd r <? 10 * fst r.

(** text_diff.go:390-421 applySensitivityFilter *)
Definition applySensitivityFilter (o : options) (d : textdiff) : textdiff :=
  match oSensitivity o with
  | Relaxed =>
      mkDiff (dAdded d) (dRemoved d)
        (List.filter (fun ab => ratio_gt_tenth (changeRatio (normalize o (eText (fst ab))) (normalize o (eText (snd ab)))))
           (dModified d))
  | Strict | Normal => d
  end.

Definition exact_pred (o : options) (_ : list (elem * bool)) (a : elem) (_ : nat) (b : elem) : bool :=
  bytes_eqb (eText a) (eText b) && same_place (oTolerance o) a b && same_font a b.
Definition place_pred (o : options) (_ : list (elem * bool)) (a : elem) (_ : nat) (b : elem) : bool :=
  same_place (oTolerance o) a b && negb (bytes_eqb (eText a) (eText b)).
Definition moveTolerance (o : options) : float :=
  if feq (oMoveTolerance o) fzero then fmul (oTolerance o) (fint 10) else oMoveTolerance o.
Definition move_pred (o : options) (_ : list (elem * bool)) (a : elem) (_ : nat) (b : elem) : bool :=
  same_text o a b && same_font a b && same_place (moveTolerance o) a b.

Definition empty_diff (d : textdiff) : bool :=
  match dAdded d, dRemoved d, dModified d with [], [], [] => true | _, _, _ => false end.

(** text_diff.go:9-137 compareText.  [Ok None] is nil; dereferencing the nil
    result of myersDiff would panic. *)
Definition compareText (o : options) (t1 t2 : list elem) : result (option textdiff) :=
  let '(f1, f2, _) := phase (exact_pred o) (fresh_flags t1) (fresh_flags t2) in
  let '(f1, f2, m2) := phase (place_pred o) f1 f2 in
  let '(f1, f2, m3) := if oDetectMoves o then phase (move_pred o) f1 f2 else (f1, f2, []) in
  let u1 := unmatched f1 in
  let u2 := unmatched f2 in
  let base := mkDiff [] [] (m2 ++ m3) in
  let merge (td : textdiff) := mkDiff (dAdded td) (dRemoved td) (m2 ++ m3 ++ dModified td) in
  let finish (d : textdiff) : result (option textdiff) :=
    let d := applySensitivityFilter o d in Ok (if empty_diff d then None else Some d) in
  match u1, u2 with
  | [], [] => finish base
  | _, _ =>
      match oGranularity o with
      | GWord => finish (merge (wordLevelDiff o u1 u2))
      | GChar => finish (merge (charLevelDiff o u1 u2))
      | GElement => match myersDiff o u1 u2 with Some td => finish (merge td) | None => Panic end
      end
  end.

(* ---------------------------------------------------------------- *)
(** Graphics and annotations: keys and map differences *)

(** compare.go:583-589 graphicKey and 829-834 annotationKey; [fmt1] is
    Sprintf("%.1f"). *)
Record box := mkBox { bLX : float; bLY : float; bUX : float; bUY : float }.
Record shape := mkShape { sType : bytes; sBox : option box; sRest : bytes }.
Definition shapeKey (fmt1 : float -> bytes) (s : shape) : bytes :=
  match sBox s with
  | Some b => sType s ++ bs ":" ++ fmt1 (bLX b) ++ bs ":" ++ fmt1 (bLY b) ++ bs ":" ++ fmt1 (bUX b) ++ bs ":" ++ fmt1 (bUY b)
  | None => sType s
  end.

(** Go map deletion. *)
Fixpoint kdel {A} (k : bytes) (m : list (bytes * A)) : list (bytes * A) :=
  match m with
  | [] => []
  | (k', v) :: m' => if bytes_eqb k k' then m' else (k', v) :: kdel k m'
  end.
Fixpoint take_keys {A} (key : A -> bytes) (m : list (bytes * A)) (l : list A) : list A * list (bytes * A) :=
  match l with
  | [] => ([], m)
  | a :: l' =>
      match kget (key a) m with
      | None => let (added, m') := take_keys key m l' in (a :: added, m')
      | Some _ => take_keys key (kdel (key a) m) l'
      end
  end.
(** compare.go:547-580 compareGraphics, 794-826 compareAnnotations: (added,
    removed); [None] is nil.  Removed comes in map order in Go. *)
Definition compareKeyed {A} (key : A -> bytes) (l1 l2 : list A) : option (list A * list A) :=
  let m := fold_left (fun m a => kset (key a) a m) l1 [] in
  let (added, m) := take_keys key m l2 in
  match added, map snd m with [], [] => None | a, r => Some (a, r) end.

(* ---------------------------------------------------------------- *)
(** Images *)
Record image := mkImage { imID : bytes; imWidth : Z; imHeight : Z; imFormat : bytes; imSpace : bytes; imData : bytes }.
Record imageref := mkRef { irID : bytes; irX : float; irY : float; irRest : bytes }.

(** compare.go:764-791 imagesEqual on two images *)
Definition imagesEqual (a b : image) : bool :=
  (imWidth a =? imWidth b) && (imHeight a =? imHeight b) && bytes_eqb (imFormat a) (imFormat b) &&
  bytes_eqb (imSpace a) (imSpace b) &&
  (match imData a, imData b with [], [] => true | _, _ => bytes_eqb (imData a) (imData b) end).

(** compare.go:601-634 with 737-761 getImageWithBinary: the images of the
    resources in the order Go's map iteration yields them.  [all] is the
    result of ExtractAllImages ([None]: it failed).  An image found there is
    stored by value; otherwise the address of the loop variable is stored,
    and under the language version of go.mod (1.21) all these entries end up
    as the image of the last iteration. *)
Definition last_image (l : list (bytes * image)) : option image :=
  match rev l with (_, i) :: _ => Some i | [] => None end.
Definition stored_image (all : option (list image)) (last : image) (name : bytes) (i : image) : image :=
  match imData i with
  | _ :: _ => last
  | [] => match all with
          | None => last
          | Some l => match List.find (fun x => bytes_eqb (imID x) (bs "/" ++ name)) l with
                      | Some x => x
                      | None => last
                      end
          end
  end.
Definition imagesMap (all : option (list image)) (iter : list (bytes * image)) : list (bytes * image) :=
  match last_image iter with
  | None => []
  | Some last => map (fun p => (bs "/" ++ fst p, stored_image all last (fst p) (snd p))) iter
  end.

(** compare.go:110-123 and 592-734 compareImagesWithBinary *)
Record imagediff := mkIDiff {
  iAdded : list imageref; iRemoved : list imageref;
  iModified : list (imageref * imageref); iMoved : list (imageref * imageref) }.
Definition ref_pred (_ : list (imageref * bool)) (a : imageref) (_ : nat) (b : imageref) : bool :=
  bytes_eqb (irID a) (irID b) && positionsMatch (irX a) (irY a) (irX b) (irY b) (fint 1).
Definition has_data (m : list (bytes * image)) (r : imageref) : option image :=
  match kget (irID r) m with Some i => match imData i with [] => None | _ => Some i end | None => None end.
Definition moved_pred (m1 m2 : list (bytes * image)) (_ : list (imageref * bool)) (a : imageref) (_ : nat) (b : imageref) : bool :=
  match has_data m1 a, has_data m2 b with Some i, Some j => imagesEqual i j | _, _ => false end.
Definition ref_changed (m1 m2 : list (bytes * image)) (ab : imageref * imageref) : bool :=
  match kget (irID (fst ab)) m1, kget (irID (snd ab)) m2 with
  | Some i, Some j => negb (imagesEqual i j)
  | _, _ => false
  end.
Definition compareImages (m1 m2 : list (bytes * image)) (l1 l2 : list imageref) : option imagediff :=
  let '(f1, f2, ms) := phase ref_pred (fresh_flags l1) (fresh_flags l2) in
  let modified := List.filter (ref_changed m1 m2) ms in
  let '(f1, f2, moved) := phase (moved_pred m1 m2) f1 f2 in
  match unmatched f2, unmatched f1, modified, moved with
  | [], [], [], [] => None
  | a, r, md, mv => Some (mkIDiff a r md mv)
  end.

(* ---------------------------------------------------------------- *)
(** Forms: compare.go:861-970 *)

(** A form: its type and the map GetValues returns, as the list of its
    entries in iteration order.  A value is nil or prints as some text. *)
Record form := mkForm { fType : bytes; fValues : list (bytes * option bytes) }.
(** compare.go:973-985 valuesEqual *)
Definition valuesEqual (a b : option bytes) : bool :=
  match a, b with
  | None, None => true
  | Some x, Some y => bytes_eqb x y
  | _, _ => false
  end.
Definition fchange : Type := bytes * option bytes * option bytes.   (* name, old, new *)
Record formdiff := mkFD { fdAdded : list fchange; fdRemoved : list fchange; fdModified : list fchange;
                          fdType : option (bytes * bytes) }.
Definition all_added (f : form) : list fchange := map (fun kv => (fst kv, None, snd kv)) (fValues f).
Definition all_removed (f : form) : list fchange := map (fun kv => (fst kv, snd kv, None)) (fValues f).
Definition compareForms (f1 f2 : option form) : option formdiff :=
  match f1, f2 with
  | None, None => None
  | None, Some f => Some (mkFD (all_added f) [] [] None)
  | Some f, None => Some (mkFD [] (all_removed f) [] None)
  | Some a, Some b =>
      if negb (bytes_eqb (fType a) (fType b)) then
        Some (mkFD (all_added b) (all_removed a) [] (Some (fType a, fType b)))
      else
        let added := flat_map (fun kv : bytes * option bytes =>
          match kget (fst kv) (fValues a) with None => [(fst kv, None, snd kv)] | Some _ => [] end) (fValues b) in
        let removed := flat_map (fun kv : bytes * option bytes =>
          match kget (fst kv) (fValues b) with None => [(fst kv, snd kv, None)] | Some _ => [] end) (fValues a) in
        let modified := flat_map (fun kv : bytes * option bytes =>
          match kget (fst kv) (fValues b) with
          | Some v => if valuesEqual (snd kv) v then [] else [(fst kv, snd kv, v)]
          | None => []
          end) (fValues a) in
        match added, removed, modified with
        | [], [], [] => None
        | _, _, _ => Some (mkFD added removed modified None)
        end
  end.

(* ---------------------------------------------------------------- *)
(** Documents *)
Record docmeta := mkDMeta {
  mTitle : bytes; mAuthor : bytes; mSubject : bytes; mKeywords : bytes; mCreator : bytes; mProducer : bytes;
  mCreation : bytes; mMod : bytes; mVersion : bytes; mPages : Z; mEncrypted : bool }.
Record page := mkPage {
  pWidth : float; pHeight : float; pRotation : Z; pText : list elem; pGraphics : list shape;
  pImages : list imageref; pResources : option (list (bytes * image)); pAnnots : list shape }.

(** The fields that differ: compare.go:282-349 compareMetadata *)
Inductive mfield := FTitle | FAuthor | FSubject | FKeywords | FCreator | FProducer | FCreation | FMod | FVersion | FPages | FEncrypted.
Definition when (b : bool) (f : mfield) : list mfield := if b then [f] else [].
Definition compareMetadata (o : options) (m1 m2 : option docmeta) : option (list mfield) :=
  if oIgnoreMetadata o then None else
  match m1, m2 with
  | None, None => None
  | Some a, Some b =>
      let d :=
        when (negb (bytes_eqb (mTitle a) (mTitle b))) FTitle ++ when (negb (bytes_eqb (mAuthor a) (mAuthor b))) FAuthor ++
        when (negb (bytes_eqb (mSubject a) (mSubject b))) FSubject ++ when (negb (bytes_eqb (mKeywords a) (mKeywords b))) FKeywords ++
        when (negb (bytes_eqb (mCreator a) (mCreator b))) FCreator ++
        when (negb (oIgnoreProducer o) && negb (bytes_eqb (mProducer a) (mProducer b))) FProducer ++
        when (negb (oIgnoreDates o) && negb (bytes_eqb (mCreation a) (mCreation b))) FCreation ++
        when (negb (oIgnoreDates o) && negb (bytes_eqb (mMod a) (mMod b))) FMod ++
        when (negb (bytes_eqb (mVersion a) (mVersion b))) FVersion ++ when (negb (mPages a =? mPages b)) FPages ++
        when (negb (Bool.eqb (mEncrypted a) (mEncrypted b))) FEncrypted in
      match d with [] => None | _ => Some d end
  | _, _ => Some []
  end.

(** What one page comparison reports (compare.go:422-516); each constructor is
    one entry of Differences. *)
Inductive pdiff :=
| DDimensions | DRotation | DText (d : textdiff) | DGraphics (a r : list shape) | DImages (d : imagediff)
| DImageCount | DAnnots (a r : list shape) | DPageRemoved | DPageAdded.

Section documents.
  Context (fmt1 : float -> bytes) (all1 all2 : option (list image)).
  (** The order in which Go iterates over the image resources of page [n] of
      document 1 or 2. *)
  Context (iter1 iter2 : nat -> list (bytes * image) -> list (bytes * image)).

  Definition page_images (iter : list (bytes * image) -> list (bytes * image)) (all : option (list image)) (p : page)
    : list (bytes * image) :=
    match pResources p with Some r => imagesMap all (iter r) | None => [] end.

  Definition opt_list {X} (o : option X) : list X := match o with Some x => [x] | None => [] end.

  (** compare.go:422-519 compareSinglePage *)
  Definition compareSinglePage (o : options) (n : nat) (p1 p2 : page) : result (list pdiff) :=
    match compareText o (pText p1) (pText p2) with
    | Err => Err
    | Panic => Panic
    | Ok td =>
        Ok ((if feq (pWidth p1) (pWidth p2) && feq (pHeight p1) (pHeight p2) then [] else [DDimensions]) ++
            (if pRotation p1 =? pRotation p2 then [] else [DRotation]) ++
            map DText (opt_list td) ++
            map (fun ar => DGraphics (fst ar) (snd ar)) (opt_list (compareKeyed (shapeKey fmt1) (pGraphics p1) (pGraphics p2))) ++
            match compareImages (page_images (iter1 n) all1 p1) (page_images (iter2 n) all2 p2) (pImages p1) (pImages p2) with
            | Some d => [DImages d]
            | None => if (length (pImages p1) =? length (pImages p2))%nat then [] else [DImageCount]
            end ++
            map (fun ar => DAnnots (fst ar) (snd ar)) (opt_list (compareKeyed (shapeKey fmt1) (pAnnots p1) (pAnnots p2))))
    end.

  (** compare.go:392-416: the pages only one document has. *)
  Fixpoint extra_pages (d : pdiff) (n : nat) (l : list page) : list (nat * list pdiff) :=
    match l with [] => [] | _ :: r => (S n, [d]) :: extra_pages d (S n) r end.

  (** compare.go:373-419 comparePages: page number (from 1) and its
      differences, for each page that has any. *)
  Fixpoint comparePages (o : options) (n : nat) (l1 l2 : list page) : result (list (nat * list pdiff)) :=
    match l1, l2 with
    | [], _ => Ok (extra_pages DPageAdded n l2)
    | _, [] => Ok (extra_pages DPageRemoved n l1)
    | p :: r1, q :: r2 =>
        match compareSinglePage o n p q, comparePages o (S n) r1 r2 with
        | Ok [], Ok l => Ok l
        | Ok d, Ok l => Ok ((S n, d) :: l)
        | Panic, _ | _, Panic => Panic
        | _, _ => Err
        end
    end.
End documents.

(** Extracted documents with their forms; bookmarks are compared with
    reflect.DeepEqual. *)
Record document (B : Type) := mkDoc { dMeta : option docmeta; dPages : list page; dMarks : list B; dForm : option form }.
Arguments mkDoc {B}. Arguments dMeta {B}. Arguments dPages {B}. Arguments dMarks {B}. Arguments dForm {B}.

Record comparison := mkCmp {
  cIdentical : bool; cTotal : Z; cMeta : option (list mfield); cPageCount : bool;
  cPages : list (nat * list pdiff); cMarks : bool; cForm : option formdiff }.

(** compare.go:211-267 ComparePDFsWithOptions after extraction *)
Definition compareDocs {B} (deq : list B -> list B -> bool) (fmt1 : float -> bytes) (all1 all2 : option (list image))
  (iter1 iter2 : nat -> list (bytes * image) -> list (bytes * image)) (o : options) (d1 d2 : document B) : result comparison :=
  let md := compareMetadata o (dMeta d1) (dMeta d2) in
  let sd := negb (length (dPages d1) =? length (dPages d2))%nat in
  match comparePages fmt1 all1 all2 iter1 iter2 o 0 (dPages d1) (dPages d2) with
  | Ok pd =>
      let bd := negb (length (dMarks d1) =? length (dMarks d2))%nat || negb (deq (dMarks d1) (dMarks d2)) in
      let fd := match compareForms (dForm d1) (dForm d2) with
                | Some f => match fdAdded f, fdRemoved f, fdModified f, fdType f with
                            | [], [], [], None => None
                            | _, _, _, _ => Some f
                            end
                | None => None
                end in
      let one (b : bool) := if b then 1 else 0 in
      let total := one (match md with Some _ => true | None => false end) + one sd +
                   fold_right Z.add 0 (map (fun p => Z.of_nat (length (snd p))) pd) + one bd +
                   one (match fd with Some _ => true | None => false end) in
      Ok (mkCmp (total =? 0) total md sd pd bd fd)
  | Err => Err
  | Panic => Panic
  end.
