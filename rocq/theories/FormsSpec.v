(** Small specifications used in the form properties. *)
From Verif Require Import WriterModel ParseModel TextModel FormsModel.
Local Open Scope Z_scope.

(** Flags of ISO 32000-1 tables 221 and 226, by bit (bit 0 is the lowest). *)
Definition read_only_bit : Z := 0.
Definition required_bit : Z := 1.
Definition flag15 : Z := 15.
Definition flag16 : Z := 16.

(** The values a field accepts; [show v] is the text fmt prints for [v]. *)
Definition absent (v : fvalue) : Prop := v = FNil \/ v = FStr [].
Definition check_states : list bytes := [bs "Yes"; bs "On"; bs "Off"; bs "No"].
Definition accepts (a : attrs) (v : fvalue) : Prop :=
  (Z.testbit (aFf a) required_bit = true -> ~ absent v) /\
  (aFT a = bs "Tx" -> 0 < aMaxLen a -> Z.of_nat (length (show v)) <= aMaxLen a) /\
  (aFT a = bs "Ch" -> aOpt a <> [] -> In (show v) (aOpt a)) /\
  (aFT a = bs "Btn" -> Z.testbit (aFf a) flag16 = true -> aOpt a <> [] ->
     In (show v) (aOpt a) \/ (Z.testbit (aFf a) flag15 = true /\ ~ In (show v) check_states)).

(** All the fields of a form in document order (each field before its kids),
    each with the partial names on the path to it. *)
Fixpoint all_below (path : list bytes) (f : field) : list (list bytes * attrs) :=
  match f with
  | Field a ks => (path ++ [aT a], a) :: flat_map (all_below (path ++ [aT a])) ks
  end.
Definition all_fields (fs : list field) : list (list bytes * attrs) := flat_map (all_below []) fs.

(** The full name: the partial names with dots between them; names missing at
    the root are left out. *)
Fixpoint dotted (path : list bytes) : bytes :=
  match path with
  | [] => []
  | [] :: path' => dotted path'
  | _ => join (bs ".") path
  end.
Definition full_name_of (e : list bytes * attrs) : bytes := dotted (fst e).

(** At most two levels. *)
Definition two_levels (fs : list field) : Prop :=
  forall f k, In f fs -> In k (f_kids f) -> f_kids k = [].

(** The first field that has [name] as its full name or as its partial name. *)
Definition has_name (name : bytes) (e : list bytes * attrs) : bool :=
  bytes_eqb (full_name_of e) name || bytes_eqb (aT (snd e)) name.
Definition first_named (fs : list field) (name : bytes) : option (list bytes * attrs) :=
  List.find (has_name name) (all_fields fs).

(** FindFieldByName returns the field [e] (and its parent). *)
Definition found_path (fs : list field) (name : bytes) (e : list bytes * attrs) : Prop :=
  exists f p, FindFieldByName fs name = Some (f, p) /\ f_attrs f = snd e /\ full_name p f = full_name_of e.

(** Valid form data. *)
Definition valid_data (fs : list field) (data : list (bytes * fvalue)) : Prop :=
  (forall name v, In (name, v) data -> exists e, first_named fs name = Some e /\ accepts (snd e) v) /\
  (forall e, In e (all_fields fs) -> Z.testbit (aFf (snd e)) required_bit = true ->
     In (full_name_of e) (map fst data)).

(** Valid data for a schema. *)
Definition valid_answer (matches : bytes -> bytes -> option bool) (parse : bytes -> option Z)
  (q : vquestion) (v : fvalue) : Prop :=
  forall r, vqRules q = Some r ->
    (forall m, rMinLen r = Some m -> m <= Z.of_nat (length (rule_text v))) /\
    (forall m, rMaxLen r = Some m -> Z.of_nat (length (rule_text v)) <= m) /\
    (rPattern r <> [] -> matches (rPattern r) (rule_text v) = Some true) /\
    (vqNumber q = true -> forall x, parse (rule_text v) = Some x ->
       (forall m, rMin r = Some m -> m <= x) /\ (forall m, rMax r = Some m -> x <= m)).
Definition valid_answers matches parse (qs : list vquestion) (data : list (bytes * fvalue)) : Prop :=
  (forall name v, In (name, v) data ->
     exists before q after, qs = before ++ q :: after /\ vqName q = name /\
       (forall q', In q' after -> vqName q' <> name) /\ valid_answer matches parse q v) /\
  (forall q, In q qs -> vqRequired q = true -> In (vqName q) (map fst data)).

(** Histories of flag changes and the last value set. *)
Inductive flag_call := CRequired (b : bool) | CReadOnly (b : bool).
Definition run_flags (d : fielddef) (l : list flag_call) : fielddef :=
  fold_left (fun d c => match c with CRequired b => SetRequired b d | CReadOnly b => SetReadOnly b d end) l d.
Fixpoint last_required (init : bool) (l : list flag_call) : bool :=
  match l with
  | [] => init
  | CRequired b :: l' => last_required b l'
  | _ :: l' => last_required init l'
  end.
Fixpoint last_read_only (init : bool) (l : list flag_call) : bool :=
  match l with
  | [] => init
  | CReadOnly b :: l' => last_read_only b l'
  | _ :: l' => last_read_only init l'
  end.

(** The current values: for each full name that is not empty, the value of the
    last field of that name that has one. *)
Definition valued (name : bytes) (e : list bytes * attrs) : bool :=
  bytes_eqb (full_name_of e) name && match aV (snd e) with FNil => false | _ => true end.
Definition current_value (fs : list field) (name : bytes) : option fvalue :=
  match name with
  | [] => None
  | _ => option_map (fun e => aV (snd e)) (List.find (valued name) (rev (all_fields fs)))
  end.

(* ---------------- building a form ---------------- *)

(** Printable ASCII text without slashes, brackets, parentheses and backslashes. *)
Definition simple_byte (b : byte) : bool :=
  (32 <=? b2n b)%N && (b2n b <=? 126)%N && negb (existsb (beqb b) ["/"; "("; ")"; "\"; "["; "]"]%byte).
Definition simple (s : bytes) : Prop := forallb simple_byte s = true.
Definition numeral (s : bytes) : Prop :=
  s <> [] /\ forallb (fun b => is_digit b || beqb b "." || beqb b "-") s = true.
Definition simple_def (d : fielddef) : Prop :=
  In (dType d) [bs "Tx"; bs "Btn"; bs "Ch"; bs "Sig"] /\
  simple (dName d) /\ simple (formatFieldValue (dValue d) (dType d)) /\
  simple (formatFieldValue (dDefault d) (dType d)) /\
  Forall simple (dOptions d) /\ Forall numeral (dRect d) /\
  0 <= dFlags d < 2 ^ 63 /\ dMaxLen d < 2 ^ 63.
(** What the reader finds in the object made from a definition: values are
    stored as text. *)
Definition stored_value (v : fvalue) (ft : bytes) : fvalue :=
  match v with FNil => FNil | _ => FStr (formatFieldValue v ft) end.
Definition built (n : Z) (d : fielddef) : attrs :=
  mkAttrs n 0 (dType d) (dName d) [] (dFlags d)
    (stored_value (dValue d) (dType d)) (stored_value (dDefault d) (dType d))
    (Z.max 0 (dMaxLen d)) (dOptions d) (if (4 <=? length (dRect d))%nat then firstn 4 (dRect d) else []).
(** The fields made from definitions, numbered from [first]. *)
Fixpoint built_fields (first : Z) (ds : list fielddef) : list field :=
  match ds with
  | [] => []
  | d :: ds' => Field (built first d) [] :: built_fields (first + 1) ds'
  end.
(** A plain writer without outlines, whose objects have numbers given out. *)
Definition plain_writer (w : writer) : Prop :=
  useXRefStream w = false /\ useObjectStream w = false /\ encryptRef w = None /\ outlinesRef w = None /\
  1 <= nextObjNum w /\ forall n, mem n (objects w) = true -> 1 <= n < nextObjNum w.

(** The objects of a stream after some of them have been given new contents. *)
Definition updated (ups : zmap bytes) (objs : list (Z * bytes)) : list (Z * bytes) :=
  map (fun o => (fst o, match mget (fst o) ups with Some c => c | None => snd o end)) objs.

(** Kinds of button, ISO 32000-1 table 226: bit position 16 (index 15) is Radio,
    bit position 17 (index 16) is Pushbutton; neither set is a check box. *)
Inductive button := CheckBox | RadioButton | PushButton.
Definition iso_button (flags : Z) : button :=
  if Z.testbit flags 16 then PushButton else if Z.testbit flags 15 then RadioButton else CheckBox.
