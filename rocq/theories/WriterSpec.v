(** Small specifications used in the writer properties. *)
From Verif Require Import WriterModel.
Local Open Scope Z_scope.

(** A client's calls.  [CDict d] is the creation of a Go map by the caller;
    later calls refer to it by its address, as Go code refers to a map. *)
Inductive call :=
| CDict (d : dict)
| CAdd (content : option bytes)
| CAddStream (a : Z) (data : option bytes) (compress : bool)
| CSet (n : Z) (content : option bytes)
| CSetStream (n a : Z) (data : option bytes) (compress : bool).

(** What a call did: it stored [bytes] under a number; [true] when the writer
    chose the number. *)
Record event := mkEvent { ev_added : bool; ev_num : Z; ev_bytes : option bytes; ev_dict : option Z }.

(** Bytes a stream call stores: compressed when asked and not empty. *)
Definition stored_bytes (deflate : bytes -> bytes) (data : option bytes) (compress : bool) : option bytes :=
  match data with
  | Some (b :: r) => Some (if compress then deflate (b :: r) else b :: r)
  | _ => data
  end.

(** Run one call; the event list has the newest event first. *)
Definition do_call (deflate : bytes -> bytes) (c : call) (w : writer) : result (writer * list event) :=
  match c with
  | CDict d => Ok (set_dicts w (mset (fresh (dicts w)) d (dicts w)), [])
  | CAdd content =>
      let (n, w') := AddObject content w in Ok (w', [mkEvent true n content None])
  | CAddStream a data cmp =>
      match AddStreamObject deflate a data cmp w with
      | Ok (n, w') => Ok (w', [mkEvent true n (stored_bytes deflate data cmp) (Some a)])
      | Err => Err
      | Panic => Panic
      end
  | CSet n content => Ok (SetObject n content w, [mkEvent false n content None])
  | CSetStream n a data cmp =>
      match SetStreamObject deflate n a data cmp w with
      | Ok w' => Ok (w', [mkEvent false n (stored_bytes deflate data cmp) (Some a)])
      | Err => Err
      | Panic => Panic
      end
  end.

Fixpoint do_calls (deflate : bytes -> bytes) (cs : list call) (w : writer) (evs : list event)
  : result (writer * list event) :=
  match cs with
  | [] => Ok (w, evs)
  | c :: cs' =>
      match do_call deflate c w with
      | Ok (w', e) => do_calls deflate cs' w' (e ++ evs)
      | Err => Err
      | Panic => Panic
      end
  end.

(** The bytes most recently stored under [n]. *)
Fixpoint latest (n : Z) (evs : list event) : option bytes :=
  match evs with
  | [] => None
  | e :: evs' => if ev_num e =? n then ev_bytes e else latest n evs'
  end.

(** Every number chosen by the writer differs from all numbers used before. *)
Fixpoint fresh_numbers (evs : list event) : Prop :=
  match evs with
  | [] => True
  | e :: evs' => (ev_added e = true -> ~ In (ev_num e) (map ev_num evs')) /\ fresh_numbers evs'
  end.

(** Length of the stream most recently stored with the map at address [a]. *)
Fixpoint latest_length (a : Z) (evs : list event) : option Z :=
  match evs with
  | [] => None
  | e :: evs' => match ev_dict e with
                 | Some a' => if a' =? a then Some (blen (ev_bytes e)) else latest_length a evs'
                 | None => latest_length a evs'
                 end
  end.

(** [s] occurs in [out] at byte offset [p]. *)
Definition occurs_at (out : bytes) (p : Z) (s : bytes) : Prop :=
  0 <= p /\ prefixb s (skipn (Z.to_nat p) out) = true.

(** Text of the object stored under [n], between its header line and the
    line "endobj": the content, or the dictionary and the stream data. *)
Definition stored_text (w : writer) (n : Z) (t : bytes) : Prop :=
  exists o, mget n (objects w) = Some o /\
  match oStream o, oContent o with
  | None, Some c => t = c
  | None, None => t = []
  | Some s, _ =>
      t = formatDictionary (match oDict o with
                            | Some a => match mget a (dicts w) with Some d => d | None => [] end
                            | None => [] end)
          ++ bs "
stream
" ++ s ++ bs "
endstream"
  end.

(** What the cross-reference table of [out] at offset [x] must be: the header
    for [size] entries, then one 20-byte entry per number.  [live i] says
    whether number [i] is in use; [text i] what its text may be. *)
Definition table_ok (out : bytes) (x size : Z) (live : Z -> bool) (text : Z -> bytes -> Prop) : Prop :=
  let header := bs "xref" ++ nl ++ bs "0 " ++ decZ size ++ nl in
  let entry i := x + Z.of_nat (length header) + 20 * i in
  occurs_at out x header /\
  occurs_at out (entry 0) (bs "0000000000 65535 f " ++ nl) /\
  forall i, 1 <= i < size ->
    if live i
    then exists off t, occurs_at out (entry i) (dec_pad 10 (Z.to_N off) ++ bs " 00000 n " ++ nl) /\
                     length (dec_pad 10 (Z.to_N off)) = 10%nat /\
                     text i t /\
                     occurs_at out off (decZ i ++ bs " 0 obj" ++ nl ++ t ++ nl ++ bs "endobj" ++ nl)
    else occurs_at out (entry i) (bs "0000000000 00001 f " ++ nl).

(** Two dictionaries that differ only in the order in which Go happens to
    iterate over their (distinct) keys, at any depth. *)
Inductive same_value : value -> value -> Prop :=
| sv_refl v : same_value v v
| sv_arr l l' : Forall2 same_value l l' -> same_value (VArr l) (VArr l')
| sv_dict d d1 d' :
    Forall2 (fun a b => fst a = fst b /\ same_value (snd a) (snd b)) d d1 ->
    Permutation d1 d' -> NoDup (map fst d) -> same_value (VDict d) (VDict d').

(** A possible order in which Go ranges over a map: any rearrangement of its keys. *)
Definition is_order (order : list Z -> list Z) : Prop := forall l, Permutation (order l) l.
