(** The fields of a metadata record and the names they go by. *)
From Verif Require Import Base TextModel.

Inductive std_field := MTitle | MAuthor | MSubject | MKeywords | MCreator | MProducer | MCreationDate | MModDate.
Definition std_value (f : std_field) (m : metadata) : bytes :=
  match f with
  | MTitle => mdTitle m | MAuthor => mdAuthor m | MSubject => mdSubject m | MKeywords => mdKeywords m
  | MCreator => mdCreator m | MProducer => mdProducer m | MCreationDate => mdCreationDate m | MModDate => mdModDate m
  end.
Definition std_names (f : std_field) : list bytes :=
  match f with
  | MTitle => [bs "title"] | MAuthor => [bs "author"] | MSubject => [bs "subject"] | MKeywords => [bs "keywords"]
  | MCreator => [bs "creator"] | MProducer => [bs "producer"]
  | MCreationDate => [bs "creationdate"; bs "creation_date"] | MModDate => [bs "moddate"; bs "mod_date"]
  end.

(** The same letter, small or capital. *)
Definition capital_of (a b : byte) : Prop := (97 <= b2n b <= 122)%N /\ (b2n a + 32 = b2n b)%N.
Definition same_letter (a b : byte) : Prop := a = b \/ capital_of a b.
(** [k] is one of the names of [f], in any mixture of small and capital letters. *)
Definition means (f : std_field) (k : bytes) : Prop := exists n, In n (std_names f) /\ Forall2 same_letter k n.
Definition ascii (k : bytes) : Prop := Forall (fun b => (b2n b < 128)%N) k.

(** What a record made of [fields] has to contain. *)
Definition record_of (fields : list (bytes * bytes)) (m : metadata) : Prop :=
  (forall f k v, In (k, v) fields -> means f k ->
     (forall k' v', In (k', v') fields -> means f k' -> (k', v') = (k, v)) -> std_value f m = v) /\
  (forall f, (forall k v, In (k, v) fields -> ~ means f k) -> std_value f m = []) /\
  (forall f, std_value f m = [] \/ exists k, In (k, std_value f m) fields /\ means f k) /\
  (forall k v, In (k, v) (mdCustom m) <-> In (k, v) fields /\ forall f, ~ means f k) /\
  NoDup (map fst (mdCustom m)).
