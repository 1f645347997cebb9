(** Property theorems: metadata from named fields (C118). *)
From Verif Require Import Base Util DatasetsModel TextModel MdFldModel MdFldSpec MdFldProofs.
Local Open Scope Z_scope.

(** [fields] is a Go map in any iteration order; its keys are ASCII. *)
Theorem C118_fields_partial : forall fields, NoDup (map fst fields) -> Forall (fun kv => ascii (fst kv)) fields ->
  record_of fields (NewMetadataFromFields fields).
Proof. exact fields_ok. Qed.
Print Assumptions C118_fields_partial.

(** Two names of one field: the iteration order decides. *)
Theorem C118_two_names_refuted :
  let a := (bs "Title", bs "One") in let b := (bs "title", bs "Two") in
  mdTitle (NewMetadataFromFields [a; b]) = bs "Two" /\ mdTitle (NewMetadataFromFields [b; a]) = bs "One" /\
  mdCustom (NewMetadataFromFields [a; b]) = [].
Proof. vm_compute. repeat split. Qed.
Print Assumptions C118_two_names_refuted.
(** A custom name with a letter outside ASCII: "T", a capital I with a dot,
    "tle" is taken for the title. *)
Theorem C118_other_letters_refuted :
  let k := bs "T" ++ [xc4; xb0] ++ bs "tle" in
  ~ means MTitle k /\ NewMetadataFromFields [(k, bs "x")] = mkMeta (bs "x") [] [] [] [] [] [] [] [].
Proof.
  cbv zeta. split; [|vm_compute; reflexivity]. intros (n & [<-|[]] & H).
  assert (L : forall k n, Forall2 same_letter k n -> length k = length n) by (induction 1; cbn; congruence).
  apply L in H. discriminate.
Qed.
Print Assumptions C118_other_letters_refuted.
Example C118_example :
  let fields := [(bs "KeyWords", bs "a, b"); (bs "Department", bs "Sales"); (bs "creation_date", bs "D:20240101"); (bs "TITLE", bs "Report")] in
  NoDup (map fst fields) /\ Forall (fun kv => ascii (fst kv)) fields /\
  means MKeywords (bs "KeyWords") /\ (forall f, ~ means f (bs "Department")) /\
  NewMetadataFromFields fields = mkMeta (bs "Report") [] [] (bs "a, b") [] [] (bs "D:20240101") [] [(bs "Department", bs "Sales")].
Proof.
  cbv zeta.
  assert (A : forall k, forallb (fun b => (b2n b <? 128)%N) k = true -> ascii k).
  { intros k H. apply Forall_forall. intros b Hb. rewrite forallb_forall in H. apply N.ltb_lt, H, Hb. }
  split; [repeat constructor; cbn; intuition discriminate|]. split; [repeat constructor; apply A; reflexivity|].
  split; [apply (means_slot MKeywords); [apply A; reflexivity|reflexivity]|].
  split; [|vm_compute; reflexivity]. intros f H. apply (means_slot f) in H; [discriminate|apply A; reflexivity].
Qed.
