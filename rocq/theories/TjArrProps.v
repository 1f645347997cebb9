(** C73, text arrays of other programs. *)
From Verif Require Import Util ExtractModel ExtractSpec ExtractProps TjArrSpec TjArrProofs.
Local Open Scope Z_scope.

(** A text array after any history of calls, as other programs write it: with
    nested parentheses in its strings, strings in hex, and numbers anywhere
    between them.  It shows one text, its strings one after the other. *)
Theorem C73_foreign_array_partial : forall fmt parse_float rd one zero decoders cs l,
  number_ok fmt parse_float rd one -> number_ok fmt parse_float rd zero -> Forall (call_ok fmt parse_float rd) cs ->
  Forall piece_ok l -> one_line l ->
  parseContentStream parse_float decoders (content_stream fmt one zero cs ++ array_text l) =
  (seen (texts_seen rd decoders) [] cs ++ [array_seen rd decoders cs l], seen (shapes_seen rd) [] cs, seen (images_seen rd one zero) [] cs).
Proof. exact array_read. Qed.
Print Assumptions C73_foreign_array_partial.

Definition ex_array : list piece := [Literal (bs "a(b(c))d"); Between (bs "-120 "); Hex (bs "4 86"); Hex (bs "9"); Between (bs " 3"); Literal (bs "()")].
Lemma ex_nested : nested (bs "a(b(c))d").
Proof.
  assert (K : forall c, c <> "("%byte -> c <> ")"%byte -> c <> "\"%byte -> nested [c]) by (intros c H1 H2 H3; exact (nested_char c [] H1 H2 H3 nested_nil)).
  apply (nested_char "a"%byte (bs "(b(c))d")); try discriminate. apply (nested_group (bs "b(c)") (bs "d")); [|apply K; discriminate].
  apply (nested_char "b"%byte (bs "(c)")); try discriminate. apply (nested_group (bs "c") []); [apply K; discriminate|apply nested_nil].
Qed.
Example C73_foreign_array_example : Forall piece_ok ex_array /\ one_line ex_array /\
  array_text ex_array = bs "[(a(b(c))d)-120 <4 86><9> 3(())] TJ" ++ nl /\
  map teText (fst (fst (parseContentStream ex_parse None (array_text ex_array)))) = [bs "a(b(c))dH`" ++ [xc2; x90] ++ bs "()"].
Proof.
  split; [|split; [|split; vm_compute; reflexivity]].
  - unfold ex_array. repeat (apply Forall_cons; [cbn [piece_ok]|]); try apply Forall_nil.
    + exact ex_nested.
    + split; intros I; cbn in I; decompose [or] I; discriminate || contradiction.
    + intros I; cbn in I; decompose [or] I; discriminate || contradiction.
    + intros I; cbn in I; decompose [or] I; discriminate || contradiction.
    + split; intros I; cbn in I; decompose [or] I; discriminate || contradiction.
    + apply (nested_group [] []); apply nested_nil.
  - repeat split; try discriminate; intros I; cbn in I; decompose [or] I; discriminate || contradiction.
Qed.
