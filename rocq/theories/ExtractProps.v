(** Reading a page's content: the theorems of C73. *)
From Verif Require Import Util Scan Utf8 TextProofs ExtractModel ExtractSpec ExtractProofs ExtractProofs2 ExtractProofs3 ExtractProofs4.
Local Open Scope Z_scope.

(* ---------------------------------------------------------------- *)
(** C73.  For every history of content stream calls, every text that was shown,
    every rectangle, line and image is read back, in order, with the font, the
    position, the spacing, the colours and the matrix in force at the call. *)
Theorem C73_extract_partial : forall fmt parse_float rd one zero decoders cs,
  number_ok fmt parse_float rd one -> number_ok fmt parse_float rd zero -> Forall (call_ok fmt parse_float rd) cs ->
  parseContentStream parse_float decoders (content_stream fmt one zero cs) =
  (seen (texts_seen rd decoders) [] cs, seen (shapes_seen rd) [] cs, seen (images_seen rd one zero) [] cs).
Proof. exact extract_calls. Qed.
Print Assumptions C73_extract_partial.
(** The texts alone. *)
Theorem C73_texts : forall fmt parse_float rd one zero decoders cs,
  number_ok fmt parse_float rd one -> number_ok fmt parse_float rd zero -> Forall (call_ok fmt parse_float rd) cs ->
  map teText (fst (fst (parseContentStream parse_float decoders (content_stream fmt one zero cs)))) =
  seen (fun before c => match text_shown decoders before c with Some t => [t] | None => [] end) [] cs.
Proof. exact texts_calls. Qed.
Print Assumptions C73_texts.

(** Numbers for the examples. *)
Definition ex_numbers : list (bytes * float) :=
  map (fun z => (decZ z ++ bs ".0000", fint z)) [0; 1; 5; 12; 100; 700].
Definition ex_parse (s : bytes) : option float := kget s ex_numbers.
Definition ex_fmt (x : float) : bytes :=
  match List.find (fun p => SFeqb (snd p) x) ex_numbers with Some (s, _) => s | None => bs "?" end.
Definition f0 := fint 0. Definition f1 := fint 1. Definition f5 := fint 5. Definition f12' := fint 12. Definition f100 := fint 100. Definition f700 := fint 700.
Definition ex_ok := call_ok ex_fmt ex_parse (fun x => x).
Definition ex_read (cs : list (ccall float)) := parseContentStream ex_parse None (content_stream ex_fmt f1 f0 cs).
Definition ex_calls : list (ccall float) :=
  [SaveState _; SetFillColorRGB _ f1 f0 f0; Rectangle _ f100 f700 f5 f12'; Fill _; RestoreState _;
   BeginText _; SetFont _ (bs "/F1") f12'; SetTextPosition _ f100 f700; ShowText _ (bs "Hello (world"); SetTextRenderMode _ 3;
   ShowTextArray _ [TJText _ (bs "A"); TJInt _ (-120); TJText _ (bs "(W)")]; SetTextPosition _ f0 f5; ShowTextHex _ (bs "48 69"); EndText _;
   SetLineDash _ [f5; f1] f0; MoveTo _ f0 f0; LineTo _ f5 f5; Stroke _; DrawImageAt _ (bs "/Im1") f100 f700 f5 f12'; DrawImage _ (bs "/Im2")].
Lemma ex_good : Forall (number_ok ex_fmt ex_parse (fun x => x)) [f0; f1; f5; f12'; f100; f700].
Proof. repeat (apply Forall_cons; [vm_compute; repeat split; discriminate|]). apply Forall_nil. Qed.
Example C73_example : number_ok ex_fmt ex_parse (fun x => x) f1 /\ number_ok ex_fmt ex_parse (fun x => x) f0 /\ Forall ex_ok ex_calls /\
  map teText (fst (fst (ex_read ex_calls))) = [bs "Hello (world"; bs "A(W)"; bs "Hi"] /\
  map teX (fst (fst (ex_read ex_calls))) = [f100; f100; f100] /\ map teY (fst (fst (ex_read ex_calls))) = [f700; f700; fint 705] /\
  snd (fst (ex_read ex_calls)) = [GRect (f1, f0, f0) (f0, f0, f0) f1 f100 f700 (fint 105) (fint 712); GLine (f0, f0, f0) f1] /\
  map imgID (snd (ex_read ex_calls)) = [bs "/Im1"; bs "/Im2"].
Proof.
  pose proof ex_good as G. rewrite Forall_forall in G.
  split; [apply G; cbn; tauto|]. split; [apply G; cbn; tauto|]. split.
  - unfold ex_calls, ex_ok. repeat (apply Forall_cons; [|]); try apply Forall_nil; cbn [call_ok].
    all: repeat match goal with
      | |- True => exact I
      | |- _ /\ _ => split
      | |- Forall _ _ => first [apply Forall_nil | apply Forall_cons]
      | |- number_ok _ _ _ _ => apply G; cbn; tauto
      | |- elem_ok _ _ _ _ => cbn [elem_ok]
      | |- resource_ok _ => eexists; split; [reflexivity|reflexivity]
      | |- string_ok _ => unfold string_ok
      | |- valid_utf8 ?s => exists (map b2n s); split; reflexivity
      | |- ~ In _ _ => intros Hi; cbn in Hi; decompose [or] Hi; try discriminate; contradiction
      | |- _ <> _ => discriminate
      | |- _ = true => reflexivity
      end.
  - vm_compute. repeat split.
Qed.

(* ---------------------------------------------------------------- *)
(** What is missing. *)
(** A closing parenthesis in a string: the text is not read at all. *)
Theorem C73_parenthesis_refuted : exists cs, In (ShowText _ (bs "a)")) cs /\ fst (fst (ex_read cs)) = [].
Proof. exists [BeginText _; SetFont _ (bs "/F1") f12'; ShowText _ (bs "a)"); EndText _]. vm_compute. split; [tauto|reflexivity]. Qed.
Print Assumptions C73_parenthesis_refuted.
(** A closing bracket in a string of an array: likewise. *)
Theorem C73_bracket_refuted : exists cs, In (ShowTextArray _ [TJText _ (bs "[1]")]) cs /\ fst (fst (ex_read cs)) = [].
Proof. exists [BeginText _; SetFont _ (bs "/F1") f12'; ShowTextArray _ [TJText _ (bs "[1]")]; EndText _]. vm_compute. split; [tauto|reflexivity]. Qed.
Print Assumptions C73_bracket_refuted.
(** Operators that share a line: only the first of them counts. *)
Theorem C73_one_line_refuted :
  parseContentStream ex_parse None (bs "BT /F1 12.0000 Tf 100.0000 700.0000 Td (Hi) Tj ET") = ([], [], []) /\
  map teText (fst (fst (parseContentStream ex_parse None (bs "BT" ++ nl ++ bs "/F1 12.0000 Tf" ++ nl ++ bs "100.0000 700.0000 Td" ++ nl ++ bs "(Hi) Tj" ++ nl ++ bs "ET")))) = [bs "Hi"].
Proof. vm_compute. split; reflexivity. Qed.
Print Assumptions C73_one_line_refuted.
(** A second text object starts at the origin, but its positions are added to
    those of the first. *)
Definition block (s : bytes) : list (ccall float) := [BeginText _; SetTextPosition _ f100 f700; ShowText _ s; EndText _].
Theorem C73_second_block_refuted :
  map (fun t => (teText t, teX t, teY t)) (fst (fst (ex_read (block (bs "a") ++ block (bs "b"))))) =
  [(bs "a", fint 100, fint 700); (bs "b", fint 200, fint 1400)].
Proof. vm_compute. reflexivity. Qed.
Print Assumptions C73_second_block_refuted.
(** Matrices multiply, but the last one replaces the others: moving by 100 and
    then by 5 draws at 5. *)
Theorem C73_matrix_refuted :
  map imgX (snd (ex_read [Translate _ f100 f0; Translate _ f5 f0; DrawImage _ (bs "/Im1")])) = [f5].
Proof. vm_compute. reflexivity. Qed.
Print Assumptions C73_matrix_refuted.
(** Restoring the graphics state keeps the colours and the line width. *)
Theorem C73_restore_refuted :
  snd (fst (ex_read [SaveState _; SetLineWidth _ f5; SetStrokeColorRGB _ f1 f0 f0; RestoreState _; LineTo _ f5 f5])) = [GLine (f1, f0, f0) f5] /\
  snd (fst (ex_read [LineTo _ f5 f5])) = [GLine (f0, f0, f0) f1].
Proof. vm_compute. split; reflexivity. Qed.
Print Assumptions C73_restore_refuted.
(** White set as a gray level is read as black. *)
Theorem C73_gray_refuted : forall x, number_ok ex_fmt ex_parse (fun x => x) x ->
  snd (fst (ex_read [SetFillColorGray _ x; Rectangle _ f0 f0 f5 f5])) = [GRect (f0, f0, f0) (f0, f0, f0) f1 f0 f0 f5 f5].
Proof.
  intros x H. unfold ex_read. rewrite (extract_calls ex_fmt ex_parse (fun x => x)).
  - reflexivity.
  - pose proof ex_good as G. rewrite Forall_forall in G. apply G; cbn; tauto.
  - pose proof ex_good as G. rewrite Forall_forall in G. apply G; cbn; tauto.
  - pose proof ex_good as G. rewrite Forall_forall in G. apply Forall_cons; [exact H|]. apply Forall_cons; [|apply Forall_nil]. cbn [call_ok].
    repeat (apply Forall_cons; [apply G; cbn; tauto|]). apply Forall_nil.
Qed.
Print Assumptions C73_gray_refuted.
(** Next-line operators: [T*] and [TD] do not move, and ['] shows its text on
    the line before. *)
Theorem C73_next_line_refuted :
  map teY (fst (fst (ex_read [SetTextPosition _ f100 f700; SetTextLeading _ f12'; ShowText _ (bs "a"); NextLine _; ShowText _ (bs "b")]))) = [f700; f700] /\
  map teY (fst (fst (ex_read [SetTextPosition _ f100 f700; SetTextLeading _ f12'; ShowText _ (bs "a"); ShowTextNextLine _ (bs "b")]))) = [f700; f700] /\
  map teY (fst (fst (ex_read [SetTextPosition _ f100 f700; MoveTextPosition _ f0 f12'; ShowText _ (bs "a")]))) = [f700].
Proof. vm_compute. repeat split. Qed.
Print Assumptions C73_next_line_refuted.
