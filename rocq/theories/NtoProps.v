(** Fonts with a ToUnicode map: a theorem of C48. *)
From Verif Require Import Util Scan Utf8 EncodingModel EncodingSpec EncodingProps XPagesModel ManipSpec MarksSpec ResSpec NtoSpec NtoProofs.
Local Open Scope Z_scope.

(** C48.  Text in a font whose ToUnicode stream holds a map of characters and
    ranges reads as the map says.  Missing: maps with arrays, encoding objects. *)
Theorem C48_font_cmap_partial : forall inflate get n t e x w ss tail, get n = Ok t -> simple_encoding t ->
  0 <= e < 2 ^ 63 -> says t (bs "/ToUnicode") (decZ e) -> get e = Ok x -> stream_shows inflate x (cmap_text w ss tail) ->
  Forall (fun s => quiet (fst s)) ss -> Forall (fun s => section_fits (snd s)) ss ->
  contains (bs "beginbfchar") tail = false -> contains (bs "beginbfrange") tail = false ->
  exists d, extractFontDecoder inflate get n = Ok (Some d) /\
    forall s us, Forall2 (fun b u => cmap_char ss (b2n b) = Some u) s us -> Forall is_char (map Z.of_N us) -> Decode d s = text_of (map Z.of_N us).
Proof. exact cmap_font. Qed.
Print Assumptions C48_font_cmap_partial.

Definition nt_font : bytes := bs "<</Type/Font/Subtype/Type1/BaseFont/Foo/Encoding/WinAnsiEncoding/ToUnicode 6 0 R>>".
Definition nt_cmap : bytes := cmap_text 2 ex_sections [].
Definition nt_stream : bytes := bs "6 0 obj <</Length 90>>" ++ nl ++ bs "stream" ++ [x0d; x0a] ++ nt_cmap ++ bs "endstream" ++ nl ++ bs "endobj".
Definition nt_get (n : Z) : result bytes := if n =? 5 then Ok nt_font else if n =? 6 then Ok nt_stream else Err.
Example C48_font_cmap_example : nt_get 5 = Ok nt_font /\ simple_encoding nt_font /\ says nt_font (bs "/ToUnicode") (decZ 6) /\ nt_get 6 = Ok nt_stream /\
  stream_shows (fun _ => None) nt_stream nt_cmap /\ Forall2 (fun b u => cmap_char ex_sections (b2n b) = Some u) [x01; x02; x11] [65; 8364; 98]%N /\
  Forall is_char (map Z.of_N [65; 8364; 98]%N).
Proof.
  split; [reflexivity|]. split; [|split; [|split; [reflexivity|split; [|split]]]].
  - right. exists (bs "WinAnsiEncoding"). right. exists (bs "<</Type/Font/Subtype/Type1/BaseFont/Foo"), (bs "WinAnsiEncoding"), (bs "/ToUnicode 6 0 R>>").
    repeat split; discriminate.
  - exists (bs "<</Type/Font/Subtype/Type1/BaseFont/Foo/Encoding/WinAnsiEncoding"), (bs " "), (bs " 0 R>>"). repeat split; discriminate.
  - exists (bs "6 0 obj <</Length 90>>" ++ nl), [x0d; x0a], nt_cmap, (nl ++ bs "endobj").
    split; [reflexivity|]. split; [right; reflexivity|]. split; [apply nostartb_ok; vm_compute; reflexivity|].
    split; [apply nostartb_ok; vm_compute; reflexivity|]. split; reflexivity.
  - repeat constructor.
  - repeat constructor; discriminate.
Qed.
