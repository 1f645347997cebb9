(** Fonts that name their encoding: theorems of C72. *)
From Verif Require Import Util Scan Utf8 EncodingModel EncodingSpec XPagesModel ManipSpec MarksSpec ResSpec NamedSpec NamedProofs.
Local Open Scope Z_scope.

(** C72.  Text in a font that names WinAnsi, MacRoman or standard encoding,
    itself or through an encoding object that may replace characters, reads as
    that encoding says.  Missing: dictionaries inside the font (refuted below). *)
Theorem C72_named_font_partial : forall inflate get n t nm ok f l, get n = Ok t ->
  contains (bs "/ToUnicode") t = false -> contains (bs "/Differences") t = false ->
  font_encoding get t nm l -> standard_encoding nm ok f ->
  exists d, extractFontDecoder inflate get n = Ok (Some d) /\
    forall s, Forall (char_known l ok f) s -> Decode d s = text_of (map (char_of l f) (byte_codes s)).
Proof. exact named_font. Qed.
Print Assumptions C72_named_font_partial.

Definition nm_font : bytes := bs "5 0 obj" ++ nl ++ bs "<</Type/Font/Subtype/Type1/BaseFont/Foo/Encoding 6 0 R>>" ++ nl ++ bs "endobj".
Definition nm_object : bytes := bs "6 0 obj" ++ nl ++ bs "<</Type/Encoding/BaseEncoding/MacRomanEncoding/Differences [65 /Euro]>>" ++ nl ++ bs "endobj".
Definition nm_get (n : Z) : result bytes := if n =? 5 then Ok nm_font else if n =? 6 then Ok nm_object else Err.
Definition nm_diffs : list (Z * list bytes) := [(65, [bs "Euro"])].
Example C72_named_font_example : nm_get 5 = Ok nm_font /\ contains (bs "/ToUnicode") nm_font = false /\ contains (bs "/Differences") nm_font = false /\
  font_encoding nm_get nm_font (bs "/MacRomanEncoding") nm_diffs /\ standard_encoding (bs "/MacRomanEncoding") mac_bytes mac_roman /\
  Forall (char_known nm_diffs mac_bytes mac_roman) (bs "A" ++ [x8e]) /\ map (char_of nm_diffs mac_roman) (byte_codes (bs "A" ++ [x8e])) = [8364; 233].
Proof.
  split; [reflexivity|]. split; [reflexivity|]. split; [reflexivity|]. split; [|split; [constructor|split]].
  - apply (fe_object nm_get nm_font _ 6 nm_object); [split; [discriminate|reflexivity]| |reflexivity| |].
    + exists (bs "5 0 obj" ++ nl ++ bs "<</Type/Font/Subtype/Type1/BaseFont/Foo"), (bs " "), (bs " 0 R>>" ++ nl ++ bs "endobj").
      repeat split; discriminate.
    + right. exists (bs "6 0 obj" ++ nl ++ bs "<</Type/Encoding"), (bs "MacRomanEncoding"), (bs "/Differences [65 /Euro]>>" ++ nl ++ bs "endobj").
      repeat split; discriminate.
    + exists (bs "6 0 obj" ++ nl ++ bs "<</Type/Encoding/BaseEncoding/MacRomanEncoding"), (bs " "), (bs ">>" ++ nl ++ bs "endobj").
      split; [reflexivity|]. split; [reflexivity|]. split; [cbn; intuition discriminate|]. split.
      * constructor; [|constructor]. split; [split; [discriminate|reflexivity]|]. constructor; [|constructor]. split; [discriminate|reflexivity].
      * vm_compute. intros H. repeat (destruct H as [H|H]; [discriminate H|]). exact H.
  - constructor; [|constructor; [|constructor]]; vm_compute; [split; [discriminate|reflexivity]|reflexivity].
  - vm_compute. reflexivity.
Qed.
(** An encoding dictionary inside the font: its base encoding is not used. *)
Theorem C72_inline_encoding_refuted : exists d,
  extractFontDecoder (fun x => Some x) (fun _ => Ok (bs "<</Type/Font/Subtype/Type1/Encoding <</BaseEncoding /MacRomanEncoding>>>>")) 5 = Ok (Some d) /\
  Decode d [x8e] <> text_of [mac_roman 142].
Proof. exists (SetBaseEncoding (bs "StandardEncoding") NewFontDecoder). vm_compute. split; [reflexivity|discriminate]. Qed.
Print Assumptions C72_inline_encoding_refuted.
(** A font without an encoding reads as standard Latin text. *)
Theorem C72_default_font_partial : forall inflate get n t, get n = Ok t ->
  contains (bs "/ToUnicode") t = false -> contains (bs "/Differences") t = false -> default_encoding t ->
  exists d, extractFontDecoder inflate get n = Ok (Some d) /\
    forall s, forallb standard_bytes s = true -> Decode d s = text_of (map standard_latin (byte_codes s)).
Proof. exact default_font. Qed.
Print Assumptions C72_default_font_partial.
Definition nm_plain : bytes := bs "5 0 obj" ++ nl ++ bs "<</Type/Font/Subtype/Type0/BaseFont/Times-Roman>>" ++ nl ++ bs "endobj".
Example C72_default_font_example : contains (bs "/ToUnicode") nm_plain = false /\ contains (bs "/Differences") nm_plain = false /\
  default_encoding nm_plain /\ forallb standard_bytes (bs "it's") = true /\ map standard_latin (byte_codes (bs "it's")) = [105; 116; 8217; 115].
Proof.
  split; [reflexivity|]. split; [reflexivity|]. split; [|split; vm_compute; reflexivity]. split; [reflexivity|]. right. right.
  exists (bs "Times-Roman"). split; [cbn; tauto|]. right.
  exists (bs "5 0 obj" ++ nl ++ bs "<</Type/Font/Subtype/Type0"), (bs "Times-Roman"), (bs ">>" ++ nl ++ bs "endobj").
  repeat split; discriminate.
Qed.
(** Symbol has an encoding of its own, where "a" is alpha; it is read as Latin. *)
Theorem C72_symbol_refuted : exists d,
  extractFontDecoder (fun x => Some x) (fun _ => Ok (bs "<</Type/Font/Subtype/Type1/BaseFont/Symbol>>")) 5 = Ok (Some d) /\
  Decode d (bs "a") = bs "a" /\ bs "a" <> text_of [945].
Proof. exists (SetBaseEncoding (bs "StandardEncoding") NewFontDecoder). vm_compute. repeat split. discriminate. Qed.
Print Assumptions C72_symbol_refuted.
