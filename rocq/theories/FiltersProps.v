(** Property theorems for the stream filters (core/parse/filters.go). *)
From Verif Require Import FiltersModel FiltersSpec FiltersProofs.
Local Open Scope N_scope.

(** C01 *)
Theorem C01_hex_roundtrip : forall d, DecodeASCIIHex (EncodeASCIIHex d) = Ok d.
Proof. intros d. rewrite <- (app_nil_r (EncodeASCIIHex d)). exact (hex_roundtrip d []). Qed.
Print Assumptions C01_hex_roundtrip.

(** White space anywhere in the encoded text and anything after it. *)
Theorem C01_hex_whitespace_and_trailer : forall d t junk,
  ws_insert (EncodeASCIIHex d) t -> DecodeASCIIHex (t ++ junk) = Ok d.
Proof. exact hex_ws_roundtrip. Qed.
Print Assumptions C01_hex_whitespace_and_trailer.

(** White space never matters, for any text, encoded by this library or not. *)
Theorem C01_hex_whitespace_any : forall s t, ws_insert s t -> DecodeASCIIHex t = DecodeASCIIHex s.
Proof. exact hex_whitespace. Qed.
Print Assumptions C01_hex_whitespace_any.

Example C01_example :
  EncodeASCIIHex [x00; xff; x7a] = bs "00FF7A>" /\
  ws_insert (bs "00FF7A>") (bs " 0 0F F7 A >") /\
  DecodeASCIIHex (bs " 0 0F F7 A >>>trash") = Ok [x00; xff; x7a].
Proof.
  split; [vm_compute; reflexivity|]. split; [|vm_compute; reflexivity].
  repeat (first [apply wsi_nil | apply wsi_keep | apply wsi_ws; [reflexivity|]]).
Qed.

(** C02 *)
Theorem C02_a85_roundtrip : forall d, DecodeASCII85 (EncodeASCII85 d) = Ok d.
Proof. intros d. rewrite <- (app_nil_r (EncodeASCII85 d)). exact (a85_roundtrip d []). Qed.
Print Assumptions C02_a85_roundtrip.

Theorem C02_a85_trailer : forall d junk, DecodeASCII85 (EncodeASCII85 d ++ junk) = Ok d.
Proof. exact a85_roundtrip. Qed.
Print Assumptions C02_a85_trailer.

Example C02_example :
  EncodeASCII85 [x00; x00; x00; x00; xff; xff; xff; xff; x41; x42] = bs "<~zs8W-!5sb~>" /\
  DecodeASCII85 (bs "<~z s8W-!5sb~>x") = Ok [x00; x00; x00; x00; xff; xff; xff; xff; x41; x42].
Proof. split; vm_compute; reflexivity. Qed.

(** C03 *)
Theorem C03_rl_roundtrip : forall d junk, DecodeRunLength (EncodeRunLength d ++ junk) = Ok d.
Proof. exact rl_roundtrip. Qed.
Print Assumptions C03_rl_roundtrip.

Theorem C03_rl_size : forall d,
  (length (EncodeRunLength d) <= length d + (length d + 2) / 3 + 1)%nat.
Proof. exact rl_size. Qed.
Print Assumptions C03_rl_size.

(** The size bound is attained. *)
Example C03_example :
  EncodeRunLength (bs "abbcdd") = [x00; "a"; xff; "b"; x00; "c"; xff; "d"; x80]%byte /\
  length (EncodeRunLength (bs "abbcdde")) = (length (bs "abbcdde") + (7 + 2) / 3 + 1)%nat.
Proof. split; vm_compute; reflexivity. Qed.

(** C04: the decoders accept exactly the texts of their format, with the
    specified meaning, and never panic. *)
Theorem C04_hex_exact : forall s,
  DecodeASCIIHex s = match hex_pairs (hex_body s) with Some d => Ok d | None => Err end.
Proof. exact DecodeASCIIHex_spec. Qed.
Print Assumptions C04_hex_exact.

(** An illegal character before the marker is always an error. *)
Theorem C04_hex_illegal : forall a b t,
  ~ In ">"%byte a -> is_ws b = false -> b2n b <> 62 -> hex_value b = None ->
  DecodeASCIIHex (a ++ b :: t) = Err.
Proof. intros a b t. exact (hex_bad_char _ a b t eq_refl). Qed.
Print Assumptions C04_hex_illegal.

Theorem C04_a85_exact_partial : forall s,
  DecodeASCII85 s =
  match a85_body s with
  | Some body => match a85_groups body with Some d => Ok d | None => Err end
  | None => Err
  end.
Proof. exact DecodeASCII85_spec. Qed.
Print Assumptions C04_a85_exact_partial.

(** What C04 asks and the code does not do: a group above 2^32-1 is illegal
    ASCII85 but is decoded to wrapped bytes without an error. *)
Theorem C04_a85_overflow_refuted :
  exists s d, DecodeASCII85 s = Ok d /\
    exists c1 c2 c3 c4 c5 r, s = [c1; c2; c3; c4; c5] ++ r /\
      2 ^ 32 <= (b2n c1 - 33) * 85 ^ 4 + (b2n c2 - 33) * 85 ^ 3 + (b2n c3 - 33) * 85 ^ 2
                + (b2n c4 - 33) * 85 + (b2n c5 - 33) /\
      Forall (fun c => 33 <= b2n c <= 117) [c1; c2; c3; c4; c5].
Proof. exact a85_overflow_accepted. Qed.
Print Assumptions C04_a85_overflow_refuted.

Theorem C04_rl_exact : forall data d,
  DecodeRunLength data = Ok d <-> exists rs, rl_text data rs /\ d = flat_map run_data rs.
Proof. exact rl_decode_iff. Qed.
Print Assumptions C04_rl_exact.

Theorem C04_rl_error_exact : forall data,
  DecodeRunLength data = Err <-> forall rs, ~ rl_text data rs.
Proof. exact rl_iff_err. Qed.
Print Assumptions C04_rl_error_exact.

Theorem C04_no_panic : forall s,
  DecodeASCIIHex s <> Panic /\ DecodeASCII85 s <> Panic /\ DecodeRunLength s <> Panic.
Proof. intros s. exact (conj (hex_no_panic s) (conj (a85_no_panic s) (rl_decode_no_panic s))). Qed.
Print Assumptions C04_no_panic.

Example C04_example :
  DecodeASCIIHex (bs "4G>") = Err /\ DecodeASCIIHex (bs "4>") = Ok ["@"%byte] /\
  DecodeASCII85 (bs "<~abz~>") = Err /\ DecodeASCII85 (bs "<~ab~cd~>") = Err /\
  DecodeRunLength [x05; x41] = Err /\ DecodeRunLength [xff] = Err /\
  rl_text [x01; x41; x42; xfe; x43; x80; x99] [Literal [x41; x42]; Repeat 3 x43].
Proof.
  repeat split; try (vm_compute; reflexivity). right. exists [x99]. vm_compute. reflexivity.
Qed.

(** C05 *)
Theorem C05_slash_optional : forall flate data n,
  prefixb (bs "/") n = false ->
  DecodeFilter flate data (bs "/" ++ n) = DecodeFilter flate data n.
Proof. exact filter_slash. Qed.
Print Assumptions C05_slash_optional.

Theorem C05_dispatch : forall flate data,
  DecodeFilter flate data (bs "FlateDecode") = flate data /\
  DecodeFilter flate data (bs "ASCIIHexDecode") = DecodeASCIIHex data /\
  DecodeFilter flate data (bs "ASCII85Decode") = DecodeASCII85 data /\
  DecodeFilter flate data (bs "RunLengthDecode") = DecodeRunLength data /\
  DecodeFilter flate data (bs "DCTDecode") = DecodeDCTDecode data.
Proof. exact filter_dispatch. Qed.
Print Assumptions C05_dispatch.

Theorem C05_unknown_rejected : forall flate data n,
  ~ In n (map bs ["FlateDecode"; "/FlateDecode"; "ASCIIHexDecode"; "/ASCIIHexDecode";
                  "ASCII85Decode"; "/ASCII85Decode"; "RunLengthDecode"; "/RunLengthDecode";
                  "DCTDecode"; "/DCTDecode"]%string) ->
  DecodeFilter flate data n = Err.
Proof. exact filter_reject. Qed.
Print Assumptions C05_unknown_rejected.

Theorem C05_jpeg_passthrough : forall data,
  DecodeDCTDecode data = (if prefixb [xff; xd8] data then Ok data else Err) /\
  EncodeDCTDecode data = DecodeDCTDecode data.
Proof. exact dct_passthrough. Qed.
Print Assumptions C05_jpeg_passthrough.

Example C05_example :
  prefixb (bs "/") (bs "DCTDecode") = false /\
  DecodeFilter (fun _ => Err) [xff; xd8; xff] (bs "/DCTDecode") = Ok [xff; xd8; xff] /\
  DecodeFilter (fun _ => Err) [xff; xd8; xff] (bs "LZWDecode") = Err.
Proof. repeat split; vm_compute; reflexivity. Qed.
