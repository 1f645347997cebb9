(** Proofs about images.go and directory.go. *)
From Verif Require Import Scan ReadProofs MarksModel MarksSpec ManipSpec ManipProofs ManipProofs2 ManipProofs3 PageModel PageSpec WriterSpec
  XPagesSpec XPagesProofs XPagesProofs2 XPagesProofs3 XrefProofs ParseSpec MarksProofs PageProofs2 PageProofs3.
From Coq Require Import Lia ZArith.
Local Open Scope Z_scope.

(* -------------------- the data of an image -------------------- *)
Lemma length_found a g z b : 0 <= z < 2 ^ 63 -> contains (bs "/Length") a = false -> gap g -> starts_with is_digit b = false ->
  value_of (find (m_key (bs "/Length")) (a ++ bs "/Length" ++ g ++ decZ z ++ b)) = Some (decZ z).
Proof.
  intros Hz Ha Hg Hb.
  assert (K : ManipSpec.key_name (bs "/Length")) by exact (key_of (bs "Length") eq_refl).
  assert (F : m_key (bs "/Length") (bs "/Length" ++ g ++ decZ z ++ b) = Some (decZ z)).
  { unfold m_key. rewrite lit_app. cbn [obind Util.obind]. rewrite ws1_gap; [|exact Hg|].
    - cbn [obind Util.obind]. unfold digits1.
      assert (T : take_while is_digit (decZ z ++ b) = decZ z /\ drop_while is_digit (decZ z ++ b) = b).
      { pose proof (decZ_digits z (proj1 Hz)) as D. clear - D Hb. induction (decZ z) as [|c d IH].
        - cbn [app]. destruct b as [|x b]; [split; reflexivity|]. cbn [starts_with] in Hb. cbn [take_while drop_while]. rewrite Hb. split; reflexivity.
        - cbn [forallb] in D. apply andb_true_iff in D. destruct D as [D1 D2]. cbn [app take_while drop_while]. rewrite D1. destruct (IH D2) as [-> ->]. split; reflexivity. }
      destruct T as [-> ->]. pose proof (ManipProofs2.decZ_nonnil z). destruct (decZ z); [contradiction|reflexivity].
    - pose proof (decZ_digits z (proj1 Hz)) as D. pose proof (ManipProofs2.decZ_nonnil z). destruct (decZ z) as [|c d]; [contradiction|].
      cbn [forallb] in D. apply andb_true_iff in D. destruct D as [D1 _]. cbn [app starts_with]. destruct c; try reflexivity; discriminate. }
  unfold value_of. rewrite (find_app (m_key (bs "/Length")) a).
  - rewrite (find_at0 _ _ _ F). reflexivity.
  - intros j Hj. apply m_key_lit, before_key; [discriminate|exact Ha|apply stopper_key; exact K|exact Hj].
Qed.
Lemma eol_skip x e data rest : end_of_line e data -> data <> [] ->
  skip_one_eol (x ++ e ++ data ++ rest) (length x) = (length x + length e)%nat.
Proof.
  intros He Hd. unfold skip_one_eol.
  assert (N : forall k, nth_error (x ++ e ++ data ++ rest) (length x + k) = nth_error (e ++ data ++ rest) k).
  { intros k. rewrite nth_error_app2 by lia. f_equal. lia. }
  pose proof (N 0%nat) as N0. rewrite Nat.add_0_r in N0.
  pose proof (N 1%nat) as N1. replace (length x + 1)%nat with (S (length x)) in N1 by lia.
  destruct He as [->|[->|[-> Hs]]].
  - change (nth_error ([x0a] ++ data ++ rest) 0) with (Some x0a) in N0. rewrite N0. change (beqb x0a x0d) with false. cbv iota. rewrite N0.
    rewrite beqb_refl. cbn [length]. lia.
  - change (nth_error ([x0d; x0a] ++ data ++ rest) 0) with (Some x0d) in N0. change (nth_error ([x0d; x0a] ++ data ++ rest) 1) with (Some x0a) in N1.
    rewrite N0, beqb_refl, N1, beqb_refl. cbn [length]. lia.
  - change (nth_error ([x0d] ++ data ++ rest) 0) with (Some x0d) in N0.
    destruct data as [|c data]; [congruence|]. change (nth_error ([x0d] ++ (c :: data) ++ rest) 1) with (Some c) in N1.
    rewrite N0, beqb_refl, N1. cbn [starts_with] in Hs. rewrite beqb_sym in Hs. rewrite Hs. cbn [length]. lia.
Qed.
Lemma image_data_found t data : image_stream_of t data -> image_stream t = Ok data.
Proof.
  intros (d & e & rest & Et & (x & c & Ed & Hc & Hx) & He & Hne & Hlen & a & g & b & Ed2 & Ha & Hg & Hb).
  unfold image_stream.
  assert (Nd : nostart (bs "stream") d).
  { rewrite Ed. apply nostart_sep; [exact Hx| |discriminate]. intros Hi. cbn in Hi. destruct Hi as [<-|[<-|[<-|[<-|[<-|[<-|[]]]]]]]; discriminate Hc. }
  rewrite Et at 1. rewrite (index_at _ _ _ Nd).
  assert (F : firstn (length d) t = d) by (rewrite Et, firstn_app, firstn_all, Nat.sub_diag; cbn [firstn]; apply app_nil_r). rewrite F.
  assert (L : flen t = flen d + 6 + flen e + flen data + flen rest).
  { rewrite Et. unfold flen. rewrite !app_length. change (length (bs "stream")) with 6%nat. lia. }
  unfold flen in *.
  assert (Hpos : 0 < Z.of_nat (length data)) by (destruct data; [congruence|cbn [length]; lia]).
  assert (V : value_of (find (m_key (bs "/Length")) d) = Some (decZ (Z.of_nat (length data)))).
  { rewrite Ed2. apply length_found; try assumption; lia. }
  rewrite V. rewrite atoi_clip_decZ by lia.
  assert (S : skip_one_eol t (length d + 6) = (length d + 6 + length e)%nat).
  { rewrite Et. replace (d ++ bs "stream" ++ e ++ data ++ rest) with ((d ++ bs "stream") ++ e ++ data ++ rest) by (rewrite <- app_assoc; reflexivity).
    replace (length d + 6)%nat with (length (d ++ bs "stream")) by (rewrite app_length; reflexivity). apply eol_skip; assumption. }
  rewrite S.
  assert (W : wrap64 (Z.of_nat (length d + 6 + length e) + Z.of_nat (length data)) = Z.of_nat (length d + 6 + length e) + Z.of_nat (length data)).
  { unfold wrap64. rewrite Z.mod_small by lia. lia. }
  rewrite W. replace (0 <? Z.of_nat (length data)) with true by (symmetry; apply Z.ltb_lt; lia).
  match goal with |- context [?u <=? ?v] => replace (u <=? v) with true by (symmetry; apply Z.leb_le; lia) end. cbn [andb].
  match goal with |- context [?u <? ?v] => replace (u <? v) with false by (symmetry; apply Z.ltb_ge; lia) end.
  f_equal. rewrite Nat2Z.id. rewrite Et.
  replace (d ++ bs "stream" ++ e ++ data ++ rest) with ((d ++ bs "stream" ++ e) ++ data ++ rest) by (rewrite <- !app_assoc; reflexivity).
  replace (length d + 6 + length e)%nat with (length (d ++ bs "stream" ++ e)) by (rewrite !app_length; change (length (bs "stream")) with 6%nat; lia).
  rewrite WriterProofs.skipn_app_exact. apply firstn_app_all.
Qed.

Lemma int_says t key z : ManipSpec.key_name key -> 0 <= z < 2 ^ 63 -> says t key (decZ z) -> int_value t key = z.
Proof.
  intros Hk Hz H. unfold int_value. rewrite (says_value t key _ Hk H). destruct (number_text_some z) as (c & r & E). rewrite E. rewrite <- E.
  rewrite atoi_decZ by exact Hz. reflexivity.
Qed.
Section images.
Context (inflate : bytes -> option bytes) (get : Z -> result bytes).
Lemma image_read n t data filter fmt w h cs bits : get n = Ok t -> image_stream_of t data ->
  says t (bs "/Filter") filter -> In (filter, fmt) filter_formats -> says t (bs "/Width") (decZ w) -> says t (bs "/Height") (decZ h) ->
  says t (bs "/ColorSpace") cs -> says t (bs "/BitsPerComponent") (decZ bits) -> 0 <= w < 2 ^ 63 -> 0 <= h < 2 ^ 63 -> 0 <= bits < 2 ^ 63 ->
  extractImageData inflate get n = Ok (mkXI (bs "/Im" ++ decZ n) fmt w h cs bits filter
    (if bytes_eqb filter (bs "/FlateDecode") then match inflate data with Some d => d | None => data end else data)).
Proof.
  intros Hg Hs Hf Hfm Hw Hh Hc Hb W H B. unfold extractImageData. rewrite Hg. cbn [rbind].
  rewrite (image_data_found t data Hs). cbn [rmap]. f_equal.
  rewrite (says_value t (bs "/Filter") _ (key_lit (bs "Filter") eq_refl) Hf).
  rewrite (says_value t (bs "/ColorSpace") _ (key_lit (bs "ColorSpace") eq_refl) Hc).
  rewrite (int_says t (bs "/Width") w (key_lit (bs "Width") eq_refl) W Hw).
  rewrite (int_says t (bs "/Height") h (key_lit (bs "Height") eq_refl) H Hh).
  rewrite (int_says t (bs "/BitsPerComponent") bits (key_lit (bs "BitsPerComponent") eq_refl) B Hb).
  assert (D : match data with [] => [] | _ :: _ => image_data inflate filter data end =
    (if bytes_eqb filter (bs "/FlateDecode") then match inflate data with Some d => d | None => data end else data)).
  { destruct Hs as (_ & _ & _ & _ & _ & _ & Hne & _). destruct data as [|c data]; [congruence|]. unfold image_data.
    cbn in Hfm. destruct Hfm as [E|[E|[E|[E|[E|[]]]]]]; injection E as <- <-; reflexivity. }
  f_equal; [|exact D]. cbn in Hfm. destruct Hfm as [E|[E|[E|[E|[E|[]]]]]]; injection E as <- <-; reflexivity.
Qed.
End images.

(* -------------------- written and read again -------------------- *)
Definition xobj_text (cs filter : bytes) (h len : Z) (mask : bytes) (w : Z) : bytes :=
  bs "<</BitsPerComponent 8 /ColorSpace " ++ cs ++ bs " /Filter " ++ filter ++ bs " /Height " ++ decZ h ++ bs " /Length " ++ decZ len ++ mask ++
  bs " /Subtype /Image /Type /XObject /Width " ++ decZ w ++ bs " >>".
Lemma jpeg_dict_text w h cs data : prefixb (bs "/") cs = true ->
  formatDictionary (jpeg_dict w h cs data) = xobj_text cs (bs "/DCTDecode") h (Z.of_nat (length data)) [] w.
Proof.
  intros Hcs. unfold formatDictionary, format_pairs, jpeg_dict. cbn [map fst snd].
  change (formatValue (VInt w)) with (decZ w). change (formatValue (VInt h)) with (decZ h). change (formatValue (VInt (Z.of_nat (length data)))) with (decZ (Z.of_nat (length data))).
  assert (F : formatValue (VStr cs) = cs) by (unfold formatValue; rewrite Hcs; reflexivity). rewrite F.
  change (formatValue (VInt 8)) with (bs "8").
  remember (decZ w) as W. remember (decZ h) as H. remember (decZ (Z.of_nat (length data))) as L.
  change (sortK _) with [(bs "BitsPerComponent", bs "8"); (bs "ColorSpace", cs); (bs "Filter", bs "/DCTDecode"); (bs "Height", H); (bs "Length", L);
     (bs "Subtype", bs "/Image"); (bs "Type", bs "/XObject"); (bs "Width", W)].
  cbn [flat_map fst snd]. unfold xobj_text. subst. rewrite <- !app_assoc. reflexivity.
Qed.

Definition space_names : list bytes := [bs "/DeviceGray"; bs "/DeviceRGB"; bs "/DeviceCMYK"].
Definition filter_names : list bytes := [bs "/DCTDecode"; bs "/FlateDecode"].
Definition mask_text (m : option Z) : bytes := match m with Some m => bs " /SMask " ++ ref m | None => [] end.
Section xobj.
Context (n : Z) (cs filter : bytes) (h len : Z) (mask : option Z) (w : Z) (rest : bytes).
Context (Hcs : In cs space_names) (Hf : In filter filter_names).
Let head := decZ n ++ bs " 0 obj" ++ nl ++ bs "<<".
Let T := decZ n ++ bs " 0 obj" ++ nl ++ xobj_text cs filter h len (mask_text mask) w ++ rest.
Lemma xobj_head key : nostart ("/"%byte :: key) head.
Proof. apply nostart_noin. unfold head. rewrite !in_app_iff. intros [Hi|[Hi|[Hi|Hi]]]; [exact (plain_word_slash _ (plain_word_decZ _) Hi)| | |]; cbn in Hi; intuition discriminate. Qed.
Lemma num_quiet key z : nostart ("/"%byte :: key) (decZ z).
Proof. apply nostart_noin, plain_word_slash, plain_word_decZ. Qed.
Lemma mask_quiet key : nostartb ("/"%byte :: key) (bs " /SMask ") = true -> nostart ("/"%byte :: key) (mask_text mask).
Proof.
  intros H. unfold mask_text, ref. destruct mask; [|apply nostart_nil].
  apply nostart_app; [apply nostartb_ok, H|]. apply nostart_app; [apply num_quiet|apply nostart_noin; cbn; intuition discriminate].
Qed.
Lemma says_at key a v b : nostart ("/"%byte :: key) a -> word v -> says (a ++ ("/"%byte :: key) ++ bs " " ++ v ++ bs " " ++ b) ("/"%byte :: key) v.
Proof.
  intros Ha Hv. unfold says. destruct v as [|c v0] eqn:E; [destruct Hv; congruence|]. rewrite <- E in *.
  exists a, (bs " "), (bs " " ++ b). split; [reflexivity|]. split; [apply XPagesProofs2.nostart_contains; [exact Ha|discriminate]|].
  split; [split; [discriminate|reflexivity]|]. split; [exact Hv|reflexivity].
Qed.
Lemma cs_cases (P : bytes -> Prop) : P (bs "/DeviceGray") -> P (bs "/DeviceRGB") -> P (bs "/DeviceCMYK") -> P cs.
Proof. intros. destruct Hcs as [<-|[<-|[<-|[]]]]; assumption. Qed.
Lemma filter_cases (P : bytes -> Prop) : P (bs "/DCTDecode") -> P (bs "/FlateDecode") -> P filter.
Proof. intros. destruct Hf as [<-|[<-|[]]]; assumption. Qed.
Ltac quiet := split_nostart; first [apply xobj_head | apply num_quiet | apply mask_quiet; reflexivity | apply nostartb_ok; reflexivity
  | apply cs_cases; apply nostartb_ok; reflexivity | apply filter_cases; apply nostartb_ok; reflexivity].
Lemma xobj_says :
  says T (bs "/BitsPerComponent") (decZ 8) /\ says T (bs "/ColorSpace") cs /\ says T (bs "/Filter") filter /\
  says T (bs "/Height") (decZ h) /\ says T (bs "/Width") (decZ w).
Proof.
  assert (W : forall z, word (decZ z)) by apply word_decZ.
  assert (Wc : word cs) by (apply cs_cases; (split; [discriminate|split; reflexivity])).
  assert (Wf : word filter) by (apply filter_cases; (split; [discriminate|split; reflexivity])).
  split; [|split; [|split; [|split]]].
  - assert (E : T = head ++ bs "/BitsPerComponent" ++ bs " " ++ decZ 8 ++ bs " " ++ bs "/ColorSpace " ++ cs ++ bs " /Filter " ++ filter ++ bs " /Height " ++ decZ h ++ bs " /Length " ++ decZ len ++ mask_text mask ++
      bs " /Subtype /Image /Type /XObject /Width " ++ decZ w ++ bs " >>" ++ rest) by (unfold T, head, xobj_text; rewrite <- !app_assoc; reflexivity).
    rewrite E. apply (says_at (bs "BitsPerComponent")); [apply xobj_head|apply W].
  - assert (E : T = (head ++ bs "/BitsPerComponent 8 ") ++ bs "/ColorSpace" ++ bs " " ++ cs ++ bs " " ++ bs "/Filter " ++ filter ++ bs " /Height " ++ decZ h ++ bs " /Length " ++ decZ len ++ mask_text mask ++
      bs " /Subtype /Image /Type /XObject /Width " ++ decZ w ++ bs " >>" ++ rest) by (unfold T, head, xobj_text; rewrite <- !app_assoc; reflexivity).
    rewrite E. apply (says_at (bs "ColorSpace")); [quiet|apply Wc].
  - assert (E : T = (head ++ bs "/BitsPerComponent 8 /ColorSpace " ++ cs ++ bs " ") ++ bs "/Filter" ++ bs " " ++ filter ++ bs " " ++ bs "/Height " ++ decZ h ++ bs " /Length " ++ decZ len ++ mask_text mask ++
      bs " /Subtype /Image /Type /XObject /Width " ++ decZ w ++ bs " >>" ++ rest) by (unfold T, head, xobj_text; rewrite <- !app_assoc; reflexivity).
    rewrite E. apply (says_at (bs "Filter")); [quiet|apply Wf].
  - assert (E : T = (head ++ bs "/BitsPerComponent 8 /ColorSpace " ++ cs ++ bs " /Filter " ++ filter ++ bs " ") ++ bs "/Height" ++ bs " " ++ decZ h ++ bs " " ++ bs "/Length " ++ decZ len ++ mask_text mask ++
      bs " /Subtype /Image /Type /XObject /Width " ++ decZ w ++ bs " >>" ++ rest) by (unfold T, head, xobj_text; rewrite <- !app_assoc; reflexivity).
    rewrite E. apply (says_at (bs "Height")); [quiet|apply W].
  - assert (E : T = (head ++ bs "/BitsPerComponent 8 /ColorSpace " ++ cs ++ bs " /Filter " ++ filter ++ bs " /Height " ++ decZ h ++ bs " /Length " ++ decZ len ++ mask_text mask ++
      bs " /Subtype /Image /Type /XObject ") ++ bs "/Width" ++ bs " " ++ decZ w ++ bs " " ++ bs ">>" ++ rest) by (unfold T, head, xobj_text; rewrite <- !app_assoc; reflexivity).
    rewrite E. apply (says_at (bs "Width")); [quiet|apply W].
Qed.
Lemma xobj_stream data tl : 0 <= n -> 0 <= h -> 0 <= w -> 0 <= match mask with Some m => m | None => 0 end -> len = flen data -> data <> [] -> rest = nl ++ bs "stream" ++ nl ++ data ++ tl -> flen T < 2 ^ 63 -> image_stream_of T data.
Proof.
  intros Hn Hh Hw Hm Hl Hne Hr Ht. pose (d := decZ n ++ bs " 0 obj" ++ nl ++ xobj_text cs filter h len (mask_text mask) w).
  exists (d ++ nl), [x0a], tl. split; [unfold T, d; rewrite Hr, <- !app_assoc; reflexivity|].
  split; [exists d, x0a; split; [reflexivity|split; [reflexivity|]]|].
  { apply XPagesProofs2.nostart_contains; [|discriminate]. unfold d, xobj_text.
    assert (M : nostart (bs "stream") (mask_text mask)).
    { unfold mask_text, ref. destruct mask; [|apply nostart_nil]. apply nostart_app; [apply nostartb_ok; reflexivity|].
      apply nostart_app; [apply nostart_decZ; [exact Hm|reflexivity]|apply nostartb_ok; reflexivity]. }
    assert (HL : 0 <= len) by (rewrite Hl; unfold flen; lia).
    assert (C : nostart (bs "stream") cs) by (apply cs_cases; apply nostartb_ok; reflexivity).
    assert (F : nostart (bs "stream") filter) by (apply filter_cases; apply nostartb_ok; reflexivity).
    split_nostart; first [exact M|exact C|exact F|apply nostart_decZ; [assumption|reflexivity]|apply nostartb_ok; reflexivity]. }
  split; [left; reflexivity|]. split; [exact Hne|]. split; [exact Ht|].
  exists (head ++ bs "/BitsPerComponent 8 /ColorSpace " ++ cs ++ bs " /Filter " ++ filter ++ bs " /Height " ++ decZ h ++ bs " "), (bs " "),
    (mask_text mask ++ bs " /Subtype /Image /Type /XObject /Width " ++ decZ w ++ bs " >>" ++ nl).
  split; [unfold d, head, xobj_text; rewrite <- Hl, <- !app_assoc; reflexivity|].
  split; [apply XPagesProofs2.nostart_contains; [quiet|discriminate]|]. split; [split; [discriminate|reflexivity]|].
  unfold mask_text. destruct mask; reflexivity.
Qed.
End xobj.

Lemma space_name c : In (space_of c) space_names.
Proof.
  assert (R : In (bs "/DeviceRGB") space_names) by (right; left; reflexivity).
  assert (C : In (bs "/DeviceCMYK") space_names) by (right; right; left; reflexivity).
  assert (G : In (bs "/DeviceGray") space_names) by (left; reflexivity).
  unfold space_of. destruct c as [|p]; [exact R|]. destruct p as [p|p|]; [exact R| |exact G].
  destruct p as [p|p|]; [exact R| |exact R]. destruct p as [p|p|]; [exact R|exact R|exact C].
Qed.
Lemma stored_stream w n s a d : mget n (objects w) = Some (mkObj None (Some s) (Some a)) -> mget a (dicts w) = Some d ->
  WriterSpec.stored_text w n (formatDictionary d ++ nl ++ bs "stream" ++ nl ++ s ++ nl ++ bs "endstream").
Proof. intros H1 H2. eexists. split; [exact H1|]. cbn [oStream oDict oContent]. rewrite H2. reflexivity. Qed.
Lemma jpeg_read_back inflate get data w n width height cs w' : AddJPEGImage data w = Ok (n, (width, height, cs), w') -> 0 <= nextObjNum w ->
  reads_stored get w' -> (forall t, get n = Ok t -> flen t < 2 ^ 63) ->
  extractImageData inflate get n = Ok (mkXI (bs "/Im" ++ decZ n) (bs "jpeg") width height cs 8 (bs "/DCTDecode") data).
Proof.
  intros H Hn Hg Hb. pose proof (jpeg_object _ _ _ _ _ _ _ H) as (J1 & J2 & _ & _).
  apply jpeg_sound in J1. destruct J1 as (pre & code & len & prec & ht & wd & comp & rest & Ed & _ & _ & _ & B1 & B2 & _ & Ew & Eh & Ec).
  assert (S : WriterSpec.stored_text w' n (formatDictionary (jpeg_dict width height cs data) ++ nl ++ bs "stream" ++ nl ++ data ++ nl ++ bs "endstream")).
  { unfold AddJPEGImage in H. destruct (parseJPEGHeader data) as [[[wd' ht'] c']| |]; cbn [rbind] in H; try discriminate H.
    remember (jpeg_dict wd' ht' c' data) as D eqn:ED. injection H as E1 E2 E3 E4 E5. subst wd' ht' c'. rewrite <- ED.
    apply (stored_stream w' n data (fresh (dicts w))); subst w' n; cbn [objects dicts set_next set_dicts set_objects]; rewrite mget_mset, Z.eqb_refl; reflexivity. }
  assert (Hcs : In cs space_names) by (rewrite Ec; apply space_name).
  rewrite jpeg_dict_text in S by (destruct Hcs as [<-|[<-|[<-|[]]]]; reflexivity).
  apply Hg in S. pose proof (Hb _ S) as Hlen.
  assert (Hf : In (bs "/DCTDecode") filter_names) by (left; reflexivity).
  pose (R := nl ++ bs "stream" ++ nl ++ data ++ nl ++ bs "endstream" ++ nl ++ bs "endobj").
  assert (ET : object_text n (xobj_text cs (bs "/DCTDecode") height (Z.of_nat (length data)) [] width ++ nl ++ bs "stream" ++ nl ++ data ++ nl ++ bs "endstream")
    = decZ n ++ bs " 0 obj" ++ nl ++ xobj_text cs (bs "/DCTDecode") height (Z.of_nat (length data)) (mask_text None) width ++ R).
  { unfold object_text, R, mask_text. rewrite <- !app_assoc. reflexivity. }
  rewrite ET in S, Hlen.
  destruct (xobj_says n cs (bs "/DCTDecode") height (Z.of_nat (length data)) None width R Hcs Hf) as (Q1 & Q2 & Q3 & Q4 & Q5).
  assert (Hne : data <> []) by (rewrite Ed; discriminate).
  assert (E : extractImageData inflate get n = Ok (mkXI (bs "/Im" ++ decZ n) (bs "jpeg") width height cs 8 (bs "/DCTDecode")
     (if bytes_eqb (bs "/DCTDecode") (bs "/FlateDecode") then match inflate data with Some d => d | None => data end else data))).
  { eapply image_read; [exact S| |exact Q3|left; reflexivity|exact Q5|exact Q4|exact Q2|exact Q1|lia|lia|lia].
    apply (xobj_stream n cs (bs "/DCTDecode") height (Z.of_nat (length data)) None width R Hcs Hf data (nl ++ bs "endstream" ++ nl ++ bs "endobj"));
      [destruct (jpeg_object _ _ _ _ _ _ _ H) as (_ & -> & _); lia|lia|lia|lia|reflexivity|exact Hne|reflexivity|exact Hlen]. }
  exact E.
Qed.

Lemma picture_dict_text p cs s mask : prefixb (bs "/") cs = true ->
  formatDictionary (match mask with Some m => kset (bs "SMask") (VStr (ref m)) (stream_dict (picture_dict p cs) (Some s) true) | None => stream_dict (picture_dict p cs) (Some s) true end)
  = xobj_text cs (bs "/FlateDecode") (Z.of_nat (imHeight p)) (Z.of_nat (length s)) (mask_text mask) (Z.of_nat (imWidth p)).
Proof.
  intros Hcs. unfold formatDictionary, format_pairs. unfold stream_dict, picture_dict, blen.
  remember (Z.of_nat (imHeight p)) as h. remember (Z.of_nat (imWidth p)) as w. remember (Z.of_nat (length s)) as l.
  assert (F : formatValue (VStr cs) = cs) by (unfold formatValue; rewrite Hcs; reflexivity).
  destruct mask as [m|].
  - match goal with |- context [map ?f ?x] => change x with
      [(bs "Type", VStr (bs "/XObject")); (bs "Subtype", VStr (bs "/Image")); (bs "Width", VInt w); (bs "Height", VInt h);
       (bs "ColorSpace", VStr cs); (bs "BitsPerComponent", VInt 8); (bs "Filter", VStr (bs "/FlateDecode")); (bs "Length", VInt l); (bs "SMask", VStr (ref m))] end.
    cbn [map fst snd]. rewrite F. change (formatValue (VInt w)) with (decZ w). change (formatValue (VInt h)) with (decZ h). change (formatValue (VInt l)) with (decZ l).
    assert (FR : formatValue (VStr (ref m)) = ref m).
    { unfold formatValue. assert (suffixb (bs " R") (ref m) = true) as ->; [|rewrite orb_true_r; reflexivity].
      unfold ref. change (bs " 0 R") with (bs " 0" ++ bs " R"). rewrite app_assoc. unfold suffixb. rewrite !app_length. change (length (bs " R")) with 2%nat.
      replace (2 <=? length (decZ m) + length (bs " 0") + 2)%nat with true by (symmetry; apply Nat.leb_le; lia). cbn [andb].
      replace (length (decZ m) + length (bs " 0") + 2 - 2)%nat with (length (decZ m ++ bs " 0")) by (rewrite app_length; lia).
      rewrite WriterProofs.skipn_app_exact. apply bytes_eqb_refl. }
    rewrite FR. change (formatValue (VInt 8)) with (bs "8").
    remember (decZ w) as W. remember (decZ h) as H. remember (decZ l) as L. remember (ref m) as M.
    change (sortK _) with [(bs "BitsPerComponent", bs "8"); (bs "ColorSpace", cs); (bs "Filter", bs "/FlateDecode"); (bs "Height", H); (bs "Length", L);
     (bs "SMask", M); (bs "Subtype", bs "/Image"); (bs "Type", bs "/XObject"); (bs "Width", W)].
    cbn [flat_map fst snd]. unfold xobj_text, mask_text. rewrite <- HeqM, <- HeqW, <- HeqH, <- HeqL. rewrite <- !app_assoc. reflexivity.
  - match goal with |- context [map ?f ?x] => change x with
      [(bs "Type", VStr (bs "/XObject")); (bs "Subtype", VStr (bs "/Image")); (bs "Width", VInt w); (bs "Height", VInt h);
       (bs "ColorSpace", VStr cs); (bs "BitsPerComponent", VInt 8); (bs "Filter", VStr (bs "/FlateDecode")); (bs "Length", VInt l)] end.
    cbn [map fst snd]. rewrite F. change (formatValue (VInt w)) with (decZ w). change (formatValue (VInt h)) with (decZ h). change (formatValue (VInt l)) with (decZ l).
    change (formatValue (VInt 8)) with (bs "8").
    remember (decZ w) as W. remember (decZ h) as H. remember (decZ l) as L.
    change (sortK _) with [(bs "BitsPerComponent", bs "8"); (bs "ColorSpace", cs); (bs "Filter", bs "/FlateDecode"); (bs "Height", H); (bs "Length", L);
     (bs "Subtype", bs "/Image"); (bs "Type", bs "/XObject"); (bs "Width", W)].
    cbn [flat_map fst snd]. unfold xobj_text, mask_text. rewrite <- HeqW, <- HeqH, <- HeqL. rewrite <- !app_assoc. reflexivity.
Qed.

Lemma picture_stored deflate p w n w' : (0 < imWidth p)%nat -> (0 < imHeight p)%nat -> AddImage deflate p w = (n, w') ->
  n = nextObjNum w /\ exists a mask, (forall m, mask = Some m -> m = nextObjNum w + 1) /\
    mget n (objects w') = Some (mkObj None (Some (deflate (pixel_data p))) (Some a)) /\
    mget a (dicts w') = Some (match mask with Some m => kset (bs "SMask") (VStr (ref m)) (stream_dict (picture_dict p (space_of_picture p)) (Some (deflate (pixel_data p))) true)
      | None => stream_dict (picture_dict p (space_of_picture p)) (Some (deflate (pixel_data p))) true end).
Proof.
  intros W H E. unfold AddImage in E. fold (space_of_picture p) in E.
  assert (HD : pixel_data p <> []).
  { intros X. pose proof (pixel_length p) as L. rewrite X in L. unfold channels in L. cbn [length] in L. destruct (imGray p); nia. }
  destruct (add_stream deflate (picture_dict p (space_of_picture p)) (Some (pixel_data p)) true w) as [n1 w1] eqn:E1.
  pose proof (add_stream_spec deflate (picture_dict p (space_of_picture p)) (Some (pixel_data p)) true w) as X. rewrite E1 in X.
  destruct X as [X1 [X2 [X3 [X4 [[a [H5 H6]] _]]]]]. rewrite stream_full in H5, H6 by exact HD. cbn [fst snd] in H5, H6.
  destruct (fresh_stream _ _ _ _ _ _ _ E1) as [o1 [s1 [F1 _]]].
  assert (Ea : a = fresh (dicts w)) by (rewrite F1 in H5; injection H5; intros; congruence). subst a.
  destruct (imAlpha p); [|injection E as <- <-; split; [exact X1|]; exists (fresh (dicts w)), None; split; [discriminate|split; assumption]].
  set (mask := raster (imWidth p) (imHeight p) (fun x y => alpha_byte (imColor p x y))) in *.
  destruct (add_stream deflate (picture_dict p (bs "/DeviceGray")) (Some mask) true w1) as [m w2] eqn:E2.
  pose proof (add_stream_spec deflate (picture_dict p (bs "/DeviceGray")) (Some mask) true w1) as Y. rewrite E2 in Y.
  destruct Y as [Y1 [Y2 [Y3 [Y4 _]]]].
  pose proof (add_stream_extends deflate (picture_dict p (bs "/DeviceGray")) (Some mask) true w1) as EX. rewrite E2 in EX. cbn [snd] in EX.
  destruct EX as (_ & _ & EX3). rewrite (EX3 _ _ H6) in E. injection E as <- <-.
  split; [exact X1|]. exists (fresh (dicts w)), (Some m). split; [intros k Hk; injection Hk as <-; lia|].
  cbn [objects dicts set_dicts]. split; [rewrite Y3 by lia; exact H5|]. rewrite mget_mset, Z.eqb_refl. reflexivity.
Qed.
Lemma picture_read_back inflate deflate get p w n w' : (0 < imWidth p)%nat -> (0 < imHeight p)%nat -> Z.of_nat (imWidth p) < 2 ^ 63 -> Z.of_nat (imHeight p) < 2 ^ 63 ->
  AddImage deflate p w = (n, w') -> 0 <= nextObjNum w -> deflate (pixel_data p) <> [] -> inflate (deflate (pixel_data p)) = Some (pixel_data p) ->
  reads_stored get w' -> (forall t, get n = Ok t -> flen t < 2 ^ 63) ->
  extractImageData inflate get n = Ok (mkXI (bs "/Im" ++ decZ n) (bs "png") (Z.of_nat (imWidth p)) (Z.of_nat (imHeight p)) (space_of_picture p) 8 (bs "/FlateDecode") (pixel_data p)).
Proof.
  intros W0 H0 W1 H1 H Hn Hne Hinf Hg Hb. destruct (picture_stored deflate p w n w' W0 H0 H) as (En & a & mask & Hm & S1 & S2).
  pose proof (stored_stream w' n _ a _ S1 S2) as S.
  assert (Hcs : In (space_of_picture p) space_names) by (unfold space_of_picture; destruct (imGray p); [left|right; left]; reflexivity).
  rewrite picture_dict_text in S by (destruct Hcs as [<-|[<-|[<-|[]]]]; reflexivity).
  remember (deflate (pixel_data p)) as z eqn:Ez.
  apply Hg in S. pose proof (Hb _ S) as Hlen.
  assert (Hf : In (bs "/FlateDecode") filter_names) by (right; left; reflexivity).
  pose (R := nl ++ bs "stream" ++ nl ++ z ++ nl ++ bs "endstream" ++ nl ++ bs "endobj").
  set (h := Z.of_nat (imHeight p)) in *. set (wd := Z.of_nat (imWidth p)) in *. set (cs := space_of_picture p) in *.
  assert (ET : object_text n (xobj_text cs (bs "/FlateDecode") h (Z.of_nat (length z)) (mask_text mask) wd ++ nl ++ bs "stream" ++ nl ++ z ++ nl ++ bs "endstream")
    = decZ n ++ bs " 0 obj" ++ nl ++ xobj_text cs (bs "/FlateDecode") h (Z.of_nat (length z)) (mask_text mask) wd ++ R).
  { unfold object_text, R. rewrite <- !app_assoc. reflexivity. }
  rewrite ET in S, Hlen.
  destruct (xobj_says n cs (bs "/FlateDecode") h (Z.of_nat (length z)) mask wd R Hcs Hf) as (Q1 & Q2 & Q3 & Q4 & Q5).
  assert (E : extractImageData inflate get n = Ok (mkXI (bs "/Im" ++ decZ n) (bs "png") wd h cs 8 (bs "/FlateDecode")
     (if bytes_eqb (bs "/FlateDecode") (bs "/FlateDecode") then match inflate z with Some d => d | None => z end else z))).
  { eapply image_read; [exact S| |exact Q3|right; left; reflexivity|exact Q5|exact Q4|exact Q2|exact Q1|unfold wd; lia|unfold h; lia|lia].
    apply (xobj_stream n cs (bs "/FlateDecode") h (Z.of_nat (length z)) mask wd R Hcs Hf z (nl ++ bs "endstream" ++ nl ++ bs "endobj"));
      [rewrite En; exact Hn|unfold h; lia|unfold wd; lia|destruct mask as [m|]; [rewrite (Hm m eq_refl); lia|lia]|reflexivity|exact Hne|reflexivity|exact Hlen]. }
  rewrite Hinf in E. exact E.
Qed.
