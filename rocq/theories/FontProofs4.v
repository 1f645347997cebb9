(** Embedded fonts. *)
From Verif Require Import Util Scan Utf8 FontModel FontSpec FontProofs FontProofs2 FontProofs3 PageSpec PageProofs2.
From Coq Require Import Permutation.
Local Open Scope Z_scope.

(* ---------------------------------------------------------------- *)
(** Hexadecimal *)
Lemma hex_upper_digit d : (d < 16)%N -> hex_digit (hex_upper d) = Some d.
Proof.
  intros H. assert (In d [0;1;2;3;4;5;6;7;8;9;10;11;12;13;14;15]%N) as Hi.
  { cbn [In]. lia. }
  cbn [In] in Hi. decompose [or] Hi; subst; try reflexivity. contradiction.
Qed.
Definition hv (v : option N) (s : bytes) : option N :=
  fold_left (fun v b => match v, hex_digit b with Some v, Some d => Some (16 * v + d)%N | _, _ => None end) s v.
Lemma hv_app a b v : hv v (a ++ b) = hv (hv v a) b. Proof. apply fold_left_app. Qed.
Lemma hex_aux_value fuel : forall n acc, (N.size_nat n < fuel)%nat -> exists h, hex_aux fuel n acc = h ++ acc /\ hv (Some 0%N) h = Some n /\ (1 <= length h)%nat.
Proof.
  induction fuel as [|fuel IH]; intros n acc H; [lia|]. cbn [hex_aux]. assert (n mod 16 < 16)%N as Hm by (apply N.mod_lt; lia).
  pose proof (N.div_mod n 16 ltac:(lia)) as Hd.
  destruct (N.eqb_spec (n / 16) 0) as [E|E].
  - exists [hex_upper (n mod 16)]. split; [reflexivity|]. split; [|cbn; lia]. unfold hv. cbn [fold_left]. rewrite hex_upper_digit by exact Hm. f_equal. lia.
  - destruct (IH (n / 16)%N (hex_upper (n mod 16) :: acc)) as [h [H1 [H2 H3]]].
    + assert (N.size_nat (n / 16) < N.size_nat n)%nat; [|lia]. change 16%N with (2 ^ 4)%N. rewrite <- N.shiftr_div_pow2.
      clear -E. destruct n as [|p]; [exfalso; apply E; reflexivity|]. 
      do 4 (destruct p as [p|p|]; [| |cbn in *; lia]); cbn; lia.
    + exists (h ++ [hex_upper (n mod 16)]). rewrite H1, <- app_assoc. split; [reflexivity|]. split.
      * rewrite hv_app, H2. unfold hv. cbn [fold_left]. rewrite hex_upper_digit by exact Hm. f_equal. lia.
      * rewrite app_length. lia.
Qed.
Lemma hexN_value n : hex_value (hexN n) = Some n /\ (1 <= length (hexN n))%nat.
Proof. unfold hexN. destruct (hex_aux_value (S (N.size_nat n)) n [] ltac:(lia)) as [h [-> [H L]]]. rewrite app_nil_r. split; assumption. Qed.
Lemma hv_zeros k : hv (Some 0%N) (repeat ("0"%byte : byte) k) = Some 0%N.
Proof. induction k as [|k IH]; [reflexivity|]. cbn [repeat]. unfold hv in *. cbn [fold_left]. exact IH. Qed.
Lemma pad_hex_value w n : hex_value (pad_hex w n) = Some n /\ (w <= length (pad_hex w n))%nat.
Proof.
  unfold pad_hex. destruct (hexN_value n) as [H L]. split.
  - change (hv (Some 0%N) (repeat ("0"%byte : byte) (w - length (hexN n)) ++ hexN n) = Some n). rewrite hv_app, hv_zeros. exact H.
  - rewrite app_length, repeat_length. lia.
Qed.

(* ---------------------------------------------------------------- *)
(** C71 *)
Lemma bfchar_ok order m g : (forall l, Permutation (order l) l) -> (forall c h, mget c m = Some h -> 0 <= c) -> line_for m g (bfchar_line order m g).
Proof.
  intros O Pos. unfold bfchar_line. exists (pad_hex 2 g). unfold char_of.
  destruct (List.find _ (order (mkeys m))) as [c|] eqn:E.
  - apply List.find_some in E. destruct E as [Hi Hc]. destruct (mget c m) as [h|] eqn:Em; [|discriminate]. apply N.eqb_eq in Hc. subst h.
    pose proof (Pos _ _ Em) as Hp. exists (hexZ 4 c). split; [reflexivity|]. split; [apply pad_hex_value|]. split; [apply pad_hex_value|]. left.
    exists (Z.to_N c). rewrite Z2N.id by exact Hp. split; [exact Em|]. unfold hexZ. destruct (Z.ltb_spec c 0); [lia|]. apply pad_hex_value.
  - exists (bs "0020"). split; [reflexivity|]. split; [apply pad_hex_value|]. split; [apply pad_hex_value|]. right. split; [|reflexivity].
    intros c Hc. assert (In c (order (mkeys m))) as Hi. { eapply Permutation_in; [symmetry; apply O|]. apply mkeys_in. exists g. exact Hc. }
    pose proof (List.find_none _ _ E c Hi) as K. cbn beta in K. rewrite Hc, N.eqb_refl in K. discriminate.
Qed.
Lemma to_unicode_ok order m gs : (forall l, Permutation (order l) l) -> (forall c h, mget c m = Some h -> 0 <= c) ->
  exists lines, createToUnicode order m gs = cmap_head ++ decZ (Z.of_nat (length gs)) ++ bs " beginbfchar" ++ [x0a] ++ concat lines ++ cmap_tail /\
    Forall2 (line_for m) gs lines.
Proof.
  intros O Pos. exists (map (bfchar_line order m) gs). split.
  - unfold createToUnicode. rewrite flat_map_concat_map. reflexivity.
  - induction gs as [|g gs IH]; constructor; [apply bfchar_ok; assumption|exact IH].
Qed.
(** the keys read from a table are not negative *)
Lemma add_glyph_pos (f : N -> N) l : forall m, (forall c h, mget c m = Some h -> 0 <= c) ->
  forall c h, mget c (fold_left (fun m c => add_glyph c (f c) m) l m) = Some h -> 0 <= c.
Proof.
  induction l as [|x l IH]; intros m H; [exact H|]. cbn [fold_left]. apply IH. intros c h. unfold add_glyph. destruct (f x =? 0)%N; [apply H|].
  rewrite mget_mset. destruct (Z.eqb_spec c (Z.of_N x)); [lia|apply H].
Qed.
Lemma segments4_pos n : forall i segs s m m', segments4 n i segs s m = Ok m' -> (forall c h, mget c m = Some h -> 0 <= c) -> forall c h, mget c m' = Some h -> 0 <= c.
Proof.
  induction n as [|n IH]; intros i segs s m m' H P; [injection H as <-; exact P|]. cbn [segments4] in H.
  destruct (_ <? _)%nat; [discriminate|]. cbv zeta in H. destruct (_ && _); [injection H as <-; exact P|]. eapply IH; [exact H|].
  apply (add_glyph_pos (fun c => segment_glyph s _ i _ _ _ c)). exact P.
Qed.

(* ---------------------------------------------------------------- *)
(** Names *)
Definition printable (b : byte) : Prop := (32 <= b2n b <= 126)%N.
Lemma escape_one b rest : printable b -> read_name_text (escape_name_rune (b2n b) ++ rest) = b :: read_name_text rest.
Proof.
  intros H. unfold printable in H. assert (In b (map n2b (map (fun k => N.of_nat k) (seq 32 95)))) as Hi.
  { apply in_map_iff. exists (b2n b). split; [apply n2b_b2n|]. apply in_map_iff. exists (N.to_nat (b2n b)). split; [lia|]. apply in_seq. lia. }
  clear H. revert b Hi. apply Forall_forall. cbv [map seq N.of_nat Pos.of_succ_nat Pos.succ n2b N.modulo]. 
  repeat (apply Forall_cons; [reflexivity|]). constructor.
Qed.
Lemma escape_regular b : printable b -> forallb regular (escape_name_rune (b2n b)) = true.
Proof.
  intros H. unfold printable in H. destruct b; try reflexivity; exfalso; destruct H as [H1 H2]; first [apply H1; reflexivity|apply H2; reflexivity].
Qed.
Lemma escape_name_ok s : Forall printable s -> read_name_text (escapeName s) = s /\ forallb regular (escapeName s) = true.
Proof.
  intros F. unfold escapeName. rewrite runes_ascii.
  - induction F as [|b s H F IH]; [split; reflexivity|]. destruct IH as [I1 I2]. cbn [map flat_map]. split.
    + rewrite escape_one by exact H. f_equal. exact I1.
    + rewrite forallb_app, escape_regular by exact H. exact I2.
  - apply forallb_forall. intros b Hb. rewrite Forall_forall in F. specialize (F b Hb). unfold printable in F. unfold is_ascii. apply N.ltb_lt. lia.
Qed.

(* ---------------------------------------------------------------- *)
(** C70 *)
Lemma obind_ok {A B} (x : option (result A)) (k : A -> option (result B)) r : obind x k = Some (Ok r) -> exists a, x = Some (Ok a) /\ k a = Some (Ok r).
Proof. destruct x as [[a| |]|]; cbn [obind]; intros H; try discriminate. exists a. split; [reflexivity|exact H]. Qed.
Lemma add_object_get c w : let (n, w') := AddObject (Some c) w in
  n = nextObjNum w /\ nextObjNum w' = n + 1 /\ WGetObject n w' = Ok c /\ (forall m, m <> n -> mget m (objects w') = mget m (objects w)) /\ dicts w' = dicts w.
Proof.
  cbn [AddObject]. unfold AddObject. cbn [nextObjNum set_next set_objects objects dicts]. split; [reflexivity|]. split; [reflexivity|]. split.
  - unfold WGetObject. cbn [objects set_next set_objects]. rewrite mget_mset, Z.eqb_refl. reflexivity.
  - split; [|reflexivity]. intros m Hm. rewrite mget_mset. destruct (Z.eqb_spec m (nextObjNum w)); [contradiction|reflexivity].
Qed.
Lemma widths_length fuel f gs ws : GetSubsetGlyphs fuel f = Some (Ok gs) -> GetWidths fuel f = Some (Ok ws) ->
  exists t h, ParseTTF (fData f) = Ok t /\ kget (bs "hmtx") (tTables t) = Some h /\ ws = map (glyph_width h (tUnitsPerEm t)) gs.
Proof.
  intros Hg Hw. unfold GetWidths in Hw. apply obind_ok in Hw. destruct Hw as [t [Ht Hw]]. rewrite Hg in Hw. cbn [obind] in Hw.
  destruct (kget (bs "hmtx") (tTables t)) as [h|] eqn:E; [|discriminate]. injection Hw as <-. injection Ht as Ht. exists t, h. auto.
Qed.
Lemma to_pdf_objects fuel deflate fmt order f w o f' w' :
  ToPDFObjects fuel deflate fmt order f w = Some (Ok (o, f', w')) -> fData f <> [] ->
  let n := nextObjNum w in
  foFile o = n /\ foDescriptor o = n + 1 /\ foToUnicode o = n + 2 /\ foDict o = n + 3 /\ nextObjNum w' = n + 4 /\
  foName o = bs "F" ++ decZ (n + 4) /\ foPrefix o = fID f' ++ bs "+" /\ (fID f <> [] -> fID f' = fID f) /\
  (forall m, ~ (n <= m < n + 4) -> mget m (objects w') = mget m (objects w)) /\
  exists t gs ws m dict_text desc_text,
    ParseTTF (fData f) = Ok t /\ GetSubsetGlyphs fuel f = Some (Ok gs) /\ GetWidths fuel f = Some (Ok ws) /\ font_map fuel t = Some (Ok m) /\
    length ws = length gs /\
    WGetObject (n + 3) w' = Ok dict_text /\ WGetObject (n + 1) w' = Ok desc_text /\
    has_line dict_text (bs "/Type /Font") /\ has_line dict_text (bs "/Subtype /TrueType") /\
    has_line dict_text (bs "/BaseFont /" ++ escapeName (fID f' ++ bs "+" ++ tFontName t)) /\
    has_line dict_text (bs "/LastChar " ++ decZ (Z.of_nat (length gs) - 1)) /\
    has_line dict_text (bs "/Widths [" ++ join (bs " ") (map (fun w => decZ (Z.of_N w)) ws) ++ bs "]") /\
    has_line dict_text (bs "/FontDescriptor " ++ ref (n + 1)) /\ has_line dict_text (bs "/ToUnicode " ++ ref (n + 2)) /\
    has_line desc_text (bs "/FontName /" ++ escapeName (tFontName t)) /\
    has_line desc_text (bs "/Ascent " ++ decZ (tAscent t)) /\ has_line desc_text (bs "/Descent " ++ decZ (tDescent t)) /\
    has_line desc_text (bs "/FontFile2 " ++ ref n) /\
    (exists d, stream_object w' n (deflate (fData f)) d) /\
    (exists d, stream_object w' (n + 2) (createToUnicode order m gs) d).
Proof.
  intros H Hd n. unfold ToPDFObjects in H. apply obind_ok in H. destruct H as [t [Ht H]]. injection Ht as Ht. cbv zeta in H.
  apply obind_ok in H. destruct H as [gs [Hg H]]. apply obind_ok in H. destruct H as [ws [Hw H]]. apply obind_ok in H. destruct H as [m [Hm H]].
  destruct (add_stream deflate [(bs "/Length1", VInt (Z.of_nat (length (fData f)))); (bs "/Length", VInt (Z.of_nat (length (fData f))))] (Some (fData f)) true w) as [file w1] eqn:E1.
  destruct (AddObject (Some (createFontDescriptor fmt t file)) w1) as [desc w2] eqn:E2.
  match type of H with context [add_stream deflate ?d ?x false w2] => destruct (add_stream deflate d x false w2) as [tu w3] eqn:E3 end.
  match type of H with context [AddObject (Some (createFontDict t desc tu gs ws ?p)) w3] => set (prefix := p) in *; destruct (AddObject (Some (createFontDict t desc tu gs ws prefix)) w3) as [dn w4] eqn:E4 end.
  apply (f_equal (fun x => match x with Some (Ok y) => y | _ => (o, f', w') end)) in H. cbv iota beta in H.
  assert (o = mkFO dn desc file tu (bs "F" ++ decZ (nextObjNum w4)) prefix) as -> by congruence.
  assert (w' = w4) as -> by congruence.
  match type of H with (_, ?g, _) = _ => assert (f' = g) as -> by congruence end. clear H.
  pose proof (add_stream_spec deflate [(bs "/Length1", VInt (Z.of_nat (length (fData f)))); (bs "/Length", VInt (Z.of_nat (length (fData f))))] (Some (fData f)) true w) as S1. rewrite E1 in S1.
  pose proof (add_object_get (createFontDescriptor fmt t file) w1) as S2. rewrite E2 in S2.
  match type of E3 with add_stream deflate ?d ?x false w2 = _ => pose proof (add_stream_spec deflate d x false w2) as S3 end. rewrite E3 in S3.
  pose proof (add_object_get (createFontDict t desc tu gs ws prefix) w3) as S4. rewrite E4 in S4.
  destruct S1 as [A1 [A2 [A3 [A4 [[a1 [A5 A6]] _]]]]]. destruct S2 as [B1 [B2 [B3 [B4 B5]]]].
  destruct S3 as [C1 [C2 [C3 [C4 [[a3 [C5 C6]] _]]]]]. destruct S4 as [D1 [D2 [D3 [D4 D5]]]]. fold n in A1.
  cbn [foFile foDescriptor foToUnicode foDict foName foPrefix].
  assert (desc = n + 1) as -> by lia. assert (tu = n + 2) as -> by lia. assert (dn = n + 3) as -> by lia. assert (file = n) as -> by lia.
  assert (nextObjNum w4 = n + 4) as E by lia. rewrite E. do 6 (split; [reflexivity|]). split; [reflexivity|]. split.
  { cbn [fID]. destruct (fID f); [congruence|reflexivity]. } split.
  { intros k Hk. rewrite D4, C3, B4, A3 by lia. reflexivity. }
  destruct (widths_length fuel f gs ws Hg Hw) as [t' [h [_ [_ Ew]]]].
  exists t, gs, ws, m, (createFontDict t (n + 1) (n + 2) gs ws prefix), (createFontDescriptor fmt t n).
  split; [exact Ht|]. split; [exact Hg|]. split; [exact Hw|]. split; [exact Hm|]. split; [rewrite Ew; apply map_length|].
  split; [exact D3|]. split.
  { unfold WGetObject in *. rewrite D4, C3 by lia. exact B3. }
  assert (forall a b c d, a ++ nl1 ++ b ++ nl1 ++ c = d -> has_line d b) as HL. { intros a b c d <-. exists a, c. reflexivity. }
  split. { eapply (HL (bs "<<")). reflexivity. }
  split. { eapply (HL (bs "<<" ++ nl1 ++ bs "/Type /Font")). unfold createFontDict. rewrite <- !app_assoc. reflexivity. }
  split. { eapply (HL (bs "<<" ++ nl1 ++ bs "/Type /Font" ++ nl1 ++ bs "/Subtype /TrueType")). unfold createFontDict, prefix. rewrite <- !app_assoc. reflexivity. }
  split. { eapply (HL (bs "<<" ++ nl1 ++ bs "/Type /Font" ++ nl1 ++ bs "/Subtype /TrueType" ++ nl1 ++ bs "/BaseFont /" ++ escapeName (prefix ++ tFontName t) ++ nl1 ++ bs "/FirstChar 0")).
    unfold createFontDict. rewrite <- !app_assoc. reflexivity. }
  split. { eapply (HL (bs "<<" ++ nl1 ++ bs "/Type /Font" ++ nl1 ++ bs "/Subtype /TrueType" ++ nl1 ++ bs "/BaseFont /" ++ escapeName (prefix ++ tFontName t) ++ nl1 ++ bs "/FirstChar 0" ++ nl1 ++ bs "/LastChar " ++ decZ (Z.of_nat (length gs) - 1))).
    unfold createFontDict. rewrite <- !app_assoc. reflexivity. }
  split. { eapply (HL (bs "<<" ++ nl1 ++ bs "/Type /Font" ++ nl1 ++ bs "/Subtype /TrueType" ++ nl1 ++ bs "/BaseFont /" ++ escapeName (prefix ++ tFontName t) ++ nl1 ++ bs "/FirstChar 0" ++ nl1 ++ bs "/LastChar " ++ decZ (Z.of_nat (length gs) - 1) ++ nl1 ++ bs "/Widths [" ++ join (bs " ") (map (fun w => decZ (Z.of_N w)) ws) ++ bs "]")).
    unfold createFontDict. rewrite <- !app_assoc. reflexivity. }
  split. { eapply (HL (bs "<<" ++ nl1 ++ bs "/Type /Font" ++ nl1 ++ bs "/Subtype /TrueType" ++ nl1 ++ bs "/BaseFont /" ++ escapeName (prefix ++ tFontName t) ++ nl1 ++ bs "/FirstChar 0" ++ nl1 ++ bs "/LastChar " ++ decZ (Z.of_nat (length gs) - 1) ++ nl1 ++ bs "/Widths [" ++ join (bs " ") (map (fun w => decZ (Z.of_N w)) ws) ++ bs "]" ++ nl1 ++ bs "/FontDescriptor " ++ ref (n + 1)) _ (bs ">>")).
    unfold createFontDict. rewrite <- !app_assoc. reflexivity. }
  pose (d0 := bs "<<" ++ nl1 ++ bs "/Type /FontDescriptor"). pose (d1 := d0 ++ nl1 ++ bs "/FontName /" ++ escapeName (tFontName t)).
  pose (far := decZ (Z.of_N (tUnitsPerEm t) + 100)).
  pose (d2 := d1 ++ nl1 ++ bs "/FontFamily (" ++ escapeFieldValue (tFamily t) ++ bs ")" ++ nl1 ++ bs "/Flags " ++ decZ (getFontFlags t) ++ nl1 ++
    bs "/FontBBox [-100 -100 " ++ far ++ bs " " ++ far ++ bs "]" ++ nl1 ++ bs "/ItalicAngle " ++ fmt (tItalic t)).
  pose (d3 := d2 ++ nl1 ++ bs "/Ascent " ++ decZ (tAscent t)). pose (d4 := d3 ++ nl1 ++ bs "/Descent " ++ decZ (tDescent t)).
  pose (d5 := d4 ++ nl1 ++ bs "/CapHeight " ++ decZ (tCapHeight t) ++ nl1 ++ bs "/StemV 80").
  split. { eapply (HL d0). unfold createFontDescriptor, d0. cbv zeta. rewrite <- !app_assoc. reflexivity. }
  split. { eapply (HL d2). unfold createFontDescriptor, d2, d1, d0, far. cbv zeta. rewrite <- !app_assoc. reflexivity. }
  split. { eapply (HL d3). unfold createFontDescriptor, d3, d2, d1, d0, far. cbv zeta. rewrite <- !app_assoc. reflexivity. }
  split. { eapply (HL d5 _ (bs ">>")). unfold createFontDescriptor, d5, d4, d3, d2, d1, d0, far. cbv zeta. rewrite <- !app_assoc. reflexivity. }
  split.
  - eexists. exists a1. split.
    + rewrite D4, C3, B4 by lia. rewrite A5. f_equal. f_equal. cbn [stream_data]. unfold stream_data. destruct (fData f); [congruence|reflexivity].
    + rewrite D5. apply C4. rewrite B5. exact A6.
  - eexists. exists a3. split.
    + rewrite D4 by lia. rewrite C5. f_equal.
    + rewrite D5. exact C6.
Qed.

Lemma word32 a b c d a' b' c' d' : (65536 * (256 * b2n a + b2n b) + (256 * b2n c + b2n d))%N = (65536 * (256 * b2n a' + b2n b') + (256 * b2n c' + b2n d'))%N ->
  [a; b; c; d] = [a'; b'; c'; d'].
Proof.
  intros H. pose proof (b2n_bound a). pose proof (b2n_bound b). pose proof (b2n_bound c). pose proof (b2n_bound d).
  pose proof (b2n_bound a'). pose proof (b2n_bound b'). pose proof (b2n_bound c'). pose proof (b2n_bound d').
  f_equal; [|f_equal; [|f_equal; [|f_equal]]]; apply b2n_inj; lia.
Qed.
Lemma signature_spec data : (12 <= length data)%nat ->
  signature_ok data = true <-> firstn 4 data = [x00; x01; x00; x00] \/ firstn 4 data = bs "OTTO".
Proof.
  intros H. destruct data as [|a [|b [|c [|d r]]]]; cbn [length] in H; try lia. unfold signature_ok, u32, u16.
  unfold at_. cbn [Nat.add nth firstn].
  rewrite Bool.orb_true_iff, !N.eqb_eq. split; (intros [E|E]; [left|right]).
  - apply word32. rewrite E. reflexivity.
  - apply (word32 a b c d "O" "T" "T" "O"). rewrite E. reflexivity.
  - injection E as -> -> -> ->. reflexivity.
  - injection E as -> -> -> ->. reflexivity.
Qed.
Lemma new_font name data :
  let signed := (12 <= length data)%nat /\ (firstn 4 data = [x00; x01; x00; x00] \/ firstn 4 data = bs "OTTO") in
  (signed -> NewFont name data = Ok (mkFont name data [] [])) /\ (~ signed -> NewFont name data = Err).
Proof.
  cbv zeta. unfold NewFont. split.
  - intros (H & S). destruct (Nat.ltb_spec (length data) 12) as [Hl|Hl]; [lia|]. apply (signature_spec data H) in S. rewrite S. reflexivity.
  - intros N. destruct (Nat.ltb_spec (length data) 12) as [Hl|Hl]; [reflexivity|]. destruct (signature_ok data) eqn:E; [|reflexivity].
    exfalso. apply N. split; [exact Hl|]. apply signature_spec; assumption.
Qed.
