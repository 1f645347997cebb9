From Verif Require Import TextProofs XrefProofs Util Scan Utf8 FontModel FontSpec FontProofs4 EncodingModel EncodingSpec EncodingProofs.
From Verif Require ManipProofs ManipProofs2.
From Coq Require Import Permutation.
Local Open Scope Z_scope.

(* ---------------------------------------------------------------- *)
(** Hexadecimal strings *)
Lemma strip_filter t : filter (fun b => negb (hex_blank b)) t = ReplaceAll (ReplaceAll (ReplaceAll t (bs " ") []) [x0a] []) [x0d] [].
Proof.
  change (bs " ") with [" "%byte]. rewrite !ReplaceAll_1. induction t as [|b t IH]; [reflexivity|].
  cbn [filter flat_map]. rewrite !flat_map_app, <- IH. unfold hex_blank. rewrite (beqb_sym b " "), (beqb_sym b x0a), (beqb_sym b x0d).
  destruct (beqb " " b); [reflexivity|]. cbn [orb flat_map app]. destruct (beqb x0a b); [reflexivity|]. cbn [orb flat_map app].
  destruct (beqb x0d b); reflexivity.
Qed.
Lemma hexX_len b : length (hexX b) = (2 * length b)%nat.
Proof. induction b as [|c b IH]; [reflexivity|]. unfold hexX in *. cbn [flat_map app length]. rewrite IH. lia. Qed.
Lemma strip_hex_of t s : hex_of t s -> strip_hex t = hexX s.
Proof.
  intros H. unfold strip_hex. rewrite <- strip_filter, H, hexX_len. rewrite Nat.even_mul. reflexivity.
Qed.
Lemma inner_of t : trim_suffix (bs ">") (trim_prefix (bs "<") (bs "<" ++ t ++ bs ">")) = t.
Proof.
  unfold trim_prefix. rewrite prefixb_app. change (skipn (length (bs "<")) (bs "<" ++ t ++ bs ">")) with (t ++ bs ">").
  apply ManipProofs2.trim_suffix_app.
Qed.
Definition hex2 (b : byte) : bytes := [hex_upper (b2n b / 16)%N; hex_upper (b2n b mod 16)%N].
Lemma hex2_value b : parse_hex_int (hex2 b) = Some (Z.of_N (b2n b)).
Proof. destruct b; reflexivity. Qed.
Lemma nib_lt b : (b2n b / 16 < 16)%N /\ (b2n b mod 16 < 16)%N.
Proof. pose proof (b2n_bound b). split; [apply N.div_lt_upper_bound; lia|apply N.mod_lt; lia]. Qed.
Lemma hex4_value a b : parse_hex_int (hex2 a ++ hex2 b) = Some (256 * Z.of_N (b2n a) + Z.of_N (b2n b)).
Proof.
  destruct (nib_lt a) as [A1 A2], (nib_lt b) as [B1 B2]. pose proof (b2n_bound a). pose proof (b2n_bound b).
  rewrite (parse_hex_class (hex2 a ++ hex2 b) (256 * b2n a + b2n b)%N).
  - f_equal. lia.
  - unfold hex2. cbn [app forallb]. rewrite !hex_upper_is by assumption. reflexivity.
  - discriminate.
  - unfold hex2, hex_value. cbn [app fold_left]. rewrite !hex_upper_digit by assumption. f_equal.
    pose proof (N.div_mod (b2n a) 16 ltac:(lia)). pose proof (N.div_mod (b2n b) 16 ltac:(lia)). lia.
  - lia.
Qed.
Lemma hexX_chunks2 s : forall fuel, (length s <= fuel)%nat -> pieces 2 fuel (hexX s) = map hex2 s.
Proof.
  induction s as [|b s IH]; intros [|fuel] H; try reflexivity; [cbn [length] in H; lia|].
  cbn [length] in H. change (hexX (b :: s)) with (hex2 b ++ hexX s). cbn [map]. rewrite <- (IH fuel) by lia. reflexivity.
Qed.
Fixpoint pair_hex (s : bytes) : list bytes :=
  match s with a :: b :: s' => (hex2 a ++ hex2 b) :: pair_hex s' | _ => [] end.
Lemma even_ind (P : bytes -> Prop) : P [] -> (forall a b s, P s -> P (a :: b :: s)) -> forall s, Nat.even (length s) = true -> P s.
Proof.
  intros H0 H2 s. assert (forall n s, (length s <= n)%nat -> Nat.even (length s) = true -> P s) as K.
  { induction n as [|n IH]; intros [|a [|b r]] L E; try exact H0; cbn [length] in L; try lia; try discriminate.
    apply H2, IH; [lia|exact E]. }
  apply (K (length s)). lia.
Qed.
Lemma hexX_chunks4 s : Nat.even (length s) = true -> forall fuel, (length s <= fuel)%nat -> pieces 4 fuel (hexX s) = pair_hex s.
Proof.
  intros E. pattern s. apply even_ind; [|  |exact E].
  - intros [|fuel] _; reflexivity.
  - clear. intros a b s IH [|fuel] H; cbn [length] in H; [lia|]. change (hexX (a :: b :: s)) with (hex2 a ++ hex2 b ++ hexX s).
    cbn [pair_hex]. rewrite <- (IH fuel) by lia. reflexivity.
Qed.
Lemma keys_in {A} (c : Z) (m : list (Z * A)) : In c (map fst m) <-> exists r, mget c m = Some r.
Proof.
  induction m as [|[k v] m IH]; cbn [map fst In mget]; [split; [tauto|intros [r H]; discriminate]|].
  destruct (Z.eqb_spec c k) as [->|N].
  - split; [eauto|tauto].
  - rewrite <- IH. split; [intros [H|H]; [congruence|exact H]|tauto].
Qed.
Lemma has2_false d : one_byte_font d -> has2ByteMapping d = false.
Proof.
  intros H. unfold has2ByteMapping. destruct (existsb _ _) eqn:E; [|reflexivity]. apply existsb_exists in E. destruct E as (c & Hc & K).
  apply Z.ltb_lt in K. apply keys_in in Hc. destruct Hc as [r Hr]. apply H in Hr. lia.
Qed.
Lemma has2_true d : has_wide_code d -> has2ByteMapping d = true.
Proof.
  intros (c & r & H & K). unfold has2ByteMapping. apply existsb_exists. exists c. split; [apply keys_in; exists r; exact H|now apply Z.ltb_lt].
Qed.
Lemma lookups d cs : base_small d -> Forall (fun c => c < 65536) cs ->
  exists rs, Forall2 (means d) cs rs /\ (Forall is_char rs -> flat_map (fun c => write_rune (lookupCode d c)) cs = text_of rs).
Proof.
  intros B F. exists (map (lookupCode d) cs). split.
  - induction F; constructor; [apply lookup_means; assumption|assumption].
  - intros K. rewrite <- write_text by exact K. clear. induction cs as [|c cs IH]; [reflexivity|]. cbn [map flat_map]. rewrite IH. reflexivity.
Qed.
Lemma hex_bytes d s t : hex_of t s -> base_small d -> one_byte_font d \/ length s = 1%nat ->
  exists rs, Forall2 (means d) (byte_codes s) rs /\ (Forall is_char rs -> DecodeHex d (bs "<" ++ t ++ bs ">") = text_of rs).
Proof.
  intros H B O. destruct (lookups d (byte_codes s) B) as (rs & M & K).
  { unfold byte_codes. apply Forall_forall. intros c Hc. apply in_map_iff in Hc. destruct Hc as (b & <- & _). pose proof (b2n_bound b). lia. }
  exists rs. split; [exact M|]. intros F. rewrite <- (K F). unfold DecodeHex. rewrite inner_of, (strip_hex_of _ _ H).
  assert (has2ByteMapping d && (4 <=? length (hexX s))%nat = false) as ->.
  { destruct O as [O|O]; [rewrite has2_false by exact O; reflexivity|]. rewrite hexX_len, O. apply andb_false_r. }
  rewrite hexX_chunks2 by (rewrite hexX_len; lia). unfold byte_codes. clear. induction s as [|b s IH]; [reflexivity|].
  cbn [map flat_map]. rewrite IH, hex2_value. reflexivity.
Qed.
Lemma hex_pairs d s t : hex_of t s -> base_small d -> has_wide_code d -> Nat.even (length s) = true ->
  exists rs, Forall2 (means d) (pair_codes s) rs /\ (Forall is_char rs -> DecodeHex d (bs "<" ++ t ++ bs ">") = text_of rs).
Proof.
  intros H B O E. destruct (lookups d (pair_codes s) B) as (rs & M & K).
  { revert E. apply (even_ind (fun s => Forall (fun c => c < 65536) (pair_codes s))); [constructor|]. intros a b r IH. cbn [pair_codes].
    pose proof (b2n_bound a). pose proof (b2n_bound b). constructor; [lia|exact IH]. }
  exists rs. split; [exact M|]. intros F. rewrite <- (K F). unfold DecodeHex. rewrite inner_of, (strip_hex_of _ _ H), has2_true by exact O. cbn [andb].
  destruct s as [|a [|b s]]; [reflexivity|discriminate|].
  assert ((4 <=? length (hexX (a :: b :: s)))%nat = true) as -> by (apply Nat.leb_le; rewrite hexX_len; cbn [length]; lia).
  rewrite hexX_chunks4 by (try exact E; rewrite hexX_len; lia). revert E. generalize (a :: b :: s). clear.
  apply (even_ind (fun l => flat_map _ (pair_hex l) = flat_map _ (pair_codes l))); [reflexivity|]. intros a b s IH. cbn [pair_hex pair_codes flat_map].
  rewrite IH, hex4_value. reflexivity.
Qed.

(* ---------------------------------------------------------------- *)
(** The maps of the font package *)
Definition own_char (order : list Z -> list Z) (m : zmap N) (g : N) : Z := match char_of order m g with Some c => c | None => 32 end.
Lemma own_line order m g : (forall c h, mget c m = Some h -> 0 <= c) -> bfchar_line order m g = char_line 2 (mkChar g (Z.to_N (own_char order m g)) false).
Proof.
  intros P. unfold bfchar_line, char_line, own_char, hx. cbn [bcCode bcUni]. rewrite <- !app_assoc. f_equal. f_equal.
  change (bs "> <") with (bs ">" ++ bs " " ++ bs "<"). rewrite <- !app_assoc. do 3 f_equal. unfold nl1. f_equal.
  destruct (char_of order m g) as [c|] eqn:E; [|reflexivity]. unfold char_of in E. apply List.find_some in E. destruct E as [_ E].
  destruct (mget c m) as [h|] eqn:Em; [|discriminate]. apply P in Em. unfold hexZ. destruct (Z.ltb_spec c 0); [lia|reflexivity].
Qed.
Definition own_sections (order : list Z -> list Z) (m : zmap N) (gs : list N) : list (bytes * section) :=
  [(cmap_head ++ decZ (Z.of_nat (length gs)) ++ bs " ", Chars (map (fun g => mkChar g (Z.to_N (own_char order m g)) false) gs))].
Definition own_tail : bytes := [x0a] ++ bs "endcmap" ++ [x0a] ++ bs "CMapName currentdict /CMap defineresource pop" ++ [x0a] ++ bs "end" ++ [x0a] ++ bs "end" ++ [x0a].
Lemma own_text order m gs : (forall c h, mget c m = Some h -> 0 <= c) -> createToUnicode order m gs = cmap_text 2 (own_sections order m gs) own_tail.
Proof.
  intros P. unfold createToUnicode, cmap_text, own_sections. cbn [flat_map fst snd section_text]. rewrite app_nil_r.
  change (bs " beginbfchar") with (bs " " ++ bs "beginbfchar").
  assert (flat_map (bfchar_line order m) gs = flat_map (char_line 2) (map (fun g => mkChar g (Z.to_N (own_char order m g)) false) gs)) as ->.
  { induction gs as [|g gs IH]; [reflexivity|]. cbn [flat_map map]. rewrite IH, own_line by exact P. reflexivity. }
  rewrite <- !app_assoc. reflexivity.
Qed.
Lemma char_of_spec order m g : (forall l, Permutation (order l) l) ->
  match char_of order m g with Some c => mget c m = Some g | None => forall c, mget c m <> Some g end.
Proof.
  intros O. unfold char_of. destruct (List.find _ _) as [c|] eqn:E.
  - apply List.find_some in E. destruct E as [_ E]. destruct (mget c m) as [h|] eqn:Em; [|discriminate]. apply N.eqb_eq in E. congruence.
  - intros c Hc. assert (In c (order (mkeys m))) as Hi. { eapply Permutation_in; [symmetry; apply O|]. apply mkeys_in. exists g. exact Hc. }
    pose proof (List.find_none _ _ E c Hi) as K. cbn beta in K. rewrite Hc, N.eqb_refl in K. discriminate.
Qed.
Lemma nostart_decZ_c c p z : 0 <= z -> is_digit c = false -> nostart (c :: p) (decZ z).
Proof. intros Hz H. apply (nostart_class is_digit); [apply decZ_digits; exact Hz|exact H]. Qed.
Lemma own_quiet n : 0 <= n -> quiet (cmap_head ++ decZ n ++ bs " ").
Proof.
  intros H. split; (apply nostart_app; [apply nostartb_ok; vm_compute; reflexivity|apply nostart_app; [apply nostart_decZ_c; [exact H|reflexivity]|apply nostartb_ok; reflexivity]]).
Qed.
Lemma own_fonts order m gs g d : (forall l, Permutation (order l) l) -> (forall c h, mget c m = Some h -> 0 <= c < 65536) ->
  Forall (fun g => g < 65536)%N gs -> In g gs ->
  exists r, mget (Z.of_N g) (toUnicode (ParseToUnicodeCMap (createToUnicode order m gs) d)) = Some r /\
    (mget r m = Some g \/ (r = 32 /\ forall c, mget c m <> Some g)).
Proof.
  intros O P F Hg. assert (forall g, 0 <= own_char order m g < 65536) as Pc.
  { intros h. unfold own_char. pose proof (char_of_spec order m h O) as K. destruct (char_of order m h); [apply P in K; lia|lia]. }
  rewrite own_text by (intros c h Hc; apply P in Hc; lia). rewrite cmap_ok.
  - exists (own_char order m g). split.
    + unfold cmap_char, own_sections, all_ranges, all_chars. cbn [flat_map snd app rev List.find]. rewrite app_nil_r.
      destruct (List.find _ _) as [e|] eqn:E.
      * apply List.find_some in E. destruct E as [Hi E]. apply N.eqb_eq in E. apply in_rev in Hi. apply in_map_iff in Hi.
        destruct Hi as (h & <- & _). cbn [bcCode] in E. subst h. cbn [option_map bcUni]. rewrite Z2N.id by apply Pc. reflexivity.
      * exfalso. pose proof (List.find_none _ _ E (mkChar g (Z.to_N (own_char order m g)) false)) as K. cbn [bcCode] in K. rewrite N.eqb_refl in K.
        discriminate K. apply -> in_rev. apply in_map_iff. exists g. split; [reflexivity|exact Hg].
    + unfold own_char. pose proof (char_of_spec order m g O) as K. destruct (char_of order m g); [now left|now right].
  - constructor; [|constructor]. cbn [fst]. apply own_quiet. lia.
  - constructor; [|constructor]. cbn [snd section_fits]. apply Forall_forall. intros e He. apply in_map_iff in He. destruct He as (h & <- & Hh).
    rewrite Forall_forall in F. specialize (F _ Hh). specialize (Pc h). split; cbn [bcCode bcUni bcShort]; lia.
  - vm_compute. reflexivity.
  - vm_compute. reflexivity.
Qed.
