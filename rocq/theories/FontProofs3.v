(** The directories of a font file. *)
From Verif Require Import Util Scan FontModel FontSpec FontProofs FontProofs2.
Local Open Scope Z_scope.

Definition enc_at (s : bytes) (o : nat) : encoding := mkEnc (u16 s o) (u16 s (o + 2)) (u32 s (o + 4)).
Lemma enc_len e : length (w_encoding e) = 8%nat. Proof. reflexivity. Qed.
Lemma encs_len es : length (flat_map w_encoding es) = (8 * length es)%nat.
Proof. induction es as [|g gs IH]; [reflexivity|]. cbn [flat_map]. rewrite app_length, IH, enc_len. cbn [length]. lia. Qed.
Lemma enc_at_front e s : encoding_fits e -> enc_at (w_encoding e ++ s) 0 = e.
Proof.
  intros [A [B C]]. unfold enc_at, w_encoding. rewrite <- !app_assoc. cbn [Nat.add].
  rewrite u16_front by exact A. change 2%nat with (length (w16 (ePlatform e)) + 0)%nat at 1. rewrite u16_app, u16_front by exact B.
  change 4%nat with (length (w16 (ePlatform e)) + 2)%nat. rewrite u32_app. change 2%nat with (length (w16 (eEncoding e)) + 0)%nat. rewrite u32_app, u32_front by exact C.
  destruct e; reflexivity.
Qed.
Lemma enc_at_app a s i : enc_at (a ++ s) (length a + i) = enc_at s i.
Proof. unfold enc_at. rewrite <- !Nat.add_assoc, !u32_app, !u16_app. reflexivity. Qed.
Lemma encs_at es : forall pre s, Forall encoding_fits es ->
  map (enc_at (pre ++ flat_map w_encoding es ++ s)) (map (fun i => (length pre + i * 8)%nat) (seq 0 (length es))) = es.
Proof.
  induction es as [|g gs IH]; intros pre s F; [reflexivity|]. inversion F; subst. cbn [flat_map length seq map].
  rewrite <- app_assoc. f_equal.
  - replace (length pre + 0 * 8)%nat with (length pre + 0)%nat by lia. rewrite enc_at_app. apply enc_at_front. assumption.
  - rewrite app_assoc. rewrite <- seq_shift, map_map, map_map. rewrite <- (IH (pre ++ w_encoding g) s) at 2 by assumption. rewrite map_map.
    apply map_ext. intros i. f_equal. rewrite app_length, enc_len. lia.
Qed.
Lemma find_map {A B} (f : A -> B) p l : option_map f (List.find (fun x => p (f x)) l) = List.find p (map f l).
Proof. induction l as [|a l IH]; [reflexivity|]. cbn [List.find map]. destruct (p (f a)); [reflexivity|exact IH]. Qed.
Lemma find_app {A} (p : A -> bool) a b : List.find p (a ++ b) = match List.find p a with Some x => Some x | None => List.find p b end.
Proof. induction a as [|x a IH]; [reflexivity|]. cbn [app List.find]. destruct (p x); [reflexivity|exact IH]. Qed.

Lemma best_fold s offs : forall b, fold_left (fun best o =>
    let e := u16 s (o + 2) in
    if (u16 s o =? 3)%N && ((e =? 1) || (e =? 10))%N then
      match best with None => Some (u32 s (o + 4)) | Some _ => if (e =? 10)%N then Some (u32 s (o + 4)) else best end
    else best) offs b =
  match List.find (is_encoding 3 10) (rev (map (enc_at s) offs)) with
  | Some e => Some (eOffset e)
  | None => match b with Some o => Some o | None => option_map eOffset (List.find (is_encoding 3 1) (map (enc_at s) offs)) end
  end.
Proof.
  induction offs as [|o offs IH]; intros b; [destruct b; reflexivity|].
  cbn [fold_left map rev]. rewrite IH, find_app. clear IH. cbv zeta.
  destruct (List.find (is_encoding 3 10) (rev (map (enc_at s) offs))) as [e|]; [reflexivity|].
  cbn [List.find]. unfold is_encoding, enc_at. cbn [ePlatform eEncoding eOffset].
  destruct (u16 s o =? 3)%N; cbn [andb]; [|destruct b; reflexivity].
  destruct (N.eqb_spec (u16 s (o + 2)) 1) as [E|E], (N.eqb_spec (u16 s (o + 2)) 10) as [E'|E']; cbn [orb]; [lia| | |]; destruct b; reflexivity.
Qed.
Lemma best_table_spec es body : Forall encoding_fits es -> (N.of_nat (length es) < 65536)%N ->
  best_table (cmap_table es body) = option_map eOffset (wanted es).
Proof.
  intros F Hn. pose (head := w16 0 ++ w16 (N.of_nat (length es))).
  assert (cmap_table es body = head ++ flat_map w_encoding es ++ body) as Hs. { unfold cmap_table, head. rewrite <- !app_assoc. reflexivity. }
  set (s := cmap_table es body) in *.
  assert (u16 s 2 = N.of_nat (length es)) as H2. { unfold s, cmap_table. change 2%nat with (length (w16 0) + 0)%nat. rewrite u16_app. apply u16_front, Hn. }
  unfold best_table. rewrite H2, Nat2N.id, records_all; [|lia|rewrite Hs, !app_length, encs_len; change (length head) with 4%nat; lia].
  assert (map (enc_at s) (map (fun i => (4 + i * 8)%nat) (seq 0 (length es))) = es) as He.
  { rewrite Hs. apply (encs_at es head body F). }
  rewrite best_fold, He. unfold wanted.
  destruct (List.find (is_encoding 3 10) (rev es)) as [e|]; [reflexivity|].
  destruct (List.find (is_encoding 3 1) es) as [e|]; [reflexivity|]. cbn [option_map].
  rewrite <- (f_equal (List.find (fun e => (ePlatform e =? 0)%N)) He).
  generalize (map (fun i => (4 + i * 8)%nat) (seq 0 (length es))). intros l.
  rewrite <- (find_map (enc_at s)). cbn [enc_at ePlatform].
  destruct (List.find (fun x => (u16 s x =? 0)%N) l) as [o|]; reflexivity.
Qed.
Lemma cmap_spec fuel es body : Forall encoding_fits es -> (N.of_nat (length es) < 65536)%N ->
  let s := cmap_table es body in
  parseCmap fuel s =
  match wanted es with
  | None => Some Err
  | Some e =>
      if (N.of_nat (length s) <? eOffset e)%N then Some Panic
      else let t := skipn (N.to_nat (eOffset e)) s in
        if (length t <? 2)%nat then Some Err
        else if (u16 t 0 =? 12)%N then parseCmapFormat12 fuel t else Some (parseCmapFormat4 t)
  end.
Proof.
  intros F Hn s. unfold parseCmap. assert (4 <= length s)%nat as Hl by (unfold s, cmap_table; rewrite !app_length, !w16_len; lia).
  destruct (Nat.ltb_spec (length s) 4); [lia|]. assert (u16 s 0 = 0%N) as E0 by (unfold s, cmap_table; apply u16_front; lia).
  rewrite E0. change (negb (0 =? 0)%N) with false. cbv iota. unfold s. rewrite best_table_spec by assumption. fold s.
  destruct (wanted es); reflexivity.
Qed.

(* ---------------------------------------------------------------- *)
(** 'hmtx' *)
Lemma u16_metrics ms : forall i s, Forall (fun m : N * N => (fst m < 65536)%N) ms -> (i < length ms)%nat ->
  u16 (flat_map (fun m : N * N => w16 (fst m) ++ w16 (snd m)) ms ++ s) (i * 4) = fst (nth i ms (0, 0)%N).
Proof.
  induction ms as [|m ms IH]; intros i s F Hi; [cbn in Hi; lia|]. inversion F; subst. cbn [flat_map]. rewrite <- !app_assoc.
  destruct i as [|i]; [apply u16_front; assumption|].
  replace (S i * 4)%nat with (length (w16 (fst m) ++ w16 (snd m)) + i * 4)%nat by (rewrite app_length, !w16_len; lia).
  rewrite (app_assoc (w16 (fst m))), u16_app. cbn [nth]. apply IH; [assumption|cbn in Hi; lia].
Qed.
Lemma metrics_len ms : length (flat_map (fun m : N * N => w16 (fst m) ++ w16 (snd m)) ms) = (4 * length ms)%nat.
Proof. induction ms as [|g gs IH]; [reflexivity|]. cbn [flat_map]. rewrite app_length, IH, app_length, !w16_len. cbn [length]. lia. Qed.
Lemma width_spec ms bearings upem g : Forall (fun m : N * N => (fst m < 65536)%N) ms ->
  (N.to_nat g < length ms)%nat -> (g < 16384)%N -> glyph_width (hmtx_table ms bearings) upem g = advance ms (N.to_nat g).
Proof.
  intros F Hg Hs. unfold glyph_width, hmtx_table. rewrite app_length, metrics_len.
  destruct (Nat.leb_spec (N.to_nat g * 4 + 2) (4 * length ms + length (words bearings))); [|lia].
  rewrite N.mod_small by lia. replace (N.to_nat (g * 4)) with (N.to_nat g * 4)%nat by lia. rewrite u16_metrics by assumption.
  unfold advance. rewrite Nat.min_l by lia. reflexivity.
Qed.
(** beyond the advances: the default, or side bearings *)
Lemma width_default ms upem g : (length ms <= N.to_nat g)%nat -> glyph_width (hmtx_table ms []) upem g = upem.
Proof.
  intros H. unfold glyph_width, hmtx_table. rewrite app_length, metrics_len. cbn [words flat_map length].
  destruct (Nat.leb_spec (N.to_nat g * 4 + 2) (4 * length ms + 0)); [lia|reflexivity].
Qed.
Lemma width_wraps ms bearings upem g : Forall (fun m : N * N => (fst m < 65536)%N) ms -> (16384 <= g < 32768)%N -> (N.to_nat g < length ms)%nat ->
  glyph_width (hmtx_table ms bearings) upem g = advance ms (N.to_nat (g - 16384)).
Proof.
  intros F Hg Hl. unfold glyph_width, hmtx_table. rewrite app_length, metrics_len.
  destruct (Nat.leb_spec (N.to_nat g * 4 + 2) (4 * length ms + length (words bearings))); [|lia].
  replace ((g * 4) mod 65536)%N with ((g - 16384) * 4)%N.
  - replace (N.to_nat ((g - 16384) * 4)) with (N.to_nat (g - 16384) * 4)%nat by lia. rewrite u16_metrics by (try assumption; lia).
    unfold advance. rewrite Nat.min_l by lia. reflexivity.
  - apply (N.mod_unique _ _ 1); lia.
Qed.

(* ---------------------------------------------------------------- *)
(** The table directory *)
Lemma rec_len r : length (rTag r) = 4%nat -> length (w_record r) = 16%nat.
Proof. intros H. unfold w_record. rewrite !app_length, H. reflexivity. Qed.
Lemma recs_len file rs : Forall (record_fits file) rs -> length (flat_map w_record rs) = (16 * length rs)%nat.
Proof.
  induction rs as [|g gs IH]; intros F; [reflexivity|]. inversion F as [|? ? [H _] F']; subst. cbn [flat_map]. rewrite app_length, IH, rec_len by assumption. cbn [length]. lia.
Qed.
Lemma firstn_front {A} (a b : list A) n : length a = n -> firstn n (a ++ b) = a.
Proof. intros <-. rewrite firstn_app, Nat.sub_diag, firstn_all. cbn [firstn]. apply app_nil_r. Qed.
Lemma skipn_front {A} (a b : list A) n : length a = n -> skipn n (a ++ b) = b.
Proof. intros <-. rewrite skipn_app, Nat.sub_diag, skipn_all. reflexivity. Qed.
Lemma read_tables_spec s rs : forall pre tail m, s = pre ++ flat_map w_record rs ++ tail -> Forall (record_fits s) rs ->
  Forall (fun r => (rOff r + rLen r <= N.of_nat (length s))%N) rs ->
  exists m', read_tables (length rs) s (length pre) m = Some m' /\
  forall tag, kget tag m' = match table_in s rs tag with Some t => Some t | None => kget tag m end.
Proof.
  induction rs as [|r rs IH]; intros pre tail m Hs F L.
  - exists m. split; [reflexivity|]. reflexivity.
  - inversion F as [|? ? [T [A [B C]]] F']; subst x l. inversion L as [|? ? L1 L']; subst x l. cbn [flat_map] in Hs. rewrite <- app_assoc in Hs.
    cbn [length read_tables]. pose proof (rec_len r T) as Lr.
    assert (length s = length pre + 16 + length (flat_map w_record rs) + length tail)%nat as Ls by (rewrite Hs, !app_length, Lr; lia).
    destruct (Nat.ltb_spec (length s) (length pre + 16)); [lia|].
    assert (u32 s (length pre + 8) = rOff r) as E8.
    { rewrite Hs, u32_app. unfold w_record. rewrite <- !app_assoc. replace 8%nat with (length (rTag r) + 4)%nat by lia. rewrite u32_app.
      change 4%nat with (length (w32 (rSum r)) + 0)%nat. rewrite u32_app. apply u32_front, B. }
    assert (u32 s (length pre + 12) = rLen r) as E12.
    { rewrite Hs, u32_app. unfold w_record. rewrite <- !app_assoc. replace 12%nat with (length (rTag r) + 8)%nat by lia. rewrite u32_app.
      change 8%nat with (length (w32 (rSum r)) + 4)%nat. rewrite u32_app. change 4%nat with (length (w32 (rOff r)) + 0)%nat. rewrite u32_app. apply u32_front, C. }
    rewrite E8, E12. cbv zeta. destruct (N.ltb_spec (N.of_nat (length s)) (rOff r + rLen r)); [lia|].
    assert (firstn 4 (skipn (length pre) s) = rTag r) as Et.
    { rewrite Hs, skipn_front by reflexivity. unfold w_record. rewrite <- !app_assoc. apply firstn_front, T. }
    rewrite Et. 
    destruct (IH (pre ++ w_record r) tail (kset (rTag r) (slice (rOff r) (rLen r) s) m)) as [m' [H1 H2]].
    + rewrite Hs, <- app_assoc. reflexivity.
    + exact F'.
    + exact L'.
    + exists m'. split; [rewrite <- H1; f_equal; rewrite app_length; lia|].
      intros tag. rewrite H2, kget_kset. unfold table_in. cbn [rev]. rewrite find_app.
      destruct (List.find (fun r0 => bytes_eqb tag (rTag r0)) (rev rs)); cbn [option_map]; [reflexivity|]. cbn [List.find].
      destruct (bytes_eqb tag (rTag r)); reflexivity.
Qed.

(** name records never panic in a table below 64K *)
Lemma read_name_ok s strings off ns : (N.of_nat (length s) < 65536)%N -> exists ns', read_name s strings (Ok ns) off = Ok ns'.
Proof.
  intros H. unfold read_name. cbn [rbind]. destruct ns as [[fam full] ps].
  destruct (((u16 s off =? 3) || (u16 s off =? 0))%N && (strings + u16 s (off + 10) + u16 s (off + 8) <=? N.of_nat (length s))%N) eqn:E; [|eexists; reflexivity].
  apply andb_true_iff in E. destruct E as [_ E]. apply N.leb_le in E. rewrite !N.mod_small by lia.
  destruct (N.ltb_spec (strings + u16 s (off + 10) + u16 s (off + 8)) (strings + u16 s (off + 10))); [lia|]. eexists. reflexivity.
Qed.
Lemma parse_name_ok s : (N.of_nat (length s) < 65536)%N -> exists ns, parse_name s = Ok ns.
Proof.
  intros H. unfold parse_name. generalize (u16 s 4). intros strings. assert (forall offs ns, exists ns', fold_left (read_name s strings) offs (Ok ns) = Ok ns') as G.
  { induction offs as [|o offs IH]; intros ns; [eexists; reflexivity|]. cbn [fold_left]. destruct (read_name_ok s strings o ns H) as [ns' ->]. apply IH. }
  apply G.
Qed.

Lemma signature_front s rest : sfnt_ok s -> signature_ok (s ++ rest) = true /\ length s = 4%nat.
Proof. intros [->| ->]; split; reflexivity. Qed.

Lemma table_of_ok tag least (m : list (bytes * bytes)) (t : bytes) : kget tag m = Some t -> (least <= length t)%nat -> table_of tag least m = Some t.
Proof. intros E L. unfold table_of. rewrite E. destruct (Nat.ltb_spec (length t) least); [lia|reflexivity]. Qed.
Lemma parse_ttf_spec sfnt search rs body head maxp hhea name post :
  let s := font_file sfnt search rs body in
  sfnt_ok sfnt -> length search = 6%nat -> (N.of_nat (length rs) < 65536)%N -> Forall (record_fits s) rs ->
  Forall (fun r => (rOff r + rLen r <= N.of_nat (length s))%N) rs ->
  table_in s rs (bs "head") = Some head -> (54 <= length head)%nat ->
  table_in s rs (bs "maxp") = Some maxp -> (6 <= length maxp)%nat ->
  table_in s rs (bs "hhea") = Some hhea -> (36 <= length hhea)%nat ->
  table_in s rs (bs "name") = Some name -> (6 <= length name)%nat -> (N.of_nat (length name) < 65536)%N ->
  table_in s rs (bs "post") = Some post -> (32 <= length post)%nat ->
  exists t ns, ParseTTF s = Ok t /\ parse_name name = Ok ns /\
    (forall tag, kget tag (tTables t) = table_in s rs tag) /\
    tUnitsPerEm t = u16 head 18 /\ tAscent t = i16 (u16 hhea 4) /\ tDescent t = i16 (u16 hhea 6) /\
    tItalic t = i32 (u32 post 4) /\ tFontName t = font_name ns /\ tFamily t = fst (fst ns).
Proof.
  intros s Hsf Hse Hn F L H1 L1 H2 L2 H3 L3 H4 L4 L4' H5 L5.
  destruct (signature_front sfnt (w16 (N.of_nat (length rs)) ++ search ++ flat_map w_record rs ++ body) Hsf) as [Sig Lsf].
  pose (pre := sfnt ++ w16 (N.of_nat (length rs)) ++ search).
  assert (length pre = 12%nat) as Lp by (unfold pre; rewrite !app_length, Lsf, Hse; reflexivity).
  assert (s = pre ++ flat_map w_record rs ++ body) as Hs by (unfold s, font_file, pre; rewrite <- !app_assoc; reflexivity).
  destruct (read_tables_spec s rs pre body [] Hs F L) as [m [R Rt]]. rewrite Lp in R.
  assert (forall tag, kget tag m = table_in s rs tag) as Hk. { intros tag. pose proof (Rt tag) as E. destruct (table_in s rs tag); exact E. }
  unfold ParseTTF. assert (12 <= length s)%nat by (rewrite Hs, app_length; lia). destruct (Nat.ltb_spec (length s) 12); [lia|].
  change (signature_ok s = true) in Sig. rewrite Sig. cbn [negb].
  assert (u16 s 4 = N.of_nat (length rs)) as E4. { unfold s, font_file. replace 4%nat with (length sfnt + 0)%nat by lia. rewrite u16_app. apply u16_front, Hn. }
  rewrite E4, Nat2N.id, R.
  rewrite (table_of_ok _ _ m head) by (rewrite ?Hk; assumption). rewrite (table_of_ok _ _ m maxp) by (rewrite ?Hk; assumption).
  rewrite (table_of_ok _ _ m hhea) by (rewrite ?Hk; assumption). rewrite (table_of_ok _ _ m name) by (rewrite ?Hk; assumption).
  destruct (parse_name_ok name L4') as [ns Hns]. rewrite Hns. cbn [rbind]. rewrite (table_of_ok _ _ m post) by (rewrite ?Hk; assumption).
  eexists. exists ns. split; [reflexivity|]. cbn [tTables tUnitsPerEm tAscent tDescent tItalic tFontName tFamily]. repeat (split; [first [reflexivity|exact Hk]|]). reflexivity.
Qed.
(** no panic for any data below 64K *)
Lemma read_tables_len n s : forall off m m', read_tables n s off m = Some m' -> (forall tag t, kget tag m = Some t -> (length t <= length s)%nat) ->
  forall tag t, kget tag m' = Some t -> (length t <= length s)%nat.
Proof.
  induction n as [|n IH]; intros off m m' H K; [injection H as <-; exact K|]. cbn [read_tables] in H.
  destruct (length s <? off + 16)%nat; [discriminate|]. cbv zeta in H. destruct (N.of_nat (length s) <? _)%N; [discriminate|].
  eapply IH; [exact H|]. intros tag t. rewrite kget_kset. destruct (bytes_eqb tag _); [|apply K]. intros E. injection E as <-.
  rewrite firstn_length, skipn_length. lia.
Qed.
Lemma parse_ttf_no_panic s : (N.of_nat (length s) < 65536)%N -> ParseTTF s <> Panic.
Proof.
  intros H. unfold ParseTTF. destruct (length s <? 12)%nat; [discriminate|]. destruct (negb (signature_ok s)); [discriminate|].
  destruct (read_tables _ s 12 []) as [m|] eqn:E; [|discriminate].
  destruct (table_of (bs "head") 54 m); [|discriminate]. destruct (table_of (bs "maxp") 6 m); [|discriminate].
  destruct (table_of (bs "hhea") 36 m); [|discriminate]. destruct (table_of (bs "name") 6 m) as [name|] eqn:En; [|discriminate].
  assert (length name <= length s)%nat as Hn.
  { unfold table_of in En. destruct (kget (bs "name") m) as [t|] eqn:K; [|discriminate]. destruct (length t <? 6)%nat; [discriminate|].
    injection En as <-. eapply (read_tables_len _ _ _ _ _ E); [|exact K]. intros; discriminate. }
  destruct (parse_name_ok name ltac:(lia)) as [ns Hns]. rewrite Hns. cbn [rbind]. destruct (table_of (bs "post") 32 m); discriminate.
Qed.
(** a name table of 131088 bytes: the uint16 sums wrap *)
Lemma name_panics body : (131070 <= N.of_nat (length body))%N ->
  parse_name (words [0; 1; 18; 3; 1; 1033; 4; 65535; 65535]%N ++ body) = Panic.
Proof.
  intros H. unfold parse_name. set (s := words [0; 1; 18; 3; 1; 1033; 4; 65535; 65535]%N ++ body).
  assert (forall i, (i < 9)%nat -> u16 s (2 * i) = nth i [0; 1; 18; 3; 1; 1033; 4; 65535; 65535]%N 0%N) as U.
  { intros i Hi. apply u16_words; [repeat constructor|exact Hi]. }
  assert (u16 s 2 = 1%N) as -> by exact (U 1%nat ltac:(lia)). assert (u16 s 4 = 18%N) as -> by exact (U 2%nat ltac:(lia)). assert (length s = 18 + length body)%nat as Ls by (unfold s; rewrite app_length; reflexivity).
  rewrite records_all; [|lia|]. 2: { change (N.to_nat 1) with 1%nat. lia. }
  change (N.to_nat 1) with 1%nat. cbn [seq map fold_left]. unfold read_name. cbn [rbind].
  change (6 + 0 * 12)%nat with 6%nat. change (6 + 8)%nat with 14%nat. change (6 + 10)%nat with 16%nat.
  assert (u16 s 6 = 3%N) as -> by exact (U 3%nat ltac:(lia)). assert (u16 s 14 = 65535%N) as -> by exact (U 7%nat ltac:(lia)).
  assert (u16 s 16 = 65535%N) as -> by exact (U 8%nat ltac:(lia)).
  change (18 + 65535 + 65535)%N with 131088%N. change ((3 =? 3) || (3 =? 0))%N with true. cbn [andb].
  destruct (N.leb_spec 131088 (N.of_nat (length s))); [|lia]. reflexivity.
Qed.

(** format 4 slices behind a short table *)
Lemma format4_panics : parseCmapFormat4 (words [4; 14; 0; 2; 0; 0; 0]%N) = Panic.
Proof. reflexivity. Qed.
