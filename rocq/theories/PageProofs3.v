(** Proofs for images and watermarks. *)
From Verif Require CompareProofs4 XrefProofs.
From Verif Require Import Util Scan PageModel PageSpec TextSpec TextProofs ContentProofs WriterProofs ParseProofs MetaProofs ManipProofs PageProofs PageProofs2.
Local Open Scope Z_scope.

(* ---------------------------------------------------------------- *)
(** JPEG *)

Lemma at_app (a b : bytes) i : at_ (a ++ b) (length a + i) = at_ b i.
Proof. unfold at_. rewrite app_nth2_plus. reflexivity. Qed.
Lemma at_here (a b : bytes) : at_ (a ++ b) (length a) = at_ b 0.
Proof. rewrite <- (Nat.add_0_r (length a)) at 1. apply at_app. Qed.
Lemma be_two (a : bytes) n rest i : (n < 65536)%N -> i = length a -> be16 (a ++ two_bytes n ++ rest) i = Z.of_N n.
Proof.
  intros H ->. unfold be16. rewrite at_here, at_app. unfold two_bytes, at_. cbn [app nth].
  rewrite !b2n_n2b.
  rewrite (N.mod_small (n / 256)) by (apply N.div_lt_upper_bound; lia).
  f_equal. rewrite (N.div_mod' n 256) at 3. lia.
Qed.

Lemma loop_segments segs : forall pre frame fuel, Forall segment_ok segs -> (length segs <= fuel)%nat -> (2 <= length frame)%nat ->
  jpeg_loop fuel (pre ++ flat_map segment_bytes segs ++ frame) (length pre) =
  jpeg_loop (fuel - length segs) (pre ++ flat_map segment_bytes segs ++ frame) (length (pre ++ flat_map segment_bytes segs)).
Proof.
  induction segs as [|[m d] segs IH]; intros pre frame fuel HS HF FR.
  - cbn [flat_map app length]. rewrite app_nil_r, Nat.sub_0_r. reflexivity.
  - inversion HS as [|? ? Hs HS']; subst. destruct Hs as [H1 [H2 [H3 H4]]]. cbn [fst snd] in *.
    destruct fuel as [|fuel]; [cbn in HF; lia|].
    set (s := pre ++ flat_map segment_bytes ((m, d) :: segs) ++ frame).
    assert (E : s = pre ++ ([xff; n2b m] ++ two_bytes (N.of_nat (length d + 2)) ++ d) ++ flat_map segment_bytes segs ++ frame).
    { unfold s. cbn [flat_map]. unfold segment_bytes at 1. cbn [fst snd]. rewrite <- !app_assoc. reflexivity. }
    assert (L : length s = (length pre + 4 + length d + length (flat_map segment_bytes segs ++ frame))%nat).
    { rewrite E. repeat rewrite app_length. cbn [length two_bytes]. lia. }
    assert (LF : (2 <= length (flat_map segment_bytes segs ++ frame))%nat) by (rewrite app_length; lia).
    cbn [jpeg_loop].
    assert (G1 : (length s - 1 <=? length pre)%nat = false) by (apply Nat.leb_gt; lia). rewrite G1.
    assert (G2 : at_ s (length pre) = 255%N) by (rewrite E, at_here; reflexivity). rewrite G2. change (negb (255 =? 255)%N) with false. cbv iota.
    assert (G3 : at_ s (length pre + 1) = m).
    { rewrite E, at_app. unfold at_. cbn [app nth]. rewrite b2n_n2b. apply N.mod_small. lia. }
    rewrite G3.
    replace (m =? 255)%N with false by (symmetry; apply N.eqb_neq; exact H2).
    replace ((192 <=? m) && (m <=? 195))%N with false by (symmetry; apply andb_false_iff; rewrite !N.leb_gt; lia).
    assert (G4 : (length s <=? length pre + 2 + 1)%nat = false) by (apply Nat.leb_gt; lia). rewrite G4.
    assert (G5 : be16 s (length pre + 2) = Z.of_nat (length d) + 2).
    { rewrite E. replace (pre ++ ([xff; n2b m] ++ two_bytes (N.of_nat (length d + 2)) ++ d) ++ flat_map segment_bytes segs ++ frame)
        with ((pre ++ [xff; n2b m]) ++ two_bytes (N.of_nat (length d + 2)) ++ d ++ flat_map segment_bytes segs ++ frame)
        by (rewrite <- !app_assoc; reflexivity).
      rewrite be_two; [lia|lia|rewrite app_length; reflexivity]. }
    rewrite G5. cbn [length Nat.sub].
    set (pre' := pre ++ segment_bytes (m, d)).
    assert (LP : (length pre + 2 + Z.to_nat (Z.of_nat (length d) + 2))%nat = length pre').
    { unfold pre', segment_bytes. cbn [fst snd]. repeat rewrite app_length. cbn [length two_bytes]. lia. }
    rewrite LP.
    assert (E' : s = pre' ++ flat_map segment_bytes segs ++ frame).
    { unfold s, pre'. cbn [flat_map]. rewrite <- !app_assoc. reflexivity. }
    rewrite E'. rewrite IH; [|exact HS'|cbn in HF; lia|exact FR]. f_equal.
    unfold pre'. cbn [flat_map]. rewrite <- app_assoc. reflexivity.
Qed.

Lemma space_same n : color_space n = space_of n.
Proof. unfold color_space, space_of. destruct n as [|p]; [reflexivity|]. destruct p as [p|p|]; [reflexivity| |reflexivity].
  destruct p as [p|p|]; try reflexivity. destruct p; reflexivity. Qed.
Lemma jpeg_ok segs code len precision height width components rest :
  Forall segment_ok segs -> (192 <= code <= 195)%N -> length len = 2%nat -> length precision = 1%nat ->
  (height < 65536)%N -> (width < 65536)%N -> (components < 256)%N ->
  parseJPEGHeader (jpeg_file segs (frame_header code len precision height width components rest)) =
  Ok (Z.of_N width, Z.of_N height, space_of components).
Proof.
  intros HS HC HL HP HH HW HN. unfold jpeg_file, parseJPEGHeader.
  set (frame := frame_header code len precision height width components rest).
  set (s := [xff; xd8] ++ flat_map segment_bytes segs ++ frame).
  assert (LFr : length frame = (10 + length rest)%nat).
  { unfold frame, frame_header. repeat rewrite app_length. rewrite HL, HP. cbn [length two_bytes]. lia. }
  assert (LS : (4 * length segs <= length (flat_map segment_bytes segs))%nat).
  { clear. induction segs as [|[m d] segs IH]; [apply Nat.le_refl|]. cbn [flat_map length]. rewrite app_length.
    unfold segment_bytes at 1. cbn [fst snd]. repeat rewrite app_length. cbn [length two_bytes]. lia. }
  assert (L : length s = (2 + length (flat_map segment_bytes segs) + length frame)%nat).
  { unfold s. rewrite !app_length. cbn [length]. lia. }
  replace (length s <? 2)%nat with false by (symmetry; apply Nat.ltb_ge; lia).
  change (at_ s 0) with 255%N. change (at_ s 1) with 216%N. cbn [N.eqb Pos.eqb negb orb].
  change 2%nat with (length [xff; xd8]) at 1. unfold s at 2.
  rewrite (loop_segments segs [xff; xd8] frame (length s) HS) by lia. fold s.
  set (pre := [xff; xd8] ++ flat_map segment_bytes segs).
  assert (E : s = pre ++ frame) by (unfold s, pre; rewrite <- app_assoc; reflexivity).
  assert (LP : length pre = (2 + length (flat_map segment_bytes segs))%nat) by (unfold pre; rewrite app_length; reflexivity).
  destruct (length s - length segs)%nat as [|fuel] eqn:EF; [lia|]. cbn [jpeg_loop].
  assert (G1 : (length s - 1 <=? length pre)%nat = false) by (apply Nat.leb_gt; lia). rewrite G1.
  assert (G2 : at_ s (length pre) = 255%N) by (rewrite E, at_here; reflexivity). rewrite G2. change (negb (255 =? 255)%N) with false. cbv iota.
  assert (G3 : at_ s (length pre + 1) = code).
  { rewrite E, at_app. unfold frame, frame_header, at_. cbn [app nth]. rewrite b2n_n2b. apply N.mod_small. lia. }
  rewrite G3. replace (code =? 255)%N with false by (symmetry; apply N.eqb_neq; lia).
  replace ((192 <=? code) && (code <=? 195))%N with true by (symmetry; apply andb_true_iff; rewrite !N.leb_le; lia).
  replace (length s <? length pre + 2 + 7)%nat with false by (symmetry; apply Nat.ltb_ge; lia).
  replace (length s <=? length pre + 2 + 7)%nat with false by (symmetry; apply Nat.leb_gt; lia).
  assert (EW : be16 s (length pre + 2 + 5) = Z.of_N width).
  { rewrite E. unfold frame, frame_header.
    replace (pre ++ [xff; n2b code] ++ len ++ precision ++ two_bytes height ++ two_bytes width ++ [n2b components] ++ rest)
      with ((pre ++ [xff; n2b code] ++ len ++ precision ++ two_bytes height) ++ two_bytes width ++ [n2b components] ++ rest)
      by (rewrite <- !app_assoc; reflexivity).
    apply be_two; [exact HW|]. repeat rewrite app_length. rewrite HL, HP. cbn [length two_bytes]. lia. }
  assert (EH : be16 s (length pre + 2 + 3) = Z.of_N height).
  { rewrite E. unfold frame, frame_header.
    replace (pre ++ [xff; n2b code] ++ len ++ precision ++ two_bytes height ++ two_bytes width ++ [n2b components] ++ rest)
      with ((pre ++ [xff; n2b code] ++ len ++ precision) ++ two_bytes height ++ two_bytes width ++ [n2b components] ++ rest)
      by (rewrite <- !app_assoc; reflexivity).
    apply be_two; [exact HH|]. repeat rewrite app_length. rewrite HL, HP. cbn [length]. lia. }
  assert (EC : at_ s (length pre + 2 + 7) = components).
  { rewrite E. unfold frame, frame_header.
    replace (pre ++ [xff; n2b code] ++ len ++ precision ++ two_bytes height ++ two_bytes width ++ [n2b components] ++ rest)
      with ((pre ++ [xff; n2b code] ++ len ++ precision ++ two_bytes height ++ two_bytes width) ++ [n2b components] ++ rest)
      by (rewrite <- !app_assoc; reflexivity).
    replace (length pre + 2 + 7)%nat with (length (pre ++ [xff; n2b code] ++ len ++ precision ++ two_bytes height ++ two_bytes width))
      by (repeat rewrite app_length; rewrite HL, HP; cbn [length two_bytes]; lia).
    rewrite at_here. unfold at_. cbn [app nth]. rewrite b2n_n2b. apply N.mod_small. lia. }
  rewrite EW, EH, EC, space_same. reflexivity.
Qed.

Lemma split_at (s : bytes) p k : (p + k <= length s)%nat -> exists a m r, s = a ++ m ++ r /\ length a = p /\ length m = k.
Proof.
  intros H. exists (firstn p s), (firstn k (skipn p s)), (skipn k (skipn p s)).
  rewrite !firstn_skipn. split; [reflexivity|]. rewrite !firstn_length, skipn_length. lia.
Qed.
Lemma be_bytes x y : two_bytes (256 * b2n x + b2n y) = [x; y].
Proof.
  unfold two_bytes. pose proof (b2n_bound y). rewrite N.add_comm, N.mul_comm, N.div_add by lia.
  rewrite N.div_small by lia. rewrite N.add_0_l. rewrite n2b_b2n. f_equal. f_equal.
  apply b2n_inj. rewrite b2n_n2b. rewrite N.mod_add by lia. apply N.mod_small. lia.
Qed.
(** Whatever is reported was read from a frame header in the data. *)
Lemma jpeg_sound_loop fuel : forall s pos w h cs, jpeg_loop fuel s pos = Ok (w, h, cs) ->
  exists pre code len precision height width components rest,
    s = pre ++ frame_header code len precision height width components rest /\ (pos <= length pre)%nat /\
    (192 <= code <= 195)%N /\ length len = 2%nat /\ length precision = 1%nat /\
    (height < 65536)%N /\ (width < 65536)%N /\ (components < 256)%N /\
    w = Z.of_N width /\ h = Z.of_N height /\ cs = space_of components.
Proof.
  induction fuel as [|fuel IH]; intros s pos w h cs H; [discriminate H|].
  cbn [jpeg_loop] in H. destruct (length s - 1 <=? pos)%nat eqn:G1; [discriminate H|]. apply Nat.leb_gt in G1.
  destruct (at_ s pos =? 255)%N eqn:G2; cbn [negb] in H.
  2:{ apply IH in H. destruct H as [pre [c [l [p [hh [ww [n [r [E [P X]]]]]]]]]]. exists pre, c, l, p, hh, ww, n, r. split; [exact E|]. split; [lia|exact X]. }
  destruct (at_ s (pos + 1) =? 255)%N eqn:G3.
  { apply IH in H. destruct H as [pre [c [l [p [hh [ww [n [r [E [P X]]]]]]]]]]. exists pre, c, l, p, hh, ww, n, r. split; [exact E|]. split; [lia|exact X]. }
  destruct ((192 <=? at_ s (pos + 1)) && (at_ s (pos + 1) <=? 195))%N eqn:G4.
  2:{ destruct (length s <=? pos + 2 + 1)%nat; [discriminate H|].
      apply IH in H. destruct H as [pre [c [l [p [hh [ww [n [r [E [P X]]]]]]]]]]. exists pre, c, l, p, hh, ww, n, r. split; [exact E|]. split; [lia|exact X]. }
  destruct (length s <? pos + 2 + 7)%nat eqn:G5; [discriminate H|].
  destruct (length s <=? pos + 2 + 7)%nat eqn:G6; [discriminate H|]. apply Nat.leb_gt in G6.
  destruct (split_at s pos 10 ltac:(lia)) as [a [m [r [-> [La Lm]]]]]. subst pos.
  destruct m as [|b0 [|b1 [|b2 [|b3 [|b4 [|b5 [|b6 [|b7 [|b8 [|b9 [|b10 m]]]]]]]]]]]; try discriminate Lm.
  rewrite at_here in G2. rewrite at_app in G3, G4. unfold at_ in G2, G3, G4. cbn [app nth] in G2, G3, G4.
  apply N.eqb_eq in G2. apply andb_true_iff in G4. rewrite !N.leb_le in G4.
  replace (length a + 2 + 7)%nat with (length a + 9)%nat in H by lia.
  replace (length a + 2 + 5)%nat with (length a + 7)%nat in H by lia.
  replace (length a + 2 + 3)%nat with (length a + 5)%nat in H by lia.
  unfold be16 in H. rewrite <- !Nat.add_assoc in H. rewrite !at_app in H. unfold at_ in H. cbn [app nth Nat.add] in H.
  injection H as <- <- <-.
  exists a, (b2n b1), [b2; b3], [b4], (256 * b2n b5 + b2n b6)%N, (256 * b2n b7 + b2n b8)%N, (b2n b9), r.
  pose proof (b2n_bound b5). pose proof (b2n_bound b6). pose proof (b2n_bound b7). pose proof (b2n_bound b8). pose proof (b2n_bound b9).
  split.
  { unfold frame_header. rewrite !be_bytes, !n2b_b2n. f_equal. cbn [app]. f_equal.
    apply b2n_inj. rewrite G2. reflexivity. }
  split; [lia|]. split; [exact G4|]. split; [reflexivity|]. split; [reflexivity|]. split; [lia|]. split; [lia|]. split; [lia|].
  split; [reflexivity|]. split; [reflexivity|]. symmetry. symmetry. apply space_same.
Qed.
Lemma jpeg_sound s w h cs : parseJPEGHeader s = Ok (w, h, cs) ->
  exists pre code len precision height width components rest,
    s = [xff; xd8] ++ pre ++ frame_header code len precision height width components rest /\
    (192 <= code <= 195)%N /\ length len = 2%nat /\ length precision = 1%nat /\
    (height < 65536)%N /\ (width < 65536)%N /\ (components < 256)%N /\
    w = Z.of_N width /\ h = Z.of_N height /\ cs = space_of components.
Proof.
  unfold parseJPEGHeader. intros H.
  destruct (length s <? 2)%nat eqn:G1; [discriminate H|]. cbn [orb] in H.
  destruct (at_ s 0 =? 255)%N eqn:G2; [|discriminate H].
  destruct (at_ s 1 =? 216)%N eqn:G3; [|discriminate H]. cbn [orb negb] in H.
  apply jpeg_sound_loop in H. destruct H as [pre [c [l [p [hh [ww [n [r [E [P X]]]]]]]]]].
  destruct pre as [|x [|y pre]]; cbn [length] in P; try lia.
  exists pre, c, l, p, hh, ww, n, r. split; [|exact X].
  rewrite E. rewrite E in G2, G3. unfold at_ in G2, G3. cbn [app nth] in G2, G3.
  apply N.eqb_eq in G2, G3. change 255%N with (b2n xff) in G2. change 216%N with (b2n xd8) in G3.
  apply b2n_inj in G2. apply b2n_inj in G3. subst. reflexivity.
Qed.
(** The only panic: a frame header cut off before its last byte. *)
Lemma jpeg_panic_loop fuel : forall s pos, jpeg_loop fuel s pos = Panic ->
  exists pre code cut, s = pre ++ [xff; n2b code] ++ cut /\ (192 <= code <= 195)%N /\ length cut = 7%nat.
Proof.
  induction fuel as [|fuel IH]; intros s pos H; [discriminate H|].
  cbn [jpeg_loop] in H. destruct (length s - 1 <=? pos)%nat eqn:G1; [discriminate H|]. apply Nat.leb_gt in G1.
  destruct (at_ s pos =? 255)%N eqn:G2; cbn [negb] in H; [|eauto].
  destruct (at_ s (pos + 1) =? 255)%N eqn:G3; [eauto|].
  destruct ((192 <=? at_ s (pos + 1)) && (at_ s (pos + 1) <=? 195))%N eqn:G4.
  2:{ destruct (length s <=? pos + 2 + 1)%nat; [discriminate H|]. eauto. }
  destruct (length s <? pos + 2 + 7)%nat eqn:G5; [discriminate H|].
  destruct (length s <=? pos + 2 + 7)%nat eqn:G6; [|discriminate H]. apply Nat.leb_le in G6. apply Nat.ltb_ge in G5.
  destruct (split_at s pos 2 ltac:(lia)) as [a [m [r [-> [La Lm]]]]]. subst pos.
  destruct m as [|b0 [|b1 [|b2 m]]]; try discriminate Lm.
  rewrite at_here in G2. rewrite at_app in G4. unfold at_ in G2, G4. cbn [app nth] in G2, G4.
  apply N.eqb_eq in G2. apply andb_true_iff in G4. rewrite !N.leb_le in G4.
  exists a, (b2n b1), r. rewrite n2b_b2n. split; [|split; [exact G4|]].
  - f_equal. cbn [app]. f_equal. change 255%N with (b2n xff) in G2. apply b2n_inj in G2. exact G2.
  - rewrite !app_length in *. cbn [length] in *. lia.
Qed.
Lemma jpeg_panic s : parseJPEGHeader s = Panic ->
  exists pre code cut, s = pre ++ [xff; n2b code] ++ cut /\ (192 <= code <= 195)%N /\ length cut = 7%nat.
Proof.
  unfold parseJPEGHeader. destruct (_ || _ || _); [discriminate|]. apply jpeg_panic_loop.
Qed.

(* ---------------------------------------------------------------- *)
(** Pictures *)

Lemma nth_flat {A} (f : nat -> list A) k (n : nat) : (forall i, length (f i) = k) -> forall s i j, (i < n)%nat -> (j < k)%nat ->
  nth_error (flat_map f (seq s n)) (i * k + j) = nth_error (f (s + i)%nat) j.
Proof.
  intros H. induction n as [|n IH]; intros s i j Hi Hj; [lia|]. cbn [seq flat_map].
  destruct i as [|i].
  - rewrite Nat.add_0_r. cbn [Nat.mul Nat.add]. rewrite nth_error_app1; [reflexivity|]. rewrite H. exact Hj.
  - rewrite nth_error_app2 by (rewrite H; nia). rewrite H.
    replace (S i * k + j - k)%nat with (i * k + j)%nat by nia. rewrite IH by lia. f_equal. f_equal. lia.
Qed.
Lemma flat_length {A} (f : nat -> list A) k n : (forall i, length (f i) = k) -> forall s, length (flat_map f (seq s n)) = (n * k)%nat.
Proof. intros H. induction n as [|n IH]; intros s; [reflexivity|]. cbn [seq flat_map]. rewrite app_length, H, IH. lia. Qed.
Lemma raster_sample w h f k x y i : (forall x y, length (f x y) = k) -> (x < w)%nat -> (y < h)%nat -> (i < k)%nat ->
  sample (raster w h f) w k x y i = nth_error (f x y) i.
Proof.
  intros H Hx Hy Hi. unfold sample, raster.
  replace ((y * w + x) * k + i)%nat with (y * (w * k) + (x * k + i))%nat by nia.
  rewrite (nth_flat _ (w * k)); [|intros; apply flat_length; intros; apply H|exact Hy|nia].
  rewrite (nth_flat _ k); [|intros; apply H|exact Hx|exact Hi]. reflexivity.
Qed.
Lemma raster_length w h f k : (forall x y, length (f x y) = k) -> length (raster w h f) = (w * h * k)%nat.
Proof. intros H. unfold raster. rewrite (flat_length _ (w * k)); [nia|]. intros. apply flat_length. intros. apply H. Qed.

Lemma stream_full deflate (data : bytes) : data <> [] -> stream_data deflate (Some data) true = (Some (deflate data), true).
Proof. destruct data; [congruence|reflexivity]. Qed.
Lemma picture_object deflate p cs data w n w' : data <> [] ->
  add_stream deflate (picture_dict p cs) (Some data) true w = (n, w') ->
  image_object deflate w' n (imWidth p) (imHeight p) cs data None.
Proof.
  intros HD H. pose proof (add_stream_spec deflate (picture_dict p cs) (Some data) true w) as X. rewrite H in X.
  destruct X as [_ [_ [_ [_ [[a [H5 H6]] _]]]]]. rewrite stream_full in H5, H6 by exact HD. cbn [fst snd] in H5, H6.
  exists a, (stream_dict (picture_dict p cs) (Some (deflate data)) true). split; [exact H5|]. split; [exact H6|].
  repeat split.
Qed.
Lemma image_extends deflate w w' n wd ht cs data m : n < nextObjNum w -> extends w w' ->
  image_object deflate w n wd ht cs data m -> image_object deflate w' n wd ht cs data m.
Proof.
  intros Hn [_ [E2 E3]] [a [d [H1 [H2 H3]]]]. exists a, d. split; [rewrite E2 by exact Hn; exact H1|]. split; [apply E3, H2|exact H3].
Qed.
Lemma fresh_stream deflate d data cmp w n w' : add_stream deflate d data cmp w = (n, w') ->
  exists o s, mget n (objects w') = Some (mkObj o s (Some (fresh (dicts w)))) /\ o = None.
Proof.
  unfold add_stream, AddStreamObject. cbn [dicts set_dicts]. rewrite mget_mset, Z.eqb_refl.
  destruct (stream_data deflate data cmp) as [sd c]. intros H. injection H as <- <-.
  cbn [objects set_dicts set_next set_objects]. rewrite mget_mset, Z.eqb_refl. eauto.
Qed.

Lemma pixel_length p : length (pixel_data p) = (imWidth p * imHeight p * channels p)%nat.
Proof.
  unfold pixel_data, channels. destruct (imGray p).
  - apply raster_length. reflexivity.
  - apply raster_length. intros x y. destruct (imColor p x y) as [[[r g] b] a]. reflexivity.
Qed.
Lemma pixel_sample p x y i : (x < imWidth p)%nat -> (y < imHeight p)%nat -> (i < channels p)%nat ->
  sample (pixel_data p) (imWidth p) (channels p) x y i =
  Some (if imGray p then imLuma p x y else high_byte (component (imColor p x y) i)).
Proof.
  intros Hx Hy Hi. unfold pixel_data, channels in *. destruct (imGray p).
  - rewrite raster_sample; [|reflexivity|lia..]. destruct i; [reflexivity|lia].
  - rewrite raster_sample; [|intros a b; destruct (imColor p a b) as [[[r g] c] d]; reflexivity|lia..].
    destruct (imColor p x y) as [[[r g] b] a]. destruct i as [|[|[|i]]]; [reflexivity..|lia].
Qed.
Lemma add_image_ok deflate p w n w' : (0 < imWidth p)%nat -> (0 < imHeight p)%nat -> AddImage deflate p w = (n, w') ->
  exists data, 
    (forall x y i, (x < imWidth p)%nat -> (y < imHeight p)%nat -> (i < channels p)%nat ->
       sample data (imWidth p) (channels p) x y i =
       Some (if imGray p then imLuma p x y else high_byte (component (imColor p x y) i))) /\
    length data = (imWidth p * imHeight p * channels p)%nat /\
    if imAlpha p then
      exists m mask, m <> n /\
        image_object deflate w' n (imWidth p) (imHeight p) (space_of_picture p) data (Some m) /\
        image_object deflate w' m (imWidth p) (imHeight p) (bs "/DeviceGray") mask None /\
        length mask = (imWidth p * imHeight p)%nat /\
        forall x y, (x < imWidth p)%nat -> (y < imHeight p)%nat ->
          sample mask (imWidth p) 1 x y 0 = Some (high_byte (component (imColor p x y) 3))
    else image_object deflate w' n (imWidth p) (imHeight p) (space_of_picture p) data None.
Proof.
  intros W H E. exists (pixel_data p). split; [apply pixel_sample|]. split; [apply pixel_length|].
  unfold AddImage in E. fold (space_of_picture p) in E.
  assert (HD : pixel_data p <> []).
  { intros X. pose proof (pixel_length p) as L. rewrite X in L. unfold channels in L. cbn [length] in L. destruct (imGray p); nia. }
  destruct (add_stream deflate (picture_dict p (space_of_picture p)) (Some (pixel_data p)) true w) as [n1 w1] eqn:E1.
  pose proof (picture_object _ _ _ _ _ _ _ HD E1) as P1.
  pose proof (add_stream_spec deflate (picture_dict p (space_of_picture p)) (Some (pixel_data p)) true w) as X1. rewrite E1 in X1.
  destruct X1 as [X1 [X2 _]].
  destruct (fresh_stream _ _ _ _ _ _ _ E1) as [o1 [s1 [F1 _]]].
  destruct (imAlpha p); [|injection E as <- <-; exact P1].
  set (mask := raster (imWidth p) (imHeight p) (fun x y => alpha_byte (imColor p x y))) in *.
  assert (AL : forall x y, length (alpha_byte (imColor p x y)) = 1%nat) by (intros x y; destruct (imColor p x y) as [[[? ?] ?] ?]; reflexivity).
  assert (ML : length mask = (imWidth p * imHeight p)%nat) by (unfold mask; rewrite (raster_length _ _ _ 1); [lia|exact AL]).
  assert (MD : mask <> []) by (intros X; rewrite X in ML; cbn [length] in ML; nia).
  destruct (add_stream deflate (picture_dict p (bs "/DeviceGray")) (Some mask) true w1) as [m w2] eqn:E2.
  pose proof (picture_object _ _ _ _ _ _ _ MD E2) as P2.
  pose proof (add_stream_spec deflate (picture_dict p (bs "/DeviceGray")) (Some mask) true w1) as Y. rewrite E2 in Y.
  destruct Y as [Y1 [Y2 [Y3 [Y4 _]]]].
  pose proof (add_stream_extends deflate (picture_dict p (bs "/DeviceGray")) (Some mask) true w1) as EX. rewrite E2 in EX. cbn [snd] in EX.
  assert (N1 : n1 < nextObjNum w1) by lia.
  pose proof (image_extends _ _ _ _ _ _ _ _ _ N1 EX P1) as [a [d [Q1 [Q2 Q3]]]].
  assert (Q0 : a = fresh (dicts w)).
  { rewrite Y3 in Q1 by lia. rewrite F1 in Q1. injection Q1 as _ _ Q1. symmetry. exact Q1. }
  subst a. rewrite Q2 in E. injection E as <- <-.
  exists m, mask. split; [lia|]. split.
  { exists (fresh (dicts w)), (kset (bs "SMask") (VStr (ref m)) d). cbn [objects dicts set_dicts]. split; [exact Q1|].
    rewrite mget_mset, Z.eqb_refl. split; [reflexivity|].
    rewrite !kget_kset. change (bytes_eqb (bs "SMask") (bs "SMask")) with true.
    destruct Q3 as [Q3 [Q4 [Q5 [Q6 [Q7 [Q8 [Q9 [Q10 Q11]]]]]]]].
    repeat match goal with |- context [bytes_eqb ?x (bs "SMask")] => change (bytes_eqb x (bs "SMask")) with false end. cbv iota.
    repeat split; assumption. }
  split.
  { destruct P2 as [a2 [d2 [R1 [R2 R3]]]]. exists a2, d2. cbn [objects dicts set_dicts]. split; [exact R1|]. split; [|exact R3].
    destruct (fresh_stream _ _ _ _ _ _ _ E2) as [o2 [s2 [F2 _]]]. rewrite F2 in R1. injection R1 as _ _ R1.
    rewrite mget_mset. destruct (a2 =? fresh (dicts w)) eqn:EA; [|exact R2]. exfalso.
    apply Z.eqb_eq in EA. subst a2.
    destruct P1 as [a1 [d1 [S1 [S2 _]]]]. rewrite F1 in S1. injection S1 as _ _ S1. subst a1.
    apply fresh_above in S2. lia. }
  split; [exact ML|]. intros x y Hx Hy. unfold mask. rewrite raster_sample; [|exact AL|lia..].
  destruct (imColor p x y) as [[[? ?] ?] ?]. reflexivity.
Qed.

(* ---------------------------------------------------------------- *)
(** Resource names *)

Lemma kget_some_in {A} k (v : A) l : kget k l = Some v -> In k (map fst l).
Proof.
  induction l as [|[k' v'] l IH]; cbn [kget map fst In]; [discriminate|].
  destruct (bytes_eqb k k') eqn:E; [apply bytes_eqb_eq in E; auto|auto].
Qed.
Lemma decZ_inj a b : 0 <= a -> 0 <= b -> decZ a = decZ b -> a = b.
Proof.
  intros Ha Hb H. rewrite !decZ_nonneg in H by assumption. apply dec_inj in H. lia.
Qed.
Lemma font_name_inj i j : bs "F" ++ decZ (Z.of_nat i) = bs "F" ++ decZ (Z.of_nat j) -> i = j.
Proof. intros H. cbn in H. injection H as H. apply decZ_inj in H; lia. Qed.
Lemma next_font_new pb : named_fonts pb -> ~ In (next_font pb) (map fst (pbFonts pb)).
Proof.
  intros H Hi. rewrite H in Hi. apply in_map_iff in Hi. destruct Hi as [i [E Hi]]. apply in_seq in Hi.
  unfold next_font in E. replace (Z.of_nat (length (pbFonts pb)) + 1) with (Z.of_nat (S (length (pbFonts pb)))) in E by lia.
  apply font_name_inj in E. lia.
Qed.
Lemma add_fonts_ok names : forall pb w rs pb' w', named_fonts pb -> Forall no_resource_name names ->
  (forall f num, kget f (pbFonts pb) = Some num -> num < nextObjNum w) ->
  add_fonts names pb w = (rs, pb', w') ->
  Forall2 (font_resource pb' w') names rs /\ NoDup rs /\
  (forall r, In r rs -> exists f, r = bs "/" ++ f /\ ~ In f (map fst (pbFonts pb))) /\
  extends w w' /\ named_fonts pb' /\
  (forall f num, kget f (pbFonts pb) = Some num -> kget f (pbFonts pb') = Some num) /\
  (pbContent pb' = pbContent pb /\ pbImages pb' = pbImages pb).
Proof.
  induction names as [|nm names IH]; intros pb w rs pb' w' HN HR HB H.
  - cbn in H. injection H as <- <- <-. split; [constructor|]. split; [constructor|]. split; [intros r []|].
    split; [apply extends_refl|]. split; [exact HN|]. split; [auto|split; reflexivity].
  - inversion HR as [|? ? Hn HR']; subst. cbn [add_fonts] in H.
    unfold AddStandardFont in H.
    replace (existsb (fun e => bytes_eqb (fst e) nm) (pbFonts pb)) with false in H.
    2:{ symmetry. destruct (existsb _ _) eqn:E; [|reflexivity]. apply existsb_exists in E. destruct E as [[f z] [Hi E]].
        apply bytes_eqb_eq in E. cbn [fst] in E. subst f. exfalso.
        assert (HI : In nm (map fst (pbFonts pb))) by (apply in_map_iff; exists (nm, z); split; [reflexivity|exact Hi]).
        rewrite HN in HI. apply in_map_iff in HI. destruct HI as [i [E _]]. exact (Hn _ (eq_sym E)). }
    unfold AddObject in H. cbn iota beta in H.
    set (pb1 := set_fonts pb (kset (next_font pb) (nextObjNum w) (pbFonts pb))) in *.
    pose proof (add_object_extends (Some (font_dict nm)) w) as X. unfold AddObject in X. cbn [snd] in X.
    remember (set_next (set_objects w (mset (nextObjNum w) (mkObj (Some (font_dict nm)) None None) (objects w))) (nextObjNum w + 1)) as w1 eqn:E1.
    destruct (add_fonts names pb1 w1) as [[rs1 pb2] w2] eqn:E2. injection H as <- <- <-.
    pose proof (next_font_new pb HN) as NEW.
    assert (F1 : pbFonts pb1 = pbFonts pb ++ [(next_font pb, nextObjNum w)]).
    { unfold pb1. cbn [pbFonts set_fonts]. apply CompareProofs4.kset_new, NEW. }
    assert (N1 : nextObjNum w1 = nextObjNum w + 1) by (subst w1; reflexivity).
    assert (HN1 : named_fonts pb1).
    { unfold named_fonts. rewrite F1, map_app, app_length. cbn [map fst length]. rewrite HN, Nat.add_1_r.
      rewrite seq_S, map_app. cbn [map]. f_equal. unfold next_font. repeat f_equal. lia. }
    assert (HB1 : forall f num, kget f (pbFonts pb1) = Some num -> num < nextObjNum w1).
    { intros f num. unfold pb1. cbn [pbFonts set_fonts]. rewrite kget_kset. destruct (bytes_eqb f (next_font pb)).
      - intros E. injection E as <-. lia.
      - intros E. apply HB in E. lia. }
    destruct (IH pb1 w1 rs1 pb2 w2 HN1 HR' HB1 E2) as [I1 [I2 [I3 [I4 [I5 [I6 I7]]]]]].
    assert (G1 : kget (next_font pb) (pbFonts pb1) = Some (nextObjNum w)).
    { unfold pb1. cbn [pbFonts set_fonts]. rewrite kget_kset, bytes_eqb_refl. reflexivity. }
    split.
    { constructor; [|exact I1]. exists (next_font pb), (nextObjNum w). split; [reflexivity|]. split; [apply I6, G1|].
      destruct I4 as [_ [I4 _]]. rewrite (wget_same _ w1 w2) by (apply I4; lia).
      unfold WGetObject. subst w1. cbn [objects set_next set_objects]. rewrite mget_mset, Z.eqb_refl. reflexivity. }
    split.
    { constructor; [|exact I2]. intros Hi. apply I3 in Hi. destruct Hi as [f [E Hf]]. cbn in E. injection E as <-.
      apply Hf. rewrite F1, map_app. apply in_or_app. right. left. reflexivity. }
    split.
    { intros r [<-|Hr].
      - exists (next_font pb). split; [reflexivity|exact NEW].
      - apply I3 in Hr. destruct Hr as [f [-> Hf]]. exists f. split; [reflexivity|]. intros Hi. apply Hf.
        rewrite F1, map_app. apply in_or_app. left. exact Hi. }
    split; [exact (extends_trans _ _ _ X I4)|]. split; [exact I5|]. split; [|exact I7].
    intros f num E. apply I6. unfold pb1. cbn [pbFonts set_fonts]. rewrite kget_kset.
    destruct (bytes_eqb f (next_font pb)) eqn:EF; [|exact E]. exfalso. apply bytes_eqb_eq in EF. subst f.
    apply NEW. exact (kget_some_in _ _ _ E).
Qed.
Lemma fonts_named names width height w rs pb w' : Forall no_resource_name names ->
  add_fonts names (NewPageBuilder width height) w = (rs, pb, w') ->
  Forall2 (font_resource pb w') names rs /\ NoDup rs.
Proof.
  intros HR H. apply add_fonts_ok in H; [|reflexivity|exact HR|intros f num E; discriminate E].
  tauto.
Qed.

(** Images with distinct names keep their objects. *)
Lemma add_images_ok l : forall pb rs pb', Forall (fun e => fst e <> []) l -> NoDup (map (fun e => unslash (fst e)) l) ->
  add_images l pb = (rs, pb') ->
  rs = map (fun e => bs "/" ++ unslash (fst e)) l /\
  (forall e, In e l -> kget (unslash (fst e)) (pbImages pb') = Some (snd e)) /\
  (forall f, ~ In f (map (fun e => unslash (fst e)) l) -> kget f (pbImages pb') = kget f (pbImages pb)).
Proof.
  induction l as [|[n num] l IH]; intros pb rs pb' HE HN H.
  - cbn in H. injection H as <- <-. split; [reflexivity|]. split; [intros e []|]. reflexivity.
  - inversion HE as [|? ? He HE']; subst. cbn [map fst] in HN. inversion HN as [|? ? Hn HN']; subst.
    cbn [add_images] in H. unfold PAddImage in H. cbn [fst] in He. destruct n as [|c n]; [congruence|].
    set (nm := c :: n) in *. set (pb1 := set_images pb (kset (unslash nm) num (pbImages pb))) in *.
    destruct (add_images l pb1) as [rs1 pb2] eqn:E. injection H as <- <-.
    destruct (IH _ _ _ HE' HN' E) as [I1 [I2 I3]].
    split; [cbn [map fst]; rewrite I1; reflexivity|]. split.
    + intros e [<-|Hi]; [|apply I2, Hi]. cbn [fst snd]. rewrite I3 by exact Hn. unfold pb1. cbn [pbImages set_images].
      rewrite kget_kset, bytes_eqb_refl. reflexivity.
    + intros f Hf. cbn [map fst In] in Hf. rewrite I3 by tauto. unfold pb1. cbn [pbImages set_images]. rewrite kget_kset.
      destruct (bytes_eqb f (unslash nm)) eqn:EF; [|reflexivity]. apply bytes_eqb_eq in EF. subst f. tauto.
Qed.

(* ---------------------------------------------------------------- *)
(** Watermarks *)
Section watermark.
  Context {F : Type} (fmt : F -> bytes) (one zero : F).
  Lemma font_call name pb w : existsb (fun e => bytes_eqb (fst e) name) (pbFonts pb) = false ->
    AddStandardFont name pb w = (bs "/" ++ next_font pb, set_fonts pb (kset (next_font pb) (nextObjNum w) (pbFonts pb)),
      snd (AddObject (Some (font_dict name)) w)).
  Proof. intros H. unfold AddStandardFont. rewrite H. reflexivity. Qed.
  Lemma watermark_text_ok (o : watermark) pb w c : wmColor o = Some c -> wmImage o = [] -> wmText o <> [] ->
    no_resource_name (wmFont o) -> named_fonts pb ->
    exists pb' w' cs font, AddWatermark fmt one zero o pb w = Ok (true, pb', w') /\
      pbContent pb' = pbContent pb ++ content_stream fmt one zero cs /\
      (forall d, call_depth d cs = Some d) /\
      In (SetFont F font (wmSize o)) cs /\ In (ShowText F (wmText o)) cs /\
      font_resource pb' w' (wmFont o) font /\
      (valid_utf8 (wmText o) -> Forall sensible cs) /\
      extends w w' /\ (forall f num, kget f (pbFonts pb) = Some num -> kget f (pbFonts pb') = Some num) /\
      same_page pb pb'.
  Proof.
    intros HC HI HT HF HN. unfold AddWatermark. rewrite HC, HI.
    destruct (wmText o) as [|t0 tx] eqn:ET; [congruence|]. rewrite <- ET in *. clear HT.
    set (pb0 := calls fmt one zero (watermark_head zero o c) pb).
    assert (FE : pbFonts pb0 = pbFonts pb) by reflexivity.
    rewrite font_call.
    2:{ rewrite FE. destruct (existsb _ _) eqn:E; [|reflexivity]. apply existsb_exists in E. destruct E as [[f z] [Hi E]].
        apply bytes_eqb_eq in E. cbn [fst] in E. subst f. exfalso.
        assert (HI' : In (wmFont o) (map fst (pbFonts pb))) by (apply in_map_iff; exists (wmFont o, z); split; [reflexivity|exact Hi]).
        rewrite HN in HI'. apply in_map_iff in HI'. destruct HI' as [i [E _]]. exact (HF _ (eq_sym E)). }
    set (tail := [BeginText F; SetFont F (bs "/" ++ next_font pb0) (wmSize o);
       SetTextPosition F (fst (wmTextPos o)) (snd (wmTextPos o)); ShowText F (wmText o); EndText F; RestoreState F]).
    eexists _, _, (watermark_head zero o c ++ tail), (bs "/" ++ next_font pb0).
    split; [reflexivity|].
    pose proof (next_font_new pb HN) as NEW.
    split.
    { unfold calls at 1, append_content. cbn [pbContent set_fonts]. unfold pb0, calls, append_content. cbn [pbContent].
      unfold content_stream. rewrite flat_map_app, <- app_assoc. reflexivity. }
    split.
    { intros d. destruct c as [[r g] b]. unfold watermark_head. destruct (wmRotation o) as [[[[? ?] ?] ?]|]; reflexivity. }
    split; [apply in_or_app; right; right; left; reflexivity|].
    split; [apply in_or_app; right; right; right; right; left; reflexivity|].
    split.
    { exists (next_font pb0), (nextObjNum w). split; [reflexivity|]. split.
      - cbn [pbFonts calls append_content set_fonts]. rewrite kget_kset, bytes_eqb_refl. reflexivity.
      - unfold WGetObject. cbn [AddObject snd objects set_next set_objects]. rewrite mget_mset, Z.eqb_refl. reflexivity. }
    split.
    { intros V. apply Forall_app. split.
      - destruct c as [[r g] b]. unfold watermark_head. cbn [app]. repeat (constructor; [exact I|]).
        destruct (wmRotation o) as [[[[? ?] ?] ?]|]; repeat constructor.
      - unfold tail. constructor; [exact I|]. constructor.
        + cbn [sensible]. unfold next_font. cbn [app bs]. cbn [name_text].
          change (beqb "/" "/") with true. cbn [andb]. 
          change (forallb is_regular ((bs "F") ++ decZ (Z.of_nat (length (pbFonts pb0)) + 1)) = true).
          rewrite forallb_app. apply andb_true_iff. split; [reflexivity|].
          remember (Z.of_nat (length (pbFonts pb0)) + 1) as z eqn:Ez.
          assert (Hz : 0 <= z) by lia. pose proof (XrefProofs.decZ_digits z Hz) as D.
          apply forallb_forall. intros x Hx. rewrite forallb_forall in D. specialize (D x Hx). revert D. clear. destruct x; (reflexivity || discriminate).
        + repeat (constructor; [exact I|]). constructor; [exact V|]. repeat constructor. }
    split; [apply add_object_extends|]. split.
    { intros f num E. cbn [pbFonts calls append_content set_fonts]. rewrite kget_kset.
      destruct (bytes_eqb f (next_font pb0)) eqn:EF; [|exact E]. exfalso. apply bytes_eqb_eq in EF. subst f.
      apply NEW. exact (kget_some_in _ _ _ E). }
    split; [reflexivity|]. split; reflexivity.
  Qed.
  Lemma watermark_image_ok (o : watermark) pb w c : wmColor o = Some c -> wmImage o <> [] ->
    In (wmImage o) (map fst (pbImages pb)) ->
    exists pb' cs, AddWatermark fmt one zero o pb w = Ok (true, pb', w) /\
      pbContent pb' = pbContent pb ++ content_stream fmt one zero cs /\
      (forall d, call_depth d cs = Some d) /\ In (DrawImage F (wmImage o)) cs /\
      pbFonts pb' = pbFonts pb /\ same_page pb pb'.
  Proof.
    intros HC HI HM. unfold AddWatermark. rewrite HC.
    destruct (wmImage o) as [|i0 ix] eqn:EI; [congruence|]. rewrite <- EI in *.
    set (pb0 := calls fmt one zero (watermark_head zero o c) pb).
    replace (existsb (fun e => bytes_eqb (fst e) (wmImage o)) (pbImages pb0)) with true.
    2:{ symmetry. apply existsb_exists. apply in_map_iff in HM. destruct HM as [e [E HM]]. exists e.
        split; [exact HM|]. rewrite E. apply bytes_eqb_refl. }
    set (tail := [Translate F (fst (wmImageMove o)) (snd (wmImageMove o));
       Scale F (fst (wmImageScale o)) (snd (wmImageScale o)); DrawImage F (wmImage o); RestoreState F]).
    eexists _, (watermark_head zero o c ++ tail). split; [reflexivity|]. split.
    { unfold calls at 1, append_content. cbn [pbContent set_fonts]. unfold pb0, calls, append_content. cbn [pbContent].
      unfold content_stream. rewrite flat_map_app, <- app_assoc. reflexivity. }
    split.
    { intros d. destruct c as [[r g] b]. unfold watermark_head. destruct (wmRotation o) as [[[[? ?] ?] ?]|]; reflexivity. }
    split; [apply in_or_app; right; right; right; left; reflexivity|].
    split; [reflexivity|]. split; [reflexivity|]. split; reflexivity.
  Qed.
End watermark.

Lemma outs_cons b s x : outs (b :: s) x = out b (outs s x).
Proof. reflexivity. Qed.
Lemma double_paren title rest : valid_utf8 title ->
  read_literal (bs "((" ++ escapePDFString title ++ bs "))" ++ rest) = Some (bs "(" ++ title ++ bs ")", rest).
Proof.
  intros V. change (bs "((" ++ escapePDFString title ++ bs "))" ++ rest) with
    (bs "(" ++ "("%byte :: (escapePDFString title ++ bs "))" ++ rest)). rewrite read_open.
  change (literal_body 0 ("("%byte :: (escapePDFString title ++ bs "))" ++ rest))) with
    (out "("%byte (literal_body 1 (escapePDFString title ++ bs "))" ++ rest))).
  rewrite literal_escape by exact V.
  change (literal_body 1 (bs "))" ++ rest)) with (Some (bs ")", rest)).
  rewrite outs_some. reflexivity.
Qed.
Definition plain_byte (b : byte) : bool := negb (existsb (beqb b) (bs "()\" ++ [x0d])).
Lemma literal_plain d s x : forallb plain_byte s = true -> literal_body d (s ++ x) = outs s (literal_body d x).
Proof.
  induction s as [|b s IH]; [reflexivity|]. cbn [forallb]. intros H. apply andb_true_iff in H. destruct H as [Hb H].
  rewrite outs_cons, <- IH by exact H. cbn [app]. generalize (s ++ x). intros y. clear -Hb. destruct b; try discriminate Hb; reflexivity.
Qed.
Lemma dest_literal n rest : 0 <= n ->
  read_literal (bs "([" ++ ref n ++ bs " /XYZ 0 792 null])" ++ rest) = Some (bs "[" ++ ref n ++ bs " /XYZ 0 792 null]", rest).
Proof.
  intros H. replace (bs "([" ++ ref n ++ bs " /XYZ 0 792 null])" ++ rest) with
    (bs "(" ++ (bs "[" ++ ref n ++ bs " /XYZ 0 792 null]") ++ bs ")" ++ rest)
    by (rewrite <- !app_assoc; reflexivity).
  rewrite read_open, literal_plain.
  - rewrite literal_close, outs_some, app_nil_r. reflexivity.
  - rewrite !forallb_app. unfold ref. rewrite forallb_app.
    assert (D : forallb plain_byte (decZ n) = true).
    { pose proof (XrefProofs.decZ_digits n H) as D. apply forallb_forall. intros x Hx. rewrite forallb_forall in D.
      specialize (D x Hx). revert D. clear. destruct x; (reflexivity || discriminate). }
    rewrite D. reflexivity.
Qed.
Lemma bytes_twice (deflate : bytes -> bytes) (order : list Z -> list Z) b : 0 < sbPagesNum b < nextObjNum (sbWriter b) ->
  let b1 := finish b in let b2 := finish b1 in
  exists r1 r2, rootRef (sbWriter b1) = Some r1 /\ rootRef (sbWriter b2) = Some r2 /\ r1 <> r2 /\
    WGetObject r1 (sbWriter b2) = WGetObject r2 (sbWriter b2) /\
    snd (SBytes deflate order b) = mkBuilder (snd (Write deflate order None (sbWriter b1))) (sbPages b) (sbPagesNum b).
Proof.
  intros H b1 b2. set (w := sbWriter b) in *. exists (nextObjNum w), (nextObjNum w + 1).
  assert (F : forall b, sbPagesNum b < nextObjNum (sbWriter b) ->
    rootRef (sbWriter (finish b)) = Some (nextObjNum (sbWriter b)) /\
    nextObjNum (sbWriter (finish b)) = nextObjNum (sbWriter b) + 1 /\ sbPagesNum (finish b) = sbPagesNum b /\ sbPages (finish b) = sbPages b /\
    forall m, mget m (objects (sbWriter (finish b))) =
      if m =? nextObjNum (sbWriter b) then Some (mkObj (Some (catalog_dict (sbPagesNum b))) None None)
      else if m =? sbPagesNum b then Some (mkObj (Some (pages_dict (sbPages b))) None None) else mget m (objects (sbWriter b))).
  { clear. intros b Hb. unfold finish, SetObject. replace (nextObjNum (sbWriter b) <=? sbPagesNum b) with false by (symmetry; apply Z.leb_gt; lia).
    unfold AddObject. cbn [sbWriter sbPages sbPagesNum]. split; [reflexivity|]. split; [reflexivity|]. split; [reflexivity|]. split; [reflexivity|].
    intros m. unfold SetRoot. cbn [objects set_next set_objects nextObjNum]. rewrite !mget_mset. reflexivity. }
  destruct (F b ltac:(apply H)) as [A1 [A2 [A3 [A4 A5]]]]. fold b1 in A1, A2, A3, A4, A5. fold w in A1, A2, A5.
  destruct (F b1 ltac:(rewrite A2, A3; lia)) as [B1 [B2 [B3 [B4 B5]]]]. fold b2 in B1, B2, B3, B4, B5. rewrite A2 in B1, B5.
  split; [exact A1|]. split; [exact B1|]. split; [lia|]. split.
  - unfold WGetObject. rewrite !B5, Z.eqb_refl.
    replace (nextObjNum w =? nextObjNum w + 1) with false by (symmetry; apply Z.eqb_neq; lia).
    replace (nextObjNum w =? sbPagesNum b1) with false by (symmetry; apply Z.eqb_neq; lia).
    rewrite A5, Z.eqb_refl, A3. reflexivity.
  - unfold SBytes. fold b1. destruct (Write deflate order None (sbWriter b1)) as [out w']. cbn [snd]. rewrite A3, A4. reflexivity.
Qed.
Lemma watermark_error (F : Type) (fmt : F -> bytes) (one zero : F) o pb w c :
  wmColor o = Some c -> wmImage o = [] /\ wmText o = [] \/ wmImage o <> [] /\ ~ In (wmImage o) (map fst (pbImages pb)) ->
  exists pb' cs, AddWatermark fmt one zero o pb w = Ok (false, pb', w) /\
    pbContent pb' = pbContent pb ++ content_stream fmt one zero cs /\ forall d, call_depth d cs = Some (S d).
Proof.
  intros HC H. unfold AddWatermark. rewrite HC.
  set (pb0 := calls fmt one zero (watermark_head zero o c) pb).
  exists pb0, (watermark_head zero o c). split.
  - destruct H as [[H1 H2]|[H1 H2]].
    + rewrite H1, H2. reflexivity.
    + destruct (wmImage o) as [|i0 ix] eqn:EI; [congruence|]. rewrite <- EI in *.
      replace (existsb (fun e => bytes_eqb (fst e) (wmImage o)) (pbImages pb0)) with false; [reflexivity|].
      symmetry. destruct (existsb _ _) eqn:E; [|reflexivity]. exfalso. apply existsb_exists in E. destruct E as [[f z] [Hi E]].
      apply bytes_eqb_eq in E. cbn [fst] in E. subst f. apply H2. apply in_map_iff. exists (wmImage o, z). split; [reflexivity|exact Hi].
  - split; [reflexivity|]. intros d. destruct c as [[r g] b]. unfold watermark_head. destruct (wmRotation o) as [[[[? ?] ?] ?]|]; reflexivity.
Qed.
Lemma watermark_panic (F : Type) (fmt : F -> bytes) (one zero : F) o pb w :
  wmColor o = None -> AddWatermark fmt one zero o pb w = Panic.
Proof. intros H. unfold AddWatermark. rewrite H. reflexivity. Qed.
Lemma jpeg_object data w n width height cs w' :
  AddJPEGImage data w = Ok (n, (width, height, cs), w') ->
  parseJPEGHeader data = Ok (width, height, cs) /\ n = nextObjNum w /\ extends w w' /\
  exists a d, mget n (objects w') = Some (mkObj None (Some data) (Some a)) /\ mget a (dicts w') = Some d /\
    kget (bs "Width") d = Some (VInt width) /\ kget (bs "Height") d = Some (VInt height) /\
    kget (bs "ColorSpace") d = Some (VStr cs) /\ kget (bs "Filter") d = Some (VStr (bs "/DCTDecode")) /\
    kget (bs "Length") d = Some (VInt (Z.of_nat (length data))).
Proof.
  unfold AddJPEGImage. destruct (parseJPEGHeader data) as [[[wd ht] c]| |] eqn:E; cbn [rbind]; try discriminate.
  intros H. remember (jpeg_dict wd ht c data) as D eqn:ED. injection H as <- <- <- <- <-. split; [reflexivity|]. split; [reflexivity|]. split.
  - split; [cbn; lia|]. cbn [objects dicts set_next set_dicts set_objects]. split.
    + intros m Hm. rewrite mget_mset. destruct (m =? nextObjNum w) eqn:Em; [lia|reflexivity].
    + intros a x Ha. rewrite mget_mset. destruct (a =? fresh (dicts w)) eqn:Ea; [|exact Ha]. apply fresh_above in Ha. lia.
  - exists (fresh (dicts w)), D. cbn [objects dicts set_next set_dicts set_objects]. rewrite !mget_mset, !Z.eqb_refl.
    split; [reflexivity|]. split; [reflexivity|]. subst D. repeat split.
Qed.
