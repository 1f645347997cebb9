(** Reading back the encryption dictionary and the file identifier. *)
From Verif Require Import CryptModel CryptSpec PrimProofs Util Scan WriterProofs XrefProofs ReadProofs ManipProofs ManipProofs2 CryptProofs.
Local Open Scope Z_scope.

Lemma hex_pair c : n2b (16 * hex_val (hex_upper (b2n c / 16)) + hex_val (hex_upper (b2n c mod 16))) = c.
Proof. destruct c; reflexivity. Qed.
Lemma parse_hexX b : parseHexString (hexX b) = b.
Proof.
  induction b as [|c b IH]; [reflexivity|]. unfold hexX in *. cbn [flat_map app parseHexString]. rewrite IH, hex_pair. reflexivity.
Qed.
Lemma hexU_hex b : is_hexU b = true -> is_hex b = true.
Proof. destruct b; intro H; try discriminate H; reflexivity. Qed.
Lemma hexX_hex b : forallb is_hex (hexX b) = true.
Proof. pose proof (hexX_class b) as H. rewrite forallb_forall in *. intros c Hc. apply hexU_hex, H, Hc. Qed.
Lemma hexX_nonnil b : b <> [] -> hexX b <> [].
Proof. destruct b; [congruence|discriminate]. Qed.
Lemma hexX_length b : length (hexX b) = (2 * length b)%nat.
Proof. induction b as [|c b IH]; [reflexivity|]. unfold hexX in *. cbn [flat_map app length]. rewrite IH. lia. Qed.

Lemma m_hex_in_here b s : b <> [] -> m_hex_in (bs "<" ++ hexX b ++ bs ">" ++ s) = Some (hexX b).
Proof.
  intro H. unfold m_hex_in. rewrite lit_app. cbn [obind]. rewrite take_while_app by (apply hexX_hex || reflexivity).
  pose proof (hexX_nonnil b H). destruct (hexX b) as [|x h] eqn:E; [congruence|]. rewrite <- E.
  rewrite skipn_app_exact, lit_app. reflexivity.
Qed.
Lemma m_hexval_here key b s : b <> [] -> m_hexval key (key ++ bs " <" ++ hexX b ++ bs ">" ++ s) = Some (hexX b).
Proof.
  intro H. unfold m_hexval. rewrite lit_app. cbn [obind].
  change (ws0 (bs " <" ++ hexX b ++ bs ">" ++ s)) with (bs "<" ++ hexX b ++ bs ">" ++ s). now apply m_hex_in_here.
Qed.
Lemma lit_no key s : prefixb key s = false -> lit key s = None.
Proof. apply lit_none. Qed.
Lemma contains_skipn p k s : contains p s = false -> contains p (skipn k s) = false.
Proof.
  rewrite !contains_false. intros H j Hj. rewrite skipn_skipn.
  destruct (Nat.le_gt_cases (j + k) (length s)) as [L|L]; [now apply H|].
  specialize (H (length s) ltac:(lia)). rewrite skipn_all in H. now rewrite skipn_all2 by lia.
Qed.
Lemma m_hexval_lit key s : prefixb key s = false -> m_hexval key s = None.
Proof. intro H. unfold m_hexval. now rewrite lit_no. Qed.
Lemma hb_found key c f ds skip pre b s : c = pre ++ key ++ bs " <" ++ hexX b ++ bs ">" ++ s ->
  nostart key pre -> b <> [] -> hex_or_binary key c f ds skip = b.
Proof.
  intros -> N H. unfold hex_or_binary. rewrite (find_at (m_hexval key) pre _ (hexX b)).
  - apply parse_hexX.
  - exact (nostart_nofire _ _ _ (m_hexval_lit key) N).
  - now apply m_hexval_here.
Qed.

Lemma m_keynum_lit key s : prefixb key s = false -> m_keynum key s = None.
Proof. intro H. unfold m_keynum. now rewrite lit_no. Qed.
Lemma top_number_found key avoid ok c pre d s : c = pre ++ key ++ bs " " ++ d ++ nl ++ s ->
  nostart key pre -> d <> [] -> forallb is_digit d = true ->
  (forall a, In a avoid -> contains a pre = false) -> ok (atoi_clip d) = true -> key <> [] ->
  top_number key avoid ok c = Some (atoi_clip d).
Proof.
  intros -> N D1 D2 HA HO HK. unfold top_number. rewrite find_all_before.
  2:{ intros j Hj. exact (nostart_nofire _ _ _ (m_keynum_lit key) N _ j Hj). }
  assert (E : key ++ bs " " ++ d ++ nl ++ s = (key ++ bs " " ++ d) ++ nl ++ s) by now rewrite <- !app_assoc.
  assert (NE : num_of key (key ++ bs " " ++ d) = atoi_clip d).
  { unfold num_of. rewrite skipn_app_exact. replace (ws0 (bs " " ++ d)) with d.
    - f_equal. rewrite <- (app_nil_r d) at 1. now rewrite take_while_app.
    - destruct d as [|b d]; [congruence|]. cbn [forallb] in D2. apply andb_prop in D2.
      assert (W : is_ws b = false) by (apply digit_not_ws; tauto). unfold ws0. change (drop_while is_ws (bs " " ++ b :: d)) with (if is_ws b then drop_while is_ws d else b :: d). now rewrite W. }
  rewrite E, (find_all_here _ (key ++ bs " " ++ d) (nl ++ s) d).
  - cbn [List.find]. rewrite NE, HO. rewrite andb_true_r.
    assert (T : top_level avoid (pre ++ (key ++ bs " " ++ d) ++ nl ++ s) (key ++ bs " " ++ d) = true).
    { unfold top_level. rewrite index_at.
      - apply negb_true_iff. rewrite firstn_app, firstn_all, Nat.sub_diag, firstn_O, app_nil_r.
        destruct (existsb (fun a => contains a (skipn (length pre - 50) pre)) avoid) eqn:B; [|reflexivity].
        apply existsb_exists in B. destruct B as (a & Ha & Hc). rewrite contains_skipn in Hc; [discriminate|now apply HA].
      - intros b j Hj. destruct (prefixb (key ++ bs " " ++ d) (skipn j (pre ++ b))) eqn:P; [|reflexivity].
        apply prefixb_true_app in P. destruct P as [r P]. specialize (N b j Hj). rewrite P, <- app_assoc, prefixb_app in N. discriminate. }
    rewrite T. now rewrite NE.
  - destruct key; [congruence|discriminate].
  - unfold m_keynum. rewrite <- !app_assoc, lit_app. cbn [obind]. change (bs " " ++ d ++ nl ++ s) with (" "%byte :: d ++ nl ++ s).
    rewrite ws1_space by (destruct d as [|b d]; [congruence|]; cbn [forallb] in D2; apply andb_prop in D2; apply digit_not_ws; tauto).
    cbn [obind]. now rewrite digits1_app.
Qed.

(** The end of the dictionary. *)
Lemma nostart_tail q c a : nostart q (c :: a) -> nostart q a.
Proof. intros H b j Hj. apply (H b (S j)). cbn [length]. lia. Qed.
Lemma te_mid mid : nostart (bs "<<") mid -> nostart (bs ">>") mid -> forall k depth s i, s <> [] ->
  trailer_end (length mid + k) (S depth) (mid ++ s) i = trailer_end k (S depth) s (i + length mid).
Proof.
  induction mid as [|a mid IH]; intros N1 N2 k depth s i Hs; [cbn [length app Nat.add]; now rewrite Nat.add_0_r|].
  assert (HA := N1 s 0%nat ltac:(cbn [length]; lia)). assert (HB := N2 s 0%nat ltac:(cbn [length]; lia)).
  cbn [skipn] in HA, HB. cbn [app length Nat.add trailer_end].
  destruct (mid ++ s) as [|b s2] eqn:E; [apply app_eq_nil in E; now destruct E|].
  cbn [app] in HA, HB. rewrite E in HA, HB.
  assert (A1 : beqb a "<" && beqb b "<" = false).
  { destruct (beqb a "<" && beqb b "<") eqn:X; [|reflexivity]. apply andb_prop in X. destruct X as [X1 X2].
    apply beqb_true in X1, X2. subst. discriminate HA. }
  assert (A2 : beqb a ">" && beqb b ">" = false).
  { destruct (beqb a ">" && beqb b ">") eqn:X; [|reflexivity]. apply andb_prop in X. destruct X as [X1 X2].
    apply beqb_true in X1, X2. subst. discriminate HB. }
  rewrite A1, A2, <- E, IH; [f_equal; lia| | |exact Hs]; eapply nostart_tail; eassumption.
Qed.
Lemma dict_end mid s lim : nostart (bs "<<") mid -> nostart (bs ">>") mid -> (length mid + 3 <= lim)%nat ->
  trailer_end lim 0 (bs "<<" ++ mid ++ bs ">>" ++ s) 0 = Some (length mid + 4)%nat.
Proof.
  intros N1 N2 L. destruct lim as [|[|lim]]; try lia.
  change (trailer_end (S (S lim)) 0 (bs "<<" ++ mid ++ bs ">>" ++ s) 0) with (trailer_end lim 1 (mid ++ bs ">>" ++ s) 2).
  replace lim with (length mid + (lim - length mid))%nat by lia. rewrite te_mid by (try assumption; discriminate).
  destruct (lim - length mid)%nat as [|k] eqn:E; [lia|].
  change (trailer_end (S k) 1 (bs ">>" ++ s) (2 + length mid)) with (Some (2 + length mid + 2)%nat). f_equal. lia.
Qed.

Definition dict_mid (p : Z) (u o ue oe m : bytes) : bytes :=
  bs "
/Filter /Standard
/V 5
/R 5
/Length 256
/P " ++ decZ p ++ bs "
/U" ++ bs " <" ++ hexX u ++ bs ">" ++ nl ++ bs "/O" ++ bs " <" ++ hexX o ++ bs ">" ++ nl ++
  bs "/UE" ++ bs " <" ++ hexX ue ++ bs ">" ++ nl ++ bs "/OE" ++ bs " <" ++ hexX oe ++ bs ">" ++ nl ++ m.
Definition meta_line (meta : bool) : bytes := if meta then [] else bs "/EncryptMetadata false" ++ nl.
Lemma dict_text e : eV e = 5 -> eR e = 5 -> eKeyLength e = 32 -> eUE e <> [] -> eOE e <> [] ->
  CreateEncryptionDictionary e = bs "<<" ++ dict_mid (eP e) (eU e) (eO e) (eUE e) (eOE e) (meta_line (eMeta e)) ++ bs ">>".
Proof.
  intros HV HR HL HU HO. unfold CreateEncryptionDictionary, dict_mid. rewrite HV, HR, HL. change (decZ 5) with (bs "5"). change (decZ (32 * 8)) with (bs "256").
  replace (match eUE e with [] => [] | _ :: _ => bs "/UE <" ++ hexX (eUE e) ++ bs ">" ++ nl end)
    with (bs "/UE <" ++ hexX (eUE e) ++ bs ">" ++ nl) by (destruct (eUE e); [congruence|reflexivity]).
  replace (match eOE e with [] => [] | _ :: _ => bs "/OE <" ++ hexX (eOE e) ++ bs ">" ++ nl end)
    with (bs "/OE <" ++ hexX (eOE e) ++ bs ">" ++ nl) by (destruct (eOE e); [congruence|reflexivity]).
  rewrite <- !app_assoc. reflexivity.
Qed.

Lemma ns_hex_field (b : bytes) : nostart (bs "<<") (bs " <" ++ hexX b ++ bs ">" ++ nl) /\ nostart (bs ">>") (bs " <" ++ hexX b ++ bs ">" ++ nl).
Proof.
  split.
  - intros s [|[|j]] Hj; [reflexivity| |].
    + cbn [bs list_byte_of_string app skipn]. destruct (hexX b) as [|x h] eqn:E; [reflexivity|].
      cbn [app prefixb]. assert (X : is_hexU x = true) by (pose proof (hexX_class b) as C; rewrite E in C; cbn [forallb] in C; apply andb_prop in C; tauto).
      destruct x; try discriminate X; reflexivity.
    + assert (N : nostart (bs "<<") (hexX b ++ bs ">" ++ nl)).
      { apply nostart_app; [apply nostart_hexX; reflexivity|apply nostartb_ok; reflexivity]. }
      apply (N s j). change (bs " <" ++ hexX b ++ bs ">" ++ nl) with (" "%byte :: "<"%byte :: hexX b ++ bs ">" ++ nl) in Hj. cbn [length] in Hj. lia.
  - apply nostart_app; [apply nostartb_ok; reflexivity|]. apply nostart_app; [apply nostart_hexX; reflexivity|apply nostartb_ok; reflexivity].
Qed.
Lemma meta_ns q m : nostartb q (meta_line false) = true -> nostart q (meta_line m).
Proof. intro H. destruct m; [apply nostart_nil|now apply nostartb_ok]. Qed.
Ltac seg := first [ apply nostart_hexX; reflexivity | apply nostart_decZ_any; [reflexivity|discriminate]
                  | apply meta_ns; reflexivity | apply nostartb_ok; vm_compute; reflexivity ].
Ltac segs := repeat (first [ seg | apply nostart_app ]).
Lemma mid_angles p u o ue oe m : nostart (bs "<<") (dict_mid p u o ue oe (meta_line m)) /\ nostart (bs ">>") (dict_mid p u o ue oe (meta_line m)).
Proof.
  unfold dict_mid.
  replace (bs "
/U" ++ bs " <" ++ hexX u ++ bs ">" ++ nl ++ bs "/O" ++ bs " <" ++ hexX o ++ bs ">" ++ nl ++
  bs "/UE" ++ bs " <" ++ hexX ue ++ bs ">" ++ nl ++ bs "/OE" ++ bs " <" ++ hexX oe ++ bs ">" ++ nl ++ meta_line m) with
   (bs "
/U" ++ (bs " <" ++ hexX u ++ bs ">" ++ nl) ++ bs "/O" ++ (bs " <" ++ hexX o ++ bs ">" ++ nl) ++
  bs "/UE" ++ (bs " <" ++ hexX ue ++ bs ">" ++ nl) ++ bs "/OE" ++ (bs " <" ++ hexX oe ++ bs ">" ++ nl) ++ meta_line m) by now rewrite <- !app_assoc.
  split; repeat (first [ seg | apply ns_hex_field | apply nostart_app ]).
Qed.

Lemma obj_head n s : 0 <= n -> exists c r, decZ n ++ s = c :: r /\ is_digit c = true.
Proof.
  intro H. pose proof (decZ_nonnil n) as N. pose proof (decZ_digits n H) as D.
  destruct (decZ n) as [|c r]; [congruence|]. cbn [forallb] in D. apply andb_prop in D. exists c, (r ++ s). now split.
Qed.
(** Text without [q] before an object header. *)
Lemma ns_before q n a : q <> [] -> forallb (fun c => negb (is_digit c)) q = true -> 0 <= n -> contains q a = false ->
  forall s j, (j < length a)%nat -> prefixb q (skipn j (a ++ decZ n ++ s)) = false.
Proof.
  intros Hq Hd Hn Hc s j Hj. destruct (obj_head n s Hn) as (c & r & -> & Dc).
  assert (N : nostart q (a ++ [c])).
  { apply nostart_sep; try assumption. intro Hi. rewrite forallb_forall in Hd. apply Hd in Hi. now rewrite Dc in Hi. }
  change (c :: r) with ([c] ++ r). rewrite app_assoc. apply N. rewrite app_length. lia.
Qed.
Lemma find_skip {A} (m : bytes -> option A) q a b : (forall s, prefixb q s = false -> m s = None) ->
  (forall j, (j < length a)%nat -> prefixb q (skipn j (a ++ b)) = false) ->
  find m (a ++ b) = match find m b with Some (i, x) => Some ((length a + i)%nat, x) | None => None end.
Proof. intros H N. apply find_app. intros j Hj. apply H, N, Hj. Qed.


Section file.
  Variables (n : Z) (e : encryption) (pre mid tail : bytes) (w : writer) (next : Z).
  Let D := CreateEncryptionDictionary e.
  Let f := pre ++ obj_text n D ++ mid ++ nl ++ trailer_text w next ++ tail.
  Hypothesis Hn : 0 <= n < 2 ^ 63.
  Hypothesis HV : eV e = 5.
  Hypothesis HR : eR e = 5.
  Hypothesis HL : eKeyLength e = 32.
  Hypothesis HP : - 2 ^ 31 <= eP e < 2 ^ 31.
  Hypothesis NU : eU e <> [].
  Hypothesis NO : eO e <> [].
  Hypothesis NUE : eUE e <> [].
  Hypothesis NOE : eOE e <> [].
  Hypothesis Hsize : (length D <= 1999)%nat.
  Hypothesis Hw : encryptRef w = Some n.
  Hypothesis Hid : fileID w <> [].
  Hypothesis Qpre : quiet pre.
  Hypothesis Qmid : quiet mid.
  Hypothesis Hfirst : index (decZ n ++ bs " 0 obj") f = Some (length pre).

  Let M := dict_mid (eP e) (eU e) (eO e) (eUE e) (eOE e) (meta_line (eMeta e)).
  Lemma D_eq : D = bs "<<" ++ M ++ bs ">>".
  Proof. unfold D, M. now apply dict_text. Qed.

  Definition trailer_a : bytes := bs "trailer" ++ nl ++ bs "<<" ++ nl ++ bs "/Size " ++ decZ next ++ nl ++
    match rootRef w with Some r => bs "/Root " ++ ref r ++ nl | None => [] end ++
    match infoRef w with Some r => bs "/Info " ++ ref r ++ nl | None => [] end.
  Definition trailer_b : bytes := bs "/ID" ++ bs " [<" ++ hexX (fileID w) ++ bs ">" ++ bs "<" ++ hexX (fileID w) ++ bs ">]" ++ nl ++ bs ">>" ++ nl.
  Lemma trailer_eq : trailer_text w next = trailer_a ++ bs "/Encrypt" ++ bs " " ++ ref n ++ nl ++ trailer_b.
  Proof.
    unfold trailer_text, trailer_a, trailer_b. rewrite Hw. destruct (fileID w) as [|b i] eqn:E; [congruence|]. rewrite <- E.
    destruct (rootRef w), (infoRef w); rewrite <- !app_assoc; reflexivity.
  Qed.
  Lemma trailer_a_ns q c : q = "/"%byte :: c -> nostartb q (bs "/Size ") = true -> nostartb q (bs "/Root ") = true -> nostartb q (bs "/Info ") = true ->
    nostart q trailer_a.
  Proof.
    intros -> H1 H2 H3. unfold trailer_a, ref.
    assert (N : forall s, ~ In "/"%byte s -> nostart ("/"%byte :: c) s).
    { intros s Hs. apply (nostart_class (fun b => negb (beqb b "/"))); [|reflexivity]. apply forallb_forall. intros b Hb.
      apply negb_true_iff, beqb_neq. intros ->. contradiction. }
    destruct (rootRef w), (infoRef w);
    repeat (first [ apply nostart_nil | apply nostart_decZ_any; [reflexivity|discriminate] | apply nostartb_ok; assumption
                  | apply N; intros Hi; cbn in Hi; decompose [or] Hi; try discriminate; contradiction | apply nostart_app ]).
  Qed.

  Lemma dict_ns q c : q = "/"%byte :: c -> nostartb q (bs "/Filter ") = true -> nostartb q (bs "/Standard
") = true -> nostartb q (bs "/V 5
") = true -> nostartb q (bs "/R 5
") = true -> nostartb q (bs "/Length 256
") = true -> nostartb q (bs "/P ") = true -> nostartb q (bs "/U ") = true -> nostartb q (bs "/O ") = true -> nostartb q (bs "/UE ") = true ->
    nostartb q (bs "/OE ") = true -> nostart q (bs "<<" ++ dict_mid (eP e) (eU e) (eO e) (eUE e) (eOE e) []).
  Proof.
    intros -> H1 H2 H3 H4 H5 H6 H7 H8 H9 H10.
    assert (N : forall s, ~ In "/"%byte s -> nostart ("/"%byte :: c) s).
    { intros s Hs. apply (nostart_class (fun b => negb (beqb b "/"))); [|reflexivity]. apply forallb_forall. intros b Hb.
      apply negb_true_iff, beqb_neq. intros ->. contradiction. }
    unfold dict_mid.
    change (bs "
/Filter /Standard
/V 5
/R 5
/Length 256
/P ") with (nl ++ bs "/Filter " ++ bs "/Standard
" ++ bs "/V 5
" ++ bs "/R 5
" ++ bs "/Length 256
" ++ bs "/P ").
    change (bs "
/U" ++ bs " <" ++ hexX (eU e) ++ bs ">" ++ nl ++ bs "/O" ++ bs " <" ++ hexX (eO e) ++ bs ">" ++ nl ++
  bs "/UE" ++ bs " <" ++ hexX (eUE e) ++ bs ">" ++ nl ++ bs "/OE" ++ bs " <" ++ hexX (eOE e) ++ bs ">" ++ nl ++ [])
     with (nl ++ bs "/U " ++ bs "<" ++ hexX (eU e) ++ bs ">" ++ nl ++ bs "/O " ++ bs "<" ++ hexX (eO e) ++ bs ">" ++ nl ++
  bs "/UE " ++ bs "<" ++ hexX (eUE e) ++ bs ">" ++ nl ++ bs "/OE " ++ bs "<" ++ hexX (eOE e) ++ bs ">" ++ nl ++ []).
    repeat (first [ apply nostart_nil | apply nostart_hexX; reflexivity | apply nostart_decZ_any; [reflexivity|discriminate] | apply nostartb_ok; assumption
                  | apply N; intros Hi; cbn in Hi; decompose [or] Hi; try discriminate; contradiction | apply nostart_app ]).
  Qed.
  Lemma D_split : D = (bs "<<" ++ dict_mid (eP e) (eU e) (eO e) (eUE e) (eOE e) []) ++ meta_line (eMeta e) ++ bs ">>".
  Proof. rewrite D_eq. unfold M, dict_mid. rewrite <- !app_assoc. reflexivity. Qed.

  Lemma obj_nofire {A} (m : bytes -> option A) q c : q = "/"%byte :: c -> (forall s, prefixb q s = false -> m s = None) ->
    nostart q (bs "<<" ++ dict_mid (eP e) (eU e) (eO e) (eUE e) (eOE e) []) -> nofire m (meta_line (eMeta e)) -> nofire m (obj_text n D).
  Proof.
    intros -> L N NM. unfold obj_text. rewrite D_split.
    assert (K : forall s, ~ In "/"%byte s -> nofire m s).
    { intros s Hs. apply (nostart_nofire _ _ _ L).
      apply (nostart_class (fun b => negb (beqb b "/"))); [|reflexivity]. apply forallb_forall. intros b Hb.
      apply negb_true_iff, beqb_neq. intros ->. contradiction. }
    apply nofire_app. { apply (nostart_nofire _ _ _ L). apply nostart_decZ_any; [reflexivity|discriminate]. }
    apply nofire_app. { apply K. intros Hi; cbn in Hi; decompose [or] Hi; try discriminate; contradiction. }
    apply nofire_app. { apply K. intros Hi; cbn in Hi; decompose [or] Hi; try discriminate; contradiction. }
    rewrite <- (app_assoc (bs "<<" ++ _)). apply nofire_app. { apply (nostart_nofire _ _ _ L). exact N. }
    rewrite <- app_assoc. apply nofire_app; [exact NM|].
    apply K. intros Hi; cbn in Hi; decompose [or] Hi; try discriminate; contradiction.
  Qed.

  Lemma skip_all {A} (m : bytes -> option A) q c x y v : q = "/"%byte :: c -> forallb (fun c => negb (is_digit c)) q = true -> ~ In x0a q ->
    (forall s, prefixb q s = false -> m s = None) -> contains q pre = false -> contains q mid = false ->
    nofire m (obj_text n D) -> nofire m x -> m y = Some v ->
    value_of (find m (pre ++ obj_text n D ++ mid ++ nl ++ x ++ y)) = Some v.
  Proof.
    intros -> Hd Hnl L Cp Cm NO' NX Hy.
    rewrite (find_skip m ("/"%byte :: c) pre); [|exact L|].
    2:{ intros j Hj. unfold obj_text. rewrite <- !app_assoc. apply ns_before; [discriminate|exact Hd|lia|exact Cp|exact Hj]. }
    rewrite find_nofire by exact NO'. rewrite (app_assoc mid). rewrite find_nofire by (apply (nostart_nofire _ _ _ L), nostart_sep; [exact Cm|exact Hnl|discriminate]).
    rewrite (find_at m x y v NX Hy). reflexivity.
  Qed.

  Lemma enc_ref_found : value_of (find (m_ref (bs "/Encrypt")) f) = Some (ref n).
  Proof.
    unfold f. rewrite trailer_eq. rewrite <- !app_assoc.
    eapply (skip_all _ (bs "/Encrypt")); [reflexivity|reflexivity| |apply m_ref_lit|apply Qpre|apply Qmid| | |].
    - intros Hi; cbn in Hi; decompose [or] Hi; try discriminate; contradiction.
    - eapply obj_nofire; [reflexivity|apply m_ref_lit| |].
      + eapply dict_ns; reflexivity.
      + destruct (eMeta e); [apply nofire_nil|]. intros b [|j] Hj; [reflexivity|].
        assert (N : nostart (bs "/Encrypt") (skipn 1 (meta_line false))) by (apply nostartb_ok; reflexivity).
        apply (nostart_nofire _ _ _ (m_ref_lit _) N b j). change (length (meta_line false)) with 23%nat in Hj. change (length (skipn 1 (meta_line false))) with 22%nat. lia.
    - apply (nostart_nofire _ _ _ (m_ref_lit _)). eapply trailer_a_ns; reflexivity.
    - unfold m_ref, ref. rewrite lit_app. cbn [obind].
      pose proof (decZ_nonnil n) as N1. pose proof (decZ_digits n ltac:(lia)) as N2. rewrite <- !app_assoc.
      change (bs " " ++ decZ n ++ bs " 0 R" ++ nl ++ trailer_b ++ tail) with (" "%byte :: decZ n ++ bs " 0 R" ++ nl ++ trailer_b ++ tail).
      rewrite ws1_space by (apply digits_head; [exact N1|exact N2|apply digit_not_ws]). cbn [obind].
      rewrite digits1_app by (try assumption; reflexivity). cbn [obind].
      change (bs " 0 R" ++ nl ++ trailer_b ++ tail) with (" "%byte :: bs "0" ++ " "%byte :: bs "R" ++ nl ++ trailer_b ++ tail).
      rewrite ws1_space by reflexivity. cbn [obind]. rewrite digits1_app by (try discriminate; reflexivity). cbn [obind].
      rewrite ws1_space by reflexivity. cbn [obind]. rewrite lit_app. cbn [obind]. f_equal.
      change (decZ n ++ " "%byte :: bs "0" ++ " "%byte :: bs "R" ++ nl ++ trailer_b ++ tail)
        with (decZ n ++ bs " 0 R" ++ nl ++ trailer_b ++ tail). rewrite app_assoc, app_length.
      replace (length (decZ n ++ bs " 0 R") + length (nl ++ trailer_b ++ tail) - length (nl ++ trailer_b ++ tail))%nat
        with (length (decZ n ++ bs " 0 R")) by lia.
      apply firstn_app_all.
  Qed.

  Lemma m_id_lit s : prefixb (bs "/ID") s = false -> m_id_hex s = None.
  Proof. intro H. unfold m_id_hex. now rewrite lit_no. Qed.
  Lemma id_found : ExtractFileID f = fileID w.
  Proof.
    assert (E : value_of (find m_id_hex f) = Some (hexX (fileID w))).
    { unfold f. rewrite trailer_eq. unfold trailer_b. rewrite <- !app_assoc.
      rewrite (app_assoc trailer_a). rewrite (app_assoc _ (bs " ")). rewrite (app_assoc _ (ref n)). rewrite (app_assoc _ nl (bs "/ID" ++ _)).
      eapply (skip_all _ (bs "/ID")); [reflexivity|reflexivity| |apply m_id_lit|apply Qpre|apply Qmid| | |].
      - intros Hi; cbn in Hi; decompose [or] Hi; try discriminate; contradiction.
      - eapply obj_nofire; [reflexivity|apply m_id_lit| |].
        + eapply dict_ns; reflexivity.
        + apply (nostart_nofire _ _ _ m_id_lit). apply meta_ns. reflexivity.
      - apply (nostart_nofire _ _ _ m_id_lit). unfold ref.
        repeat (first [ eapply trailer_a_ns; reflexivity | apply nostart_decZ_any; [reflexivity|discriminate] | apply nostartb_ok; vm_compute; reflexivity | apply nostart_app ]).
      - unfold m_id_hex. rewrite lit_app. cbn [obind].
        change (ws0 (bs " [<" ++ hexX (fileID w) ++ bs ">" ++ bs "<" ++ hexX (fileID w) ++ bs ">]" ++ nl ++ bs ">>" ++ nl ++ tail))
          with (bs "[" ++ bs "<" ++ hexX (fileID w) ++ bs ">" ++ bs "<" ++ hexX (fileID w) ++ bs ">]" ++ nl ++ bs ">>" ++ nl ++ tail).
        rewrite lit_app. cbn [obind].
        change (ws0 (bs "<" ++ hexX (fileID w) ++ bs ">" ++ bs "<" ++ hexX (fileID w) ++ bs ">]" ++ nl ++ bs ">>" ++ nl ++ tail))
          with (bs "<" ++ hexX (fileID w) ++ bs ">" ++ bs "<" ++ hexX (fileID w) ++ bs ">]" ++ nl ++ bs ">>" ++ nl ++ tail).
        now apply m_hex_in_here. }
    unfold ExtractFileID. rewrite E, parse_hexX. destruct (fileID w) as [|b i]; [congruence|reflexivity].
  Qed.

  Lemma m_p_found : value_of (find m_p D) = Some (eP e).
  Proof.
    rewrite D_eq. unfold M, dict_mid. rewrite <- !app_assoc.
    change (bs "<<" ++ bs "
/Filter /Standard
/V 5
/R 5
/Length 256
/P ") with (bs "<<
/Filter /Standard
/V 5
/R 5
/Length 256
" ++ bs "/P" ++ bs " ").
    set (rest := bs "
/U" ++ _). 
    change (bs "<<" ++ bs "
/Filter /Standard
/V 5
/R 5
/Length 256
/P " ++ decZ (eP e) ++ rest) with (bs "<<
/Filter /Standard
/V 5
/R 5
/Length 256
" ++ bs "/P" ++ bs " " ++ decZ (eP e) ++ rest).
    rewrite (find_at m_p _ _ (eP e)); [reflexivity| |].
    - apply (nostart_nofire m_p (bs "/P")); [|apply nostartb_ok; reflexivity]. intros s H. unfold m_p. now rewrite lit_no.
    - unfold m_p. rewrite lit_app. cbn [obind].
      assert (DZ : decZ (eP e) = if eP e <? 0 then bs "-" ++ dec (Z.to_N (- eP e)) else dec (Z.to_N (eP e))).
      { unfold decZ. destruct (eP e); reflexivity. }
      rewrite DZ. destruct (eP e <? 0) eqn:S.
      + apply Z.ltb_lt in S. change (bs " " ++ (bs "-" ++ dec (Z.to_N (- eP e))) ++ rest) with (" "%byte :: "-"%byte :: dec (Z.to_N (- eP e)) ++ rest).
        rewrite ws1_space by reflexivity. cbn [obind]. rewrite beqb_refl.
        rewrite digits1_app by (first [apply dec_nonnil|apply dec_digits|reflexivity]). cbn [obind]. f_equal. rewrite num_dec. lia.
      + apply Z.ltb_ge in S. 
        assert (D1 := dec_nonnil (Z.to_N (eP e))). assert (D2 := dec_digits (Z.to_N (eP e))).
        change (bs " " ++ dec (Z.to_N (eP e)) ++ rest) with (" "%byte :: dec (Z.to_N (eP e)) ++ rest).
        rewrite ws1_space by (apply digits_head; [exact D1|exact D2|apply digit_not_ws]). cbn [obind].
        destruct (dec (Z.to_N (eP e)) ++ rest) as [|b r] eqn:Er; [apply app_eq_nil in Er; now destruct Er|].
        assert (B : beqb b "-" = false).
        { pose proof (digits_head (fun b => beqb b "-") _ rest D1 D2) as X. rewrite Er in X. apply X. intros c; destruct c; intro; try discriminate; reflexivity. }
        rewrite B, <- Er. rewrite digits1_app by (first [assumption|reflexivity]). cbn [obind]. f_equal. rewrite num_dec. lia.
  Qed.

  Lemma parse_found : ParseEncryptionDictionary f = Ok (set_key [] e).
  Proof.
    unfold ParseEncryptionDictionary. rewrite enc_ref_found.
    assert (T : take_while is_digit (ref n) = decZ n).
    { unfold ref. apply take_while_app; [apply decZ_digits; lia|reflexivity]. }
    rewrite T, atoi_decZ by exact Hn. rewrite Hfirst.
    assert (S1 : skipn (length pre) f = (decZ n ++ bs " 0 obj" ++ nl) ++ D ++ nl ++ bs "endobj" ++ nl ++ mid ++ nl ++ trailer_text w next ++ tail).
    { unfold f. rewrite skipn_app_exact. unfold obj_text. now rewrite <- !app_assoc. }
    rewrite S1.
    set (rest := nl ++ bs "endobj" ++ nl ++ mid ++ nl ++ trailer_text w next ++ tail).
    assert (S2 : D ++ rest = bs "<<" ++ M ++ bs ">>" ++ rest) by (rewrite D_eq; now rewrite <- !app_assoc).
    rewrite S2. rewrite index_at.
    2:{ apply nostart_app; [apply nostart_decZ_any; [reflexivity|discriminate]|apply nostartb_ok; reflexivity]. }
    assert (S3 : skipn (length pre + length (decZ n ++ bs " 0 obj" ++ nl)) f = D ++ rest).
    { rewrite Nat.add_comm, <- skipn_skipn, S1, skipn_app_exact. reflexivity. }
    rewrite S3. unfold enc_dict_end.
    assert (LD : length D = (length M + 4)%nat) by (rewrite D_eq, !app_length; cbn [length]; change (length (bs "<<")) with 2%nat; change (length (bs ">>")) with 2%nat; lia).
    destruct (mid_angles (eP e) (eU e) (eO e) (eUE e) (eOE e) (eMeta e)) as [A1 A2].
    rewrite S2, dict_end by (try assumption; fold M; lia). rewrite <- S2, <- LD. fold M. rewrite firstn_app_all. cbv zeta.
    assert (TV : top_number (bs "/V") [bs "/CF"; bs "/StdCF"] (fun _ => true) D = Some 5).
    { rewrite D_eq. unfold M, dict_mid. rewrite <- !app_assoc.
      match goal with |- top_number _ _ _ (bs "<<" ++ ?a ++ ?b) = _ => change (bs "<<" ++ a ++ b) with (bs "<<
/Filter /Standard
" ++ bs "/V" ++ bs " " ++ bs "5" ++ nl ++ (bs "/R 5
/Length 256
/P " ++ b)) end.
      eapply (top_number_found (bs "/V") _ _ _ _ (bs "5")); [reflexivity|apply nostartb_ok; reflexivity|discriminate|reflexivity| |reflexivity|discriminate].
      intros a [<-|[<-|[]]]; reflexivity. }
    assert (TR : top_number (bs "/R") [bs "/CF"; bs "/StdCF"] (fun _ => true) D = Some 5).
    { rewrite D_eq. unfold M, dict_mid. rewrite <- !app_assoc.
      match goal with |- top_number _ _ _ (bs "<<" ++ ?a ++ ?b) = _ => change (bs "<<" ++ a ++ b) with (bs "<<
/Filter /Standard
/V 5
" ++ bs "/R" ++ bs " " ++ bs "5" ++ nl ++ (bs "/Length 256
/P " ++ b)) end.
      eapply (top_number_found (bs "/R") _ _ _ _ (bs "5")); [reflexivity|apply nostartb_ok; reflexivity|discriminate|reflexivity| |reflexivity|discriminate].
      intros a [<-|[<-|[]]]; reflexivity. }
    assert (TL : top_number (bs "/Length") [bs "/CF"] (fun z => 0 <? z) D = Some 256).
    { rewrite D_eq. unfold M, dict_mid. rewrite <- !app_assoc.
      match goal with |- top_number _ _ _ (bs "<<" ++ ?a ++ ?b) = _ => change (bs "<<" ++ a ++ b) with (bs "<<
/Filter /Standard
/V 5
/R 5
" ++ bs "/Length" ++ bs " " ++ bs "256" ++ nl ++ (bs "/P " ++ b)) end.
      eapply (top_number_found (bs "/Length") _ _ _ _ (bs "256")); [reflexivity|apply nostartb_ok; reflexivity|discriminate|reflexivity| |reflexivity|discriminate].
      intros a [<-|[]]; reflexivity. }
    rewrite TV, TR, TL, m_p_found.
    change (or_default (def 0 (Some 5)) 4) with 5. change (or_default (def 0 (Some 256) / 8) _) with 32. cbn [Z.leb def].
    assert (ED : D = bs "<<" ++ bs "
/Filter /Standard
/V 5
/R 5
/Length 256
/P " ++ decZ (eP e) ++ bs "
/U" ++ bs " <" ++ hexX (eU e) ++ bs ">" ++ nl ++ bs "/O" ++ bs " <" ++ hexX (eO e) ++ bs ">" ++ nl ++
  bs "/UE" ++ bs " <" ++ hexX (eUE e) ++ bs ">" ++ nl ++ bs "/OE" ++ bs " <" ++ hexX (eOE e) ++ bs ">" ++ nl ++ meta_line (eMeta e) ++ bs ">>").
    { rewrite D_eq. unfold M, dict_mid. now rewrite <- !app_assoc. }
    set (ds := (length pre + length (decZ n ++ bs " 0 obj" ++ nl))%nat).
    assert (HBU : forall k, hex_or_binary (bs "/U") D f ds k = eU e).
    { intro k. eapply (hb_found (bs "/U") D f ds k (bs "<<" ++ bs "
/Filter /Standard
/V 5
/R 5
/Length 256
/P " ++ decZ (eP e) ++ nl)); [rewrite ED, <- !app_assoc; reflexivity| segs |exact NU]. }
    assert (HBO : forall k, hex_or_binary (bs "/O") D f ds k = eO e).
    { intro k. eapply (hb_found (bs "/O") D f ds k (bs "<<" ++ bs "
/Filter /Standard
/V 5
/R 5
/Length 256
/P " ++ decZ (eP e) ++ bs "
/U" ++ bs " <" ++ hexX (eU e) ++ bs ">" ++ nl)); [rewrite ED, <- !app_assoc; reflexivity| segs |exact NO]. }
    assert (HBUE : forall k, hex_or_binary (bs "/UE") D f ds k = eUE e).
    { intro k. eapply (hb_found (bs "/UE") D f ds k (bs "<<" ++ bs "
/Filter /Standard
/V 5
/R 5
/Length 256
/P " ++ decZ (eP e) ++ bs "
/U <" ++ hexX (eU e) ++ bs ">" ++ nl ++ bs "/O" ++ bs " <" ++ hexX (eO e) ++ bs ">" ++ nl)); [rewrite ED, <- !app_assoc; reflexivity| segs |exact NUE]. }
    assert (HBOE : forall k, hex_or_binary (bs "/OE") D f ds k = eOE e).
    { intro k. eapply (hb_found (bs "/OE") D f ds k (bs "<<" ++ bs "
/Filter /Standard
/V 5
/R 5
/Length 256
/P " ++ decZ (eP e) ++ bs "
/U <" ++ hexX (eU e) ++ bs ">" ++ nl ++ bs "/O <" ++ hexX (eO e) ++ bs ">" ++ nl ++
  bs "/UE" ++ bs " <" ++ hexX (eUE e) ++ bs ">" ++ nl)); [rewrite ED, <- !app_assoc; reflexivity| segs |exact NOE]. }
    rewrite HBU, HBO, HBUE, HBOE.
    assert (CM : contains (bs "/EncryptMetadata false") D = negb (eMeta e)).
    { rewrite D_split. rewrite contains_nostart by (eapply dict_ns; reflexivity). destruct (eMeta e); reflexivity. }
    rewrite CM, negb_involutive. unfold set_key. rewrite HV, HR, HL. reflexivity.
  Qed.

  Lemma decrypt_found pw k : unlock pw (fileID w) (set_key [] e) = Ok k ->
    DecryptPDF f pw = Ok (f, set_key k e).
  Proof.
    intro H. unfold DecryptPDF. rewrite parse_found, id_found. cbn [rbind]. rewrite H. reflexivity.
  Qed.
End file.
