(** Proofs about encryption dictionaries made by other producers, and about
    the values stored for version 5. *)
From Verif Require Import CryptModel CryptSpec PrimProofs Util Scan WriterProofs XrefProofs ReadProofs ManipProofs ManipProofs2 CryptProofs CryptProofs2 CryptProofs3 XPagesProofs3 StdSpec.
Local Open Scope Z_scope.

Section file.
  Variables (n v r : Z) (len : option Z) (p : Z) (o u id pre mid tail : bytes) (meta : bool).
  Let D := std_dict v r len p o u meta.
  Let f := std_file pre n D mid id tail.
  Hypothesis Hn : 0 <= n < 2 ^ 63.
  Hypothesis Hv : 1 <= v < 2 ^ 63.
  Hypothesis Hr : 1 <= r < 5.
  Hypothesis Hl : match len with Some l => 8 <= l < 2 ^ 63 | None => True end.
  Hypothesis NU : u <> [].
  Hypothesis NO : o <> [].
  Hypothesis Hid : id <> [].
  Hypothesis Hsize : (length D <= 1999)%nat.
  Hypothesis Qpre : quiet pre.
  Hypothesis Qmid : quiet mid.
  Hypothesis Hfirst : index (decZ n ++ bs " 0 obj") f = Some (length pre).

  Definition len_line : bytes := match len with Some l => bs "/Length " ++ decZ l ++ nl | None => [] end.
  Definition mline : bytes := if meta then [] else bs "/EncryptMetadata false
".
  (** the dictionary without its angle brackets and metadata line *)
  Definition core : bytes := nl ++ bs "/Filter " ++ bs "/Standard" ++ nl ++ bs "/V " ++ decZ v ++ nl ++ bs "/R " ++ decZ r ++ nl ++ len_line ++
    bs "/P " ++ decZ p ++ nl ++ bs "/O" ++ (bs " <" ++ hexX o ++ bs ">" ++ nl) ++ bs "/U" ++ (bs " <" ++ hexX u ++ bs ">" ++ nl).
  Lemma D_eq' : D = bs "<<" ++ (core ++ mline) ++ bs ">>".
  Proof. unfold D, std_dict, core, len_line, mline. destruct len; repeat rewrite <- app_assoc; reflexivity. Qed.

  Ltac piece := first [ apply nostart_nil | apply nostart_hexX; reflexivity | apply nostart_decZ_any; [reflexivity|discriminate]
                      | apply ns_hex_field | apply nostartb_ok; vm_compute; reflexivity ].
  Ltac pieces := repeat (first [ piece | apply nostart_app ]).
  Lemma angles : nostart (bs "<<") (core ++ mline) /\ nostart (bs ">>") (core ++ mline).
  Proof. unfold core, len_line, mline. split; destruct len, meta; pieces. Qed.

  Lemma slash_free q c : q = "/"%byte :: c -> forall s, ~ In "/"%byte s -> nostart q s.
  Proof.
    intros -> s Hs. apply (nostart_class (fun b => negb (beqb b "/"))); [|reflexivity]. apply forallb_forall. intros b Hb.
    apply negb_true_iff, beqb_neq. intros ->. contradiction.
  Qed.
  Lemma core_ns q c : q = "/"%byte :: c -> nostartb q (bs "/Filter ") = true -> nostartb q (bs "/Standard" ++ nl) = true ->
    nostartb q (bs "/V ") = true -> nostartb q (bs "/R ") = true -> nostartb q (bs "/Length ") = true ->
    nostartb q (bs "/P ") = true -> nostartb q (bs "/O ") = true -> nostartb q (bs "/U ") = true -> nostart q (bs "<<" ++ core).
  Proof.
    intros -> H1 H2 H3 H4 H5 H6 H7 H8.
    assert (N : forall s, ~ In "/"%byte s -> nostart ("/"%byte :: c) s) by (intros s Hs; eapply slash_free; [reflexivity|exact Hs]).
    assert (G : core = nl ++ bs "/Filter " ++ (bs "/Standard" ++ nl) ++ bs "/V " ++ decZ v ++ nl ++ bs "/R " ++ decZ r ++ nl ++ len_line ++
      bs "/P " ++ decZ p ++ nl ++ bs "/O " ++ (bs "<" ++ hexX o ++ bs ">" ++ nl) ++ bs "/U " ++ (bs "<" ++ hexX u ++ bs ">" ++ nl)).
    { unfold core. repeat rewrite <- app_assoc. reflexivity. }
    rewrite G. unfold len_line.
    destruct len;
    repeat (first [ apply nostart_nil | apply nostartb_ok; assumption | apply nostart_hexX; reflexivity | apply nostart_decZ_any; [reflexivity|discriminate]
                  | apply N; intros Hi; cbn in Hi; decompose [or] Hi; try discriminate; contradiction | apply nostart_app ]).
  Qed.

  Lemma object_nofire {A} (m : bytes -> option A) q c : q = "/"%byte :: c -> (forall s, prefixb q s = false -> m s = None) ->
    nostart q (bs "<<" ++ core) -> nofire m mline -> nofire m (obj_text n D).
  Proof.
    intros -> L N NM. unfold obj_text. rewrite D_eq'.
    assert (K : forall s, ~ In "/"%byte s -> nofire m s).
    { intros s Hs. apply (nostart_nofire _ _ _ L). eapply slash_free; [reflexivity|exact Hs]. }
    apply nofire_app. { apply (nostart_nofire _ _ _ L). apply nostart_decZ_any; [reflexivity|discriminate]. }
    apply nofire_app. { apply K. intros Hi; cbn in Hi; decompose [or] Hi; try discriminate; contradiction. }
    apply nofire_app. { apply K. intros Hi; cbn in Hi; decompose [or] Hi; try discriminate; contradiction. }
    replace ((bs "<<" ++ (core ++ mline) ++ bs ">>") ++ nl ++ bs "endobj" ++ nl)
      with ((bs "<<" ++ core) ++ mline ++ (bs ">>" ++ nl ++ bs "endobj" ++ nl)) by (repeat rewrite <- app_assoc; reflexivity).
    apply nofire_app. { apply (nostart_nofire _ _ _ L). exact N. }
    apply nofire_app; [exact NM|].
    apply K. intros Hi; cbn in Hi; decompose [or] Hi; try discriminate; contradiction.
  Qed.

  Lemma past_all {A} (m : bytes -> option A) q c x y a : q = "/"%byte :: c -> forallb (fun c => negb (is_digit c)) q = true -> ~ In x0a q ->
    (forall s, prefixb q s = false -> m s = None) -> contains q pre = false -> contains q mid = false ->
    nofire m (obj_text n D) -> nofire m x -> m y = Some a ->
    value_of (find m (pre ++ obj_text n D ++ mid ++ nl ++ x ++ y)) = Some a.
  Proof.
    intros -> Hd Hnl L Cp Cm NO' NX Hy.
    rewrite (find_skip m ("/"%byte :: c) pre); [|exact L|].
    2:{ intros j Hj. unfold obj_text. rewrite <- !app_assoc. apply ns_before; [discriminate|exact Hd|lia|exact Cp|exact Hj]. }
    rewrite find_nofire by exact NO'. rewrite (app_assoc mid). rewrite find_nofire by (apply (nostart_nofire _ _ _ L), nostart_sep; [exact Cm|exact Hnl|discriminate]).
    rewrite (find_at m x y a NX Hy). reflexivity.
  Qed.

  Lemma ref_found : value_of (find (m_ref (bs "/Encrypt")) f) = Some (ref n).
  Proof.
    unfold f, std_file, std_trailer. 
    set (tl := bs " /ID [<" ++ hexX id ++ bs "><" ++ hexX id ++ bs ">] >>
" ++ tail).
    replace ((bs "trailer
<< /Root 1 0 R /Encrypt " ++ ref n ++ bs " /ID [<" ++ hexX id ++ bs "><" ++ hexX id ++ bs ">] >>
") ++ tail) with (bs "trailer
<< /Root 1 0 R " ++ bs "/Encrypt" ++ bs " " ++ ref n ++ tl) by (unfold tl; repeat rewrite <- app_assoc; reflexivity).
    eapply (past_all _ (bs "/Encrypt")); [reflexivity|reflexivity| |apply m_ref_lit|apply Qpre|apply Qmid| | |].
    - intros Hi; cbn in Hi; decompose [or] Hi; try discriminate; contradiction.
    - eapply object_nofire; [reflexivity|apply m_ref_lit| |].
      + eapply core_ns; reflexivity.
      + unfold mline. destruct meta; [apply nofire_nil|]. intros b [|j] Hj; [reflexivity|].
        assert (N : nostart (bs "/Encrypt") (skipn 1 (meta_line false))) by (apply nostartb_ok; reflexivity).
        apply (nostart_nofire _ _ _ (m_ref_lit _) N b j). change (length (bs "/EncryptMetadata false
")) with 23%nat in Hj. change (length (skipn 1 (meta_line false))) with 22%nat. lia.
    - apply (nostart_nofire _ _ _ (m_ref_lit _)). apply nostartb_ok. reflexivity.
    - unfold m_ref, ref. rewrite lit_app. cbn [obind].
      pose proof (decZ_nonnil n) as N1. pose proof (decZ_digits n ltac:(lia)) as N2. rewrite <- !app_assoc.
      change (bs " " ++ decZ n ++ bs " 0 R" ++ tl) with (" "%byte :: decZ n ++ bs " 0 R" ++ tl).
      rewrite ws1_space by (apply digits_head; [exact N1|exact N2|apply digit_not_ws]). cbn [obind].
      rewrite digits1_app by (try assumption; reflexivity). cbn [obind].
      change (bs " 0 R" ++ tl) with (" "%byte :: bs "0" ++ " "%byte :: bs "R" ++ tl).
      rewrite ws1_space by reflexivity. cbn [obind]. rewrite digits1_app by (try discriminate; reflexivity). cbn [obind].
      rewrite ws1_space by reflexivity. cbn [obind]. rewrite lit_app. cbn [obind]. f_equal.
      change (decZ n ++ " "%byte :: bs "0" ++ " "%byte :: bs "R" ++ tl)
        with (decZ n ++ bs " 0 R" ++ tl). rewrite app_assoc, app_length.
      replace (length (decZ n ++ bs " 0 R") + length tl - length tl)%nat
        with (length (decZ n ++ bs " 0 R")) by lia.
      apply firstn_app_all.
  Qed.

  Lemma file_id_found : ExtractFileID f = id.
  Proof.
    assert (E : value_of (find m_id_hex f) = Some (hexX id)).
    { unfold f, std_file, std_trailer.
      set (tl := bs "<" ++ hexX id ++ bs ">] >>
" ++ tail).
      replace ((bs "trailer
<< /Root 1 0 R /Encrypt " ++ ref n ++ bs " /ID [<" ++ hexX id ++ bs "><" ++ hexX id ++ bs ">] >>
") ++ tail) with ((bs "trailer
<< /Root 1 0 R /Encrypt " ++ ref n ++ bs " ") ++ bs "/ID" ++ bs " [<" ++ hexX id ++ bs ">" ++ tl) by (unfold tl; repeat rewrite <- app_assoc; reflexivity).
      eapply (past_all _ (bs "/ID")); [reflexivity|reflexivity| |apply m_id_lit|apply Qpre|apply Qmid| | |].
      - intros Hi; cbn in Hi; decompose [or] Hi; try discriminate; contradiction.
      - eapply object_nofire; [reflexivity|apply m_id_lit| |].
        + eapply core_ns; reflexivity.
        + apply (nostart_nofire _ _ _ m_id_lit). unfold mline. destruct meta; [apply nostart_nil|apply nostartb_ok; reflexivity].
      - apply (nostart_nofire _ _ _ m_id_lit). unfold ref. pieces.
      - unfold m_id_hex. rewrite lit_app. cbn [obind].
        change (ws0 (bs " [<" ++ hexX id ++ bs ">" ++ tl)) with (bs "[" ++ bs "<" ++ hexX id ++ bs ">" ++ tl).
        rewrite lit_app. cbn [obind].
        change (ws0 (bs "<" ++ hexX id ++ bs ">" ++ tl)) with (bs "<" ++ hexX id ++ bs ">" ++ tl).
        now apply m_hex_in_here. }
    unfold ExtractFileID. rewrite E, parse_hexX. destruct id as [|b i]; [congruence|reflexivity].
  Qed.

  Definition clip32 : Z := if p <? 0 then Z.max p (- 2 ^ 31) else Z.min p (2 ^ 31 - 1).
  Definition head_p : bytes := bs "<<" ++ nl ++ bs "/Filter " ++ bs "/Standard" ++ nl ++ bs "/V " ++ decZ v ++ nl ++ bs "/R " ++ decZ r ++ nl ++ len_line.
  Definition tail_p : bytes := nl ++ bs "/O" ++ (bs " <" ++ hexX o ++ bs ">" ++ nl) ++ bs "/U" ++ (bs " <" ++ hexX u ++ bs ">" ++ nl) ++ mline ++ bs ">>".
  Lemma D_p : D = head_p ++ bs "/P" ++ bs " " ++ decZ p ++ tail_p.
  Proof. rewrite D_eq'. unfold core, head_p, tail_p. repeat rewrite <- app_assoc. reflexivity. Qed.
  Lemma head_p_ns q c : q = "/"%byte :: c -> nostartb q (bs "/Filter ") = true -> nostartb q (bs "/Standard" ++ nl) = true ->
    nostartb q (bs "/V ") = true -> nostartb q (bs "/R ") = true -> nostartb q (bs "/Length ") = true -> nostart q head_p.
  Proof.
    intros -> H1 H2 H3 H4 H5.
    assert (N : forall s, ~ In "/"%byte s -> nostart ("/"%byte :: c) s) by (intros s Hs; eapply slash_free; [reflexivity|exact Hs]).
    assert (G : head_p = bs "<<" ++ nl ++ bs "/Filter " ++ (bs "/Standard" ++ nl) ++ bs "/V " ++ decZ v ++ nl ++ bs "/R " ++ decZ r ++ nl ++ len_line).
    { unfold head_p. repeat rewrite <- app_assoc. reflexivity. }
    rewrite G. unfold len_line.
    destruct len;
    repeat (first [ apply nostart_nil | apply nostartb_ok; assumption | apply nostart_decZ_any; [reflexivity|discriminate]
                  | apply N; intros Hi; cbn in Hi; decompose [or] Hi; try discriminate; contradiction | apply nostart_app ]).
  Qed.

  Lemma p_found : value_of (find m_p D) = Some clip32.
  Proof.
    rewrite D_p. rewrite (find_at m_p _ _ clip32); [reflexivity| |].
    - apply (nostart_nofire m_p (bs "/P")); [|eapply head_p_ns; reflexivity]. intros s H. unfold m_p. now rewrite lit_no.
    - assert (exists t, tail_p = x0a :: t) as [t ->] by (unfold tail_p; eexists; reflexivity).
      unfold m_p, clip32. rewrite lit_app. cbn [obind].
      assert (DZ : decZ p = if p <? 0 then bs "-" ++ dec (Z.to_N (- p)) else dec (Z.to_N p)).
      { unfold decZ. destruct p; reflexivity. }
      rewrite DZ. destruct (p <? 0) eqn:S.
      + apply Z.ltb_lt in S. change (bs " " ++ (bs "-" ++ dec (Z.to_N (- p))) ++ x0a :: t) with (" "%byte :: "-"%byte :: dec (Z.to_N (- p)) ++ x0a :: t).
        rewrite ws1_space by reflexivity. cbn [obind]. rewrite beqb_refl.
        rewrite digits1_app by (first [apply dec_nonnil|apply dec_digits|reflexivity]). cbn [obind]. f_equal. rewrite num_dec. lia.
      + apply Z.ltb_ge in S.
        assert (D1 := dec_nonnil (Z.to_N p)). assert (D2 := dec_digits (Z.to_N p)).
        change (bs " " ++ dec (Z.to_N p) ++ x0a :: t) with (" "%byte :: dec (Z.to_N p) ++ x0a :: t).
        rewrite ws1_space by (apply digits_head; [exact D1|exact D2|apply digit_not_ws]). cbn [obind].
        destruct (dec (Z.to_N p) ++ x0a :: t) as [|b x] eqn:Er; [apply app_eq_nil in Er; now destruct Er|].
        assert (B : beqb b "-" = false).
        { pose proof (digits_head (fun b => beqb b "-") _ (x0a :: t) D1 D2) as X. rewrite Er in X. apply X. intros c; destruct c; intro; try discriminate; reflexivity. }
        rewrite B, <- Er. rewrite digits1_app by (first [assumption|reflexivity]). cbn [obind]. f_equal. rewrite num_dec. lia.
  Qed.

  Definition lib_key_bytes : Z := match len with Some l => l / 8 | None => if r =? 2 then 5 else 16 end.
  Lemma dict_parsed : ParseEncryptionDictionary f = Ok (mkEnc v r lib_key_bytes o u [] [] clip32 meta []).
  Proof.
    unfold ParseEncryptionDictionary. rewrite ref_found.
    assert (T : take_while is_digit (ref n) = decZ n).
    { unfold ref. apply take_while_app; [apply decZ_digits; lia|reflexivity]. }
    rewrite T, atoi_decZ by exact Hn. rewrite Hfirst.
    set (rest := nl ++ bs "endobj" ++ nl ++ mid ++ nl ++ std_trailer n id ++ tail).
    assert (S1 : skipn (length pre) f = (decZ n ++ bs " 0 obj" ++ nl) ++ D ++ rest).
    { unfold f, std_file. rewrite skipn_app_exact. unfold obj_text, rest. now rewrite <- !app_assoc. }
    rewrite S1.
    set (M := core ++ mline).
    assert (S2 : D ++ rest = bs "<<" ++ M ++ bs ">>" ++ rest) by (rewrite D_eq'; unfold M; now rewrite <- !app_assoc).
    rewrite S2. rewrite index_at.
    2:{ apply nostart_app; [apply nostart_decZ_any; [reflexivity|discriminate]|apply nostartb_ok; reflexivity]. }
    assert (S3 : skipn (length pre + length (decZ n ++ bs " 0 obj" ++ nl)) f = D ++ rest).
    { rewrite Nat.add_comm, <- skipn_skipn, S1, skipn_app_exact. reflexivity. }
    rewrite S3. unfold enc_dict_end.
    assert (LD : length D = (length M + 4)%nat) by (rewrite D_eq', !app_length; unfold M; rewrite app_length; change (length (bs "<<")) with 2%nat; change (length (bs ">>")) with 2%nat; lia).
    destruct angles as [A1 A2]. fold M in A1, A2.
    rewrite S2, dict_end by (try assumption; lia). rewrite <- S2, <- LD. rewrite firstn_app_all. cbv zeta.
    assert (TV : top_number (bs "/V") [bs "/CF"; bs "/StdCF"] (fun _ => true) D = Some v).
    { replace (Some v) with (Some (atoi_clip (decZ v))) by (rewrite atoi_clip_decZ by lia; reflexivity).
      eapply (top_number_found (bs "/V") _ _ _ (bs "<<" ++ nl ++ bs "/Filter " ++ bs "/Standard" ++ nl) (decZ v));
        [rewrite D_eq'; unfold core; repeat rewrite <- app_assoc; reflexivity|apply nostartb_ok; reflexivity|apply decZ_nonnil|apply decZ_digits; lia| |reflexivity|discriminate].
      intros a [<-|[<-|[]]]; reflexivity. }
    assert (HV0 : forall q c, q = "/"%byte :: c -> nostartb q (bs "/Filter ") = true -> nostartb q (bs "/Standard" ++ nl) = true ->
       nostartb q (bs "/V ") = true -> nostart q (bs "<<" ++ nl ++ bs "/Filter " ++ bs "/Standard" ++ nl ++ bs "/V " ++ decZ v ++ nl)).
    { intros q c -> H1 H2 H3.
      assert (N : forall s, ~ In "/"%byte s -> nostart ("/"%byte :: c) s) by (intros s Hs; eapply slash_free; [reflexivity|exact Hs]).
      change (bs "<<" ++ nl ++ bs "/Filter " ++ bs "/Standard" ++ nl ++ bs "/V " ++ decZ v ++ nl)
        with (bs "<<" ++ nl ++ bs "/Filter " ++ (bs "/Standard" ++ nl) ++ bs "/V " ++ decZ v ++ nl).
      repeat (first [ apply nostart_nil | apply nostartb_ok; assumption | apply nostart_decZ_any; [reflexivity|discriminate]
                  | apply N; intros Hi; cbn in Hi; decompose [or] Hi; try discriminate; contradiction | apply nostart_app ]). }
    assert (TR : top_number (bs "/R") [bs "/CF"; bs "/StdCF"] (fun _ => true) D = Some r).
    { replace (Some r) with (Some (atoi_clip (decZ r))) by (rewrite atoi_clip_decZ by lia; reflexivity).
      eapply (top_number_found (bs "/R") _ _ _ (bs "<<" ++ nl ++ bs "/Filter " ++ bs "/Standard" ++ nl ++ bs "/V " ++ decZ v ++ nl) (decZ r));
        [rewrite D_eq'; unfold core; repeat rewrite <- app_assoc; reflexivity|eapply HV0; reflexivity|apply decZ_nonnil|apply decZ_digits; lia| |reflexivity|discriminate].
      intros a [<-|[<-|[]]]; (apply nostart_contains; [discriminate|eapply HV0; reflexivity]). }
    assert (TL : or_default (def 0 (top_number (bs "/Length") [bs "/CF"] (fun z => 0 <? z) D) / 8)
                   (if r =? 2 then 5 else if 5 <=? r then 32 else 16) = lib_key_bytes).
    { assert (L5 : (5 <=? r) = false) by (apply Z.leb_gt; lia). rewrite L5. unfold lib_key_bytes.
      pose proof Hl as Hl1. remember len as ln eqn:El in Hl1 |- *. symmetry in El. destruct ln as [l|].
      - assert (top_number (bs "/Length") [bs "/CF"] (fun z => 0 <? z) D = Some l) as ->.
        { replace (Some l) with (Some (atoi_clip (decZ l))) by (rewrite atoi_clip_decZ by lia; reflexivity).
          assert (HR0 : forall q c, q = "/"%byte :: c -> nostartb q (bs "/Filter ") = true -> nostartb q (bs "/Standard" ++ nl) = true ->
              nostartb q (bs "/V ") = true -> nostartb q (bs "/R ") = true ->
              nostart q ((bs "<<" ++ nl ++ bs "/Filter " ++ bs "/Standard" ++ nl ++ bs "/V " ++ decZ v ++ nl) ++ bs "/R " ++ decZ r ++ nl)).
          { intros q c -> H1 H2 H3 H4. apply nostart_app; [eapply HV0; [reflexivity|assumption..]|].
            apply nostart_app; [apply nostartb_ok; assumption|]. apply nostart_app; [apply nostart_decZ_any; [reflexivity|discriminate]|].
            eapply slash_free; [reflexivity|]. intros Hi; cbn in Hi; decompose [or] Hi; try discriminate; contradiction. }
          eapply (top_number_found (bs "/Length") _ _ _ ((bs "<<" ++ nl ++ bs "/Filter " ++ bs "/Standard" ++ nl ++ bs "/V " ++ decZ v ++ nl) ++ bs "/R " ++ decZ r ++ nl) (decZ l));
            [rewrite D_eq'; unfold core, len_line; rewrite El; repeat rewrite <- app_assoc; reflexivity|eapply HR0; reflexivity|apply decZ_nonnil|apply decZ_digits; lia| | |discriminate].
          - intros a [<-|[]]; (apply nostart_contains; [discriminate|eapply HR0; reflexivity]).
          - rewrite atoi_clip_decZ by lia. apply Z.ltb_lt. lia. }
        cbn [def]. unfold or_default. replace (l / 8 =? 0) with false; [reflexivity|].
        symmetry. apply Z.eqb_neq. assert (1 <= l / 8) by (apply Z.div_le_lower_bound; lia). lia.
      - assert (top_number (bs "/Length") [bs "/CF"] (fun z => 0 <? z) D = None) as ->.
        { unfold top_number. rewrite find_all_none; [reflexivity|].
          assert (Z0 : nostart (bs "/Length") ((bs "<<" ++ core) ++ mline ++ bs ">>")).
          { apply nostart_app; [|unfold mline; destruct meta; apply nostartb_ok; reflexivity].
            assert (G : bs "<<" ++ core = (bs "<<" ++ nl ++ bs "/Filter " ++ bs "/Standard" ++ nl ++ bs "/V ") ++ decZ v ++ (nl ++ bs "/R ") ++ decZ r ++ (nl ++
              bs "/P ") ++ decZ p ++ (nl ++ bs "/O <") ++ hexX o ++ (bs ">" ++ nl ++ bs "/U <") ++ hexX u ++ bs ">" ++ nl).
            { unfold core, len_line. rewrite El. repeat rewrite <- app_assoc. reflexivity. }
            rewrite G. pieces. }
          replace D with ((bs "<<" ++ core) ++ mline ++ bs ">>") by (rewrite D_eq'; repeat rewrite <- app_assoc; reflexivity).
          intros j. apply m_keynum_lit. destruct (Nat.lt_ge_cases j (length ((bs "<<" ++ core) ++ mline ++ bs ">>"))) as [J|J].
          - specialize (Z0 [] j J). now rewrite app_nil_r in Z0.
          - now rewrite skipn_all2 by exact J. }
        cbn [def]. change (0 / 8) with 0. unfold or_default. reflexivity. }
    rewrite TV, TR. cbn [def].
    assert (OV : or_default v 4 = v) by (unfold or_default; replace (v =? 0) with false by (symmetry; apply Z.eqb_neq; lia); reflexivity).
    assert (OR : or_default r 4 = r) by (unfold or_default; replace (r =? 0) with false by (symmetry; apply Z.eqb_neq; lia); reflexivity).
    rewrite OV, OR, TL, p_found. cbn [def].
    assert (L5 : (5 <=? r) = false) by (apply Z.leb_gt; lia). rewrite L5.
    set (ds := (length pre + length (decZ n ++ bs " 0 obj" ++ nl))%nat).
    assert (HBO : hex_or_binary (bs "/O") D f ds 1 = o).
    { eapply (hb_found (bs "/O") D f ds 1 (head_p ++ bs "/P" ++ bs " " ++ decZ p ++ nl)); [rewrite D_p; unfold tail_p; repeat rewrite <- app_assoc; reflexivity| |exact NO].
      apply nostart_app; [eapply head_p_ns; reflexivity|]. pieces. }
    assert (HBU : hex_or_binary (bs "/U") D f ds 1 = u).
    { eapply (hb_found (bs "/U") D f ds 1 (head_p ++ bs "/P" ++ bs " " ++ decZ p ++ nl ++ bs "/O" ++ (bs " <" ++ hexX o ++ bs ">" ++ nl)));
        [rewrite D_p; unfold tail_p; repeat rewrite <- app_assoc; reflexivity| |exact NU].
      apply nostart_app; [eapply head_p_ns; reflexivity|]. pieces. }
    rewrite HBO, HBU.
    assert (CM : contains (bs "/EncryptMetadata false") D = negb meta).
    { rewrite D_eq'. replace (bs "<<" ++ (core ++ mline) ++ bs ">>") with ((bs "<<" ++ core) ++ mline ++ bs ">>") by (repeat rewrite <- app_assoc; reflexivity).
      rewrite contains_nostart by (eapply core_ns; reflexivity). unfold mline. destruct meta; reflexivity. }
    rewrite CM, negb_involutive. reflexivity.
  Qed.
End file.

Lemma decZ_len p : - 2 ^ 62 <= p < 2 ^ 63 -> (length (decZ p) <= 20)%nat.
Proof.
  intros Hp. destruct (Z.leb_spec 0 p).
  - pose proof (decZ_length63 p ltac:(lia)). lia.
  - replace (decZ p) with (bs "-" ++ decZ (- p)).
    + rewrite app_length. pose proof (decZ_length63 (- p) ltac:(lia)). change (length (bs "-")) with 1%nat. lia.
    + unfold decZ. destruct p; try lia. reflexivity.
Qed.
Lemma std_dict_length v r len p o u meta : 1 <= v < 2 ^ 63 -> 1 <= r < 5 -> match len with Some l => 8 <= l < 2 ^ 63 | None => True end ->
  - 2 ^ 62 <= p < 2 ^ 63 -> (length o + length u <= 800)%nat -> (length (std_dict v r len p o u meta) <= 1999)%nat.
Proof.
  intros Hv Hr Hl Hp Ho. unfold std_dict. rewrite !app_length, !hexX_length.
  pose proof (decZ_len v ltac:(lia)). pose proof (decZ_len r ltac:(lia)). pose proof (decZ_len p Hp).
  assert (L : (length (match len with Some l => bs "/Length " ++ decZ l ++ bs "
" | None => [] end) <= 29)%nat).
  { destruct len as [l|]; [|cbn; lia]. rewrite !app_length. pose proof (decZ_len l ltac:(lia)).
    change (length (bs "/Length ")) with 8%nat. change (length (bs "
")) with 1%nat. lia. }
  assert (ML : (length (if meta then [] else bs "/EncryptMetadata false
") <= 23)%nat) by (destruct meta; cbn; lia).
  repeat match goal with |- context [length (bs ?s)] => let k := eval vm_compute in (length (bs s)) in change (length (bs s)) with k end. lia.
Qed.

Lemma std_parsed v r len p o u meta n id pre mid tail :
  let f := std_file pre n (std_dict v r len p o u meta) mid id tail in
  1 <= v < 2 ^ 63 -> 1 <= r < 5 -> match len with Some l => 8 <= l < 2 ^ 63 | None => True end ->
  in_int32 p -> o <> [] -> u <> [] -> id <> [] -> (length o + length u <= 800)%nat -> std_place n pre mid f ->
  ParseEncryptionDictionary f = Ok (mkEnc v r (match len with Some l => l / 8 | None => if r =? 2 then 5 else 16 end) o u [] [] p meta []) /\
  ExtractFileID f = id.
Proof.
  intros f Hv Hr Hl Hp NO NU NI HS (Hn & Q1 & Q2 & Hi).
  assert (P : p = clip32 p).
  { unfold clip32. destruct Hp. destruct (p <? 0) eqn:E; lia. }
  split.
  - rewrite P at 1. apply dict_parsed; auto. apply std_dict_length; auto. destruct Hp; lia.
  - apply file_id_found; auto. apply std_dict_length; auto. destruct Hp; lia.
Qed.
Lemma std_opens user owner id e len pre n mid tail :
  conforming user owner id e -> full_password user -> eV e = 1 \/ eV e = 2 \/ eV e = 4 -> in_int32 (eP e) -> eUE e = [] -> eOE e = [] ->
  id <> [] -> eU e <> [] -> (length (eO e) + length (eU e) <= 800)%nat -> eO e <> [] ->
  len = Some (8 * eKeyLength e) \/ len = None /\ eR e = 2 ->
  std_place n pre mid (std_doc len pre n e mid id tail) ->
  DecryptPDF (std_doc len pre n e mid id tail) user = Ok (std_doc len pre n e mid id tail, set_key (document_key user id e) e).
Proof.
  intros HC HF HV HP HUE HOE HI NU HS NO HL HPl. pose proof HC as (HR & HK & H2 & _).
  destruct (std_parsed (eV e) (eR e) len (eP e) (eO e) (eU e) (eMeta e) n id pre mid tail) as [P1 P2]; auto; try lia.
  { destruct HL as [->|[-> _]]; [lia|exact I]. }
  unfold DecryptPDF, std_doc at 1. rewrite P1. unfold std_doc at 1. rewrite P2. cbn [rbind].
  set (e' := mkEnc _ _ _ _ _ _ _ _ _ _).
  assert (E : e' = set_key [] e).
  { unfold e'. destruct e as [v r kl o u ue oe p m k]. cbn [eV eR eKeyLength eO eU eUE eOE eP eMeta] in *. subst ue oe. unfold set_key. cbn [eV eR eKeyLength eO eU eUE eOE eP eMeta].
    f_equal. destruct HL as [->|[-> E]]; [rewrite Z.mul_comm, Z.div_mul by lia; reflexivity|]. subst r. cbn. now rewrite H2. }
  rewrite E, unlock_set_key, (user_opens_iso user owner id e HC HF). cbn [rbind]. destruct e; reflexivity.
Qed.
(** /P written as an unsigned number *)
Lemma std_p v r len p o u meta n id pre mid tail e :
  let f := std_file pre n (std_dict v r len p o u meta) mid id tail in
  1 <= v < 2 ^ 63 -> 1 <= r < 5 -> match len with Some l => 8 <= l < 2 ^ 63 | None => True end ->
  2 ^ 31 <= p < 2 ^ 32 -> o <> [] -> u <> [] -> id <> [] -> (length o + length u <= 800)%nat -> std_place n pre mid f ->
  ParseEncryptionDictionary f = Ok e -> eP e = 2 ^ 31 - 1.
Proof.
  intros f Hv Hr Hl Hp NO NU NI HS (Hn & Q1 & Q2 & Hi). unfold f. rewrite dict_parsed; auto.
  - intro E. assert (X : forall a b : encryption, Ok a = Ok b -> eP a = eP b) by (intros; congruence). apply X in E. rewrite <- E. cbn [eP].
    unfold clip32. replace (p <? 0) with false by (symmetry; apply Z.ltb_ge; lia). lia.
  - apply std_dict_length; auto. lia.
Qed.

Lemma std_no_length v r p o u meta n id pre mid tail :
  let f := std_file pre n (std_dict v r None p o u meta) mid id tail in
  1 <= v < 2 ^ 63 -> 3 <= r < 5 -> in_int32 p ->
  o <> [] -> u <> [] -> id <> [] -> (length o + length u <= 800)%nat -> std_place n pre mid f ->
  exists e, ParseEncryptionDictionary f = Ok e /\ eKeyLength e = 16 /\ iso_key_bytes None = 5.
Proof.
  intros f Hv Hr Hp NO NU NI HS HP. eexists. split; [apply (std_parsed v r None p o u meta n id pre mid tail); auto; lia|].
  cbn [eKeyLength iso_key_bytes]. replace (r =? 2) with false by (symmetry; apply Z.eqb_neq; lia). split; reflexivity.
Qed.

(** Version 5 *)
Lemma iter_out {A} (g : A -> A) k s : Nat.iter k g (g s) = g (Nat.iter k g s).
Proof. induction k as [|k IH]; [reflexivity|]. change (Nat.iter (S k) g (g s)) with (g (Nat.iter k g (g s))). now rewrite IH. Qed.
Lemma iter_65 {A} (g : A -> A) s : Nat.iter 64 g (g s) = Nat.iter 65 g s.
Proof. rewrite iter_out. reflexivity. Qed.
Lemma rounds_iter k s : sha_rounds k s = iterate k sha256 s.
Proof. unfold iterate. revert s. induction k as [|k IH]; intro s; [reflexivity|]. change (sha_rounds (S k) s) with (sha_rounds k (sha256 s)). rewrite IH. exact (iter_out sha256 k s). Qed.
Lemma id8_eq id : id8 id = firstn 8 (id ++ repeat x00 8).
Proof.
  unfold id8. rewrite firstn_app. f_equal. set (k := (8 - length id)%nat). assert (K : (k <= 8)%nat) by (unfold k; lia). clearbody k.
  do 9 (destruct k as [|k]; [reflexivity|]). lia.
Qed.
Lemma derive_chain pw id : DeriveEncryptionKeyV5 pw id = chain_key pw id.
Proof.
  unfold DeriveEncryptionKeyV5, chain_key. rewrite id8_eq. generalize (pw ++ firstn 8 (id ++ repeat x00 8)). intro s.
  rewrite rounds_iter. unfold iterate. exact (iter_65 sha256 s).
Qed.
Lemma hash_sealed k s : encrypted_hash k s = sealed_hash k s.
Proof. unfold encrypted_hash, sealed_hash. generalize (sha256 s). intro h. generalize (aes_encrypt (firstn 16 k)). intro g. cbn [map concat]. now rewrite app_nil_r. Qed.
Lemma setup_stores user owner fid p m r e : SetupAES256Encryption user owner fid p m r = Ok e ->
  eU e = stored_u user fid (rUserValidation r) (rUserKey r) /\
  eO e = stored_o owner fid (rOwnerValidation r) (rOwnerKey r) (eU e).
Proof.
  intro H. apply setup_inv in H. destruct H as [HV HR HL HP HM HK HU HO HUE HOE].
  split; [rewrite HU|rewrite HO]; unfold computeUValueV5, computeOValueV5, stored_u, stored_o; rewrite hash_sealed, derive_chain; reflexivity.
Qed.
Lemma setup_sizes user owner fid p m r e : random_sizes r -> SetupAES256Encryption user owner fid p m r = Ok e ->
  length (eU e) = 48%nat /\ length (eO e) = 48%nat /\ length (eUE e) = 48%nat /\ length (eOE e) = 48%nat.
Proof.
  intros (R1 & R2 & R3 & R4 & R5) H. apply setup_inv in H. destruct H as [HV HR HL HP HM HK HU HO HUE HOE].
  rewrite (wrap_length _ _ _ HUE), (wrap_length _ _ _ HOE), R1.
  split; [rewrite HU; now apply u_length|]. split; [rewrite HO; now apply o_length|]. split; reflexivity.
Qed.
