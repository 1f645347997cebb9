(** Proofs for reading back a document built from XFA streams, continued. *)
From Verif Require Import Util Scan XfaModel XfaSpec WriterProofs ParseProofs ReadProofs XrefProofs PageSpec PageProofs2 PageProofs3 FormsProofs3 MarksProofs4 XfaProofs.
From Verif Require ManipProofs ManipProofs2 XPagesProofs2.
Local Open Scope Z_scope.

(* ---------------------------------------------------------------- *)
(** Generic facts *)
Lemma matches_skip {A} (m : bytes -> option (A * bytes)) x r : matches m (x ++ r) (length x) = matches m r 0.
Proof. induction x as [|b x IH]; [reflexivity|]. cbn [app length matches]. exact IH. Qed.
Lemma matches_step {A} (m : bytes -> option (A * bytes)) x r a : x <> [] -> m (x ++ r) = Some (a, r) ->
  matches m (x ++ r) 0 = (x ++ r, a, r) :: matches m r 0.
Proof.
  intros Hx Hm. destruct x as [|b x]; [congruence|]. cbn [app matches] in *. rewrite Hm. f_equal.
  replace (length (b :: x ++ r) - length r - 1)%nat with (length x) by (cbn [length]; rewrite app_length; lia).
  apply matches_skip.
Qed.

Lemma array_end_plain a : forall lim r, forallb (fun b => negb (beqb b "[" || beqb b "]")) a = true -> (length a < lim)%nat ->
  array_end lim 1 (a ++ "]"%byte :: r) = Some (length a).
Proof.
  induction a as [|b a IH]; intros lim r H L; (destruct lim as [|lim]; [cbn [length] in L; lia|]).
  - reflexivity.
  - cbn [forallb] in H. apply andb_true_iff in H. destruct H as [H1 H2]. cbn [app array_end].
    destruct (beqb b "["); [discriminate H1|]. destruct (beqb b "]"); [discriminate H1|].
    rewrite IH by (try exact H2; cbn [length] in L; lia). reflexivity.
Qed.
Lemma dict_close_plain a : forall r, forallb (fun b => negb (beqb b "<" || beqb b ">")) a = true ->
  dict_close 1 (a ++ bs ">>" ++ r) = Some (length a + 2)%nat.
Proof.
  induction a as [|b a IH]; intros r H; [reflexivity|].
  cbn [forallb] in H. apply andb_true_iff in H. destruct H as [H1 H2]. apply negb_true_iff, orb_false_iff in H1. destruct H1 as [H1 H1'].
  specialize (IH r H2). cbn [app]. destruct (a ++ bs ">>" ++ r) as [|c t] eqn:E; [destruct a; discriminate E|].
  change (dict_close 1 (b :: c :: t)) with
    (if beqb b "<" && beqb c "<" then option_map (fun i => (i + 2)%nat) (dict_close 2 t)
     else if beqb b ">" && beqb c ">" then Some 2%nat else option_map S (dict_close 1 (c :: t))).
  rewrite H1, H1'. cbn [andb]. rewrite IH. reflexivity.
Qed.

Lemma forallb_flat_map {A} (p : byte -> bool) (f : A -> bytes) l : (forall x, In x l -> forallb p (f x) = true) -> forallb p (flat_map f l) = true.
Proof.
  induction l as [|x l IH]; intros H; [reflexivity|]. cbn [flat_map]. rewrite forallb_app, H by (left; reflexivity).
  apply IH. intros y Hy. apply H. right. exact Hy.
Qed.
Lemma decZ_class (p : byte -> bool) n : 0 <= n -> (forall b, is_digit b = true -> p b = true) -> forallb p (decZ n) = true.
Proof.
  intros Hn H. apply forallb_forall. intros b Hb. apply H. pose proof (decZ_digits n Hn) as D. rewrite forallb_forall in D. apply D, Hb.
Qed.

(* ---------------------------------------------------------------- *)
(** The text of a stream object *)
Definition stream_head (c : bool) (n : Z) : bytes :=
  (if c then bs "<</Filter /FlateDecode" ++ bs " /Length " else bs "<<" ++ bs "/Length ") ++ decZ n ++ bs " /Type /EmbeddedFile >>".
Definition squeezed (s : xfa_data) : bool := match xdData s with [] => false | _ => xdCompress s end.
Lemma stream_text_shape deflate s : stream_text deflate s =
  stream_head (squeezed s) (flen (in_file deflate s)) ++ nl ++ bs "stream" ++ nl ++ in_file deflate s ++ nl ++ bs "endstream".
Proof.
  assert (E : forall b, formatDictionary (stream_dict embedded (Some b) false) = stream_head false (flen b)).
  { intros b. transitivity (bs "<<" ++ ((bs "/Length" ++ bs " " ++ decZ (flen b) ++ bs " ") ++ (bs "/Type" ++ bs " " ++ bs "/EmbeddedFile" ++ bs " ") ++ []) ++ bs ">>"); [reflexivity|].
    unfold stream_head. rewrite <- !app_assoc. reflexivity. }
  assert (F : forall b, formatDictionary (stream_dict embedded (Some b) true) = stream_head true (flen b)).
  { intros b. transitivity (bs "<<" ++ ((bs "/Filter" ++ bs " " ++ bs "/FlateDecode" ++ bs " ") ++ (bs "/Length" ++ bs " " ++ decZ (flen b) ++ bs " ") ++ (bs "/Type" ++ bs " " ++ bs "/EmbeddedFile" ++ bs " ") ++ []) ++ bs ">>"); [reflexivity|].
    unfold stream_head. rewrite <- !app_assoc. reflexivity. }
  unfold stream_text, squeezed. f_equal. destruct (xdData s) as [|b d]; [apply E|]. destruct (xdCompress s); [apply F|apply E].
Qed.
Lemma head_nostart q c n : 0 <= n -> (match q with [] => False | x :: _ => is_digit x = false end) ->
  nostartb q (bs "<</Filter /FlateDecode /Length ") = true -> nostartb q (bs "<</Length ") = true ->
  nostartb q (bs " /Type /EmbeddedFile >>") = true -> nostart q (stream_head c n).
Proof.
  intros Hn Hq H1 H2 H3. destruct q as [|x q]; [contradiction|]. unfold stream_head.
  apply nostart_app; [apply nostartb_ok; destruct c; assumption|].
  apply nostart_app; [apply nostart_decZ; assumption|apply nostartb_ok; exact H3].
Qed.

Lemma stream_lacks q deflate s : q <> [] -> ~ In x0a q ->
  (match q with [] => False | x :: _ => is_digit x = false end) ->
  nostartb q (bs "<</Filter /FlateDecode /Length ") = true -> nostartb q (bs "<</Length ") = true ->
  nostartb q (bs " /Type /EmbeddedFile >>") = true -> nostartb q (nl ++ bs "stream" ++ nl) = true ->
  contains q (in_file deflate s) = false -> contains q (bs "endstream") = false -> contains q (stream_text deflate s) = false.
Proof.
  intros Hq Hn Hd H1 H2 H3 H4 H5 H6. rewrite stream_text_shape.
  replace (stream_head (squeezed s) (flen (in_file deflate s)) ++ nl ++ bs "stream" ++ nl ++ in_file deflate s ++ nl ++ bs "endstream")
    with (stream_head (squeezed s) (flen (in_file deflate s)) ++ (nl ++ bs "stream" ++ nl) ++ (in_file deflate s ++ nl) ++ bs "endstream")
    by (rewrite <- !app_assoc; reflexivity).
  rewrite contains_nostart by (apply head_nostart; try assumption; unfold flen; lia).
  rewrite contains_nostart by (apply nostartb_ok; exact H4).
  rewrite contains_nostart by (apply nostart_sep; assumption). exact H6.
Qed.

Lemma stream_readable deflate s : quiet (in_file deflate s) -> readable (stream_text deflate s).
Proof.
  intros (Q1 & Q2 & Q3 & Q4 & Q5). unfold readable.
  split; [apply stream_lacks; try assumption; try reflexivity; [discriminate|apply no_nl_in; reflexivity]|].
  split; [apply stream_lacks; try assumption; try reflexivity; [discriminate|apply no_nl_in; reflexivity]|].
  split; [apply stream_lacks; try assumption; try reflexivity; [discriminate|apply no_nl_in; reflexivity]|].
  split; [rewrite stream_text_shape; unfold stream_head; destruct (squeezed s); reflexivity|].
  right. rewrite stream_text_shape.
  replace (stream_head (squeezed s) (flen (in_file deflate s)) ++ nl ++ bs "stream" ++ nl ++ in_file deflate s ++ nl ++ bs "endstream")
    with ((stream_head (squeezed s) (flen (in_file deflate s)) ++ (nl ++ bs "stream" ++ nl) ++ (in_file deflate s ++ nl)) ++ bs "endstream" ++ [])
    by (rewrite app_nil_r, <- !app_assoc; reflexivity).
  rewrite index_at.
  - f_equal. rewrite app_nil_r, !app_length. change (length (bs "endstream")) with 9%nat. lia.
  - apply nostart_app; [apply head_nostart; try reflexivity; unfold flen; lia|].
    apply nostart_app; [apply nostartb_ok; reflexivity|]. apply nostart_sep; [exact Q5|apply no_nl_in; reflexivity|discriminate].
Qed.

(* ---------------------------------------------------------------- *)
(** The form *)
Lemma name_cases (P : bytes -> Prop) n : In n stream_names ->
  P (bs "template") -> P (bs "datasets") -> P (bs "config") -> P (bs "localeSet") -> P (bs "connectionSet") -> P (bs "stylesheet") ->
  P (bs "xmp") -> P (bs "signature") -> P (bs "sourceSet") -> P n.
Proof. intros H. intros. unfold stream_names in H. repeat (destruct H as [<-|H]; [assumption|]). destruct H. Qed.
Definition good_entries (es : list (bytes * Z)) : Prop := Forall (fun e => In (fst e) stream_names /\ 0 <= snd e) es.

Lemma entry_nostart q e : In (fst e) stream_names -> 0 <= snd e -> (match q with [] => False | x :: _ => is_digit x = false end) ->
  forallb (fun n => nostartb q (bs "(" ++ n ++ bs ")")) stream_names = true -> nostartb q (bs " 0 R") = true -> nostart q (xfa_entry e).
Proof.
  intros Hn H0 Hq H1 H2. destruct q as [|x q]; [contradiction|]. unfold xfa_entry.
  replace (bs "(" ++ fst e ++ bs ")" ++ decZ (snd e) ++ bs " 0 R") with ((bs "(" ++ fst e ++ bs ")") ++ decZ (snd e) ++ bs " 0 R")
    by (rewrite <- !app_assoc; reflexivity).
  apply nostart_app; [apply nostartb_ok; rewrite forallb_forall in H1; apply H1, Hn|].
  apply nostart_app; [apply nostart_decZ; assumption|apply nostartb_ok; exact H2].
Qed.
Lemma form_lacks q es : good_entries es -> (match q with [] => False | x :: _ => is_digit x = false end) ->
  forallb (fun n => nostartb q (bs "(" ++ n ++ bs ")")) stream_names = true -> nostartb q (bs " 0 R") = true ->
  nostartb q (bs "<</Fields[]/XFA[") = true -> nostartb q (bs "]>>") = true -> contains q (xfa_form es) = false.
Proof.
  intros He Hq H1 H2 H3 H4. unfold xfa_form. apply ReadProofs.nostart_contains; [destruct q; [contradiction|discriminate]|].
  apply nostart_app; [apply nostartb_ok; exact H3|]. apply nostart_app; [|apply nostartb_ok; exact H4].
  apply nostart_flat_map. intros e Hi. unfold good_entries in He. rewrite Forall_forall in He. destruct (He e Hi). apply entry_nostart; assumption.
Qed.
Lemma form_readable es : good_entries es -> readable (xfa_form es).
Proof.
  intros He. unfold readable. repeat (split; [first [apply form_lacks; [exact He|..]; reflexivity|reflexivity]|]).
  left. apply form_lacks; [exact He|..]; reflexivity.
Qed.
Lemma catalog_readable n : 0 <= n -> readable (xfa_catalog n).
Proof.
  intros Hn. assert (G : forall q, (match q with [] => False | x :: _ => is_digit x = false end) ->
    nostartb q (bs "<</Type/Catalog/AcroForm ") = true -> nostartb q (bs " 0 R>>") = true -> contains q (xfa_catalog n) = false).
  { intros q Hq H1 H2. destruct q as [|x q]; [contradiction|]. apply ReadProofs.nostart_contains; [discriminate|]. unfold xfa_catalog.
    apply nostart_app; [apply nostartb_ok; exact H1|]. apply nostart_app; [apply nostart_decZ; assumption|apply nostartb_ok; exact H2]. }
  unfold readable. repeat (split; [first [apply G; reflexivity|reflexivity]|]). left. apply G; reflexivity.
Qed.

Lemma entry_here name n r : In name stream_names -> 0 <= n -> m_xfa_entry (xfa_entry (name, n) ++ r) = Some ((name, decZ n), r).
Proof.
  intros Hn H0. unfold m_xfa_entry, xfa_entry. cbn [fst snd]. rewrite <- !app_assoc.
  assert (E1 : lit (bs "(") (bs "(" ++ name ++ bs ")" ++ decZ n ++ bs " 0 R" ++ r) = Some (name ++ bs ")" ++ decZ n ++ bs " 0 R" ++ r)) by reflexivity.
  rewrite E1. cbn [obind].
  assert (E2 : take_while not_paren (name ++ bs ")" ++ decZ n ++ bs " 0 R" ++ r) = name /\
               drop_while not_paren (name ++ bs ")" ++ decZ n ++ bs " 0 R" ++ r) = bs ")" ++ decZ n ++ bs " 0 R" ++ r /\ name <> []).
  { clear E1. revert Hn. generalize (decZ n ++ bs " 0 R" ++ r). intros u Hn. revert name Hn.
    intros name Hn. apply (name_cases (fun name => take_while not_paren (name ++ bs ")" ++ u) = name /\ drop_while not_paren (name ++ bs ")" ++ u) = bs ")" ++ u /\ name <> []) name Hn);
    (split; [reflexivity|split; [reflexivity|discriminate]]). }
  destruct E2 as (-> & -> & Hne). destruct name as [|b name]; [congruence|].
  assert (E3 : lit (bs ")") (bs ")" ++ decZ n ++ bs " 0 R" ++ r) = Some (decZ n ++ bs " 0 R" ++ r)) by reflexivity.
  rewrite E3. cbn [obind]. unfold ws0.
  rewrite drop_while_stop.
  2:{ destruct (decZ n) as [|c d] eqn:Ed; [exfalso; exact (decZ_nonnil n H0 Ed)|]. cbn [app]. apply digit_not_ws.
      pose proof (decZ_digits n H0) as D. rewrite Ed in D. cbn [forallb] in D. apply andb_true_iff in D. apply D. }
  rewrite digits1_app by (auto using decZ_nonnil, decZ_digits; reflexivity). cbn [obind].
  reflexivity.
Qed.
Lemma entries_read es : good_entries es -> xfa_entries (flat_map xfa_entry es ++ bs "]") = map (fun e => (fst e, decZ (snd e))) es.
Proof.
  unfold xfa_entries. induction es as [|[name n] es IH]; intros He; [reflexivity|].
  inversion He as [|x y [H1 H2] H3]; subst. cbn [fst snd] in H1, H2. cbn [flat_map map fst snd]. rewrite <- app_assoc.
  rewrite (matches_step m_xfa_entry (xfa_entry (name, n)) _ (name, decZ n)).
  - cbn [map fst snd]. f_equal. apply IH, H3.
  - discriminate.
  - apply entry_here; assumption.
Qed.

Lemma entries_plain es : good_entries es -> forallb (fun b => negb (beqb b "[" || beqb b "]") && negb (beqb b "<" || beqb b ">")) (flat_map xfa_entry es) = true.
Proof.
  intros He. apply forallb_flat_map. intros [name n] Hi. unfold good_entries in He. rewrite Forall_forall in He. destruct (He _ Hi) as [H1 H2].
  cbn [fst snd] in *. unfold xfa_entry. cbn [fst snd]. rewrite !forallb_app.
  rewrite (name_cases (fun name => forallb (fun b => negb (beqb b "[" || beqb b "]") && negb (beqb b "<" || beqb b ">")) name = true) name H1) by reflexivity.
  rewrite decZ_class; [reflexivity|exact H2|]. intros b Hb. destruct b; first [discriminate Hb|reflexivity].
Qed.

Lemma form_array k es : 0 <= k -> good_entries es -> (length (flat_map xfa_entry es) < array_limit)%nat ->
  findXFAArrayContent (object_text k (xfa_form es)) = Ok (flat_map xfa_entry es ++ bs "]").
Proof.
  intros Hk He HL. pose proof (entries_plain es He) as Hp. remember (flat_map xfa_entry es) as body eqn:Eb.
  assert (Hp1 : forallb (fun b => negb (beqb b "[" || beqb b "]")) body = true /\ forallb (fun b => negb (beqb b "<" || beqb b ">")) body = true).
  { clear -Hp. split; rewrite forallb_forall in *; intros b Hb; specialize (Hp b Hb); apply andb_true_iff in Hp; apply Hp. }
  destruct Hp1 as [P1 P2]. clear Hp.
  assert (Eo : object_text k (xfa_form es) = (decZ k ++ bs " 0 obj" ++ nl) ++ bs "<<" ++ ((bs "/Fields[]" ++ bs "/XFA" ++ bs "[" ++ body ++ bs "]") ++ bs ">>" ++ (nl ++ bs "endobj"))).
  { unfold object_text, xfa_form. rewrite <- Eb. rewrite <- !app_assoc. reflexivity. }
  set (pre := decZ k ++ bs " 0 obj" ++ nl) in *.
  assert (Np : nostart (bs "<<") pre).
  { unfold pre. apply nostart_app; [apply nostart_decZ; [exact Hk|reflexivity]|apply nostartb_ok; reflexivity]. }
  assert (X : xfa_pos (object_text k (xfa_form es)) = Some (length pre + 11)%nat).
  { rewrite Eo. unfold xfa_pos. rewrite index_at by exact Np. rewrite skipn_app_exact.
    set (inner := bs "/Fields[]" ++ bs "/XFA" ++ bs "[" ++ body ++ bs "]").
    assert (D : dict_close 0 (bs "<<" ++ inner ++ bs ">>" ++ nl ++ bs "endobj") = Some (length inner + 4)%nat).
    { assert (D1 : forall s, dict_close 0 (bs "<<" ++ s) = option_map (fun i => (i + 2)%nat) (dict_close 1 s)) by reflexivity.
      rewrite D1. rewrite dict_close_plain; [cbn [option_map]; f_equal; lia|]. unfold inner. rewrite !forallb_app, P2. reflexivity. }
    rewrite D.
    assert (F : firstn (length inner + 4) (bs "<<" ++ inner ++ bs ">>" ++ nl ++ bs "endobj") = (bs "<<" ++ bs "/Fields[]") ++ bs "/XFA" ++ bs "[" ++ body ++ bs "]" ++ bs ">>").
    { replace (bs "<<" ++ inner ++ bs ">>" ++ nl ++ bs "endobj") with ((bs "<<" ++ inner ++ bs ">>") ++ nl ++ bs "endobj") by (rewrite <- !app_assoc; reflexivity).
      rewrite firstn_len_app by (rewrite !app_length; change (length (bs "<<")) with 2%nat; change (length (bs ">>")) with 2%nat; lia).
      unfold inner. rewrite <- !app_assoc. reflexivity. }
    rewrite F. rewrite index_at by (apply nostartb_ok; reflexivity). cbn [or_else option_map].
    change (length (bs "<<" ++ bs "/Fields[]")) with 11%nat. reflexivity. }
  unfold findXFAArrayContent. rewrite X. rewrite Eo.
  assert (S1 : skipn (length pre + 11) (pre ++ bs "<<" ++ (bs "/Fields[]" ++ bs "/XFA" ++ bs "[" ++ body ++ bs "]") ++ bs ">>" ++ nl ++ bs "endobj")
    = bs "/XFA" ++ bs "[" ++ body ++ bs "]" ++ bs ">>" ++ nl ++ bs "endobj").
  { assert (Sk : forall a b (l : bytes), skipn (a + b) l = skipn b (skipn a l)) by (intros; rewrite skipn_skipn; f_equal; lia).
    rewrite Sk, skipn_app_exact. rewrite <- !app_assoc. reflexivity. }
  rewrite S1. rewrite index_at by (apply nostartb_ok; reflexivity). change (length (bs "/XFA")) with 4%nat.
  assert (S2 : skipn (length pre + 11 + 4 + 1) (pre ++ bs "<<" ++ (bs "/Fields[]" ++ bs "/XFA" ++ bs "[" ++ body ++ bs "]") ++ bs ">>" ++ nl ++ bs "endobj")
    = body ++ "]"%byte :: bs ">>" ++ nl ++ bs "endobj").
  { assert (Sk : forall a b (l : bytes), skipn (a + b) l = skipn b (skipn a l)) by (intros; rewrite skipn_skipn; f_equal; lia).
    replace (length pre + 11 + 4 + 1)%nat with (length pre + 11 + 5)%nat by lia. rewrite Sk, S1. reflexivity. }
  rewrite S2. rewrite array_end_plain by assumption.
  f_equal. replace (body ++ "]"%byte :: bs ">>" ++ nl ++ bs "endobj") with ((body ++ bs "]") ++ bs ">>" ++ nl ++ bs "endobj") by (rewrite <- !app_assoc; reflexivity).
  apply firstn_len_app. rewrite app_length. reflexivity.
Qed.
