(** Proofs about content/extract/pages.go, part 2: the text of a page made by
    the page builder. *)
From Verif Require Import Scan ReadProofs XPagesModel XPagesSpec ManipProofs ManipProofs2 XrefProofs EncodingProofs PageModel XPagesProofs ParseSpec.
From Verif Require ManipSpec PageSpec.
From Coq Require Import Lia ZArith.
Import PageSpec.
Local Open Scope Z_scope.

Ltac split_nostart := repeat match goal with |- nostart _ (_ ++ _) => apply nostart_app end.
(* -------------------- scanning -------------------- *)
Lemma nostart_longer p q a : nostart p a -> nostart (p ++ q) a.
Proof.
  intros H b j Hj. specialize (H b j Hj). destruct (prefixb (p ++ q) (skipn j (a ++ b))) eqn:E; [|reflexivity].
  apply prefixb_spec in E. destruct E as [t E]. rewrite E, <- app_assoc, prefixb_app in H. discriminate.
Qed.
Lemma nostart_contains p a : nostart p a -> p <> [] -> contains p a = false.
Proof.
  intros H Hp. rewrite <- (app_nil_r a). rewrite contains_nostart by exact H. destruct p; [congruence|reflexivity].
Qed.
(** A byte of the key that does not occur. *)
Lemma nostart_noin c p a : ~ In c a -> nostart (c :: p) a.
Proof.
  intros H. apply (nostart_class (fun b => negb (beqb b c))).
  - apply forallb_forall. intros b Hb. destruct (beqb b c) eqn:E; [|reflexivity]. apply beqb_eq in E. subst b. contradiction.
  - cbn beta. rewrite beqb_refl. reflexivity.
Qed.

Lemma word_no_slash n : forallb is_word n = true -> ~ In "/"%byte n.
Proof. intros H Hi. rewrite forallb_forall in H. specialize (H _ Hi). discriminate. Qed.
Lemma word_no b n : is_word b = false -> forallb is_word n = true -> ~ In b n.
Proof. intros E H Hi. rewrite forallb_forall in H. specialize (H _ Hi). congruence. Qed.

(** The name of an entry starts no key. *)
Lemma prefix_name k n r : ~ In " "%byte k -> prefixb k n = false -> prefixb k (n ++ " "%byte :: r) = false.
Proof.
  revert n. induction k as [|c k IH]; intros n Hk Hp; [discriminate|].
  destruct n as [|b n].
  - cbn [app prefixb]. destruct (beqb c " ") eqn:E; [|reflexivity]. apply beqb_eq in E. subst c. exfalso. apply Hk. left. reflexivity.
  - cbn [app prefixb] in *. destruct (beqb c b); [|reflexivity]. cbn [andb] in *. apply IH; [|exact Hp]. intros Hi. apply Hk. right. exact Hi.
Qed.
Definition entry_text (e : bytes * Z) : bytes := bs "/" ++ fst e ++ bs " " ++ decZ (snd e) ++ bs " 0 R".
Lemma entry_nostart k e : ~ In " "%byte k -> prefixb k (fst e) = false -> forallb is_word (fst e) = true -> 0 <= snd e ->
  nostart ("/"%byte :: k) (entry_text e).
Proof.
  intros Hk Hp Hw He b j Hj. unfold entry_text in *. destruct j as [|j].
  - cbn [skipn]. change (bs "/") with ["/"%byte]. cbn [app prefixb]. rewrite beqb_refl. cbn [andb].
    rewrite <- !app_assoc. apply prefix_name; assumption.
  - assert (N : nostart ("/"%byte :: k) (fst e ++ bs " " ++ decZ (snd e) ++ bs " 0 R")).
    { apply nostart_noin. intros Hi. rewrite !in_app_iff in Hi.
      destruct Hi as [Hi|[Hi|[Hi|Hi]]]; [apply (word_no_slash _ Hw Hi)|cbn in Hi; intuition discriminate| |cbn in Hi; intuition discriminate].
      pose proof (decZ_digits (snd e) He) as D. rewrite forallb_forall in D. specialize (D _ Hi). discriminate. }
    change (skipn (S j) ((bs "/" ++ fst e ++ bs " " ++ decZ (snd e) ++ bs " 0 R") ++ b)) with
      (skipn j ((fst e ++ bs " " ++ decZ (snd e) ++ bs " 0 R") ++ b)).
    apply N. rewrite app_length in Hj. change (length (bs "/")) with 1%nat in Hj. lia.
Qed.
Definition entry_ok (k : bytes) (e : bytes * Z) : Prop := prefixb k (fst e) = false /\ forallb is_word (fst e) = true /\ 0 <= snd e.
Lemma entries_nostart k l : ~ In " "%byte k -> Forall (entry_ok k) l -> nostart ("/"%byte :: k) (entries_text l).
Proof.
  intros Hk F. induction F as [|e l (H1 & H2 & H3) F IH]; [apply nostart_nil|].
  change (entries_text (e :: l)) with (entry_text e ++ entries_text l). apply nostart_app; [|exact IH]. apply entry_nostart; assumption.
Qed.
Lemma group_nostart k key l : ~ In " "%byte k -> Forall (entry_ok k) l -> nostart ("/"%byte :: k) (key ++ bs "<<") ->
  nostart ("/"%byte :: k) (group_of key l).
Proof.
  intros Hk F Hn. destruct l as [|e l]; [apply nostart_nil|].
  change (group_of key (e :: l)) with (key ++ bs "<<" ++ entries_text (e :: l) ++ bs ">>"). rewrite app_assoc.
  apply nostart_app; [exact Hn|]. apply nostart_app; [apply entries_nostart; assumption|].
  apply nostart_noin. cbn. intuition discriminate.
Qed.

(* -------------------- inline dictionaries -------------------- *)
Definition no_angle (x : bytes) : Prop := ~ In "<"%byte x /\ ~ In ">"%byte x.
Lemma inline_step d b c r : beqb b "<" = false -> beqb b ">" = false -> inline_end d (b :: c :: r) = option_map S (inline_end d (c :: r)).
Proof.
  intros H1 H2.
  change (inline_end d (b :: c :: r)) with
    (if beqb b ">" && beqb c ">" then
       match d with S (S _ as d) => option_map (fun k => S (S k)) (inline_end d r) | _ => Some O end
     else if beqb b "<" && beqb c "<" then option_map (fun k => S (S k)) (inline_end (S d) r) else option_map S (inline_end d (c :: r))).
  rewrite H1, H2. reflexivity.
Qed.
Lemma inline_plain x : no_angle x -> forall d s, inline_end d (x ++ s) = option_map (Nat.add (length x)) (inline_end d s).
Proof.
  induction x as [|b x IH]; intros [H1 H2] d s; [cbn [app]; destruct (inline_end d s); reflexivity|].
  assert (B1 : beqb b "<" = false) by (apply beqb_neq; intros ->; apply H1; left; reflexivity).
  assert (B2 : beqb b ">" = false) by (apply beqb_neq; intros ->; apply H2; left; reflexivity).
  assert (N : no_angle x) by (split; intros Hi; [apply H1|apply H2]; right; exact Hi).
  cbn [app]. destruct (x ++ s) as [|c r] eqn:E.
  - apply app_eq_nil in E. destruct E as [-> ->]. reflexivity.
  - rewrite (inline_step _ _ _ _ B1 B2). rewrite <- E. rewrite (IH N d s). destruct (inline_end d s); reflexivity.
Qed.
Lemma inline_open d s : inline_end d (bs "<<" ++ s) = option_map (fun k => S (S k)) (inline_end (S d) s).
Proof. reflexivity. Qed.
Lemma inline_close d s : inline_end (S (S d)) (bs ">>" ++ s) = option_map (fun k => S (S k)) (inline_end (S d) s).
Proof. reflexivity. Qed.
Lemma inline_stop s : inline_end 1 (bs ">>" ++ s) = Some O.
Proof. reflexivity. Qed.
Lemma no_angle_app a b : no_angle a -> no_angle b -> no_angle (a ++ b).
Proof. intros [H1 H2] [H3 H4]. split; intros Hi; apply in_app_or in Hi; tauto. Qed.
Lemma no_angle_class f (a : bytes) : f "<"%byte = false -> f ">"%byte = false -> forallb f a = true -> no_angle a.
Proof. intros E1 E2 H. rewrite forallb_forall in H. split; intros Hi; specialize (H _ Hi); congruence. Qed.
Lemma no_angle_decZ z : 0 <= z -> no_angle (decZ z).
Proof. intros H. apply (no_angle_class is_digit); [reflexivity|reflexivity|apply decZ_digits, H]. Qed.
Definition plain_entry (e : bytes * Z) : Prop := forallb is_word (fst e) = true /\ 0 <= snd e.
Lemma no_angle_entries l : Forall plain_entry l -> no_angle (entries_text l).
Proof.
  induction 1 as [|e l [H1 H2] F IH]; [split; intros []|].
  change (entries_text (e :: l)) with (entry_text e ++ entries_text l). apply no_angle_app; [|exact IH]. unfold entry_text.
  repeat apply no_angle_app; try (apply (no_angle_class (fun _ => false)); reflexivity).
  - split; cbn; intuition discriminate.
  - apply (no_angle_class is_word); [reflexivity|reflexivity|exact H1].
  - split; cbn; intuition discriminate.
  - apply no_angle_decZ, H2.
  - split; cbn; intuition discriminate.
Qed.
Lemma inline_group key l d s : Forall plain_entry l -> no_angle key ->
  inline_end (S d) (group_of key l ++ s) = option_map (Nat.add (length (group_of key l))) (inline_end (S d) s).
Proof.
  intros F Hk. destruct l as [|e l]; [cbn [group_of app]; destruct (inline_end (S d) s); reflexivity|].
  change (group_of key (e :: l)) with (key ++ bs "<<" ++ entries_text (e :: l) ++ bs ">>"). rewrite <- !app_assoc.
  rewrite (inline_plain _ Hk), inline_open, (inline_plain _ (no_angle_entries _ F)), inline_close.
  destruct (inline_end (S d) s); cbn [option_map]; [|reflexivity]. f_equal. rewrite !app_length. change (length (bs "<<")) with 2%nat. change (length (bs ">>")) with 2%nat. lia.
Qed.

(* -------------------- the page -------------------- *)
Definition entry_free (e : bytes * Z) : Prop := name_free (fst e) /\ 0 <= snd e < 2 ^ 63.
Lemma entry_free_plain l : Forall entry_free l -> Forall plain_entry l.
Proof. apply Forall_impl. intros e [(H1 & H2 & H3) H4]. split; [exact H2|lia]. Qed.
Lemma entry_free_ok k l : In k page_keys -> Forall entry_free l -> Forall (entry_ok k) l.
Proof.
  intros Hk. apply Forall_impl. intros e [(H1 & H2 & H3) H4]. split; [|split; [exact H2|lia]].
  destruct (prefixb k (fst e)) eqn:E; [|reflexivity]. exfalso.
  assert (T : existsb (fun k => prefixb k (fst e)) page_keys = true) by (apply existsb_exists; exists k; split; assumption). congruence.
Qed.
Lemma key_of k : forallb ManipSpec.key_byte k = true -> ManipSpec.key_name ("/"%byte :: k).
Proof. intros H. exists k. split; [reflexivity|exact H]. Qed.

Section page.
Variables (n parent c : Z) (width height : bytes) (fonts images : list (bytes * Z)).
Hypotheses (Hn : 0 <= n) (Hparent : 0 <= parent) (Hc : 0 <= c < 2 ^ 63)
  (Hw : numeral width) (Hh : numeral height) (Hf : Forall entry_free fonts) (Hi : Forall entry_free images).

Definition groups : bytes := group_of (bs "/Font") fonts ++ group_of (bs "/XObject") images.
Definition pg : bytes := object_text n (page_text parent c width height fonts images).
Definition before_contents : bytes :=
  decZ n ++ bs " 0 obj" ++ nl ++ bs "<</Type/Page/Parent " ++ decZ parent ++ bs " 0 R/MediaBox[0 0 " ++ width ++ bs " " ++ height ++ bs "]".
Definition after_groups : bytes := bs ">>>>" ++ nl ++ bs "endobj".
Lemma pg_contents : pg = before_contents ++ bs "/Contents" ++ bs " " ++ decZ c ++ bs " 0 R/Resources<<" ++ groups ++ after_groups.
Proof.
  unfold pg, object_text, page_text, before_contents, groups, after_groups. repeat rewrite <- app_assoc.
  repeat (apply f_equal2; [reflexivity|]). reflexivity.
Qed.

Lemma numeral_nostart p v : numeral v -> nostart ("/"%byte :: p) v.
Proof. intros [_ H]. apply nostart_class with (f := is_numch); [exact H|reflexivity]. Qed.
Lemma groups_nostart k : In k page_keys -> ~ In " "%byte k -> nostartb ("/"%byte :: k) (bs "/Font<<") = true ->
  nostartb ("/"%byte :: k) (bs "/XObject<<") = true -> nostart ("/"%byte :: k) groups.
Proof.
  intros Hk Hs H1 H2. unfold groups. apply nostart_app; apply group_nostart; try exact Hs; try (apply entry_free_ok; assumption).
  - exact (nostartb_ok _ _ H1).
  - exact (nostartb_ok _ _ H2).
Qed.
Lemma before_nostart k : nostartb ("/"%byte :: k) (bs "<</Type/Page/Parent ") = true -> nostartb ("/"%byte :: k) (bs " 0 R/MediaBox[0 0 ") = true ->
  nostart ("/"%byte :: k) before_contents.
Proof.
  intros H1 H2. unfold before_contents. split_nostart;
    first [apply nostart_decZ; [assumption|reflexivity] | apply numeral_nostart; assumption | apply nostartb_ok; first [exact H1|exact H2] | apply nostart_noin; cbn; intuition discriminate; fail].
Qed.
Lemma pg_nostart k : In k page_keys -> ~ In " "%byte k -> nostartb ("/"%byte :: k) (bs "/Font<<") = true ->
  nostartb ("/"%byte :: k) (bs "/XObject<<") = true -> nostartb ("/"%byte :: k) (bs "<</Type/Page/Parent ") = true ->
  nostartb ("/"%byte :: k) (bs " 0 R/MediaBox[0 0 ") = true -> nostartb ("/"%byte :: k) (bs "/Contents ") = true ->
  nostartb ("/"%byte :: k) (bs " 0 R/Resources<<") = true -> nostart ("/"%byte :: k) pg.
Proof.
  intros H1 H2 H3 H4 H5 H6 H7 H8. rewrite pg_contents. apply nostart_app; [apply before_nostart; assumption|].
  rewrite app_assoc. apply nostart_app; [exact (nostartb_ok _ _ H7)|].
  apply nostart_app; [apply nostart_decZ; [lia|reflexivity]|].
  apply nostart_app; [apply nostartb_ok, H8|]. apply nostart_app; [apply groups_nostart; assumption|].
  apply nostart_noin. cbn. intuition discriminate.
Qed.
Ltac inkeys := cbn; tauto.
Ltac nospace := cbn; intuition discriminate.
Lemma pg_no_crop : contains (bs "/CropBox") pg = false.
Proof. apply nostart_contains; [|discriminate]. apply pg_nostart; try reflexivity; [inkeys|nospace]. Qed.
Lemma pg_no_rotate : contains (bs "/Rotate") pg = false.
Proof. apply nostart_contains; [|discriminate]. apply pg_nostart; try reflexivity; [inkeys|nospace]. Qed.
Lemma groups_type : nostart (bs "/Type") groups.
Proof. apply groups_nostart; try reflexivity; [inkeys|nospace]. Qed.
Lemma pg_no_pages q : (q = bs "/Pages" \/ q = bs " /Pages") -> contains (bs "/Type" ++ q) pg = false.
Proof.
  intros Hq. apply nostart_contains; [|discriminate]. rewrite pg_contents. unfold before_contents.
  split_nostart;
   first [apply nostart_longer, groups_type | apply nostart_decZ; [lia|reflexivity] | apply numeral_nostart; assumption |
          destruct Hq as [-> | ->]; apply nostartb_ok; reflexivity].
Qed.
Lemma pg_shows : shows_page pg.
Proof.
  split; [exact (pg_no_pages (bs "/Pages") (or_introl eq_refl))|]. split; [exact (pg_no_pages (bs " /Pages") (or_intror eq_refl))|].
  left. unfold mentions. rewrite pg_contents. unfold before_contents.
  transitivity (contains (bs "/Type/Page") ((decZ n ++ bs " 0 obj" ++ nl ++ bs "<<") ++ bs "/Type/Page" ++
    (bs "/Parent " ++ decZ parent ++ bs " 0 R/MediaBox[0 0 " ++ width ++ bs " " ++ height ++ bs "]") ++
    bs "/Contents" ++ bs " " ++ decZ c ++ bs " 0 R/Resources<<" ++ groups ++ after_groups)).
  - f_equal. rewrite <- !app_assoc. reflexivity.
  - apply contains_mid.
Qed.
Lemma key_Contents : ManipSpec.key_name (bs "/Contents"). Proof. exact (key_of (bs "Contents") eq_refl). Qed.
Lemma key_Resources : ManipSpec.key_name (bs "/Resources"). Proof. exact (key_of (bs "Resources") eq_refl). Qed.
Lemma key_MediaBox : ManipSpec.key_name (bs "/MediaBox"). Proof. exact (key_of (bs "MediaBox") eq_refl). Qed.
Lemma pg_contents_value : x_value pg (bs "/Contents") = decZ c.
Proof.
  rewrite pg_contents. apply x_spaced; [apply key_Contents| |apply space_gap|apply word_decZ|reflexivity].
  apply nostart_contains; [|discriminate]. apply before_nostart; reflexivity.
Qed.
Definition before_resources : bytes := before_contents ++ bs "/Contents " ++ decZ c ++ bs " 0 R".
Lemma pg_resources : pg = before_resources ++ bs "/Resources" ++ bs "<<" ++ groups ++ after_groups.
Proof. rewrite pg_contents. unfold before_resources. rewrite <- !app_assoc. reflexivity. Qed.
Lemma before_resources_nostart : nostart (bs "/Resources") before_resources.
Proof.
  unfold before_resources. apply nostart_app; [apply before_nostart; reflexivity|].
  apply nostart_app; [apply nostartb_ok; reflexivity|]. apply nostart_app; [apply nostart_decZ; [lia|reflexivity]|apply nostartb_ok; reflexivity].
Qed.
Lemma pg_resources_value : x_value pg (bs "/Resources") = [].
Proof.
  rewrite pg_resources. pose proof (nostart_contains _ _ before_resources_nostart ltac:(discriminate)) as Ha.
  assert (R : contains (bs "/Resources") (tl (bs "/Resources") ++ bs "<<" ++ groups ++ after_groups) = false).
  { apply nostart_contains; [|discriminate]. rewrite app_assoc. apply nostart_app; [apply nostartb_ok; reflexivity|].
    apply nostart_app; [apply groups_nostart; try reflexivity; [inkeys|nospace]|apply nostartb_ok; reflexivity]. }
  unfold x_value.
  rewrite (find_only_at (m_spaced (bs "/Resources")) (bs "/Resources")); [|apply needs_spaced|apply key_Resources|exact Ha|reflexivity|exact R].
  rewrite (find_only_at (m_named (bs "/Resources")) (bs "/Resources")); [|apply needs_named|apply key_Resources|exact Ha|reflexivity|exact R].
  rewrite find_bracketed_none; [reflexivity|apply key_Resources|exact Ha|reflexivity|exact R].
Qed.
Lemma pg_inline : extractInlineDict pg (bs "/Resources") = groups.
Proof.
  unfold extractInlineDict. rewrite pg_resources, (index_at _ _ _ before_resources_nostart), skip_sole.
  change (drop_while is_gap (bs "<<" ++ groups ++ after_groups)) with (bs "<<" ++ groups ++ after_groups).
  rewrite lit_app. unfold groups. rewrite <- app_assoc.
  rewrite inline_group by (try (apply entry_free_plain; assumption); split; cbn; intuition discriminate).
  rewrite inline_group by (try (apply entry_free_plain; assumption); split; cbn; intuition discriminate).
  unfold after_groups. change (bs ">>>>") with (bs ">>" ++ bs ">>"). rewrite <- (app_assoc (bs ">>")). rewrite inline_stop. cbn [option_map].
  rewrite Nat.add_0_r, <- app_length, (app_assoc (group_of _ fonts)). apply firstn_app_all.
Qed.
Lemma pg_media : find (m_bracketed (bs "/MediaBox")) pg <> None /\
  forall i t, find (m_bracketed (bs "/MediaBox")) pg = Some (i, t) -> t = bs "0 0 " ++ width ++ bs " " ++ height.
Proof.
  set (a := decZ n ++ bs " 0 obj" ++ nl ++ bs "<</Type/Page/Parent " ++ decZ parent ++ bs " 0 R").
  set (b := bs "/Contents" ++ bs " " ++ decZ c ++ bs " 0 R/Resources<<" ++ groups ++ after_groups).
  assert (E : pg = a ++ bs "/MediaBox" ++ "["%byte :: (bs "0 0 " ++ width ++ bs " " ++ height) ++ "]"%byte :: b).
  { rewrite pg_contents. unfold before_contents, a, b. rewrite <- !app_assoc. reflexivity. }
  assert (Ha : contains (bs "/MediaBox") a = false).
  { apply nostart_contains; [|discriminate]. unfold a.
    split_nostart; first [apply nostart_decZ; [assumption|reflexivity] | apply nostartb_ok; reflexivity]. }
  rewrite E, (find_bracketed _ _ _ (bs "0 0 " ++ width ++ bs " " ++ height) key_MediaBox Ha).
  - split; [discriminate|]. intros i t H. injection H as _ <-. reflexivity.
  - apply x_bracketed_lit; [discriminate|]. intros Hin. rewrite !in_app_iff in Hin.
    destruct Hin as [Hin|[Hin|[Hin|Hin]]]; try (cbn in Hin; intuition discriminate);
      [destruct Hw as [_ Hx]|destruct Hh as [_ Hx]]; rewrite forallb_forall in Hx; specialize (Hx _ Hin); discriminate.
Qed.
End page.
