(** Proofs about forms: a field that is built is read back. *)
From Verif Require Import Util Scan Utf8 WriterModel ParseModel TextModel FormsModel FormsSpec ParseSpec ParseProofs WriterProofs XrefProofs.
Local Open Scope Z_scope.

Definition no_slash (s : bytes) : bool := forallb (fun b => negb (beqb b "/")) s.
Definition slashed {A} (m : bytes -> option A) : Prop :=
  forall s, match s with b :: _ => beqb b "/" = false | [] => True end -> m s = None.

Lemma search_skip {A} (m : bytes -> option A) a s : slashed m -> no_slash a = true -> search m (a ++ s) = search m s.
Proof.
  intros Hm. induction a as [|b a IH]; intros H; [reflexivity|].
  cbn [no_slash forallb] in H. apply andb_true_iff in H as [H1 H2].
  unfold search in *. cbn [app find]. rewrite (Hm (b :: a ++ s)) by (apply negb_true_iff; exact H1).
  rewrite <- (IH H2). destruct (find m (a ++ s)) as [[i x]|]; reflexivity.
Qed.
Lemma search_none {A} (m : bytes -> option A) a : slashed m -> no_slash a = true -> search m a = None.
Proof.
  intros Hm H. rewrite <- (app_nil_r a), search_skip by assumption. unfold search. cbn [find].
  rewrite (Hm []) by exact I. reflexivity.
Qed.
Lemma search_step {A} (m : bytes -> option A) b s : m (b :: s) = None -> search m (b :: s) = search m s.
Proof. intros H. unfold search. cbn [find]. rewrite H. destruct (find m s) as [[i x]|]; reflexivity. Qed.
Lemma search_hit {A} (m : bytes -> option A) s v : m s = Some v -> search m s = Some v.
Proof. intros H. unfold search. destruct s; cbn [find]; rewrite H; reflexivity. Qed.

Lemma piece_skip {A} (m : bytes -> option A) c r : slashed m -> no_slash c = true ->
  m ("/"%byte :: c ++ r) = None -> search m (bs " /" ++ c ++ r) = search m r.
Proof.
  intros Hm Hc H. change (bs " /" ++ c ++ r) with (bs " " ++ "/"%byte :: c ++ r).
  rewrite search_skip by (exact Hm || reflexivity). rewrite search_step by exact H.
  apply search_skip; assumption.
Qed.
Lemma piece_hit {A} (m : bytes -> option A) c r v : slashed m ->
  m ("/"%byte :: c ++ r) = Some v -> search m (bs " /" ++ c ++ r) = Some v.
Proof.
  intros Hm H. change (bs " /" ++ c ++ r) with (bs " " ++ "/"%byte :: c ++ r).
  rewrite search_skip by (exact Hm || reflexivity). apply search_hit. exact H.
Qed.

Lemma slashed_lit {A} key (k : bytes -> option A) : slashed (fun s => obind (lit ("/"%byte :: key) s) k).
Proof.
  intros s H. destruct s as [|b s]; [reflexivity|]. unfold lit. cbn [prefixb].
  replace (beqb "/" b) with (beqb b "/") by (unfold beqb; apply N.eqb_sym). rewrite H. reflexivity.
Qed.
Lemma slashed_str key : slashed (m_str ("/"%byte :: key)). Proof. exact (slashed_lit key _). Qed.
Lemma slashed_name key : slashed (m_name ("/"%byte :: key)). Proof. exact (slashed_lit key _). Qed.
Lemma slashed_arr key : slashed (m_arr ("/"%byte :: key)). Proof. exact (slashed_lit key _). Qed.
Lemma slashed_key key : slashed (m_key ("/"%byte :: key)). Proof. exact (slashed_lit key _). Qed.

(* ---------------- simple text ---------------- *)

Lemma simple_no_slash s : simple s -> no_slash s = true.
Proof.
  unfold simple, no_slash. induction s as [|b s IH]; [reflexivity|]. cbn [forallb]. rewrite !andb_true_iff.
  intros [H1 H2]. split; [|apply IH; exact H2]. revert H1. clear. destruct b; vm_compute; congruence.
Qed.
Lemma simple_not c s : existsb (beqb c) ["/"; "("; ")"; "\"; "["; "]"]%byte = true -> simple s ->
  forallb (fun b => negb (beqb b c)) s = true.
Proof.
  unfold simple. intros Hc. induction s as [|b s IH]; [reflexivity|]. cbn [forallb]. rewrite !andb_true_iff.
  intros [H1 H2]. split; [|apply IH; exact H2].
  destruct (beqb b c) eqn:E; [|reflexivity]. exfalso.
  assert (b = c) as -> by (apply beqb_eq; exact E).
  unfold simple_byte in H1. rewrite Hc in H1. rewrite andb_false_r in H1. discriminate.
Qed.
Lemma simple_escape s : simple s -> escapeFieldValue s = s.
Proof.
  intros H. unfold escapeFieldValue.
  assert (A : forallb is_ascii s = true).
  { revert H. unfold simple. induction s as [|b s IH]; [reflexivity|]. cbn [forallb]. rewrite !andb_true_iff.
    intros [H1 H2]. split; [|apply IH; exact H2]. revert H1. clear. destruct b; vm_compute; congruence. }
  rewrite runes_ascii by exact A. clear A. revert H. unfold simple.
  induction s as [|b s IH]; [reflexivity|]. cbn [forallb map flat_map]. rewrite andb_true_iff.
  intros [H1 H2]. rewrite IH by exact H2.
  assert (E : esc_rune8 (b2n b) = [b]) by (revert H1; clear; destruct b; vm_compute; congruence).
  rewrite E. reflexivity.
Qed.
Lemma until_app c s r : forallb (fun b => negb (beqb b c)) s = true -> until c (s ++ c :: r) = s.
Proof.
  intros H. unfold until. apply take_while_app; [exact H|]. unfold beqb. rewrite N.eqb_refl. reflexivity.
Qed.

Lemma str_here key s r : simple s -> m_str (bs key) (bs key ++ bs " (" ++ s ++ bs ")" ++ r) = Some s.
Proof.
  intros H. unfold m_str. rewrite lit_app. cbn [obind].
  change (ws0 (bs " (" ++ s ++ bs ")" ++ r)) with (bs "(" ++ s ++ bs ")" ++ r). rewrite lit_app. cbn [obind].
  change (bs ")" ++ r) with (")"%byte :: r).
  rewrite until_app by (apply simple_not; [reflexivity|exact H]).
  rewrite skipn_app_exact. reflexivity.
Qed.
Lemma arr_here key s r : forallb (fun b => negb (beqb b "]")) s = true ->
  m_arr (bs key) (bs key ++ bs " [" ++ s ++ bs "]" ++ r) = Some s.
Proof.
  intros H. unfold m_arr. rewrite lit_app. cbn [obind].
  change (ws0 (bs " [" ++ s ++ bs "]" ++ r)) with (bs "[" ++ s ++ bs "]" ++ r). rewrite lit_app. cbn [obind].
  change (bs "]" ++ r) with ("]"%byte :: r).
  rewrite until_app by exact H. rewrite skipn_app_exact. reflexivity.
Qed.
Lemma key_here key n r : 0 <= n -> match r with [] => True | b :: _ => is_digit b = false end ->
  m_key (bs key) (bs key ++ bs " " ++ decZ n ++ r) = Some (decZ n).
Proof.
  intros H Hr. unfold m_key. rewrite lit_app. cbn [obind].
  change (bs " " ++ decZ n ++ r) with (" "%byte :: decZ n ++ r). rewrite ws1_space.
  - cbn [obind]. rewrite digits1_app; [reflexivity|apply decZ_nonnil; exact H|apply decZ_digits; exact H|exact Hr].
  - apply digits_head; [apply decZ_nonnil; exact H|apply decZ_digits; exact H|exact digit_not_ws].
Qed.

(* ---------------- the pieces ---------------- *)

Lemma no_slash_app a b : no_slash (a ++ b) = no_slash a && no_slash b.
Proof. apply forallb_app. Qed.
Lemma no_slash_digits d : forallb is_digit d = true -> no_slash d = true.
Proof.
  unfold no_slash. induction d as [|b d IH]; [reflexivity|]. cbn [forallb]. rewrite !andb_true_iff.
  intros [H1 H2]. split; [|apply IH; exact H2]. revert H1. clear. destruct b; vm_compute; congruence.
Qed.
Lemma no_slash_numeral s : numeral s -> no_slash s = true.
Proof.
  intros [_ H]. revert H. unfold no_slash. induction s as [|b s IH]; [reflexivity|]. cbn [forallb]. rewrite !andb_true_iff.
  intros [H1 H2]. split; [|apply IH; exact H2]. revert H1. clear. destruct b; vm_compute; congruence.
Qed.
Lemma numeral_no_space s : numeral s -> forall b, In b s -> is_space b = false.
Proof.
  intros [_ H] b I. rewrite forallb_forall in H. specialize (H b I). revert H. clear. destruct b; vm_compute; congruence.
Qed.
Lemma numeral_no_bracket s : numeral s -> forallb (fun b => negb (beqb b "]")) s = true.
Proof.
  intros [_ H]. rewrite forallb_forall in *. intros b I. specialize (H b I). revert H. clear. destruct b; vm_compute; congruence.
Qed.
Lemma forallb_join (f : byte -> bool) sep l : forallb f sep = true -> Forall (fun s => forallb f s = true) l ->
  forallb f (join sep l) = true.
Proof.
  intros Hs. induction l as [|a l IH]; intros H; [reflexivity|]. inversion H as [|x y H1 H2]; subst.
  destruct l as [|b l]; [exact H1|].
  change (join sep (a :: b :: l)) with (a ++ sep ++ join sep (b :: l)).
  rewrite !forallb_app, H1, Hs, IH by exact H2. reflexivity.
Qed.
Lemma fields_join l : Forall numeral l -> fields is_space (join (bs " ") l) = l.
Proof.
  induction l as [|a l IH]; intros H; [reflexivity|]. inversion H as [|x y H1 H2]; subst.
  destruct l as [|b l].
  - apply fields_last; [exact (proj1 H1)|apply numeral_no_space; exact H1].
  - change (join (bs " ") (a :: b :: l)) with (a ++ " "%byte :: join (bs " ") (b :: l)).
    rewrite fields_word, IH; [reflexivity|exact H2|exact (proj1 H1)|apply numeral_no_space; exact H1|reflexivity].
Qed.

(** Options *)
Definition paren (o : bytes) : bytes := bs "(" ++ o ++ bs ")".
Lemma find_each_skip {A} (m : bytes -> option (A * bytes)) s k : find_each m s k = find_each m (skipn k s) 0.
Proof.
  revert k. induction s as [|b s IH]; intros [|k]; try reflexivity. cbn [find_each skipn]. apply IH.
Qed.
Lemma paren_here o r : simple o -> m_paren (paren o ++ r) = Some (o, r).
Proof.
  intros H. unfold m_paren, paren. rewrite <- !app_assoc, lit_app. cbn [obind].
  change (bs ")" ++ r) with (")"%byte :: r).
  rewrite until_app by (apply simple_not; [reflexivity|exact H]). rewrite skipn_app_exact.
  change (")"%byte :: r) with (bs ")" ++ r). rewrite lit_app. reflexivity.
Qed.
Lemma find_each_paren o r : simple o -> find_each m_paren (paren o ++ r) 0 = o :: find_each m_paren r 0.
Proof.
  intros H. assert (E : paren o ++ r = "("%byte :: (o ++ bs ")" ++ r)) by (unfold paren; rewrite <- !app_assoc; reflexivity).
  rewrite E. cbn [find_each]. rewrite <- E, paren_here by exact H. f_equal.
  rewrite find_each_skip. rewrite E. cbn [length]. f_equal.
  rewrite app_assoc. rewrite (app_length (o ++ bs ")") r).
  replace (S (length (o ++ bs ")") + length r) - length r - 1)%nat with (length (o ++ bs ")")) by lia.
  apply skipn_app_exact.
Qed.
Lemma options_read os : Forall simple os -> parseOptions (join (bs " ") (map paren os)) = os.
Proof.
  unfold parseOptions. induction os as [|o os IH]; intros H; [reflexivity|]. inversion H as [|x y H1 H2]; subst.
  destruct os as [|o' os].
  - cbn [map join]. rewrite <- (app_nil_r (paren o)), find_each_paren by exact H1. reflexivity.
  - change (join (bs " ") (map paren (o :: o' :: os))) with (paren o ++ " "%byte :: join (bs " ") (map paren (o' :: os))).
    rewrite find_each_paren by exact H1. f_equal. cbn [find_each]. exact (IH H2).
Qed.

(** The pieces of the dictionary *)
Definition texts (os : list bytes) : bytes := join (bs " ") (map paren os).
Definition piece (b : bool) (k c : bytes) : bytes := optional b (bs " /" ++ k ++ c).
Lemma piece_none {A} (m : bytes -> option A) b k c r : slashed m -> no_slash (k ++ c) = true ->
  m ("/"%byte :: (k ++ c) ++ r) = None -> search m (piece b k c ++ r) = search m r.
Proof.
  intros Hm Hk H. destruct b; [|reflexivity]. unfold piece, optional. rewrite <- app_assoc.
  apply piece_skip; assumption.
Qed.
Lemma piece_false {A} (m : bytes -> option A) k c r : search m (piece false k c ++ r) = search m r.
Proof. reflexivity. Qed.
Lemma piece_some {A} (m : bytes -> option A) k c r x : slashed m ->
  m ("/"%byte :: (k ++ c) ++ r) = Some x -> search m (piece true k c ++ r) = Some x.
Proof. intros Hm H. unfold piece, optional. rewrite <- app_assoc. apply piece_hit; assumption. Qed.

Definition simple_dict (ty name : bytes) (rect : list bytes) (ff : Z) (v dv : bytes) (ml : Z) (os : list bytes)
  (hT hR hF hV hD hM hO : bool) (rest : bytes) : bytes :=
  bs "<< /FT /" ++ ty ++
  piece hT (bs "T (") (name ++ bs ")") ++
  piece hR (bs "Rect [") (join (bs " ") rect ++ bs "]") ++
  piece hF (bs "Ff ") (decZ ff) ++
  piece hV (bs "V (") (v ++ bs ")") ++
  piece hD (bs "DV (") (dv ++ bs ")") ++
  piece hM (bs "MaxLen ") (decZ ml) ++
  piece hO (bs "Opt [") (texts os ++ bs "]") ++
  bs " >>" ++ rest.

Section Getters.
  Variables (h ty name : bytes) (rect : list bytes) (ff : Z) (v dv : bytes) (ml : Z) (os : list bytes)
    (hT hR hF hV hD hM hO : bool) (rest : bytes).
  Hypothesis Hh : no_slash h = true.
  Hypothesis Hty : In ty [bs "Tx"; bs "Btn"; bs "Ch"; bs "Sig"].
  Hypothesis Hname : simple name.
  Hypothesis Hrect : Forall numeral rect.
  Hypothesis Hff : 0 <= ff < 2 ^ 63.
  Hypothesis Hv : simple v.
  Hypothesis Hdv : simple dv.
  Hypothesis Hml : 0 <= ml < 2 ^ 63.
  Hypothesis Hos : Forall simple os.
  Hypothesis Hrest : no_slash rest = true.
  Notation text := (h ++ simple_dict ty name rect ff v dv ml os hT hR hF hV hD hM hO rest).

  Lemma types_case (P : bytes -> Prop) : P (bs "Tx") -> P (bs "Btn") -> P (bs "Ch") -> P (bs "Sig") -> P ty.
  Proof. intros. destruct Hty as [<-|[<-|[<-|[<-|[]]]]]; assumption. Qed.
  Lemma join_rect : no_slash (join (bs " ") rect) = true.
  Proof. apply forallb_join; [reflexivity|]. eapply Forall_impl; [|exact Hrect]. exact no_slash_numeral. Qed.
  Lemma join_opts : no_slash (texts os) = true.
  Proof.
    apply forallb_join; [reflexivity|]. rewrite Forall_map. eapply Forall_impl; [|exact Hos].
    intros o H. change (no_slash (paren o) = true). unfold paren. rewrite !no_slash_app, (simple_no_slash o H). reflexivity.
  Qed.
  Lemma join_opts2 : forallb (fun b => negb (beqb b "]")) (texts os) = true.
  Proof.
    apply forallb_join; [reflexivity|]. rewrite Forall_map. eapply Forall_impl; [|exact Hos].
    intros o H. cbn beta. unfold paren. rewrite !forallb_app, (simple_not "]" o) by (reflexivity || exact H). reflexivity.
  Qed.
  Lemma join_rect2 : forallb (fun b => negb (beqb b "]")) (join (bs " ") rect) = true.
  Proof. apply forallb_join; [reflexivity|]. eapply Forall_impl; [|exact Hrect]. exact numeral_no_bracket. Qed.

  Ltac ns := rewrite ?no_slash_app;
    rewrite ?Hh, ?join_rect, ?join_opts, ?Hrest;
    repeat match goal with
    | H : simple ?t |- context [no_slash ?t] => rewrite (simple_no_slash t H)
    | |- context [no_slash (decZ ?z)] => rewrite (no_slash_digits (decZ z)) by (apply decZ_digits; lia)
    end; reflexivity.
  Ltac sl := first [apply slashed_str | apply slashed_name | apply slashed_arr | apply slashed_key].
  Ltac pskip := first [rewrite piece_false | rewrite piece_none; [|sl|ns|reflexivity]].
  Ltac fin := apply search_none; [sl|ns].

  (** up to the first optional piece *)
  Lemma type_skip {A} (m : bytes -> option A) r : slashed m ->
    (forall r, m (bs "/FT " ++ r) = None) ->
    (forall r, m (bs "/Tx" ++ r) = None) -> (forall r, m (bs "/Btn" ++ r) = None) ->
    (forall r, m (bs "/Ch" ++ r) = None) -> (forall r, m (bs "/Sig" ++ r) = None) ->
    search m (h ++ bs "<< /FT /" ++ ty ++ r) = search m r.
  Proof.
    intros Hm H0 H1 H2 H3 H4. rewrite search_skip by assumption.
    change (bs "<< /FT /" ++ ty ++ r) with (bs "<< " ++ bs "/FT " ++ bs "/" ++ ty ++ r).
    rewrite search_skip by (assumption || reflexivity).
    change (bs "/FT " ++ bs "/" ++ ty ++ r) with ("/"%byte :: bs "FT " ++ bs "/" ++ ty ++ r).
    rewrite search_step by apply H0. rewrite search_skip by (assumption || reflexivity).
    change (bs "/" ++ ty ++ r) with ("/"%byte :: ty ++ r).
    rewrite search_step.
    - apply search_skip; [exact Hm|]. apply (types_case (fun t => no_slash t = true)); reflexivity.
    - apply (types_case (fun t => m ("/"%byte :: t ++ r) = None)); [apply H1|apply H2|apply H3|apply H4].
  Qed.
  Ltac tskip := unfold simple_dict; rewrite type_skip; [|sl|intros; reflexivity..].

  Lemma read_FT : get_FT text = ty.
  Proof.
    unfold get_FT, simple_dict. rewrite search_skip by (sl || exact Hh).
    match goal with |- context [search _ (bs "<< /FT /" ++ ty ++ ?r)] => remember r as tl eqn:E;
      assert (Htl : match tl with b :: _ => is_word b = false | [] => True end)
        by (subst tl; unfold piece, optional; destruct hT, hR, hF, hV, hD, hM, hO; reflexivity) end.
    clear E. change (bs "<< /FT /" ++ ty ++ tl) with (bs "<< " ++ bs "/FT /" ++ ty ++ tl).
    rewrite search_skip by (sl || reflexivity).
    rewrite (search_hit _ _ ty); [reflexivity|].
    apply (types_case (fun t => m_name (bs "/FT") (bs "/FT /" ++ t ++ tl) = Some t)).
    all: unfold m_name; change (bs "/FT /") with (bs "/FT" ++ bs " /"); rewrite <- app_assoc, lit_app; cbn [obind].
    all: match goal with |- context [ws0 (bs " /" ++ ?x)] => change (ws0 (bs " /" ++ x)) with (bs "/" ++ x) end; rewrite lit_app; cbn [obind].
    all: match goal with |- context [take_while is_word (app ?x _)] =>
      rewrite (take_while_app is_word x tl); [reflexivity|reflexivity|exact Htl] end.
  Qed.

  Lemma read_T : get_T text = if hT then name else [].
  Proof.
    unfold get_T. destruct hT.
    - tskip. rewrite (piece_some _ _ _ _ name); [reflexivity|sl|].
      rewrite <- !app_assoc. exact (str_here "/T" name _ Hname).
    - tskip. do 7 pskip. rewrite search_none by (sl || ns).
      tskip. do 7 pskip. rewrite search_none by (sl || ns). reflexivity.
  Qed.
  Lemma read_TU : get_TU text = [].
  Proof. unfold get_TU. tskip. do 7 pskip. rewrite search_none by (sl || ns). reflexivity. Qed.
  Lemma read_Ff : get_Ff text = if hF then ff else 0.
  Proof.
    unfold get_Ff. tskip. do 2 pskip. destruct hF.
    - rewrite (piece_some _ _ _ _ (decZ ff)); [cbn [atoi0]; apply atoi_clip_decZ; exact Hff|sl|].
      rewrite <- !app_assoc. apply (key_here "/Ff" ff); [lia|].
      unfold piece, optional; destruct hV, hD, hM, hO; reflexivity.
    - do 5 pskip. rewrite search_none by (sl || ns). reflexivity.
  Qed.
  Lemma read_V : get_V text = if hV then FStr v else FNil.
  Proof.
    unfold get_V. destruct hV.
    - tskip. do 3 pskip. rewrite (piece_some _ _ _ _ v); [reflexivity|sl|].
      rewrite <- !app_assoc. exact (str_here "/V" v _ Hv).
    - tskip. do 7 pskip. rewrite search_none by (sl || ns).
      tskip. do 7 pskip. rewrite search_none by (sl || ns).
      tskip. do 7 pskip. rewrite search_none by (sl || ns). reflexivity.
  Qed.
  Lemma read_DV : get_DV text = if hD then FStr dv else FNil.
  Proof.
    unfold get_DV. tskip. do 4 pskip. destruct hD.
    - rewrite (piece_some _ _ _ _ dv); [reflexivity|sl|].
      rewrite <- !app_assoc. exact (str_here "/DV" dv _ Hdv).
    - do 3 pskip. rewrite search_none by (sl || ns). reflexivity.
  Qed.
  Lemma read_MaxLen : get_MaxLen text = if hM then ml else 0.
  Proof.
    unfold get_MaxLen. tskip. do 5 pskip. destruct hM.
    - rewrite (piece_some _ _ _ _ (decZ ml)); [cbn [atoi0]; apply atoi_clip_decZ; exact Hml|sl|].
      rewrite <- !app_assoc. apply (key_here "/MaxLen" ml); [lia|].
      unfold piece, optional; destruct hO; reflexivity.
    - do 2 pskip. rewrite search_none by (sl || ns). reflexivity.
  Qed.
  Lemma read_Opt : get_Opt text = if hO then os else [].
  Proof.
    unfold get_Opt. tskip. do 6 pskip. destruct hO.
    - rewrite (piece_some _ _ _ _ (texts os)); [apply options_read; exact Hos|sl|].
      rewrite <- !app_assoc. exact (arr_here "/Opt" (texts os) _ join_opts2).
    - pskip. rewrite search_none by (sl || ns). reflexivity.
  Qed.
  Lemma read_Rect : get_Rect text = if hR then rect else [].
  Proof.
    unfold get_Rect. tskip. pskip. destruct hR.
    - rewrite (piece_some _ _ _ _ (join (bs " ") rect)); [apply fields_join; exact Hrect|sl|].
      rewrite <- !app_assoc. exact (arr_here "/Rect" (join (bs " ") rect) _ join_rect2).
    - do 6 pskip. rewrite search_none by (sl || ns). reflexivity.
  Qed.
  Lemma read_Kids : get_Kids text = [].
  Proof. unfold get_Kids. tskip. do 7 pskip. rewrite search_none by (sl || ns). reflexivity. Qed.
  Lemma lit_absent k : In k [bs "AcroForm"] -> search (lit ("/"%byte :: k)) text = None.
  Proof.
    intros [<-|[]].
    assert (L : slashed (lit ("/"%byte :: bs "AcroForm"))).
    { intros s Hb. apply lit_none. destruct s as [|b s]; [reflexivity|]. revert Hb. clear. destruct b; vm_compute; congruence. }
    unfold simple_dict. rewrite type_skip; [|exact L|intros; reflexivity..].
    do 7 (rewrite piece_none; [|exact L|ns|reflexivity]). apply search_none; [exact L|ns].
  Qed.
End Getters.
