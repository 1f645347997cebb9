(** Content streams tokenize to the calls made. *)
From Verif Require Import TextModel TextSpec TextProofs Scan.
Local Open Scope Z_scope.

Definition toks (s : bytes) (ts : list token) : Prop := forall k, (length s < k)%nat -> tokens k s = Some ts.

(** [s] starts with a byte that ends a number, name or operator. *)
Definition breaks (s : bytes) : bool := match s with [] => true | b :: _ => negb (is_regular b) end.

Lemma toks_nil : toks [] [].
Proof. intros [|k] H; [cbn in H; lia|reflexivity]. Qed.

Lemma toks_ws c s ts : is_pdf_ws c = true -> toks s ts -> toks (c :: s) ts.
Proof. intros Hc H [|k] Hk; [lia|]. cbn [tokens]. rewrite Hc. apply H. cbn [length] in Hk. lia. Qed.

Lemma take_while_break f a b : forallb f a = true -> match b with [] => True | c :: _ => f c = false end ->
  take_while f (a ++ b) = a.
Proof.
  intros Ha Hb. induction a as [|x a IH]; cbn [app take_while].
  - destruct b as [|c b]; [reflexivity|]. cbn [take_while]. rewrite Hb. reflexivity.
  - cbn [forallb] in Ha. apply andb_true_iff in Ha. destruct Ha as [H1 H2]. rewrite H1. f_equal. apply IH, H2.
Qed.
Lemma breaks_ok s : breaks s = true -> match s with [] => True | c :: _ => is_regular c = false end.
Proof. destruct s; [trivial|]. cbn. apply negb_true_iff. Qed.

Lemma skipn_length_app {A} (a b : list A) : skipn (length a) (a ++ b) = b.
Proof. rewrite skipn_app, skipn_all, Nat.sub_diag. reflexivity. Qed.

Lemma toks_word c t s ts : forallb is_regular (c :: t) = true -> breaks s = true -> toks s ts ->
  toks ((c :: t) ++ s) ((if num_start c then KNum (c :: t) else KOp (c :: t)) :: ts).
Proof.
  intros R B H [|k] Hk; [lia|].
  assert (Rc : is_regular c = true) by (cbn [forallb] in R; apply andb_true_iff in R; apply R).
  assert (Hd : is_delim c = false /\ is_pdf_ws c = false).
  { unfold is_regular in Rc. apply andb_true_iff in Rc. rewrite !negb_true_iff in Rc. exact Rc. }
  destruct Hd as [Hd Hw].
  assert (Hn : forall x, is_delim x = true -> beqb c x = false).
  { intros x Hx. apply beqb_neq. intros ->. congruence. }
  change ((c :: t) ++ s) with (c :: (t ++ s)). cbn [tokens].
  rewrite Hw, (Hn "("%byte), (Hn "<"%byte), (Hn "["%byte), (Hn "]"%byte), (Hn "/"%byte), Hd by reflexivity. cbv zeta.
  change (c :: t ++ s) with ((c :: t) ++ s). rewrite take_while_break by (try exact R; apply breaks_ok, B).
  rewrite skipn_length_app, H by (rewrite app_length in Hk; cbn [length] in Hk; lia). reflexivity.
Qed.

Lemma toks_name n s ts : name_text n = true -> breaks s = true -> toks s ts -> toks (n ++ s) (KName n :: ts).
Proof.
  destruct n as [|c n]; [discriminate|]. cbn [name_text]. rewrite andb_true_iff. intros [Hc R] B H [|k] Hk; [lia|].
  apply beqb_eq in Hc. subst c. cbn [app tokens]. change (is_pdf_ws "/") with false.
  change (beqb "/" "(") with false. change (beqb "/" "<") with false. change (beqb "/" "[") with false.
  change (beqb "/" "]") with false. change (beqb "/" "/") with true. cbv zeta iota.
  rewrite take_while_break by (try exact R; apply breaks_ok, B).
  rewrite skipn_length_app, H by (rewrite app_length in Hk; cbn [length] in Hk; lia). reflexivity.
Qed.

Lemma number_regular t : number_text t = true -> exists c u, t = c :: u /\ num_start c = true /\ forallb is_regular t = true.
Proof.
  destruct t as [|c u]; [discriminate|]. cbn [number_text]. rewrite andb_true_iff. intros [H1 H2].
  exists c, u. split; [reflexivity|]. split.
  - unfold num_start. apply orb_true_iff in H1. destruct H1 as [H1|H1]; rewrite H1; rewrite ?orb_true_r; reflexivity.
  - apply forallb_forall. intros b Hb. rewrite forallb_forall in H2. specialize (H2 b Hb). clear - H2.
    destruct b; try discriminate; reflexivity.
Qed.

Lemma toks_num t s ts : number_text t = true -> breaks s = true -> toks s ts -> toks (t ++ s) (KNum t :: ts).
Proof.
  intros N B H. destruct (number_regular t N) as (c & u & -> & Hs & R).
  pose proof (toks_word c u s ts R B H) as K. rewrite Hs in K. exact K.
Qed.

Lemma decZ_number z : number_text (decZ z) = true.
Proof.
  unfold decZ. assert (D : forall n, number_text (dec n) = true).
  { intros n. pose proof (dec_digits n) as D. pose proof (dec_nonnil n) as E. destruct (dec n) as [|c u]; [congruence|].
    cbn [number_text]. cbn [forallb] in D. apply andb_true_iff in D. destruct D as [D1 D2]. rewrite D1.
    cbn [orb andb forallb]. rewrite D1. cbn [orb andb]. apply forallb_forall. intros b Hb. rewrite forallb_forall in D2.
    rewrite (D2 b Hb). reflexivity. }
  destruct z as [|p|p]; [apply D|apply D|]. specialize (D (N.pos p)). destruct (dec (N.pos p)) as [|c u]; [discriminate|].
  cbn [number_text] in D. apply andb_true_iff in D. destruct D as [_ D].
  change (number_text ("-"%byte :: c :: u) = true). cbn [number_text].
  apply andb_true_iff. split; [reflexivity|]. cbn [forallb]. cbn [forallb] in D. rewrite D. reflexivity.
Qed.

Lemma toks_string t s ts : valid_utf8 t -> toks s ts ->
  toks (bs "(" ++ escapePDFString t ++ bs ")" ++ s) (KString t :: ts).
Proof.
  intros V H [|k] Hk; [lia|]. change (bs "(" ++ ?x) with ("("%byte :: x). cbn [tokens].
  change (is_pdf_ws "(") with false. change (beqb "(" "(") with true. cbv iota.
  rewrite literal_escape, literal_close, outs_some, app_nil_r by exact V.
  rewrite H; [reflexivity|]. rewrite !app_length in Hk. change (length (bs ")")) with 1%nat in Hk. change (length (bs ">")) with 1%nat in Hk. lia.
Qed.

Lemma toks_hex h s ts : forallb (fun b => negb (beqb b ">")) h = true -> toks s ts ->
  toks (bs "<" ++ h ++ bs ">" ++ s) (KHex h :: ts).
Proof.
  intros V H [|k] Hk; [lia|]. change (bs "<" ++ ?x) with ("<"%byte :: x). cbn [tokens].
  change (is_pdf_ws "<") with false. change (beqb "<" "(") with false. change (beqb "<" "<") with true. cbv iota zeta.
  rewrite take_while_break by (try exact V; reflexivity). rewrite skipn_length_app. 
  change (bs ">" ++ s) with (">"%byte :: s). cbv iota. rewrite H; [reflexivity|]. rewrite !app_length in Hk. change (length (bs ")")) with 1%nat in Hk. change (length (bs ">")) with 1%nat in Hk. lia.
Qed.

Lemma toks_open s ts : toks s ts -> toks (bs "[" ++ s) (KOpen :: ts).
Proof.
  intros H [|k] Hk; [lia|]. change (option_map (cons KOpen) (tokens k s) = Some (KOpen :: ts)).
  rewrite H; [reflexivity|]. rewrite app_length in Hk. change (length (bs "[")) with 1%nat in Hk. lia.
Qed.
Lemma toks_close s ts : toks s ts -> toks (bs "]" ++ s) (KClose :: ts).
Proof.
  intros H [|k] Hk; [lia|]. change (option_map (cons KClose) (tokens k s) = Some (KClose :: ts)).
  rewrite H; [reflexivity|]. rewrite app_length in Hk. change (length (bs "]")) with 1%nat in Hk. lia.
Qed.

Section calls.
  Context {F : Type} (fmt : F -> bytes) (one zero : F).
  Hypothesis fmt_ok : forall x, number_text (fmt x) = true.

  Lemma toks_op o s ts : (match o with c :: t => forallb is_regular (c :: t) && negb (num_start c) | [] => false end) = true ->
    toks s ts -> toks (o ++ nl ++ s) (KOp o :: ts).
  Proof.
    destruct o as [|c t]; [discriminate|]. rewrite andb_true_iff, negb_true_iff. intros [R N] H.
    pose proof (toks_word c t (nl ++ s) ts R eq_refl) as K. rewrite N in K. apply K.
    apply toks_ws; [reflexivity|exact H].
  Qed.

  Lemma toks_nums l s ts : toks s ts -> toks (nums fmt l ++ s) (map (fun x => KNum (fmt x)) l ++ ts).
  Proof.
    intros H. induction l as [|x l IH]; [exact H|]. cbn [nums flat_map map app]. rewrite <- !app_assoc.
    apply toks_num; [apply fmt_ok|reflexivity|]. apply toks_ws; [reflexivity|exact IH].
  Qed.

  Lemma toks_line l o s ts : (match bs o with c :: t => forallb is_regular (c :: t) && negb (num_start c) | [] => false end) = true ->
    toks s ts -> toks (line fmt l (bs o) ++ s) (op fmt l o ++ ts).
  Proof.
    intros O H. unfold line, op. rewrite <- !app_assoc. apply toks_nums. apply (toks_op (bs o)); assumption.
  Qed.

  Lemma toks_join {A} (f : A -> bytes) (g : A -> token) l s ts :
    (forall x s ts, In x l -> breaks s = true -> toks s ts -> toks (f x ++ s) (g x :: ts)) ->
    breaks s = true -> toks s ts -> toks (join (bs " ") (map f l) ++ s) (map g l ++ ts).
  Proof.
    intros Hf B H. induction l as [|x l IH]; [exact H|]. cbn [map]. destruct l as [|y l].
    - cbn [map join app]. apply Hf; [left; reflexivity|exact B|exact H].
    - change (join (bs " ") (f x :: map f (y :: l))) with (f x ++ bs " " ++ join (bs " ") (map f (y :: l))).
      rewrite <- !app_assoc. change ((g x :: map g (y :: l)) ++ ts) with (g x :: (map g (y :: l) ++ ts)).
      apply Hf; [left; reflexivity|reflexivity|]. apply toks_ws; [reflexivity|]. apply IH.
      intros; apply Hf; [right|..]; assumption.
  Qed.

  Lemma toks_call c s ts : sensible c -> toks s ts -> toks (call_text fmt one zero c ++ s) (call_tokens fmt one zero c ++ ts).
  Proof.
    intros S H. destruct c; cbn [call_text call_tokens sensible] in *;
      try (apply toks_line; [reflexivity|exact H]).
    - rewrite <- !app_assoc. cbn [app]. apply toks_name; [exact S|reflexivity|]. apply toks_ws; [reflexivity|]. apply toks_line; [reflexivity|exact H].
    - rewrite <- !app_assoc. apply (toks_string s0 (bs " Tj" ++ nl ++ s)); [exact S|]. apply toks_ws; [reflexivity|]. apply (toks_op (bs "Tj")); [reflexivity|exact H].
    - rewrite <- !app_assoc. apply (toks_string s0 (bs " '" ++ nl ++ s)); [exact S|]. apply toks_ws; [reflexivity|]. apply (toks_op (bs "'")); [reflexivity|exact H].
    - rewrite <- !app_assoc. cbn [app]. apply toks_open. rewrite <- app_assoc. cbn [app]. apply toks_join.
      + intros x s' ts' Hx B' H'. rewrite Forall_forall in S. specialize (S x Hx). destruct x; cbn [tj_text elem_token].
        * rewrite <- !app_assoc. apply toks_string; assumption.
        * apply toks_num; [apply decZ_number|assumption|assumption].
        * apply toks_num; [apply fmt_ok|assumption|assumption].
      + reflexivity.
      + apply (toks_close (bs " TJ" ++ nl ++ s)). apply toks_ws; [reflexivity|]. apply (toks_op (bs "TJ")); [reflexivity|exact H].
    - rewrite <- !app_assoc. apply (toks_hex s0 (bs " Tj" ++ nl ++ s)); [exact S|]. apply toks_ws; [reflexivity|]. apply (toks_op (bs "Tj")); [reflexivity|exact H].
    - rewrite <- !app_assoc. cbn [app]. apply toks_num; [apply decZ_number|reflexivity|]. apply toks_ws; [reflexivity|].
      apply (toks_op (bs "Tr")); [reflexivity|exact H].
    - rewrite <- !app_assoc. cbn [app]. apply toks_name; [exact S|reflexivity|]. apply toks_ws; [reflexivity|]. apply (toks_op (bs "Do")); [reflexivity|exact H].
    - rewrite <- !app_assoc. apply toks_line; [reflexivity|]. apply toks_line; [reflexivity|].
      cbn [app]. apply toks_name; [exact S|reflexivity|]. apply toks_ws; [reflexivity|].
      apply (toks_op (bs "Do")); [reflexivity|]. apply (toks_line [] "Q"); [reflexivity|exact H].
    - rewrite <- !app_assoc. cbn [app]. apply toks_open. rewrite <- app_assoc. cbn [app]. apply toks_join.
      + intros x s' ts' _ B' H'. apply toks_num; [apply fmt_ok|assumption|assumption].
      + reflexivity.
      + apply (toks_close (bs " " ++ line fmt [phase] (bs "d") ++ s)). apply toks_ws; [reflexivity|]. apply toks_line; [reflexivity|exact H].
    - subst. exact H.
  Qed.

  Lemma toks_calls cs : Forall sensible cs -> toks (content_stream fmt one zero cs) (flat_map (call_tokens fmt one zero) cs).
  Proof.
    induction 1 as [|c cs Hc _ IH]; [exact toks_nil|]. cbn [content_stream flat_map]. apply toks_call; assumption.
  Qed.

  Lemma content_tokenizes cs : Forall sensible cs ->
    tokenize (content_stream fmt one zero cs) = Some (flat_map (call_tokens fmt one zero) cs).
  Proof. intros H. apply (toks_calls cs H). apply Nat.lt_succ_diag_r. Qed.
End calls.

Lemma token_depth_app d a b : token_depth d (a ++ b) = match token_depth d a with Some d' => token_depth d' b | None => None end.
Proof.
  revert d. induction a as [|t a IH]; intros d; [reflexivity|]. cbn [app token_depth].
  destruct t; try apply IH. destruct (bytes_eqb t (bs "q")); [apply IH|]. destruct (bytes_eqb t (bs "Q")); [|apply IH].
  destruct d; [reflexivity|apply IH].
Qed.
Lemma token_depth_nums {A} d (f : A -> bytes) l ts : token_depth d (map (fun x => KNum (f x)) l ++ ts) = token_depth d ts.
Proof. induction l as [|x l IH]; [reflexivity|exact IH]. Qed.
Lemma token_depth_elems {F} (fmt : F -> bytes) d l ts : token_depth d (map (elem_token fmt) l ++ ts) = token_depth d ts.
Proof. induction l as [|x l IH]; [reflexivity|]. cbn [map app]. destruct x; exact IH. Qed.
Lemma nesting_tokens {F} (fmt : F -> bytes) one zero cs d :
  token_depth d (flat_map (call_tokens fmt one zero) cs) = call_depth d cs.
Proof.
  revert d. induction cs as [|c cs IH]; intros d; [reflexivity|]. cbn [flat_map]. rewrite token_depth_app.
  destruct c; cbn [call_depth call_tokens]; try (rewrite <- IH; reflexivity).
  - destruct d; [reflexivity|]. rewrite <- IH. reflexivity.
  - cbn [token_depth]. rewrite token_depth_elems. rewrite <- IH. reflexivity.
  - cbn [token_depth]. rewrite token_depth_nums. rewrite <- IH. reflexivity.
Qed.

Lemma suffixb_split s : suffixb nl s = true -> exists l, s = l ++ nl.
Proof.
  unfold suffixb. intro H. apply andb_prop in H. destruct H as [_ H]. apply bytes_eqb_eq in H.
  exists (firstn (length s - length nl) s). rewrite H at 2. now rewrite firstn_skipn.
Qed.
Section ends.
  Context {F : Type} (fmt : F -> bytes) (one zero : F).
  Lemma call_ends c : call_text fmt one zero c = [] \/ exists l, call_text fmt one zero c = l ++ nl.
  Proof.
    destruct c; cbn [call_text]; unfold line;
      try (right; repeat first [ rewrite app_assoc | eexists; reflexivity ]; fail).
    destruct s as [|b s]; [now left|]. right. destruct (suffixb nl (b :: s)) eqn:E.
    - rewrite app_nil_r. now apply suffixb_split.
    - now exists (b :: s).
  Qed.
  Lemma content_lines cs : let s := content_stream fmt one zero cs in s = [] \/ exists l, s = l ++ nl.
  Proof.
    cbv zeta. induction cs as [|c cs IH]; [now left|]. cbn [content_stream flat_map].
    fold (content_stream fmt one zero cs). destruct IH as [->|[l ->]].
    - rewrite app_nil_r. apply call_ends.
    - right. exists (call_text fmt one zero c ++ l). now rewrite app_assoc.
  Qed.
End ends.
