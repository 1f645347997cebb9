(** Proofs about content/extract/bookmarks.go and annotations.go. *)
From Verif Require Import Scan ReadProofs MarksModel MarksSpec ManipSpec ManipProofs ManipProofs2 ManipProofs3 PageModel PageSpec PageProofs
  XPagesProofs XPagesProofs2 ParseSpec.
From Coq Require Import Lia ZArith.
Local Open Scope Z_scope.

(* -------------------- values -------------------- *)

Lemma says_value t key v : ManipSpec.key_name key -> says t key v -> x_value t key = v.
Proof.
  intros Hk H. unfold says in H. destruct v as [|c v]; [apply x_absent, H|].
  destruct H as (a & w & b & -> & Ha & Hw & Hv & Hb). apply x_spaced; assumption.
Qed.
Lemma key_lit k : forallb ManipSpec.key_byte k = true -> ManipSpec.key_name ("/"%byte :: k).
Proof. apply key_of. Qed.

Lemma lit_pair_none (c1 c2 : byte) (v : bytes) : ~ In c1 v -> forall n, ReplaceAll v [c1; c2] n = v.
Proof.
  intros H n. unfold ReplaceAll. revert H. induction v as [|b v IH]; intros H; [reflexivity|].
  cbn [replace_lit]. assert (prefixb [c1; c2] (b :: v) = false) as ->.
  { cbn [prefixb]. rewrite (proj2 (beqb_neq c1 b)); [reflexivity|]. intros ->. apply H. left. reflexivity. }
  rewrite IH; [reflexivity|]. intros X. apply H. right. exact X.
Qed.
Lemma unescape_id v : unescaped v -> unescapePDFString v = v.
Proof. intros H. unfold unescapePDFString. repeat rewrite (lit_pair_none "\"%byte _ v H). reflexivity. Qed.
Lemma text_says t key v : ManipSpec.key_name key -> says t key v -> unescaped v -> text_value t key = v.
Proof. intros Hk H U. unfold text_value. rewrite (says_value t key v Hk H). apply unescape_id, U. Qed.

(* -------------------- bookmarks -------------------- *)
Section outline.
Context (get : Z -> result bytes).

Lemma number_text_some n : exists c r, decZ n = c :: r.
Proof. pose proof (ManipProofs2.decZ_nonnil n). destruct (decZ n) as [|c r]; [contradiction|]. eauto. Qed.

Lemma marks_read l : has_items get l -> forall stack, (total_items l <= stack)%nat ->
  match first_of l with None => l = [] | Some n => read_marks get stack (decZ n) = Ok (map marks_of l) end.
Proof.
  induction 1 as [|n title dest action uri kids rest t Hn Hg Ht Hut Hd Ha Hf Hx Hk IHk Hr IHr]; intros stack Hs; [reflexivity|].
  cbn [first_of item_num].
  cbn [total_items fold_right items_in] in Hs. fold (total_items kids) (total_items rest) in Hs.
  destruct stack as [|stack]; [lia|]. cbn [read_marks].
  rewrite (parse_num n Hn). cbn [rbind]. rewrite Hg. cbn [rbind].
  rewrite (says_value t (bs "/Dest") dest (key_lit (bs "Dest") eq_refl) Hd).
  rewrite (text_says t (bs "/Title") title (key_lit (bs "Title") eq_refl) Ht Hut).
  rewrite (says_value t (bs "/First") _ (key_lit (bs "First") eq_refl) Hf).
  rewrite (says_value t (bs "/Next") _ (key_lit (bs "Next") eq_refl) Hx).
  assert (EU : match dest with [] => action_uri get t | _ => Ok [] end = Ok (match dest with [] => uri | _ => [] end)).
  { destruct dest as [|c dest]; [|reflexivity]. destruct (Ha eq_refl) as (A1 & A2 & A3). unfold action_uri.
    rewrite (says_value t (bs "/A") _ (key_lit (bs "A") eq_refl) A1). destruct action as [a|]; cbn [number_text] in *.
    - destruct (number_text_some a) as (c & r & E). rewrite E. rewrite <- E. unfold XPagesModel.parse_ref. rewrite (parse_num a A2).
      destruct A3 as (x & G & U & Uu). unfold try_get. rewrite G. cbn [rmap].
      rewrite (text_says x (bs "/URI") uri (key_lit (bs "URI") eq_refl) U Uu). reflexivity.
    - rewrite A3. reflexivity. }
  rewrite EU. cbn [rbind].
  assert (EK : match number_text (first_of kids) with [] => Ok [] | f => or_empty (read_marks get stack f) end = Ok (map marks_of kids)).
  { specialize (IHk stack ltac:(lia)). destruct kids as [|k kids]; [reflexivity|]. cbn [first_of number_text] in *.
    destruct (number_text_some (item_num k)) as (c & r & E). rewrite E in *. rewrite IHk. reflexivity. }
  assert (ER : match number_text (first_of rest) with [] => Ok [] | f => or_empty (read_marks get stack f) end = Ok (map marks_of rest)).
  { specialize (IHr stack ltac:(lia)). destruct rest as [|k rest]; [reflexivity|]. cbn [first_of number_text] in *.
    destruct (number_text_some (item_num k)) as (c & r & E). rewrite E in *. rewrite IHr. reflexivity. }
  rewrite EK. cbn [rbind]. rewrite ER. reflexivity.
Qed.

(** The whole document: the catalog names the outline, the outline its first item. *)
Lemma bookmarks_read root cat out od w r l stack : 0 <= root < 2 ^ 63 -> gap w -> get root = Ok cat ->
  says cat (bs "/Outlines") (decZ out) -> 0 <= out < 2 ^ 63 -> get out = Ok od ->
  says od (bs "/First") (number_text (first_of l)) -> has_items get l -> (total_items l <= stack)%nat ->
  ExtractBookmarks get stack (decZ root ++ w ++ r) = Ok (map marks_of l).
Proof.
  intros Hr Hw Hc So Ho Hod Sf Hl Hs. unfold ExtractBookmarks, read_key.
  destruct (number_text_some root) as (c0 & r0 & E0). destruct (number_text_some out) as (c1 & r1 & E1).
  assert (P : XPagesModel.parse_ref (decZ root ++ w ++ r) = Some root) by (unfold XPagesModel.parse_ref; rewrite parse_ref by assumption; reflexivity).
  destruct (decZ root ++ w ++ r) as [|c t] eqn:E; [rewrite E0 in E; discriminate|]. rewrite P.
  unfold try_get at 1. rewrite Hc. cbn [rmap].
  rewrite (says_value cat (bs "/Outlines") _ (key_lit (bs "Outlines") eq_refl) So).
  rewrite E1. cbn [rbind]. rewrite <- E1. unfold XPagesModel.parse_ref. rewrite (parse_num out Ho).
  unfold try_get. rewrite Hod. cbn [rmap].
  rewrite (says_value od (bs "/First") _ (key_lit (bs "First") eq_refl) Sf).
  pose proof (marks_read l Hl stack Hs) as M.
  destruct l as [|i l]; [reflexivity|]. cbn [first_of number_text] in *.
  destruct (number_text_some (item_num i)) as (c2 & r2 & E2). rewrite E2 in *. cbn [rbind]. rewrite M. reflexivity.
Qed.

(** A cycle of siblings or of first children never ends. *)
Lemma marks_cycle n key : (key = bs "/Next" \/ key = bs "/First") -> 0 <= n < 2 ^ 63 ->
  (exists t, get n = Ok t /\ says t key (decZ n)) -> forall stack, read_marks get stack (decZ n) = Panic.
Proof.
  intros Hkey Hn (t & Hg & Hs). induction stack as [|stack IH]; [reflexivity|].
  cbn [read_marks]. rewrite (parse_num n Hn). cbn [rbind]. rewrite Hg. cbn [rbind].
  destruct (number_text_some n) as (c & r & E).
  assert (A : exists u, u <> Err /\ match x_value t (bs "/Dest") with [] => action_uri get t | _ => Ok [] end = u).
  { eexists. split; [|reflexivity]. destruct (x_value t (bs "/Dest")); [|discriminate]. unfold action_uri. destruct (x_value t (bs "/A")) as [|ca ra]; [discriminate|].
    destruct (XPagesModel.parse_ref (ca :: ra)) as [m|]; [|discriminate]. unfold try_get. destruct (get m); discriminate. }
  destruct A as (u & Hu & ->). destruct u as [u| |]; [|contradiction|reflexivity]. cbn [rbind].
  destruct Hkey as [->| ->].
  - rewrite (says_value t (bs "/Next") _ (key_lit (bs "Next") eq_refl) Hs). rewrite E in *. rewrite IH. cbn [or_empty rmap].
    destruct (match x_value t (bs "/First") with [] => Ok [] | f => or_empty (read_marks get stack f) end) as [x| |] eqn:F; [reflexivity| |reflexivity].
    exfalso. destruct (x_value t (bs "/First")); [discriminate F|]. unfold or_empty in F.
    match type of F with match ?x with _ => _ end = _ => destruct x; discriminate F end.
  - rewrite (says_value t (bs "/First") _ (key_lit (bs "First") eq_refl) Hs). rewrite E in *. rewrite IH. reflexivity.
Qed.
Lemma bookmarks_cycle root cat out od w r n key stack : 0 <= root < 2 ^ 63 -> gap w -> get root = Ok cat ->
  says cat (bs "/Outlines") (decZ out) -> 0 <= out < 2 ^ 63 -> get out = Ok od -> says od (bs "/First") (decZ n) ->
  (key = bs "/Next" \/ key = bs "/First") -> 0 <= n < 2 ^ 63 -> (exists t, get n = Ok t /\ says t key (decZ n)) ->
  ExtractBookmarks get stack (decZ root ++ w ++ r) = Panic.
Proof.
  intros Hr Hw Hc So Ho Hod Sf Hkey Hn Ht. unfold ExtractBookmarks, read_key.
  destruct (number_text_some root) as (c0 & r0 & E0). destruct (number_text_some out) as (c1 & r1 & E1).
  assert (P : XPagesModel.parse_ref (decZ root ++ w ++ r) = Some root) by (unfold XPagesModel.parse_ref; rewrite parse_ref by assumption; reflexivity).
  destruct (decZ root ++ w ++ r) as [|c t] eqn:E; [rewrite E0 in E; discriminate|]. rewrite P.
  unfold try_get at 1. rewrite Hc. cbn [rmap].
  rewrite (says_value cat (bs "/Outlines") _ (key_lit (bs "Outlines") eq_refl) So).
  rewrite E1. cbn [rbind]. rewrite <- E1. unfold XPagesModel.parse_ref. rewrite (parse_num out Ho).
  unfold try_get. rewrite Hod. cbn [rmap].
  rewrite (says_value od (bs "/First") _ (key_lit (bs "First") eq_refl) Sf).
  pose proof (marks_cycle n key Hkey Hn Ht stack) as M.
  destruct (number_text_some n) as (c2 & r2 & E2). rewrite E2 in *. cbn [rbind]. rewrite M. reflexivity.
Qed.
End outline.
