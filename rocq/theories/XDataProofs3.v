(** Text that is conveyed: what the indenting writer makes of printable tokens. *)
From Verif Require Import Util Utf8 XDataSpec.
From Verif Require Scan XPagesProofs3.
Local Open Scope Z_scope.

Lemma printable_ascii t : forallb printable t = true -> forallb is_ascii t = true.
Proof. induction t as [|b t IH]; [reflexivity|]. cbn [forallb]. intros H. apply andb_true_iff in H as (H1 & H2). rewrite (IH H2), andb_true_r. revert H1. unfold printable, is_ascii. intros H1. apply andb_true_iff in H1 as (_ & H1). apply N.ltb_lt in H1. apply N.ltb_lt. lia. Qed.
Lemma no_ef c t : forallb printable t = true -> contains (xef :: c) t = false.
Proof.
  intros H. destruct (contains (xef :: c) t) eqn:E; [|reflexivity].
  apply XPagesProofs3.contains_split in E as (u & v & ->). rewrite forallb_app in H. apply andb_true_iff in H as (_ & H). discriminate H.
Qed.
Lemma printable_text t : forallb printable t = true -> xml_text t.
Proof.
  intros H. pose proof (printable_ascii t H) as A. split; [|split; [|split; apply no_ef, H]].
  - exists (map b2n t). split; [|symmetry; apply utf8_ascii, A]. clear H. induction t as [|b t IH]; [reflexivity|].
    cbn [forallb map] in *. apply andb_true_iff in A as (A1 & A2). rewrite (IH A2), andb_true_r. unfold is_ascii in A1. apply N.ltb_lt in A1.
    unfold valid_rune. replace (b2n b <? 55296)%N with true; [reflexivity|]. symmetry. apply N.ltb_lt. lia.
  - clear A. induction t as [|b t IH]; [reflexivity|]. cbn [forallb] in *. apply andb_true_iff in H as (H1 & H2). rewrite (IH H2), andb_true_r.
    unfold printable in H1. apply andb_true_iff in H1 as (H1 & _). rewrite H1. reflexivity.
Qed.
Lemma pad_blank d : blank (x0a :: repeat x20 (2 * d)).
Proof. unfold blank. cbn [forallb]. replace (beqb x0a x20 || beqb x0a x0a) with true by reflexivity. cbn [andb]. induction (2 * d)%nat as [|n IH]; [reflexivity|]. cbn [repeat forallb]. rewrite IH. reflexivity. Qed.
Lemma indent_conveyed ts : forall d st op, forallb plain_token ts = true -> conveyed op ts (indent_from d st op ts).
Proof.
  induction ts as [|[n a|n|x] ts IH]; intros d st op H; [constructor| | |]; cbn [forallb] in H; apply andb_true_iff in H as (H1 & H2); cbn [indent_from].
  - cbn [plain_token] in H1. apply andb_true_iff in H1 as (Hn & Ha).
    assert (G : conveyed op (TStart n a :: ts) (TStart n a :: indent_from (S d) true true ts)).
    { constructor; [exact Hn| |apply IH, H2]. apply Forall_forall. intros e He. rewrite forallb_forall in Ha. specialize (Ha e He). apply andb_true_iff in Ha as (A1 & A2). split; [exact A1|apply printable_text, A2]. }
    destruct st; cbn [app]; [|exact G]. constructor; [apply pad_blank|exact G].
  - assert (G : forall b, conveyed b (TEnd n :: ts) (TEnd n :: indent_from (pred d) true false ts)) by (intros b; constructor; apply IH, H2).
    destruct op; cbn [app]; [apply G|]. constructor; [apply pad_blank|apply G].
  - destruct x as [|b x]; [constructor; apply IH, H2|]. constructor; [discriminate|apply printable_text; exact H1|apply IH, H2].
Qed.
Theorem indented_conveyed ts : forallb plain_token ts = true -> conveyed false ts (indented ts).
Proof. apply indent_conveyed. Qed.
