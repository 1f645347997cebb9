(** Proofs about bookmarks: what pdfer writes, read again. *)
From Verif Require Import Scan ReadProofs MarksModel MarksSpec ManipSpec ManipProofs ManipProofs2 ManipProofs3 PageModel PageSpec PageProofs
  XPagesProofs XPagesProofs2 ParseSpec MarksProofs TextModel TextProofs.
From Verif Require TextSpec.
From Coq Require Import Lia ZArith.
Local Open Scope Z_scope.

(* -------------------- entries -------------------- *)
Definition ent (e : bytes * bytes) : bytes := fst e ++ bs " " ++ snd e ++ bs " ".
Definition item_entries (pages : zmap Z) (parent prev next : option Z) (title : bytes) (page : Z) (dest : bytes) (kids : list bookmark)
  (action : option Z) (ps : list placed) : list (bytes * bytes) :=
  let r key o := match o with Some n => [(key, ref n)] | None => [] end in
  r (bs "/A") action ++
  match kids with [] => [] | _ => [(bs "/Count", decZ (bookmarks_in kids))] end ++
  (if 0 <? page then match mget page pages with Some n => [(bs "/Dest", bs "([" ++ ref n ++ bs " /XYZ 0 792 null])")] | None => [] end
   else match dest with [] => [] | _ => [(bs "/Dest", written_string dest)] end) ++
  r (bs "/First") (first_num ps) ++ r (bs "/Last") (last_num ps) ++ r (bs "/Parent") parent ++ r (bs "/Prev") prev ++
  (bs "/Title", bs "((" ++ escapePDFString title ++ bs "))") :: r (bs "/Next") next.

Lemma item_text_entries pages parent prev next title page dest uri kids n action ps :
  item_text pages parent prev next (Bookmark title page dest uri kids) (Placed n action ps) =
  bs "<<" ++ flat_map ent (item_entries pages parent prev next title page dest kids action ps) ++ bs ">>".
Proof.
  unfold item_text, item_entries. cbv zeta. rewrite !flat_map_app.
  assert (R : forall key o, flat_map ent match o with Some n => [(key, ref n)] | None => [] end = if_some o (ref_entry key)).
  { intros key [z|]; [|reflexivity]. cbn [flat_map if_some]. unfold ent, ref_entry. cbn [fst snd]. rewrite app_nil_r. reflexivity. }
  rewrite !R. cbn [flat_map]. rewrite R. rewrite <- !app_assoc. f_equal. f_equal.
  assert (C : flat_map ent match kids with [] => [] | _ => [(bs "/Count", decZ (bookmarks_in kids))] end = count_entry kids).
  { destruct kids; [reflexivity|]. cbn [flat_map]. unfold ent, count_entry. cbn [fst snd]. rewrite app_nil_r. reflexivity. }
  rewrite C. f_equal.
  assert (D : flat_map ent (if 0 <? page then match mget page pages with Some n => [(bs "/Dest", bs "([" ++ ref n ++ bs " /XYZ 0 792 null])")] | None => [] end
   else match dest with [] => [] | _ => [(bs "/Dest", written_string dest)] end) = dest_entry pages page dest).
  { unfold dest_entry. destruct (0 <? page); [destruct (mget page pages); [|reflexivity]|destruct dest; [reflexivity|]].
    - cbn [flat_map if_some]. unfold ent. cbn [fst snd]. rewrite app_nil_r, <- !app_assoc. reflexivity.
    - cbn [flat_map]. unfold ent. cbn [fst snd]. rewrite app_nil_r. reflexivity. }
  f_equal; [symmetry; exact D|]. do 4 f_equal. unfold ent. cbn [fst snd]. rewrite <- !app_assoc. reflexivity.
Qed.

Lemma says_ent key H l1 tok rest l2 tail : nostart key H -> Forall (fun e => nostart key (ent e)) l1 -> key <> [] ->
  word tok -> (rest = [] \/ exists r, rest = " "%byte :: r) ->
  says (H ++ flat_map ent (l1 ++ (key, tok ++ rest) :: l2) ++ tail) key tok.
Proof.
  intros HH Hl Hk Hw Hr. unfold says. destruct tok as [|c tok]; [destruct Hw; congruence|].
  exists (H ++ flat_map ent l1), (bs " "), (rest ++ bs " " ++ flat_map ent l2 ++ tail). split; [|split; [|split; [|split; [exact Hw|]]]].
  - rewrite flat_map_app. cbn [flat_map]. unfold ent at 2. cbn [fst snd]. rewrite <- !app_assoc. reflexivity.
  - apply XPagesProofs2.nostart_contains; [|exact Hk]. apply nostart_app; [exact HH|].
    clear Hr. induction Hl as [|e l He Hl IH]; [apply nostart_nil|]. cbn [flat_map]. apply nostart_app; assumption.
  - split; [discriminate|reflexivity].
  - destruct Hr as [->|[r ->]]; reflexivity.
Qed.
Lemma says_no_ent key H l tail : nostart key H -> nostart key tail -> Forall (fun e => nostart key (ent e)) l -> key <> [] ->
  says (H ++ flat_map ent l ++ tail) key [].
Proof.
  intros HH Ht Hl Hk. unfold says. apply XPagesProofs2.nostart_contains; [|exact Hk]. apply nostart_app; [exact HH|]. apply nostart_app; [|exact Ht].
  induction Hl as [|e l He Hl IH]; [apply nostart_nil|]. cbn [flat_map]. apply nostart_app; assumption.
Qed.
Lemma decZ_slash z : ~ In "/"%byte (decZ z).
Proof. apply plain_word_slash, plain_word_decZ. Qed.
Lemma ent_ref key k n : nostartb ("/"%byte :: key) (k ++ bs " ") = true -> nostart ("/"%byte :: key) (ent (k, ref n)).
Proof.
  intros H. unfold ent. cbn [fst snd]. rewrite app_assoc. apply nostart_app; [apply nostartb_ok, H|]. apply nostart_noin. unfold ref.
  rewrite !in_app_iff. intros [[Hi|Hi]|Hi]; [exact (decZ_slash _ Hi)|cbn in Hi; intuition discriminate|cbn in Hi; intuition discriminate].
Qed.
Lemma ent_noslash key k v : nostartb ("/"%byte :: key) (k ++ bs " ") = true -> ~ In "/"%byte v -> nostart ("/"%byte :: key) (ent (k, v)).
Proof.
  intros H Hv. unfold ent. cbn [fst snd]. rewrite app_assoc. apply nostart_app; [apply nostartb_ok, H|]. apply nostart_noin.
  rewrite in_app_iff. intros [Hi|Hi]; [exact (Hv Hi)|cbn in Hi; intuition discriminate].
Qed.

(* -------------------- titles and destinations -------------------- *)
Lemma title_plain b : title_byte b = true -> ManipSpec.plain_byte b = true /\ b <> "/"%byte /\ b <> "\"%byte /\ b <> "("%byte /\ b <> ")"%byte /\ (b2n b < 128)%N.
Proof. destruct b; try discriminate; intros _; repeat split; try discriminate; reflexivity. Qed.
Lemma title_no b t : forallb title_byte t = true -> title_byte b = false -> ~ In b t.
Proof. intros H Hb Hi. rewrite forallb_forall in H. rewrite (H _ Hi) in Hb. discriminate. Qed.
Lemma title_plain_all t : forallb title_byte t = true -> forallb ManipSpec.plain_byte t = true.
Proof. intros H. apply forallb_forall. intros b Hb. rewrite forallb_forall in H. exact (proj1 (title_plain b (H b Hb))). Qed.
Lemma replace_1_none s c new : ~ In c s -> ReplaceAll s [c] new = s.
Proof.
  intros H. rewrite ReplaceAll_1. induction s as [|b s IH]; [reflexivity|]. cbn [flat_map].
  assert (beqb c b = false) as -> by (apply beqb_neq; intros ->; apply H; left; reflexivity).
  rewrite IH; [reflexivity|]. intros X. apply H. right. exact X.
Qed.
Lemma title_escape t : forallb title_byte t = true -> escapePDFString t = t.
Proof.
  intros H. rewrite MetaProofs.escape_ascii.
  - unfold escapePDFStringForMetadata.
    rewrite (replace_1_none t "\"%byte) by (apply title_no; [exact H|reflexivity]).
    rewrite (replace_1_none t "("%byte) by (apply title_no; [exact H|reflexivity]).
    rewrite (replace_1_none t ")"%byte) by (apply title_no; [exact H|reflexivity]).
    rewrite (replace_1_none t x0d) by (apply title_no; [exact H|reflexivity]).
    rewrite (replace_1_none t x0a) by (apply title_no; [exact H|reflexivity]).
    apply replace_1_none, title_no; [exact H|reflexivity].
  - apply forallb_forall. intros b Hb. rewrite forallb_forall in H. apply N.ltb_lt. apply (title_plain b (H b Hb)).
Qed.
Lemma paren_word t : forallb title_byte t = true -> word (bs "((" ++ t ++ bs "))").
Proof.
  intros H. split; [discriminate|]. split; [|reflexivity]. rewrite !forallb_app. rewrite (title_plain_all t H). reflexivity.
Qed.
Lemma title_suffix d : forallb title_byte d = true -> suffixb (bs " R") d = false.
Proof.
  intros H. unfold suffixb. destruct (length (bs " R") <=? length d)%nat eqn:E; [|reflexivity]. cbn [andb].
  destruct (bytes_eqb _ _) eqn:Q; [|reflexivity]. apply bytes_eqb_eq in Q. exfalso.
  apply (title_no " "%byte d H eq_refl). rewrite <- (firstn_skipn (length d - length (bs " R")) d), <- Q. apply in_or_app. right. left. reflexivity.
Qed.
Lemma suffix_cons b d p : (length p <= length d)%nat -> suffixb p (b :: d) = suffixb p d.
Proof.
  intros H. unfold suffixb. cbn [length]. replace (length p <=? S (length d))%nat with true by (symmetry; apply Nat.leb_le; lia).
  replace (length p <=? length d)%nat with true by (symmetry; apply Nat.leb_le; lia).
  replace (S (length d) - length p)%nat with (S (length d - length p)) by lia. reflexivity.
Qed.
(** The destination as written: one word, or a reference and more. *)
Lemma dest_written d : dest_word d -> d <> [] ->
  word (written_string d) /\ (forall k, In k [bs "Title"; bs "Dest"; bs "First"; bs "Next"] -> nostart ("/"%byte :: k) (written_string d ++ bs " ")).
Proof.
  intros [->|[(n & -> & Hn & Hx)|Hd]] Hne; [congruence| |].
  - unfold written_string. change (prefixb (bs "/") ("/"%byte :: n)) with (prefixb [] n). destruct n as [|c n]; cbn [prefixb orb].
    + split; [split; [discriminate|split; reflexivity]|]. intros k Hk. cbn in Hk.
      destruct Hk as [<-|[<-|[<-|[<-|[]]]]]; apply nostartb_ok; reflexivity.
    + split.
      * split; [discriminate|]. split; [|reflexivity]. change (forallb ManipSpec.plain_byte (c :: n) = true). apply title_plain_all, Hn.
      * intros k Hk.
        assert (Hp : prefixb k (c :: n) = false).
        { cbn [existsb] in Hx. rewrite !orb_false_iff in Hx. destruct Hx as (X1 & X2 & X3 & X4 & _). cbn in Hk.
          destruct Hk as [<-|[<-|[<-|[<-|[]]]]]; assumption. }
        assert (Hs : ~ In " "%byte k) by (cbn in Hk; destruct Hk as [<-|[<-|[<-|[<-|[]]]]]; cbn; intuition discriminate).
        intros r j Hj. destruct j as [|j].
        -- cbn [skipn app prefixb]. change (beqb "/" "/") with true. cbn [andb]. change (prefixb k ((c :: n ++ bs " ") ++ r) = false).
           rewrite <- app_comm_cons, <- app_assoc. change (prefixb k ((c :: n) ++ " "%byte :: r) = false). apply prefix_name; assumption.
        -- cbn [skipn app]. 
           assert (Q : nostart ("/"%byte :: k) ((c :: n) ++ bs " ")).
           { apply nostart_noin. rewrite in_app_iff. intros [Hi|Hi]; [exact (title_no "/"%byte _ Hn eq_refl Hi)|cbn in Hi; intuition discriminate]. }
           apply (Q r j). cbn [length app] in Hj |- *. lia.
  - unfold written_string. rewrite (title_suffix d Hd).
    assert (prefixb (bs "/") d = false) as ->.
    { destruct d as [|c d]; [congruence|]. change (prefixb (bs "/") (c :: d)) with (beqb "/" c && prefixb [] d). destruct (beqb "/" c) eqn:E; [|reflexivity]. apply beqb_eq in E. subst c. discriminate Hd. }
    cbn [orb]. split.
    + split; [discriminate|]. split; [|reflexivity]. rewrite !forallb_app. rewrite (title_plain_all d Hd). reflexivity.
    + intros k _. apply nostart_noin. rewrite !in_app_iff. intros [[Hi|[Hi|Hi]]|Hi]; [|exact (title_no "/"%byte _ Hd eq_refl Hi)| |]; cbn in Hi; intuition discriminate.
Qed.

(* -------------------- the entries of an item -------------------- *)
Definition r_entry (key : bytes) (o : option Z) : list (bytes * bytes) := match o with Some n => [(key, ref n)] | None => [] end.
Definition c_entry (kids : list bookmark) : list (bytes * bytes) := match kids with [] => [] | _ => [(bs "/Count", decZ (bookmarks_in kids))] end.
Definition d_entry (pages : zmap Z) (page : Z) (dest : bytes) : list (bytes * bytes) :=
  if 0 <? page then match mget page pages with Some n => [(bs "/Dest", bs "([" ++ ref n ++ bs " /XYZ 0 792 null])")] | None => [] end
  else match dest with [] => [] | _ => [(bs "/Dest", written_string dest)] end.
Definition quiet (key : bytes) (l : list (bytes * bytes)) : Prop := Forall (fun e => nostart ("/"%byte :: key) (ent e)) l.
Lemma quiet_app key a b : quiet key a -> quiet key b -> quiet key (a ++ b).
Proof. intros. apply Forall_app. split; assumption. Qed.
Lemma quiet_ref key k o : nostartb ("/"%byte :: key) (k ++ bs " ") = true -> quiet key (r_entry k o).
Proof. intros H. destruct o; [|constructor]. constructor; [apply ent_ref, H|constructor]. Qed.
Lemma quiet_count key kids : nostartb ("/"%byte :: key) (bs "/Count ") = true -> quiet key (c_entry kids).
Proof. intros H. destruct kids; [constructor|]. constructor; [apply ent_noslash; [exact H|apply decZ_slash]|constructor]. Qed.
Lemma quiet_dest key pages page dest : dest_word dest -> In key [bs "Title"; bs "First"; bs "Next"] -> quiet key (d_entry pages page dest).
Proof.
  intros Hd Hk. unfold d_entry. destruct (0 <? page).
  - destruct (mget page pages) as [n|]; [|constructor]. constructor; [|constructor]. unfold ent. cbn [fst snd]. rewrite <- !app_assoc.
    apply nostart_app; [cbn in Hk; destruct Hk as [<-|[<-|[<-|[]]]]; apply nostartb_ok; reflexivity|].
    apply nostart_app; [apply nostart_noin; cbn; intuition discriminate|].
    apply nostart_app; [apply nostart_noin; cbn; intuition discriminate|].
    apply nostart_app; [|cbn in Hk; destruct Hk as [<-|[<-|[<-|[]]]]; apply nostartb_ok; reflexivity].
    apply nostart_noin. unfold ref. rewrite in_app_iff. intros [Hi|Hi]; [exact (decZ_slash _ Hi)|cbn in Hi; intuition discriminate].
  - destruct dest as [|c d] eqn:E; [constructor|]. rewrite <- E in *. constructor; [|constructor]. unfold ent. cbn [fst snd].
    apply nostart_app; [cbn in Hk; destruct Hk as [<-|[<-|[<-|[]]]]; apply nostartb_ok; reflexivity|].
    apply nostart_app; [apply nostart_noin; cbn; intuition discriminate|].
    assert (Hne : dest <> []) by (rewrite E; discriminate).
    apply (proj2 (dest_written dest Hd Hne)). cbn in *. destruct Hk as [<-|[<-|[<-|[]]]]; auto.
Qed.
Lemma quiet_title key title : forallb title_byte title = true -> nostartb ("/"%byte :: key) (bs "/Title ") = true ->
  quiet key [(bs "/Title", bs "((" ++ escapePDFString title ++ bs "))")].
Proof.
  intros H Hk. rewrite (title_escape title H). constructor; [|constructor]. apply ent_noslash; [exact Hk|].
  rewrite !in_app_iff. intros [Hi|[Hi|Hi]]; [|exact (title_no "/"%byte _ H eq_refl Hi)|]; cbn in Hi; intuition discriminate.
Qed.

Section item.
Context (pages : zmap Z) (parent prev next : option Z) (title : bytes) (page : Z) (dest uri : bytes) (kids : list bookmark)
  (n : Z) (action : option Z) (ps : list placed).
Context (Ht : forallb title_byte title = true) (Hd : dest_word dest).
Let T := object_text n (item_text pages parent prev next (Bookmark title page dest uri kids) (Placed n action ps)).
Let head := decZ n ++ bs " 0 obj" ++ nl ++ bs "<<".
Let tail := bs ">>" ++ nl ++ bs "endobj".
Let before_first := r_entry (bs "/A") action ++ c_entry kids ++ d_entry pages page dest.
Let before_title := r_entry (bs "/Last") (last_num ps) ++ r_entry (bs "/Parent") parent ++ r_entry (bs "/Prev") prev.
Let the_title := [(bs "/Title", bs "((" ++ escapePDFString title ++ bs "))")].
Lemma item_split : T = head ++ flat_map ent (r_entry (bs "/A") action ++ c_entry kids ++ d_entry pages page dest ++ r_entry (bs "/First") (first_num ps) ++
  before_title ++ the_title ++ r_entry (bs "/Next") next) ++ tail.
Proof.
  unfold T, object_text, head, tail, before_title, the_title. rewrite item_text_entries. rewrite <- !app_assoc. do 5 f_equal.
Qed.
Lemma head_quiet key : nostart ("/"%byte :: key) head.
Proof. apply nostart_noin. unfold head. rewrite !in_app_iff. intros [Hi|[Hi|[Hi|Hi]]]; [exact (decZ_slash _ Hi)| | |]; cbn in Hi; intuition discriminate. Qed.
Lemma tail_quiet key : nostart ("/"%byte :: key) tail.
Proof. apply nostart_noin. unfold tail. cbn. intuition discriminate. Qed.
Lemma before_title_quiet key : In key [bs "A"; bs "Title"; bs "Dest"; bs "First"; bs "Next"] -> quiet key before_title.
Proof.
  intros Hk. cbn in Hk. unfold before_title.
  repeat apply quiet_app; apply quiet_ref; destruct Hk as [<-|[<-|[<-|[<-|[<-|[]]]]]]; reflexivity.
Qed.
(** The value of a reference entry. *)
Lemma says_ref key l1 o l2 : quiet key l1 -> quiet key l2 ->
  says (head ++ flat_map ent (l1 ++ r_entry ("/"%byte :: key) o ++ l2) ++ tail) ("/"%byte :: key) (number_text o).
Proof.
  intros H1 H2. destruct o as [m|]; cbn [r_entry number_text].
  - unfold ref. apply (says_ent ("/"%byte :: key) head l1 (decZ m) (bs " 0 R") l2 tail); [apply head_quiet|exact H1|discriminate|apply word_decZ|right; eexists; reflexivity].
  - cbn [app]. apply says_no_ent; [apply head_quiet|apply tail_quiet|apply quiet_app; assumption|discriminate].
Qed.
Lemma item_title : says T (bs "/Title") (bs "((" ++ title ++ bs "))").
Proof.
  rewrite item_split.
  assert (E : r_entry (bs "/A") action ++ c_entry kids ++ d_entry pages page dest ++ r_entry (bs "/First") (first_num ps) ++ before_title ++ the_title ++ r_entry (bs "/Next") next
    = (before_first ++ r_entry (bs "/First") (first_num ps) ++ before_title) ++ (bs "/Title", (bs "((" ++ title ++ bs "))") ++ []) :: r_entry (bs "/Next") next).
  { unfold before_first, the_title. rewrite (title_escape title Ht), app_nil_r, <- !app_assoc. reflexivity. }
  rewrite E. clear E.
  apply (says_ent (bs "/Title") head _ (bs "((" ++ title ++ bs "))") [] _ tail); [apply head_quiet| |discriminate|apply paren_word, Ht|left; reflexivity].
  fold (quiet (bs "Title") (before_first ++ r_entry (bs "/First") (first_num ps) ++ before_title)).
  apply quiet_app; [|apply quiet_app; [apply quiet_ref; reflexivity|apply before_title_quiet; cbn; auto]].
  unfold before_first. apply quiet_app; [apply quiet_ref; reflexivity|]. apply quiet_app; [apply quiet_count; reflexivity|].
  apply quiet_dest; [exact Hd|]. cbn. auto.
Qed.
Lemma item_first : says T (bs "/First") (number_text (first_num ps)).
Proof.
  rewrite item_split.
  assert (E : r_entry (bs "/A") action ++ c_entry kids ++ d_entry pages page dest ++ r_entry (bs "/First") (first_num ps) ++ before_title ++ the_title ++ r_entry (bs "/Next") next
    = before_first ++ r_entry (bs "/First") (first_num ps) ++ before_title ++ the_title ++ r_entry (bs "/Next") next)
    by (unfold before_first; rewrite <- !app_assoc; reflexivity).
  rewrite E. clear E.
  apply (says_ref (bs "First") before_first (first_num ps)).
  - unfold before_first. apply quiet_app; [apply quiet_ref; reflexivity|]. apply quiet_app; [apply quiet_count; reflexivity|].
    apply quiet_dest; [exact Hd|]. cbn. auto.
  - apply quiet_app; [apply before_title_quiet; cbn; auto|]. apply quiet_app; [apply quiet_title; [exact Ht|reflexivity]|apply quiet_ref; reflexivity].
Qed.
Lemma item_next : says T (bs "/Next") (number_text next).
Proof.
  rewrite item_split.
  assert (E : r_entry (bs "/A") action ++ c_entry kids ++ d_entry pages page dest ++ r_entry (bs "/First") (first_num ps) ++ before_title ++ the_title ++ r_entry (bs "/Next") next
    = (before_first ++ r_entry (bs "/First") (first_num ps) ++ before_title ++ the_title) ++ r_entry (bs "/Next") next ++ [])
    by (unfold before_first; rewrite app_nil_r, <- !app_assoc; reflexivity).
  rewrite E. clear E.
  apply (says_ref (bs "Next")); [|constructor].
  apply quiet_app; [|apply quiet_app; [apply quiet_ref; reflexivity|apply quiet_app; [apply before_title_quiet; cbn; auto 10|apply quiet_title; [exact Ht|reflexivity]]]].
  unfold before_first. apply quiet_app; [apply quiet_ref; reflexivity|]. apply quiet_app; [apply quiet_count; reflexivity|].
  apply quiet_dest; [exact Hd|]. cbn. auto.
Qed.
Lemma item_dest : says T (bs "/Dest") (dest_seen pages page dest).
Proof.
  rewrite item_split.
  assert (Q2 : quiet (bs "Dest") (r_entry (bs "/First") (first_num ps) ++ before_title ++ the_title ++ r_entry (bs "/Next") next)).
  { apply quiet_app; [apply quiet_ref; reflexivity|]. apply quiet_app; [apply before_title_quiet; cbn; auto|].
    apply quiet_app; [apply quiet_title; [exact Ht|reflexivity]|apply quiet_ref; reflexivity]. }
  remember (r_entry (bs "/First") (first_num ps) ++ before_title ++ the_title ++ r_entry (bs "/Next") next) as L eqn:EL. clear EL.
  assert (Q1 : quiet (bs "Dest") (r_entry (bs "/A") action ++ c_entry kids)).
  { apply quiet_app; [apply quiet_ref; reflexivity|apply quiet_count; reflexivity]. }
  assert (E : r_entry (bs "/A") action ++ c_entry kids ++ d_entry pages page dest ++ L = (r_entry (bs "/A") action ++ c_entry kids) ++ d_entry pages page dest ++ L)
    by (rewrite <- app_assoc; reflexivity).
  rewrite E. clear E. remember (r_entry (bs "/A") action ++ c_entry kids) as L1 eqn:E1. clear E1.
  unfold d_entry, dest_seen. destruct (0 <? page).
  - destruct (mget page pages) as [m|].
    + assert (E : bs "([" ++ ref m ++ bs " /XYZ 0 792 null])" = (bs "([" ++ decZ m) ++ bs " 0 R /XYZ 0 792 null])") by (unfold ref; rewrite <- !app_assoc; reflexivity).
      rewrite E. clear E.
      apply (says_ent (bs "/Dest") head L1 (bs "([" ++ decZ m)); [apply head_quiet|exact Q1|discriminate| |right; eexists; reflexivity].
      split; [discriminate|]. split; [|reflexivity]. rewrite forallb_app. rewrite (proj1 (proj2 (word_decZ m))). reflexivity.
    + apply says_no_ent; [apply head_quiet|apply tail_quiet|apply quiet_app; assumption|discriminate].
  - destruct dest as [|c d] eqn:E.
    + apply says_no_ent; [apply head_quiet|apply tail_quiet|apply quiet_app; assumption|discriminate].
    + rewrite <- E in *. assert (Hne : dest <> []) by (rewrite E; discriminate).
      rewrite <- (app_nil_r (written_string dest)) at 1.
      apply (says_ent (bs "/Dest") head L1 (written_string dest)); [apply head_quiet|exact Q1|discriminate|apply (dest_written dest Hd Hne)|left; reflexivity].
Qed.
Lemma item_action : dest_seen pages page dest = [] -> says T (bs "/A") (number_text action).
Proof.
  intros H. rewrite item_split. change (head ++ flat_map ent (r_entry (bs "/A") action ++ ?x) ++ tail) with (head ++ flat_map ent ([] ++ r_entry (bs "/A") action ++ x) ++ tail).
  apply (says_ref (bs "A") []); [constructor|].
  assert (d_entry pages page dest = []) as ->.
  { revert H. unfold dest_seen, d_entry. destruct (0 <? page); [destruct (mget page pages); [discriminate|reflexivity]|]. destruct dest as [|c d]; [reflexivity|].
    intros W. exfalso. assert (Hne : c :: d <> []) by discriminate. destruct (dest_written _ Hd Hne) as [[W' _] _]. exact (W' W). }
  cbn [app]. apply quiet_app; [apply quiet_count; reflexivity|]. apply quiet_app; [apply quiet_ref; reflexivity|].
  apply quiet_app; [apply before_title_quiet; cbn; auto|]. apply quiet_app; [apply quiet_title; [exact Ht|reflexivity]|apply quiet_ref; reflexivity].
Qed.
End item.

(* -------------------- the whole outline -------------------- *)
Lemma mark_plain_kids kids : fold_right (fun k P => mark_plain k /\ P) True kids <-> Forall mark_plain kids.
Proof. induction kids as [|k kids IH]; cbn [fold_right]; [split; constructor|]. rewrite IH. split; [intros [? ?]; constructor; assumption|inversion 1; split; assumption]. Qed.
Lemma action_text_says a uri : says (object_text a (bs "<</S /URI /Type /Action /URI ((" ++ escapePDFString uri ++ bs ")) >>")) (bs "/URI") (bs "/Type").
Proof.
  exists (decZ a ++ bs " 0 obj" ++ nl ++ bs "<</S "), (bs " "), (bs " /Action /URI ((" ++ escapePDFString uri ++ bs ")) >>" ++ nl ++ bs "endobj").
  split; [unfold object_text; rewrite <- !app_assoc; reflexivity|]. split; [|split; [|split]].
  - apply XPagesProofs2.nostart_contains; [|discriminate]. rewrite !app_assoc. apply nostart_app; [|apply nostartb_ok; reflexivity]. apply nostart_noin.
    rewrite !in_app_iff. intros [[Hi|Hi]|Hi]; [exact (decZ_slash _ Hi)| |]; cbn in Hi; intuition discriminate.
  - split; [discriminate|reflexivity].
  - split; [discriminate|]. split; reflexivity.
  - reflexivity.
Qed.
Lemma paren_unescaped t : forallb title_byte t = true -> unescaped (bs "((" ++ t ++ bs "))").
Proof. intros H. unfold unescaped. rewrite !in_app_iff. intros [Hi|[Hi|Hi]]; [|exact (title_no "\"%byte _ H eq_refl Hi)|]; cbn in Hi; intuition discriminate. Qed.

Section written.
Context (get : Z -> result bytes) (w0 w : writer) (pages : zmap Z) (Hw0 : 0 < nextObjNum w0) (Hw1 : nextObjNum w <= 2 ^ 63) (Hget : reads_added get w0 w).

Lemma outline_written :
  (forall parent prev next b p, item_ok w pages parent prev next b p -> mark_plain b -> Forall (fun m => nextObjNum w0 <= m < nextObjNum w) (place_nums p) ->
     forall ol, has_items get ol -> first_of ol = next ->
     exists i, has_items get (i :: ol) /\ marks_of i = mark_seen pages b /\ item_num i = place_num p /\ Z.of_nat (items_in i) = 1 + bookmarks_below b) /\
  (forall parent prev l ps, siblings_ok w pages parent prev l ps -> Forall mark_plain l -> Forall (fun m => nextObjNum w0 <= m < nextObjNum w) (flat_map place_nums ps) ->
     exists ol, has_items get ol /\ map marks_of ol = map (mark_seen pages) l /\ first_of ol = first_num ps /\ Z.of_nat (total_items ol) = bookmarks_in l).
Proof.
  apply outline_min.
  - intros parent prev next t pg d u l n a ps b p Hw Ha Hs IH Hp Hn ol Hol Hf. subst b p.
    cbn [mark_plain] in Hp. destruct Hp as (P1 & P2 & P3). apply mark_plain_kids in P3.
    cbn [place_nums] in Hn. apply Forall_app in Hn. destruct Hn as [N1 N2]. inversion N2 as [|? ? N3 N4]; subst.
    destruct (IH P3 N4) as (ok & K1 & K2 & K3 & K4).
    pose proof (Hget _ _ N3 Hw) as G.
    exists (Item n (bs "((" ++ t ++ bs "))") (dest_seen pages pg d) a (match u with [] => [] | _ => bs "/Type" end) ok).
    split; [|split; [|split]].
    + eapply HasItem; [lia|exact G| | | | | | |exact K1|exact Hol].
      * apply item_title; assumption.
      * apply paren_unescaped, P1.
      * apply item_dest; assumption.
      * intros D. split; [apply item_action; assumption|]. unfold action_ok in Ha. destruct u as [|c u], a as [a|]; try contradiction.
        -- split; [exact I|reflexivity].
        -- split; [inversion N1; subst; cbn [number_ok]; lia|]. exists (object_text a (bs "<</S /URI /Type /Action /URI ((" ++ escapePDFString (c :: u) ++ bs ")) >>")).
           split; [apply Hget; [inversion N1; assumption|exact Ha]|]. split; [apply action_text_says|]. unfold unescaped. cbn. intuition discriminate.
      * rewrite K3. apply item_first; assumption.
      * apply item_next; assumption.
    + cbn [marks_of mark_seen]. rewrite K2. destruct (dest_seen pages pg d), u; reflexivity.
    + reflexivity.
    + cbn [items_in bookmarks_below]. fold (total_items ok) (bookmarks_in l). lia.
  - intros parent prev _ _. exists []. split; [constructor|]. split; [reflexivity|]. split; reflexivity.
  - intros parent prev b l p ps Hi IHi Hs IHs Hp Hn. inversion Hp as [|? ? P1 P2]; subst.
    cbn [flat_map] in Hn. apply Forall_app in Hn. destruct Hn as [N1 N2].
    destruct (IHs P2 N2) as (ol & O1 & O2 & O3 & O4).
    destruct (IHi P1 N1 ol O1 O3) as (i & I1 & I2 & I3 & I4).
    exists (i :: ol). split; [exact I1|]. split; [cbn [map]; rewrite I2, O2; reflexivity|]. split; [cbn [first_of]; rewrite I3; reflexivity|].
    cbn [total_items bookmarks_in fold_right]. fold (total_items ol) (bookmarks_in l). lia.
Qed.
End written.

Lemma says_outlines n count first last : says (object_text n (outlines_text count first last)) (bs "/First") (decZ first).
Proof.
  pose proof (ManipProofs2.decZ_nonnil first) as Hn. unfold says. destruct (decZ first) as [|c r] eqn:E; [contradiction|]. rewrite <- E.
  exists (decZ n ++ bs " 0 obj" ++ nl ++ bs "<</Count " ++ decZ count ++ bs " "), (bs " "), (bs " 0 R /Last " ++ ref last ++ bs " /Type /Outlines >>" ++ nl ++ bs "endobj").
  split; [unfold object_text, outlines_text, ref; rewrite <- !app_assoc; reflexivity|]. split; [|split; [split; [discriminate|reflexivity]|split; [apply word_decZ|reflexivity]]].
  apply XPagesProofs2.nostart_contains; [|discriminate].
  apply nostart_app; [apply nostart_noin, decZ_slash|]. apply nostart_app; [apply nostartb_ok; reflexivity|]. apply nostart_app; [apply nostartb_ok; reflexivity|].
  apply nostart_app; [apply nostartb_ok; reflexivity|]. apply nostart_app; [apply nostart_noin, decZ_slash|apply nostartb_ok; reflexivity].
Qed.
Lemma bookmarks_written l pages w get root cat g r stack : l <> [] -> 0 < nextObjNum w -> Forall mark_plain l ->
  let (n, w') := WSetBookmarks l pages w in
  nextObjNum w' <= 2 ^ 63 -> reads_added get w w' -> 0 <= root < 2 ^ 63 -> gap g -> get root = Ok cat -> says cat (bs "/Outlines") (decZ n) ->
  bookmarks_in l <= Z.of_nat stack ->
  ExtractBookmarks get stack (decZ root ++ g ++ r) = Ok (map (mark_seen pages) l).
Proof.
  intros Hl Hw Hp. pose proof (set_bookmarks_ok l pages w Hl Hw) as S. destruct (WSetBookmarks l pages w) as [n w'].
  destruct S as (ps & f & t & S1 & S2 & S3 & S4 & _ & _ & S5 & _). intros Hx Hg Hr Hgap Hc So Hst.
  inversion S5 as [|? ? N1 N2]; subst.
  destruct (proj2 (outline_written get w w' pages Hw Hx Hg) _ _ _ _ S1 Hp N2) as (ol & O1 & O2 & O3 & O4).
  rewrite <- O2. eapply bookmarks_read; [exact Hr|exact Hgap|exact Hc|exact So|lia|apply Hg; [exact N1|exact S4]| |exact O1|lia].
  rewrite O3, S2. apply says_outlines.
Qed.
(** The tree of titles. *)
Fixpoint mark_seen_shape pages b {struct b} : shape_of_mark (mark_seen pages b) = bracketed (shape_of_bookmark b).
Proof.
  destruct b as [t pg d u kids]. cbn [mark_seen shape_of_mark shape_of_bookmark bracketed]. f_equal.
  induction kids as [|k kids IH]; [reflexivity|]. cbn [map]. rewrite (mark_seen_shape pages k), IH. reflexivity.
Qed.
