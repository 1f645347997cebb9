(** Shared helpers of the model: Go maps with integer keys, sorting, signed
    decimal numbers, splitting text, and leftmost search with a matcher
    (the way the regular expressions of the code are modelled). *)
From Verif Require Export Base.
From Coq Require Export Permutation Sorting.Sorted.

(* ------------------------------------------------------------------ *)
(** Go [map[int]A]: association list, the first binding of a key counts. *)

Definition zmap (A : Type) := list (Z * A).

Fixpoint mget {A} (k : Z) (m : zmap A) : option A :=
  match m with
  | [] => None
  | (k', v) :: m' => if (k =? k')%Z then Some v else mget k m'
  end.

(** [m[k] = v] *)
Definition mset {A} (k : Z) (v : A) (m : zmap A) : zmap A := (k, v) :: m.

(** [_, ok := m[k]] *)
Definition mem {A} (k : Z) (m : zmap A) : bool :=
  match mget k m with Some _ => true | None => false end.

(** The keys of the map, each once. *)
Definition mkeys {A} (m : zmap A) : list Z := nodup Z.eq_dec (map fst m).

Lemma mget_mset_eq {A} k (v : A) m : mget k (mset k v m) = Some v.
Proof. unfold mset. cbn [mget]. rewrite Z.eqb_refl. reflexivity. Qed.

Lemma mget_mset_neq {A} k k' (v : A) m : k <> k' -> mget k (mset k' v m) = mget k m.
Proof. intros H. unfold mset. cbn [mget]. apply Z.eqb_neq in H. rewrite H. reflexivity. Qed.

Lemma mget_mset {A} k k' (v : A) m :
  mget k (mset k' v m) = if (k =? k')%Z then Some v else mget k m.
Proof. reflexivity. Qed.

Lemma mget_in_fst {A} k (m : zmap A) : In k (map fst m) <-> exists v, mget k m = Some v.
Proof.
  induction m as [|[k' v'] m IH]; cbn [map fst In mget].
  - split; [intros []|intros [v Hv]; discriminate].
  - destruct (Z.eqb_spec k k') as [->|Hne].
    + split; [intros _; eauto|intros _; left; reflexivity].
    + rewrite <- IH. split; [intros [H|H]; [congruence|exact H]|auto].
Qed.

Lemma mkeys_in {A} k (m : zmap A) : In k (mkeys m) <-> exists v, mget k m = Some v.
Proof. unfold mkeys. rewrite nodup_In. apply mget_in_fst. Qed.

Lemma mkeys_nodup {A} (m : zmap A) : NoDup (mkeys m).
Proof. apply NoDup_nodup. Qed.

Lemma mget_none {A} k (m : zmap A) : mget k m = None <-> ~ In k (map fst m).
Proof.
  rewrite mget_in_fst. destruct (mget k m) as [v|]; split; intros H.
  - discriminate.
  - exfalso. apply H. eauto.
  - intros [v Hv]. discriminate.
  - reflexivity.
Qed.

(* ------------------------------------------------------------------ *)
(** [sort.Ints] *)

Fixpoint insertZ (x : Z) (l : list Z) : list Z :=
  match l with
  | [] => [x]
  | y :: l' => if (x <=? y)%Z then x :: l else y :: insertZ x l'
  end.
Definition sortZ (l : list Z) : list Z := fold_right insertZ [] l.

Lemma insertZ_perm x l : Permutation (insertZ x l) (x :: l).
Proof.
  induction l as [|y l IH]; cbn [insertZ]; [reflexivity|].
  destruct (x <=? y)%Z; [reflexivity|]. rewrite IH. apply perm_swap.
Qed.

Lemma sortZ_perm l : Permutation (sortZ l) l.
Proof.
  induction l as [|x l IH]; cbn [sortZ fold_right]; [reflexivity|].
  fold (sortZ l). rewrite insertZ_perm, IH. reflexivity.
Qed.

Lemma insertZ_sorted x l : StronglySorted Z.le l -> StronglySorted Z.le (insertZ x l).
Proof.
  induction l as [|y l IH]; intros H; cbn [insertZ].
  - constructor; constructor.
  - inversion H as [|a b Hs Hf]; subst. destruct (Z.leb_spec x y) as [Hle|Hgt].
    + constructor; [exact H|]. constructor; [exact Hle|].
      eapply Forall_impl; [|exact Hf]. cbn. intros z Hz. lia.
    + constructor; [apply IH; exact Hs|].
      apply Forall_forall. intros z Hz.
      apply (Permutation_in z (insertZ_perm x l)) in Hz. destruct Hz as [<-|Hz]; [lia|].
      rewrite Forall_forall in Hf. apply Hf. exact Hz.
Qed.

Lemma sortZ_sorted l : StronglySorted Z.le (sortZ l).
Proof.
  induction l as [|x l IH]; cbn [sortZ fold_right]; [constructor|].
  apply insertZ_sorted. exact IH.
Qed.

Lemma sorted_perm_unique (l1 l2 : list Z) :
  StronglySorted Z.le l1 -> StronglySorted Z.le l2 -> Permutation l1 l2 -> l1 = l2.
Proof.
  revert l2. induction l1 as [|x l1 IH]; intros l2 H1 H2 HP.
  - apply Permutation_nil in HP. auto.
  - destruct l2 as [|y l2]; [apply Permutation_sym, Permutation_nil in HP; discriminate|].
    inversion H1 as [|a b Hs1 Hf1]; inversion H2 as [|c d Hs2 Hf2]; subst.
    rewrite Forall_forall in Hf1, Hf2.
    assert (x = y) as ->.
    { assert (In x (y :: l2)) as Hx by (apply (Permutation_in x HP); left; reflexivity).
      assert (In y (x :: l1)) as Hy by (apply (Permutation_in y (Permutation_sym HP)); left; reflexivity).
      destruct Hx as [Hx|Hx]; [auto|]. destruct Hy as [Hy|Hy]; [auto|].
      specialize (Hf1 y Hy). specialize (Hf2 x Hx). lia. }
    f_equal. apply IH; auto. apply Permutation_cons_inv in HP. exact HP.
Qed.

Lemma sortZ_perm_eq l1 l2 : Permutation l1 l2 -> sortZ l1 = sortZ l2.
Proof.
  intros H. apply sorted_perm_unique; try apply sortZ_sorted.
  rewrite !sortZ_perm. exact H.
Qed.

Lemma sortZ_in x l : In x (sortZ l) <-> In x l.
Proof.
  split; intros H; [apply (Permutation_in x (sortZ_perm l))|
    apply (Permutation_in x (Permutation_sym (sortZ_perm l)))]; exact H.
Qed.

Lemma sortZ_nodup l : NoDup l -> NoDup (sortZ l).
Proof. intros H. apply (Permutation_NoDup (Permutation_sym (sortZ_perm l))). exact H. Qed.

(* ------------------------------------------------------------------ *)
(** [sort.Strings]: byte-wise lexicographic order. *)

Fixpoint bleb (a b : bytes) : bool :=
  match a, b with
  | [], _ => true
  | _ :: _, [] => false
  | x :: a', y :: b' =>
      if (b2n x <? b2n y)%N then true
      else if (b2n y <? b2n x)%N then false else bleb a' b'
  end.

Lemma bleb_refl a : bleb a a = true.
Proof.
  induction a as [|x a IH]; [reflexivity|]. cbn [bleb]. rewrite N.ltb_irrefl. exact IH.
Qed.

Lemma bleb_antisym a b : bleb a b = true -> bleb b a = true -> a = b.
Proof.
  revert b. induction a as [|x a IH]; intros [|y b]; cbn [bleb]; try congruence.
  destruct (N.ltb_spec (b2n x) (b2n y)), (N.ltb_spec (b2n y) (b2n x)); try congruence; try lia.
  intros H1 H2. f_equal; [apply b2n_inj; lia|apply IH; assumption].
Qed.

Lemma bleb_total a b : bleb a b = true \/ bleb b a = true.
Proof.
  revert b. induction a as [|x a IH]; intros [|y b]; cbn [bleb]; auto.
  destruct (N.ltb_spec (b2n x) (b2n y)), (N.ltb_spec (b2n y) (b2n x)); auto.
Qed.

Lemma bleb_trans a b c : bleb a b = true -> bleb b c = true -> bleb a c = true.
Proof.
  revert b c. induction a as [|x a IH]; intros [|y b] [|z c]; cbn [bleb]; try congruence.
  destruct (N.ltb_spec (b2n x) (b2n y)), (N.ltb_spec (b2n y) (b2n x)),
    (N.ltb_spec (b2n y) (b2n z)), (N.ltb_spec (b2n z) (b2n y)),
    (N.ltb_spec (b2n x) (b2n z)), (N.ltb_spec (b2n z) (b2n x)); try congruence; try lia.
  apply IH.
Qed.

(** Go [map[string]A], here in some iteration order: pairs with distinct keys. *)
Fixpoint insertK {A} (x : bytes * A) (l : list (bytes * A)) : list (bytes * A) :=
  match l with
  | [] => [x]
  | y :: l' => if bleb (fst x) (fst y) then x :: l else y :: insertK x l'
  end.
Definition sortK {A} (l : list (bytes * A)) : list (bytes * A) := fold_right insertK [] l.

Definition kle {A} (a b : bytes * A) : Prop := bleb (fst a) (fst b) = true.

Lemma insertK_perm {A} (x : bytes * A) l : Permutation (insertK x l) (x :: l).
Proof.
  induction l as [|y l IH]; cbn [insertK]; [reflexivity|].
  destruct (bleb (fst x) (fst y)); [reflexivity|]. rewrite IH. apply perm_swap.
Qed.

Lemma sortK_perm {A} (l : list (bytes * A)) : Permutation (sortK l) l.
Proof.
  induction l as [|x l IH]; cbn [sortK fold_right]; [reflexivity|].
  fold (sortK l). rewrite insertK_perm, IH. reflexivity.
Qed.

Lemma insertK_sorted {A} (x : bytes * A) l : StronglySorted kle l -> StronglySorted kle (insertK x l).
Proof.
  induction l as [|y l IH]; intros H; cbn [insertK].
  - constructor; constructor.
  - inversion H as [|a b Hs Hf]; subst. destruct (bleb (fst x) (fst y)) eqn:E.
    + constructor; [exact H|]. constructor; [exact E|].
      eapply Forall_impl; [|exact Hf]. unfold kle. cbn. intros z Hz. eapply bleb_trans; eassumption.
    + constructor; [apply IH; exact Hs|].
      apply Forall_forall. intros z Hz.
      apply (Permutation_in z (insertK_perm x l)) in Hz. destruct Hz as [<-|Hz].
      * unfold kle. destruct (bleb_total (fst x) (fst y)); congruence.
      * rewrite Forall_forall in Hf. apply Hf. exact Hz.
Qed.

Lemma sortK_sorted {A} (l : list (bytes * A)) : StronglySorted kle (sortK l).
Proof.
  induction l as [|x l IH]; cbn [sortK fold_right]; [constructor|].
  apply insertK_sorted. exact IH.
Qed.

Lemma sortedK_perm_unique {A} (l1 l2 : list (bytes * A)) :
  StronglySorted kle l1 -> StronglySorted kle l2 -> Permutation l1 l2 ->
  NoDup (map fst l1) -> l1 = l2.
Proof.
  revert l2. induction l1 as [|x l1 IH]; intros l2 H1 H2 HP Hnd.
  - apply Permutation_nil in HP. auto.
  - destruct l2 as [|y l2]; [apply Permutation_sym, Permutation_nil in HP; discriminate|].
    inversion H1 as [|a b Hs1 Hf1]; inversion H2 as [|c d Hs2 Hf2]; subst.
    rewrite Forall_forall in Hf1, Hf2. cbn [map] in Hnd. inversion Hnd as [|p q Hni Hnd']; subst.
    assert (x = y) as ->.
    { assert (In x (y :: l2)) as Hx by (apply (Permutation_in x HP); left; reflexivity).
      assert (In y (x :: l1)) as Hy by (apply (Permutation_in y (Permutation_sym HP)); left; reflexivity).
      destruct Hx as [Hx|Hx]; [auto|]. destruct Hy as [Hy|Hy]; [auto|].
      exfalso. apply Hni. specialize (Hf1 y Hy). specialize (Hf2 x Hx). unfold kle in *.
      rewrite (bleb_antisym _ _ Hf1 Hf2). apply in_map. exact Hy. }
    f_equal. apply IH; auto. apply Permutation_cons_inv in HP. exact HP.
Qed.

Lemma sortK_perm_eq {A} (l1 l2 : list (bytes * A)) :
  NoDup (map fst l1) -> Permutation l1 l2 -> sortK l1 = sortK l2.
Proof.
  intros Hnd H. apply sortedK_perm_unique; try apply sortK_sorted.
  - rewrite !sortK_perm. exact H.
  - apply (Permutation_NoDup (l := map fst l1)); [|exact Hnd].
    apply Permutation_map. symmetry. apply sortK_perm.
Qed.

(** Lookup / update of a string-keyed map. *)
Fixpoint kget {A} (k : bytes) (m : list (bytes * A)) : option A :=
  match m with
  | [] => None
  | (k', v) :: m' => if bytes_eqb k k' then Some v else kget k m'
  end.

Fixpoint kset {A} (k : bytes) (v : A) (m : list (bytes * A)) : list (bytes * A) :=
  match m with
  | [] => [(k, v)]
  | (k', v') :: m' => if bytes_eqb k k' then (k, v) :: m' else (k', v') :: kset k v m'
  end.

Lemma bytes_eqb_refl a : bytes_eqb a a = true.
Proof. apply bytes_eqb_eq. reflexivity. Qed.

Lemma bytes_eqb_neq a b : bytes_eqb a b = false <-> a <> b.
Proof. rewrite <- not_true_iff_false, bytes_eqb_eq. reflexivity. Qed.

Lemma kget_kset {A} k k' (v : A) m :
  kget k (kset k' v m) = if bytes_eqb k k' then Some v else kget k m.
Proof.
  induction m as [|[k1 v1] m IH]; cbn [kset kget]; [reflexivity|].
  destruct (bytes_eqb k' k1) eqn:E1; cbn [kget].
  - apply bytes_eqb_eq in E1. subst k1. destruct (bytes_eqb k k'); reflexivity.
  - rewrite IH. destruct (bytes_eqb k k1) eqn:E2; [|reflexivity].
    apply bytes_eqb_eq in E2. subst k1. apply bytes_eqb_neq in E1.
    destruct (bytes_eqb k k') eqn:E3; [apply bytes_eqb_eq in E3; congruence|reflexivity].
Qed.

Lemma kset_keys {A} k (v : A) m x : In x (map fst (kset k v m)) <-> x = k \/ In x (map fst m).
Proof.
  induction m as [|[k1 v1] m IH]; cbn [kset map fst In]; [intuition|].
  destruct (bytes_eqb k k1) eqn:E; cbn [map fst In].
  - apply bytes_eqb_eq in E. subst. intuition.
  - rewrite IH. intuition.
Qed.

Lemma kset_nodup {A} k (v : A) m : NoDup (map fst m) -> NoDup (map fst (kset k v m)).
Proof.
  induction m as [|[k1 v1] m IH]; cbn [kset map fst]; intros H.
  - constructor; [intros []|constructor].
  - inversion H as [|a b Hni Hnd]; subst. destruct (bytes_eqb k k1) eqn:E; cbn [map fst].
    + apply bytes_eqb_eq in E. subst. constructor; assumption.
    + constructor; [|apply IH; exact Hnd]. rewrite kset_keys. intros [Hc|Hc]; [|auto].
      apply bytes_eqb_neq in E. congruence.
Qed.

(* ------------------------------------------------------------------ *)
(** Signed decimal numbers *)

(** [%d] / [strconv.Itoa] *)
Definition decZ (z : Z) : bytes :=
  match z with
  | Zneg p => "-"%byte :: dec (N.pos p)
  | _ => dec (Z.to_N z)
  end.

Lemma decZ_nonneg z : (0 <= z)%Z -> decZ z = dec (Z.to_N z).
Proof. destruct z; cbn [decZ]; intros H; [reflexivity|reflexivity|lia]. Qed.

(** [strconv.Atoi] / [strconv.ParseInt(s,10,64)]: optional sign, digits, int64 range. *)
Definition atoi (s : bytes) : option Z :=
  match s with
  | [] => None
  | c :: r =>
      if beqb c "-" then
        match r with
        | [] => None
        | _ => if forallb is_digit r && (num r <=? int64_max + 1)%N
               then Some (- Z.of_N (num r))%Z else None
        end
      else
        let ds := if beqb c "+" then r else s in
        match ds with
        | [] => None
        | _ => if forallb is_digit ds && (num ds <=? int64_max)%N
               then Some (Z.of_N (num ds)) else None
        end
  end.

Lemma digit_not_sign b : is_digit b = true -> beqb b "-" = false /\ beqb b "+" = false.
Proof.
  unfold is_digit, beqb. change (b2n "-") with 45%N. change (b2n "+") with 43%N. lia.
Qed.

Lemma atoi_digits s :
  s <> [] -> forallb is_digit s = true -> (num s <= int64_max)%N -> atoi s = Some (Z.of_N (num s)).
Proof.
  intros Hn Hd Hm. destruct s as [|c r]; [congruence|]. unfold atoi.
  pose proof Hd as Hd'. cbn [forallb] in Hd'. apply andb_true_iff in Hd'. destruct Hd' as [Hc _].
  destruct (digit_not_sign c Hc) as [-> ->]. rewrite Hd. apply N.leb_le in Hm. rewrite Hm. reflexivity.
Qed.

Lemma atoi_dec n : (n <= int64_max)%N -> atoi (dec n) = Some (Z.of_N n).
Proof.
  intros H. rewrite atoi_digits; rewrite ?num_dec; auto using dec_nonnil, dec_digits.
Qed.

Lemma atoi_dec_pad w n : (n <= int64_max)%N -> atoi (dec_pad w n) = Some (Z.of_N n).
Proof.
  intros H. rewrite atoi_digits; rewrite ?num_dec_pad; auto using dec_pad_nonnil, dec_pad_digits.
Qed.

(* ------------------------------------------------------------------ *)
(** Text helpers *)

(** [bytes.Split(s, []byte{c})] *)
Fixpoint split_on (c : byte) (s : bytes) : list bytes :=
  match s with
  | [] => [[]]
  | b :: s' =>
      if beqb b c then [] :: split_on c s'
      else match split_on c s' with
           | l :: ls => (b :: l) :: ls
           | [] => [[b]]      (* not reachable: [split_on] is never empty *)
           end
  end.

(** Trim bytes of class [f] at both ends ([strings.TrimSpace], [^\s+|\s+$]). *)
Definition rtrim (f : byte -> bool) (s : bytes) : bytes := rev (drop_while f (rev s)).
Definition trim (f : byte -> bool) (s : bytes) : bytes := rtrim f (drop_while f s).

(** Fields separated by runs of bytes of class [f] ([strings.Fields]). *)
Fixpoint fields_aux (f : byte -> bool) (s : bytes) (cur : bytes) : list bytes :=
  match s with
  | [] => match cur with [] => [] | _ => [rev cur] end
  | b :: s' =>
      if f b then match cur with [] => fields_aux f s' [] | _ => rev cur :: fields_aux f s' [] end
      else fields_aux f s' (b :: cur)
  end.
Definition fields (f : byte -> bool) (s : bytes) : list bytes := fields_aux f s [].

(** Leftmost match of a matcher [m] that is anchored at the start of its
    argument: position and value.  This is how [FindSubmatch] of an unanchored
    pattern is modelled. *)
Fixpoint find {A} (m : bytes -> option A) (s : bytes) : option (nat * A) :=
  match m s with
  | Some a => Some (0%nat, a)
  | None => match s with
            | [] => None
            | _ :: s' => match find m s' with
                         | Some (i, a) => Some (S i, a)
                         | None => None
                         end
            end
  end.

(** Matcher pieces.  [lit p]: the literal; [ws1]: [\s+]; [digits1]: [\d+];
    each returns what follows. *)
Definition lit (p : bytes) (s : bytes) : option bytes :=
  if prefixb p s then Some (skipn (length p) s) else None.
Definition ws0 (s : bytes) : bytes := drop_while is_ws s.
Definition ws1 (s : bytes) : option bytes :=
  match s with b :: s' => if is_ws b then Some (drop_while is_ws s') else None | [] => None end.
Definition digits1 (s : bytes) : option (bytes * bytes) :=
  match take_while is_digit s with
  | [] => None
  | d => Some (d, drop_while is_digit s)
  end.

Definition obind {A B} (o : option A) (f : A -> option B) : option B :=
  match o with Some a => f a | None => None end.
Notation "'do' x <- a ; b" := (obind a (fun x => b))
  (at level 200, x pattern, a at level 100, b at level 200, right associativity).

(** First [n] bytes ([s[:min(n,len(s))]]); [n] in N to avoid large numerals. *)
Definition take (n : N) (s : bytes) : bytes := firstn (N.to_nat n) s.

Lemma find_unfold {A} (m : bytes -> option A) s :
  find m s = match m s with
             | Some a => Some (0%nat, a)
             | None => match s with
                       | [] => None
                       | _ :: s' => match find m s' with Some (i, a) => Some (S i, a) | None => None end
                       end
             end.
Proof. destruct s; reflexivity. Qed.

(** Skipping a prefix in which the matcher never fires. *)
Lemma find_app {A} (m : bytes -> option A) a b :
  (forall j, (j < length a)%nat -> m (skipn j (a ++ b)) = None) ->
  find m (a ++ b) = match find m b with Some (i, x) => Some ((length a + i)%nat, x) | None => None end.
Proof.
  induction a as [|x a IH]; intros H; cbn [app].
  - cbn [length]. destruct (find m b) as [[i y]|]; reflexivity.
  - rewrite find_unfold.
    pose proof (H 0%nat ltac:(cbn; lia)) as H0. cbn [skipn app] in H0. rewrite H0.
    rewrite IH.
    + destruct (find m b) as [[i y]|]; reflexivity.
    + intros j Hj. apply (H (S j)). cbn [length]. lia.
Qed.

Lemma find_none_intro {A} (m : bytes -> option A) s :
  (forall j, (j <= length s)%nat -> m (skipn j s) = None) -> find m s = None.
Proof.
  induction s as [|x s IH]; intros H; rewrite find_unfold.
  - specialize (H 0%nat ltac:(cbn; lia)). cbn [skipn] in H. rewrite H. reflexivity.
  - pose proof (H 0%nat ltac:(lia)) as H0. cbn [skipn] in H0. rewrite H0.
    rewrite IH; [reflexivity|]. intros j Hj. apply (H (S j)). cbn [length]. lia.
Qed.

Lemma find_some {A} (m : bytes -> option A) s i a :
  find m s = Some (i, a) ->
  m (skipn i s) = Some a /\ (i <= length s)%nat /\ forall j, (j < i)%nat -> m (skipn j s) = None.
Proof.
  revert i. induction s as [|x s IH]; intros i; rewrite find_unfold.
  - destruct (m []) eqn:E; [|discriminate]. intros H; injection H as <- <-. cbn [skipn].
    repeat split; [exact E|lia|intros; lia].
  - destruct (m (x :: s)) eqn:E.
    + intros H; injection H as <- <-. cbn [skipn]. repeat split; [exact E|lia|intros; lia].
    + destruct (find m s) as [[k b]|] eqn:Ef; [|discriminate].
      intros H; injection H as <- <-. destruct (IH k eq_refl) as (H1 & H2 & H3).
      cbn [skipn length]. repeat split; [exact H1|lia|].
      intros [|j] Hj; cbn [skipn]; [exact E|apply H3; lia].
Qed.

Lemma find_none {A} (m : bytes -> option A) s :
  find m s = None -> forall j, (j <= length s)%nat -> m (skipn j s) = None.
Proof.
  induction s as [|x s IH]; rewrite find_unfold.
  - destruct (m []) eqn:E; [discriminate|]. intros _ j Hj. cbn in Hj.
    assert (j = 0)%nat as -> by lia. exact E.
  - destruct (m (x :: s)) eqn:E; [discriminate|].
    destruct (find m s) as [[k b]|] eqn:Ef; [discriminate|]. intros _ [|j] Hj; cbn [skipn]; [exact E|].
    apply IH; [reflexivity|]. cbn [length] in Hj. lia.
Qed.

Lemma find_at0 {A} (m : bytes -> option A) s a : m s = Some a -> find m s = Some (0%nat, a).
Proof. intros H. rewrite find_unfold, H. reflexivity. Qed.

Lemma find_ext {A} (m m' : bytes -> option A) s : (forall s, m s = m' s) -> find m s = find m' s.
Proof.
  intros H. induction s as [|x s IH]; rewrite (find_unfold m), (find_unfold m'), H; [reflexivity|].
  rewrite IH. reflexivity.
Qed.

Lemma lit_some p s r : lit p s = Some r <-> s = p ++ r.
Proof.
  unfold lit. destruct (prefixb p s) eqn:E.
  - apply prefixb_spec in E. destruct E as [t ->].
    rewrite skipn_app, skipn_all, Nat.sub_diag. cbn [app skipn].
    split; [intros H; injection H as ->; reflexivity|intros H; apply app_inv_head in H; subst; reflexivity].
  - split; [discriminate|]. intros ->. rewrite prefixb_app in E. discriminate.
Qed.

Lemma lit_app p r : lit p (p ++ r) = Some r.
Proof. apply lit_some. reflexivity. Qed.

Lemma lit_none p s : lit p s = None <-> prefixb p s = false.
Proof. unfold lit. destruct (prefixb p s); split; congruence. Qed.

(** A literal whose bytes avoid [c] cannot match across a [c]. *)
Lemma prefixb_sep p a c b : ~ In c p -> prefixb p (a ++ c :: b) = prefixb p a.
Proof.
  intros Hc. revert a. induction p as [|x p IH]; intros [|y a]; cbn [prefixb app]; auto.
  - destruct (beqb x c) eqn:E; [|reflexivity]. apply beqb_eq in E. exfalso. apply Hc. left. exact E.
  - rewrite IH; [reflexivity|]. intros H. apply Hc. right. exact H.
Qed.

Lemma drop_while_all f s : forallb f s = true -> drop_while f s = [].
Proof.
  induction s as [|b s IH]; [reflexivity|]. cbn [forallb drop_while]. rewrite andb_true_iff.
  intros [-> H]. auto.
Qed.

Lemma drop_while_head f s : match drop_while f s with [] => True | b :: _ => f b = false end.
Proof. induction s as [|b s IH]; [exact I|]. cbn [drop_while]. destruct (f b) eqn:E; auto. Qed.

Lemma digits1_app d r :
  d <> [] -> forallb is_digit d = true ->
  match r with [] => True | b :: _ => is_digit b = false end ->
  digits1 (d ++ r) = Some (d, r).
Proof.
  intros Hn Hd Hr. unfold digits1. rewrite take_while_app, drop_while_app by assumption.
  destruct d; [congruence|reflexivity].
Qed.

Lemma split_on_nonnil c s : split_on c s <> [].
Proof.
  destruct s as [|b s]; cbn [split_on]; [discriminate|].
  destruct (beqb b c); [discriminate|]. destruct (split_on c s); discriminate.
Qed.

Lemma split_on_none c s : ~ In c s -> split_on c s = [s].
Proof.
  induction s as [|b s IH]; [reflexivity|]. intros H. cbn [split_on].
  destruct (beqb b c) eqn:E; [apply beqb_eq in E; exfalso; apply H; left; exact E|].
  rewrite IH; [reflexivity|]. intros Hc. apply H. right. exact Hc.
Qed.

Lemma split_on_line c l s : ~ In c l -> split_on c (l ++ c :: s) = l :: split_on c s.
Proof.
  induction l as [|b l IH]; intros H; cbn [app split_on].
  - rewrite beqb_refl. reflexivity.
  - destruct (beqb b c) eqn:E; [apply beqb_eq in E; exfalso; apply H; left; exact E|].
    rewrite IH by (intros Hc; apply H; right; exact Hc). reflexivity.
Qed.
