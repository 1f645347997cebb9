(** Theorems about the object streams that the writer makes. *)
From Verif Require Import Util WriterModel ParseModel WStmSpec WStmProofs.
Local Open Scope Z_scope.

(** C11.  For every writer whose objects go to an object stream: in every file
    in which that stream stands, what is read for each of its objects is not
    the object but the text that follows as many bytes later as the index is
    long (or an error, if the stream ends before). *)
Theorem C11_late_refuted : forall (inflate : bytes -> option bytes) deflate order w idx w', (forall x, inflate (deflate x) = Some x) ->
  createObjectStreams deflate order w = (Some idx, w') ->
  0 <= nextObjNum w -> (forall n, mget n (objects w) <> None -> 0 <= n < 2 ^ 63) ->
  exists l data first a dict, l <> [] /\ (forall o, In o l -> exists z, mget (fst o) (objects w) = Some (mkObj (Some (snd o)) None z)) /\
    mget (nextObjNum w) (objects w') = Some (mkObj None (Some (deflate data)) (Some a)) /\ mget a (dicts w') = Some dict /\
    kget (bs "/First") dict = Some (VInt first) /\ kget (bs "/N") dict = Some (VInt (Z.of_nat (length l))) /\
    (Z.of_nat (index_length l) + flen data < 2 ^ 63 -> flen (deflate data) < 2 ^ 63 ->
     forall i n d, nth_error l i = Some (n, d) -> In (n, (nextObjNum w, Z.of_nat i)) idx /\
       forall f pre post, f = pre ++ objstm_object (nextObjNum w) (Z.of_nat (length l)) first (deflate data) ++ post ->
         (forall j, (j < length pre)%nat -> m_num0obj (nextObjNum w) (skipn j f) = None) ->
         GetObjectFromStream inflate None f n (nextObjNum w) (Z.of_nat i) = read_late (index_length l) l i).
Proof. exact stream_read_late. Qed.
Print Assumptions C11_late_refuted.
(** The index is never empty, so the last object of a stream is never read
    back, whatever the objects are ... *)
Theorem C11_last_refuted : forall l i n d, nth_error l i = Some (n, d) -> length l = S i -> (forall o, In o l -> 0 <= fst o) ->
  read_late (index_length l) l i <> Ok d.
Proof. exact last_never. Qed.
Print Assumptions C11_last_refuted.
(** ... and if the objects together are not longer than the index, reading
    each of them is an error. *)
Theorem C11_short_refuted : forall l i, (length (objects_text l) <= index_length l)%nat -> read_late (index_length l) l i = Err.
Proof. exact (fun l i => short_lost (index_length l) l i). Qed.
Print Assumptions C11_short_refuted.
Definition ex_texts : list (Z * bytes) := [(1, bs "<</Type/Catalog/Pages 2 0 R>>"); (2, bs "<</Type/Pages>>")].
Example C11_late_example :
  (exists idx w', createObjectStreams (fun d => d) (fun ks => ks) (UseObjectStream true (SetObject 2 (Some (bs "<</Type/Pages>>"))
    (SetObject 1 (Some (bs "<</Type/Catalog/Pages 2 0 R>>")) NewPDFWriter))) = (Some idx, w')) /\
  index_length ex_texts = 8%nat /\ read_late 8 ex_texts 0 = Ok (bs "Catalog/Pages 2 0 R>> <</Type/") /\
  index_length [(1, bs "10"); (2, bs "20")] = 7%nat /\ objects_text [(1, bs "10"); (2, bs "20")] = bs "10 20".
Proof. split; [do 2 eexists; vm_compute; reflexivity|vm_compute; repeat split]. Qed.
