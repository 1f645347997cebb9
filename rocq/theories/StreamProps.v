(** Theorems about forms/xfa/stream.go. *)
From Verif Require Import Util ParseModel StreamSpec StreamProofs.
Local Open Scope Z_scope.

(** ** C100: a reader over the bytes of a file *)
(** Whatever the sequence of calls, every answer is the one a position in the
    file would give: positions are clamped to the file, reads return the bytes
    from the position on, Peek does not move. *)
Theorem C100_history : forall d cs, len d < 2 ^ 62 -> Forall moderate cs -> performs (NewPDFStream d) cs = Ok (ideals d 0 cs).
Proof. exact history. Qed.
Print Assumptions C100_history.
Example C100_example : Forall moderate [CRead 3; CPeek 2; CTell; CSeek (-4) 2; CReadByte; CSeek (-9) 1; CRead 100; CReadByte; CSeek 3 7] /\
  performs (NewPDFStream (bs "%PDF-1.4")) [CRead 3; CPeek 2; CTell; CSeek (-4) 2; CReadByte; CSeek (-9) 1; CRead 100; CReadByte; CSeek 3 7] =
  Ok [ABytes (bs "%PD"); ABytes (bs "F-"); APos 3; APos 4; AByte "-"; APos 0; ABytes (bs "%PDF-1.4"); AEnd; APos 8].
Proof. split; [repeat (constructor; [cbn; lia || exact I|]); constructor|vm_compute; reflexivity]. Qed.
(** Reading in pieces gives the file. *)
Theorem C100_reads_all : forall d ns, len d < 2 ^ 62 -> Forall (fun n => 0 < n < 2 ^ 62) ns -> len d <= fold_right Z.add 0 ns ->
  exists l, performs (NewPDFStream d) (map CRead ns) = Ok l /\ flat_map (fun a => match a with ABytes b => b | _ => [] end) l = d.
Proof. exact reads_all. Qed.
Print Assumptions C100_reads_all.
(** Reads with arguments that are not lengths stop the program. *)
Theorem C100_negative_refuted : forall s n, (pOff s < length (pData s))%nat -> flen (pData s) < 2 ^ 62 -> - 2 ^ 63 <= n < 0 -> Read s n = Panic /\ Peek s n = Panic.
Proof. exact read_negative. Qed.
Print Assumptions C100_negative_refuted.
Theorem C100_huge_refuted : forall s, (0 < pOff s < length (pData s))%nat -> flen (pData s) < 2 ^ 62 -> Read s (2 ^ 63 - 1) = Panic.
Proof. exact read_huge. Qed.
Print Assumptions C100_huge_refuted.

(** ** C101: reading an object at its offset *)
(** With the right offset of an object whose header stands in the file, the
    object is not read: in every file that begins with %PDF-, whichever object
    is asked for, unless a zero or a plus stands before one of the occurrences of its
    header. *)
Theorem C101_never_refuted : forall enc dec chunked fuel d num gen o, prefixb (bs "%PDF-") d = true -> flen d < 2 ^ 62 -> 0 < num < 2 ^ 63 -> 0 <= gen < 2 ^ 63 ->
  header_at d num gen o -> (forall p c, header_at d num gen (S p) -> nth_error d p = Some c -> c <> "0"%byte /\ c <> "+"%byte) ->
  ReadObjectFromXRef enc dec chunked fuel d num gen (Z.of_nat o) = Some Err.
Proof. exact never_read. Qed.
Print Assumptions C101_never_refuted.
Definition ex_file : bytes := bs "%PDF-1.4
105 0 obj
<</A 1>>
endobj
5 0 obj
<</B 2>>
endobj
".
Definition no_dec (d : bytes) (n g : Z) : result bytes := Err.
(** And if a zero stands before it, another object is returned. *)
Theorem C101_wrong_object_refuted : header_at ex_file 5 0 35 /\ ReadObjectFromXRef false no_dec no_dec 9 ex_file 5 0 35 = Some (Ok (bs "5 0 obj

<</A 1>>

endobj")).
Proof. split; [exists (firstn 35 ex_file), (skipn 42 ex_file); split; reflexivity|vm_compute; reflexivity]. Qed.
Print Assumptions C101_wrong_object_refuted.
(** Offsets inside the file, or little behind it, do not stop the program. *)
Theorem C101_no_panic_partial : forall enc dec chunked fuel d num gen o, flen d < 2 ^ 62 -> (forall x n g, dec x n g <> Panic) -> (forall x n g, chunked x n g <> Panic) ->
  0 <= o <= flen d + 500 -> ReadObjectFromXRef enc dec chunked fuel d num gen o <> Some Panic.
Proof. exact within_no_panic. Qed.
Print Assumptions C101_no_panic_partial.
Example C101_no_panic_example : (forall x n g, no_dec x n g <> Panic) /\ 0 <= 35 <= flen ex_file + 500.
Proof. split; [discriminate|vm_compute; split; discriminate]. Qed.
(** An offset far behind the end of the file stops the program. *)
Theorem C101_panic_refuted : forall enc dec chunked fuel d num gen o, flen d < 2 ^ 62 -> flen d + 500 < o < 2 ^ 63 - 500 ->
  ReadObjectFromXRef enc dec chunked fuel d num gen o = Some Panic.
Proof. exact beyond_panics. Qed.
Print Assumptions C101_panic_refuted.
(** A dictionary that ends in a name is read for ever. *)
Theorem C101_hang_refuted : forall enc dec chunked fuel, ReadObjectFromXRef enc dec chunked fuel (bs "<< /") 7 0 0 = None.
Proof. exact never_returns. Qed.
Print Assumptions C101_hang_refuted.
