(** The byte-perfect mode of the parse API (core/parse/api.go): the document
    kept with every byte, its list of objects, and the two ways to ask for one. *)
From Verif Require Import Util ParseModel.
Local Open Scope Z_scope.

(** api.go:44-58 PDF in byte-perfect mode: the file, the document, where each
    object is, the decryptor.  Every entry is direct (InStream is false).  The
    trailer, the size and the generation kept in the entries are left out (no
    lookup uses them). *)
Record perfect := mkPF { qRaw : bytes; qDoc : document; qXref : zmap Z; qDec : option decryptor }.

(** api.go:146-155: the entries of later revisions replace earlier ones; within
    one revision every number stands once, so the order of the Go map does not
    matter. *)
Definition revision_offsets (r : revision) : zmap Z := map (fun p => (fst p, roOffset (snd p))) (rvObjects r).

(** api.go:138-175 *)
Definition parseBytePerfect (inflate : bytes -> option bytes) (dec : option decryptor) (f : bytes) : result perfect :=
  rbind (ParsePDFDocument inflate f) (fun d => Ok (mkPF f d (merge (map revision_offsets (dRevisions d))) dec)).

(** api.go:82-136 with BytePerfect set; [crypt] as in ParseModel.Open. *)
Definition OpenPerfect (inflate : bytes -> option bytes) (crypt : bytes -> result (option decryptor)) (f : bytes) : result perfect :=
  if flen f <? 8 then Err
  else rbind (if mentions_encrypt f then crypt f else Ok None) (fun dec => parseBytePerfect inflate dec f).

(** api.go:253-259, both modes *)
Definition QRevisionCount (p : perfect) : nat := length (dRevisions (qDoc p)).
Definition PRevisionCount (p : pdf) : nat := length (FindAllEOFMarkers (pRaw p)).

(** api.go:262-279; [order] is the order of the Go map. *)
Definition QObjectCount (p : perfect) : nat := length (mkeys (qXref p)).
Definition QObjects (order : list Z -> list Z) (p : perfect) : list Z := order (mkeys (qXref p)).
Definition QHasObject (p : perfect) (n : Z) : bool := mem n (qXref p).

(** api.go:283-296 *)
Definition QGetObject (p : perfect) (n : Z) : result bytes :=
  match mget n (qXref p) with
  | None => Err
  | Some off => GetDirectObject (qDec p) (qRaw p) n off
  end.

(** api.go:300-313, byte-perfect mode *)
Definition QGetRawObject (p : perfect) (n : Z) : result rawobj :=
  match DGetObject (qDoc p) n with Some o => Ok o | None => Err end.

(** api.go:333-343 *)
Definition QBytes (p : perfect) : bytes := DBytes (qDoc p).
Definition QRaw (p : perfect) : bytes := qRaw p.
