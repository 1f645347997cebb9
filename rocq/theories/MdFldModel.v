(** Model of core/write/metadata.go:183-213: a metadata record from named
    fields. *)
From Verif Require Import Base Util DatasetsModel TextModel.
Local Open Scope Z_scope.

(** The record of line 185 (version, page count and the encrypted flag, which
    this function never sets, are left out). *)
Definition empty_metadata : metadata := mkMeta [] [] [] [] [] [] [] [] [].

(** metadata.go:190-209: one round of the loop *)
Definition set_field (m : metadata) (kv : bytes * bytes) : metadata :=
  let '(key, value) := kv in
  let k := ToLower key in
  let '(mkMeta t a s w c p cd md cu) := m in
  if bytes_eqb k (bs "title") then mkMeta value a s w c p cd md cu
  else if bytes_eqb k (bs "author") then mkMeta t value s w c p cd md cu
  else if bytes_eqb k (bs "subject") then mkMeta t a value w c p cd md cu
  else if bytes_eqb k (bs "keywords") then mkMeta t a s value c p cd md cu
  else if bytes_eqb k (bs "creator") then mkMeta t a s w value p cd md cu
  else if bytes_eqb k (bs "producer") then mkMeta t a s w c value cd md cu
  else if bytes_eqb k (bs "creationdate") || bytes_eqb k (bs "creation_date") then mkMeta t a s w c p value md cu
  else if bytes_eqb k (bs "moddate") || bytes_eqb k (bs "mod_date") then mkMeta t a s w c p cd value cu
  else mkMeta t a s w c p cd md (kset key value cu).

(** metadata.go:184-213 NewMetadataFromFields.  [fields] lists the entries of
    the map in the order Go's iteration yields them. *)
Definition NewMetadataFromFields (fields : list (bytes * bytes)) : metadata := fold_left set_field fields empty_metadata.
