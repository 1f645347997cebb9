(** C115: XFA configurations, locale sets and connection sets, read from any
    document and written into documents, by what the documents say. *)
From Coq Require Import Permutation.
From Verif Require Import XForeignSpec XForeignProofs XForeignProofs2 XForeignProofs3.
Local Open Scope Z_scope.

(** C115, full statement: whatever a configuration, locale set or connection
    set document says in the attributes of its elements is what the reader
    returns, for every sequence of tokens, and what a writer is given is what
    its document says.  Not proved here: the texts between the tags (properties
    and holidays; see C96, C97 and C99).  Refuted: the attributes of validate,
    common and output. *)
Theorem C115_locale_read : forall ts,
  says (bs "default") (attributes (bs "localeSet") ts) (lsDefault (ParseXFALocaleSet ts)) /\
  Forall2 says_locale (elements (bs "locale") None ts) (lsLocales (ParseXFALocaleSet ts)).
Proof. exact locale_set_says. Qed.
Print Assumptions C115_locale_read.
Theorem C115_connection_read : forall ts, Forall2 says_connection (elements (bs "connection") None ts) (ParseXFAConnectionSet ts).
Proof. exact connection_set_says. Qed.
Print Assumptions C115_connection_read.
Theorem C115_config_read_partial : forall ts c, ParseXFAConfig ts = Some c ->
  section (bs "present") ts (says_present ts) (gPresent c) /\ section (bs "submit") ts says_submit (gSubmit c) /\
  section (bs "destination") ts (fun a d => says (bs "type") a (fst d) /\ says (bs "target") a (snd d)) (gDestination c) /\
  section (bs "acrobat") ts says_acrobat (gAcrobat c) /\
  section (bs "validate") ts (fun _ v => v = ([], [], [])) (gValidate c) /\ section (bs "common") ts (fun _ v => v = ([], [])) (gCommon c) /\
  section (bs "output") ts (fun _ v => v = ([], [])) (gOutput c) /\ gTrace c = None.
Proof. exact config_says. Qed.
Print Assumptions C115_config_read_partial.
Theorem C115_locale_written : forall s ts, LocaleSetToXFA s = Some ts -> Forall locale_numbers (lsLocales s) ->
  says (bs "default") (attributes (bs "localeSet") ts) (lsDefault s) /\ Forall2 says_locale (elements (bs "locale") None ts) (lsLocales s).
Proof. exact locale_set_written. Qed.
Print Assumptions C115_locale_written.
Theorem C115_connection_written : forall (V : Type) (show : V -> bytes) perm, (forall l, Permutation (perm l) l) ->
  forall (cs : list (connection V)) ts, ConnectionSetToXFA show perm cs = Some ts -> Forall plain_connection cs ->
  Forall2 says_connection (elements (bs "connection") None ts) cs.
Proof. exact @connections_written. Qed.
Print Assumptions C115_connection_written.
Theorem C115_config_written : forall (V : Type) (show : V -> bytes) perm, (forall l, Permutation (perm l) l) ->
  forall (c : config V) ts, ConfigToXFA show perm c = Some ts -> (forall k, In k (map fst (gProps c)) -> plain_name k) ->
  (forall p i, gPresent c = Some p -> prInteractive p = Some i -> natural (inPage i)) -> (forall a, gAcrobat c = Some a -> natural (acAutoSaveTime a)) ->
  (forall s, gSubmit c = Some s -> suProps s = []) ->
  section (bs "present") ts (says_present ts) (gPresent c) /\ section (bs "submit") ts says_submit (gSubmit c) /\
  section (bs "destination") ts (says_two (bs "type") (bs "target")) (gDestination c) /\ section (bs "acrobat") ts says_acrobat (gAcrobat c) /\
  section (bs "validate") ts says_validate (gValidate c) /\ section (bs "common") ts (says_two (bs "dataPrefix") (bs "timeStamp")) (gCommon c) /\
  section (bs "output") ts (says_two (bs "format") (bs "destination")) (gOutput c).
Proof. exact @config_written. Qed.
Print Assumptions C115_config_written.
(** What a text says is one thing, so the records above fix every field. *)
Theorem C115_says_one : forall k a v w, says k a v -> says k a w -> v = w.
Proof. exact says_unique. Qed.
Print Assumptions C115_says_one.
(** A document of another program: the second attribute of a name wins, ids are
    codes, a precision that is not a number counts for nothing. *)
Definition foreign_locales : list token :=
  [TStart (bs "localeSet") [(bs "default", bs "de")]; TChars (bs " "); TStart (bs "locale") [(bs "id", bs "de"); (bs "name", bs "Deutsch"); (bs "desc", bs "x")];
   TStart (bs "currency") [(bs "precision", bs "2"); (bs "precision", bs "two"); (bs "symbol", bs "EUR")]; TEnd (bs "currency"); TStart (bs "unknown") []; TEnd (bs "unknown");
   TEnd (bs "locale"); TStart (bs "locale") []; TEnd (bs "locale"); TEnd (bs "localeSet")].
Example C115_locale_example : lsDefault (ParseXFALocaleSet foreign_locales) = bs "de" /\ lsLocales (ParseXFALocaleSet foreign_locales) =
  [mkLoc (bs "de") (bs "Deutsch") None (Some (mkCur (bs "EUR") [] 2)) None None None None; mkLoc [] [] None None None None None None].
Proof. split; reflexivity. Qed.
Definition foreign_config : list token :=
  [TStart (bs "config") []; TStart (bs "pdf") [(bs "version", bs "1.3")]; TEnd (bs "pdf"); TStart (bs "present") [(bs "renderPolicy", bs "client")];
   TStart (bs "pdf") [(bs "version", bs "1.7"); (bs "tagged", bs "TRUE")]; TEnd (bs "pdf"); TEnd (bs "present");
   TStart (bs "submit") [(bs "format", bs "xdp"); (bs "id", bs "s1")]; TEnd (bs "submit"); TEnd (bs "config")].
Example C115_config_example : ParseXFAConfig foreign_config =
  Some (mkConfig (Some (mkPresent (Some (mkPDF (bs "1.7") [] false [] false true false)) None None None None (bs "client") [])) None
    (Some (mkSubmit (bs "xdp") [] [] false [] [] [(bs "id", bs "s1")])) None None None None None None []).
Proof. reflexivity. Qed.
Definition ours : config bytes := mkConfig None (Some (bs "error", bs "warning", [])) (Some (mkSubmit (bs "xdp") (bs "http://a/") [] true [] [] [])) None
  (Some (mkAcrobat true 5 [] [])) None (Some (bs "pdf", [])) None None [(bs "locale", bs "en")].
Example C115_written_example : exists ts, ConfigToXFA (fun x => x) (fun l => l) ours = Some ts /\ (forall k, In k (map fst (gProps ours)) -> plain_name k) /\
  attributes (bs "validate") ts = [(bs "scriptTest", bs "error"); (bs "nullTest", bs "warning")] /\ attributes (bs "acrobat") ts = [(bs "autoSave", bs "1"); (bs "autoSaveTime", bs "5")].
Proof.
  eexists. split; [reflexivity|]. split; [|split; reflexivity]. intros k [<-|[]] Q. cbn in Q. decompose [or] Q; try discriminate; contradiction.
Qed.
(** The tests of a validate element are not read. *)
Theorem C115_validate_refuted : option_map gValidate (ParseXFAConfig [TStart (bs "config") []; TStart (bs "validate") [(bs "nullTest", bs "error")]; TEnd (bs "validate"); TEnd (bs "config")]) =
  Some (Some ([], [], [])).
Proof. reflexivity. Qed.
Print Assumptions C115_validate_refuted.
