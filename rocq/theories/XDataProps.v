(** Property theorems: connections (C96) and locales (C97) written and read back. *)
From Verif Require Import Util XDataSpec XDataProofs XDataProofs2 XDataProofs3.
From Coq Require Import Permutation.
Local Open Scope Z_scope.

(** Printable ASCII is conveyed by the indenting writer: the hypothesis
    [conveyed] of the theorems below is met by [indented ts]. *)
Theorem C96_conveyed_printable : forall ts, forallb plain_token ts = true -> conveyed false ts (indented ts).
Proof. exact indented_conveyed. Qed.
Print Assumptions C96_conveyed_printable.

(* ---------------------------------------------------------------- *)
(** C96, full statement: a connection set written with ConnectionSetToXFA is
    read back by ParseXFAConnectionSet: the same connections in order, with
    name, type, data description and every property.  Proved when no property
    has a name that means something else; a value comes back as its text
    without blanks around it, and a blank one not at all. *)
Theorem C96_roundtrip_partial : forall (V : Type) (show : V -> bytes) perm, (forall l, Permutation (perm l) l) ->
  forall cs ts us, ConnectionSetToXFA show perm cs = Some ts -> conveyed false ts us -> Forall plain_connection cs ->
  Forall2 (same_connection show) cs (ParseXFAConnectionSet us).
Proof. intros V show perm Hp cs ts us. apply connections_roundtrip, Hp. Qed.
Print Assumptions C96_roundtrip_partial.
(** A property without a name: nothing is written at all. *)
Theorem C96_unnamed_refused : forall (V : Type) (show : V -> bytes) perm, (forall l, Permutation (perm l) l) ->
  forall cs c, In c cs -> In [] (map fst (cProps c)) -> ConnectionSetToXFA show perm cs = None.
Proof. intros V show perm Hp cs c. apply connections_unnamed, Hp. Qed.
Print Assumptions C96_unnamed_refused.

Definition ident (t : bytes) : bytes := t.
Definition in_order (l : list (bytes * bytes)) := l.
Definition reread (cs : list (connection bytes)) : option (list (connection bytes)) :=
  option_map (fun ts => ParseXFAConnectionSet (indented ts)) (ConnectionSetToXFA ident in_order cs).
Definition ex_conn : connection bytes :=
  mkConn (bs "Orders") (bs "soap") (Some (mkDesc (bs "d1") (bs "orders.xsd") [] [(bs "depth", bs "2")])) [(bs "uri", bs "http://a/?x=1&y=<2>"); (bs "timeout", bs " 30 ")].
Definition ex_conns : list (connection bytes) := [ex_conn; mkConn (bs "Mail") [] None []].
Example C96_example : exists ts, ConnectionSetToXFA ident in_order ex_conns = Some ts /\ conveyed false ts (indented ts) /\ Forall plain_connection ex_conns /\
  ParseXFAConnectionSet (indented ts) =
    [mkConn (bs "Orders") (bs "soap") (Some (mkDesc (bs "d1") (bs "orders.xsd") [] [(bs "depth", bs "2")])) [(bs "uri", bs "http://a/?x=1&y=<2>"); (bs "timeout", bs "30")];
     mkConn (bs "Mail") [] None []].
Proof.
  eexists. split; [reflexivity|]. split; [apply indented_conveyed; reflexivity|]. split; [|reflexivity].
  constructor; [|constructor; [|constructor]].
  - split; [|split]. 
    + constructor; [|constructor; [intros []|constructor]]. intros [H|[]]; discriminate H.
    + intros k [<-|[<-|[]]] H; cbn in H; decompose [or] H; try discriminate; contradiction.
    + intros d E. injection E as <-. split; [constructor; [intros []|constructor]|]. intros k [<-|[]] H; cbn in H; decompose [or] H; try discriminate; contradiction.
  - split; [constructor|]. split; [intros k []|]. intros d E. discriminate E.
Qed.

(** What is missing. *)
(** "url" comes back as "uri"; with both, which of the two addresses survives
    depends on the order of the map. *)
Theorem C96_url_order_refuted : exists c us us',
  NoDup (map fst (cProps c)) /\
  option_map indented (ConnectionSetToXFA ident in_order [c]) = Some us /\ option_map indented (ConnectionSetToXFA ident (@rev _) [c]) = Some us' /\
  map cProps (ParseXFAConnectionSet us) = [[(bs "uri", bs "http://b")]] /\ map cProps (ParseXFAConnectionSet us') = [[(bs "uri", bs "http://a")]].
Proof.
  exists (mkConn (bs "c") [] None [(bs "uri", bs "http://a"); (bs "url", bs "http://b")]). eexists. eexists.
  split; [constructor; [intros [H|[]]; discriminate H|constructor; [intros []|constructor]]|]. repeat split; reflexivity.
Qed.
Print Assumptions C96_url_order_refuted.
(** A property "query" of the data description moves to the connection. *)
Theorem C96_description_refuted :
  reread [mkConn (bs "c") [] (Some (mkDesc [] [] [] [(bs "query", bs "select 1")])) []] =
  Some [mkConn (bs "c") [] (Some (mkDesc [] [] [] [])) [(bs "query", bs "select 1")]].
Proof. reflexivity. Qed.
Print Assumptions C96_description_refuted.
(** A property "connection" replaces the connection that holds it. *)
Theorem C96_connection_refuted :
  reread [mkConn (bs "c") (bs "soap") None [(bs "connection", bs "keep-alive")]] = Some [mkConn [] [] None []].
Proof. reflexivity. Qed.
Print Assumptions C96_connection_refuted.
(** An empty or blank value is lost. *)
Theorem C96_blank_refuted :
  reread [mkConn (bs "c") [] None [(bs "user", []); (bs "password", bs "  ")]] = Some [mkConn (bs "c") [] None []].
Proof. reflexivity. Qed.
Print Assumptions C96_blank_refuted.

(* ---------------------------------------------------------------- *)
(** C97, full statement: a locale set written with LocaleSetToXFA is read back
    unchanged by ParseXFALocaleSet.  Proved for every locale set whose
    precisions are not negative and whose holidays are not blank, have no
    blanks around them and do not hold the word "holiday". *)
Theorem C97_roundtrip_partial : forall s ts us, LocaleSetToXFA s = Some ts -> conveyed false ts us -> Forall tidy_locale (lsLocales s) ->
  ParseXFALocaleSet us = s.
Proof. exact locales_tidy. Qed.
Print Assumptions C97_roundtrip_partial.
(** For the others: exactly what comes back. *)
Theorem C97_read_back : forall s ts us, LocaleSetToXFA s = Some ts -> conveyed false ts us -> Forall locale_ints (lsLocales s) ->
  ParseXFALocaleSet us = mkLS (map read_locale (lsLocales s)) (lsDefault s).
Proof. exact locales_roundtrip. Qed.
Print Assumptions C97_read_back.
(** Writing does not fail. *)
Theorem C97_written : forall s, exists ts, LocaleSetToXFA s = Some ts.
Proof. exact locales_written. Qed.
Print Assumptions C97_written.
Definition ex_locale : locale :=
  mkLoc (bs "de_DE") (bs "Deutsch") (Some (mkCal (bs "gregorian") (bs "mon") [] [bs "1 January"; bs "3 October"])) (Some (mkCur (bs "EUR") (bs "Euro") 2))
    (Some (mkPat (bs "DD.MM.YYYY") [])) None (Some (mkNum (bs "z,zz9.99") [] (bs ".") (bs ",") 2)) (Some (mkText (bs "ltr") (bs "UTF-8"))).
Definition ex_locales : localeset := mkLS [ex_locale; mkLoc (bs "en") [] None None None None None None] (bs "de_DE").
Example C97_example : exists ts, LocaleSetToXFA ex_locales = Some ts /\ conveyed false ts (indented ts) /\ Forall tidy_locale (lsLocales ex_locales) /\
  ParseXFALocaleSet (indented ts) = ex_locales.
Proof.
  eexists. split; [reflexivity|]. split; [apply indented_conveyed; reflexivity|]. split; [|reflexivity].
  constructor; [|constructor; [|constructor]]; (split; [|split]).
  - intros c E. injection E as <-. cbn. lia.
  - intros c E. injection E as <-. cbn. lia.
  - intros c h E. injection E as <-. intros [<-|[<-|[]]]; (split; [discriminate|split; reflexivity]).
  - discriminate.
  - discriminate.
  - intros c h E. discriminate E.
Qed.
Definition with_holidays (l : list bytes) : localeset := mkLS [mkLoc (bs "en") [] (Some (mkCal [] [] [] l)) None None None None None] [].
Theorem C97_holiday_refuted : exists ts, LocaleSetToXFA (with_holidays [bs "New Year"; bs "Bank holiday"]) = Some ts /\
  ParseXFALocaleSet (indented ts) = with_holidays [bs "New Year"].
Proof. eexists. split; reflexivity. Qed.
Print Assumptions C97_holiday_refuted.
Theorem C97_precision_refuted : exists s ts, LocaleSetToXFA s = Some ts /\ map (fun l => option_map curPrecision (lCurrency l)) (lsLocales s) = [Some (-1)] /\
  map (fun l => option_map curPrecision (lCurrency l)) (lsLocales (ParseXFALocaleSet (indented ts))) = [Some 0].
Proof. exists (mkLS [mkLoc (bs "en") [] None (Some (mkCur (bs "USD") [] (-1))) None None None None] []). eexists. repeat split; reflexivity. Qed.
Print Assumptions C97_precision_refuted.
