(** What a user expects of the unified interface, stated without the model's
    helpers. *)
From Verif Require Import Util WriterModel ParseModel TextModel FormsModel UFormModel.
From Verif Require XfaModel.
Local Open Scope Z_scope.

(** AcroForm extraction found nothing to fill. *)
Definition fieldless (r : result acroform) : Prop := r = Err \/ exists a, r = Ok a /\ fmFields a = [].
(** XFA extraction found no template. *)
Definition templateless (r : result XfaModel.xstreams) : Prop :=
  r = Err \/ exists s, r = Ok s /\ forall i, kget (bs "template") s = Some i -> XfaModel.siData i = [].
