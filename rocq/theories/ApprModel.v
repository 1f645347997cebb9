(** Model of GetFieldAppearance, forms/acroform/flatten.go:101-142. *)
From Verif Require Import Util WriterModel ParseModel FormsModel.
Local Open Scope Z_scope.

(** flatten.go:111: /AP, white space, "<<", what is not ">", and ">>"; what is not ">" *)
Definition m_appearances (s : bytes) : option bytes :=
  do r <- lit (bs "/AP") s; do r <- lit (bs "<<") (ws0 r);
  do _ <- lit (bs ">>") (skipn (length (until ">" r)) r); Some (until ">" r).
(** flatten.go:118: /N\s+(\d+)\s+(\d+)\s+R, the first number *)
Definition m_normal (s : bytes) : option bytes :=
  do r <- lit (bs "/N") s; do r <- ws1 r; do (n, r) <- digits1 r; do r <- ws1 r; do (_, r) <- digits1 r; do r <- ws1 r;
  do _ <- lit (bs "R") r; Some n.
(** flatten.go:134: stream\s*\n(.*?)\nendstream.  The dot is any byte but a line
    feed, so the group ends at the first one; \s* takes as much as it can. *)
Definition m_line (s : bytes) : option bytes :=
  do _ <- lit (nl ++ bs "endstream") (skipn (length (until x0a s)) s); Some (until x0a s).
Fixpoint m_rest (s : bytes) : option bytes :=
  match s with
  | c :: s' =>
      if is_ws c then match m_rest s' with
                      | Some v => Some v
                      | None => if beqb c x0a then m_line s' else None
                      end
      else None
  | [] => None
  end.
Definition m_stream (s : bytes) : option bytes := do r <- lit (bs "stream") s; m_rest r.

(** flatten.go:101-142; [get] is parse.GetObject on the file, [n] the number of
    the field's object. *)
Definition GetFieldAppearance (get : Z -> result bytes) (n : Z) : result bytes :=
  rbind (get n) (fun t =>
  match search m_appearances t with
  | None => Err
  | Some ap =>
      match search m_normal ap with
      | None => Err
      | Some d =>
          rbind (get (atoi_clip d)) (fun o =>
          match search m_stream o with Some s => Ok s | None => Ok o end)
      end
  end).
