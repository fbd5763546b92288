(** SPECIFICATION: a PostgreSQL or CockroachDB server that enforces the dependencies between its
    objects (C93).  As SqlDb.v, with [dep_exec] (DbDep.v) in the place of [exec]: every text is
    read with the reader of SqlRead.v and executed by itself; a statement that fails changes
    nothing.  (No batches: those are Spanner's.) *)
From Verif Require Import GoStr Token Ast Db Apply ApplySpec SqlRead SqlDb DbDep.
Local Open Scope list_scope.

Definition dep_answer (d : dialect) (q : string) (m : db) : db * option string :=
  match read_sent d as_written q with
  | None => (m, Some syntax_error)
  | Some s => match dep_exec d s m with Some m' => (m', None) | None => (m, Some exec_error) end
  end.
(** The catalogue after the texts *)
Fixpoint dep_after (d : dialect) (qs : list string) (m : db) : db :=
  match qs with
  | [] => m
  | q :: r => dep_after d r (fst (dep_answer d q m))
  end.
Definition dep_now (d : dialect) (tr : list event) (m : db) : db := dep_after d (map fst (sent tr)) m.
(** The database of the world is such a server, with the catalogue [m] at the beginning. *)
Definition dep_served (d : dialect) (m : db) (w : world) : Prop :=
  forall past q, w_exec w past q = snd (dep_answer d q (dep_now d past m)).
