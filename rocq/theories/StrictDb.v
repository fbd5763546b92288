(** SPECIFICATION: a server that reads the statements it is sent and enforces the dependencies
    between its objects, in all four dialects (C48, C19).  As SqlDb.v, with [dep_exec] (DbDep.v) in
    the place of [exec]: a statement that needs what is not there fails and changes nothing,
    dropping a table or a column drops what depends on it.  Spanner collects the statements of a
    batch and executes them at its end, in order; a failing one ends the batch. *)
From Verif Require Import GoStr Token Ast Db Apply ApplySpec SqlRead SqlDb DbDep.

Definition strict_execute (d : dialect) (s : stmt) (m : db) : server * option string :=
  match dep_exec d s m with
  | Some m' => (mkServer m' None, None)
  | None => (mkServer m None, Some exec_error)
  end.
Fixpoint strict_batch (d : dialect) (l : list stmt) (m : db) : server * option string :=
  match l with
  | [] => (mkServer m None, None)
  | s :: r => match dep_exec d s m with
              | Some m' => strict_batch d r m'
              | None => (mkServer m None, Some exec_error)
              end
  end.
Definition strict_answer (d : dialect) (q : string) (v : server) : server * option string :=
  match d with
  | Sp =>
      if String.eqb q "START BATCH DDL" then
        match sv_batch v with None => (mkServer (sv_db v) (Some []), None) | Some _ => (v, Some batch_error) end
      else if String.eqb q "RUN BATCH" then
        match sv_batch v with Some l => strict_batch d l (sv_db v) | None => (v, Some batch_error) end
      else match read_sent d as_written q with
           | None => (v, Some syntax_error)
           | Some s => match sv_batch v with
                       | Some l => (mkServer (sv_db v) (Some (l ++ [s])%list), None)
                       | None => strict_execute d s (sv_db v)
                       end
           end
  | _ => match read_sent d as_written q with
         | None => (v, Some syntax_error)
         | Some s => strict_execute d s (sv_db v)
         end
  end.

(** The server after what it was sent *)
Fixpoint strict_texts (d : dialect) (qs : list string) (v : server) : server :=
  match qs with
  | [] => v
  | q :: r => strict_texts d r (fst (strict_answer d q v))
  end.
Definition strict_events (d : dialect) (tr : list event) (m : db) : server := strict_texts d (map fst (sent tr)) (mkServer m None).

(** The database of the world is such a server, with the catalogue [m] at the beginning. *)
Definition strictly_served (d : dialect) (m : db) (w : world) : Prop :=
  forall past q, w_exec w past q = snd (strict_answer d q (strict_events d past m)).
