(** SPECIFICATION: a database server that reads the statements it is sent (C48).

    The server reads every text with the reader of SqlRead.v and executes what it read with
    [exec] (Db.v).  Spanner collects the statements of a batch and executes them at its end, in
    order; a failing statement ends the batch, those in front of it stay executed.  Nothing here
    mentions the commands of ddlctl, only the events of a run (Apply.v). *)
From Verif Require Import GoStr Token Ast Db Apply ApplySpec SqlRead.

(** The server keeps the constraints of a table as they are written. *)
Definition as_written (cs : list constraint) : list constraint := cs.

Record server := mkServer { sv_db : db; sv_batch : option (list stmt) }.
Definition syntax_error : string := "syntax error".
Definition exec_error : string := "statement failed".
Definition batch_error : string := "no batch or nested batch".

Definition execute (d : dialect) (s : stmt) (m : db) : server * option string :=
  match exec d s m with
  | Some m' => (mkServer m' None, None)
  | None => (mkServer m None, Some exec_error)
  end.
Fixpoint execute_batch (d : dialect) (l : list stmt) (m : db) : server * option string :=
  match l with
  | [] => (mkServer m None, None)
  | s :: r => match exec d s m with
              | Some m' => execute_batch d r m'
              | None => (mkServer m None, Some exec_error)
              end
  end.
Definition answer (d : dialect) (q : string) (v : server) : server * option string :=
  match d with
  | Sp =>
      if String.eqb q "START BATCH DDL" then
        match sv_batch v with None => (mkServer (sv_db v) (Some []), None) | Some _ => (v, Some batch_error) end
      else if String.eqb q "RUN BATCH" then
        match sv_batch v with Some l => execute_batch d l (sv_db v) | None => (v, Some batch_error) end
      else match read_sent d as_written q with
           | None => (v, Some syntax_error)
           | Some s => match sv_batch v with
                       | Some l => (mkServer (sv_db v) (Some (l ++ [s])%list), None)
                       | None => execute d s (sv_db v)
                       end
           end
  | _ => match read_sent d as_written q with
         | None => (v, Some syntax_error)
         | Some s => execute d s (sv_db v)
         end
  end.

(** The server after what it was sent *)
Fixpoint after_texts (d : dialect) (qs : list string) (v : server) : server :=
  match qs with
  | [] => v
  | q :: r => after_texts d r (fst (answer d q v))
  end.
Definition after_events (d : dialect) (tr : list event) (m : db) : server := after_texts d (map fst (sent tr)) (mkServer m None).

(** The database of the world is such a server, with the catalogue [m] at the beginning. *)
Definition served (d : dialect) (m : db) (w : world) : Prop :=
  forall past q, w_exec w past q = snd (answer d q (after_events d past m)).
(** Nothing fails outside of the database. *)
Definition working (w : world) : Prop :=
  w_load w = true /\ (forall p s, w_out w p s = true) /\ (forall p, w_open w p = true) /\ (forall p, w_conn w p = true).
