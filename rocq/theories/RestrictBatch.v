(** SPECIFICATION: Spanner as a server that refuses to drop what is still needed (C86).  As
    StrictDb.v for Spanner, with [restrict_exec] (RestrictDb.v) in the place of [dep_exec]: the
    statements of a batch are collected and executed at its end, in order; a failing one ends the
    batch.  The server looks at the objects [ks]. *)
From Verif Require Import GoStr Token Ast Db Apply ApplySpec SqlRead SqlDb DbDep RestrictDb.

Fixpoint restrict_batch (ks : list key) (l : list stmt) (m : db) : server * option string :=
  match l with
  | [] => (mkServer m None, None)
  | s :: r => match restrict_exec ks Sp s m with
              | Some m' => restrict_batch ks r m'
              | None => (mkServer m None, Some exec_error)
              end
  end.
Definition batch_answer (ks : list key) (q : string) (v : server) : server * option string :=
  if String.eqb q "START BATCH DDL" then
    match sv_batch v with None => (mkServer (sv_db v) (Some []), None) | Some _ => (v, Some batch_error) end
  else if String.eqb q "RUN BATCH" then
    match sv_batch v with Some l => restrict_batch ks l (sv_db v) | None => (v, Some batch_error) end
  else match read_sent Sp as_written q with
       | None => (v, Some syntax_error)
       | Some s => match sv_batch v with
                   | Some l => (mkServer (sv_db v) (Some (l ++ [s])%list), None)
                   | None => restrict_batch ks [s] (sv_db v)
                   end
       end.
(** The server after what it was sent *)
Fixpoint batch_texts (ks : list key) (qs : list string) (v : server) : server :=
  match qs with
  | [] => v
  | q :: r => batch_texts ks r (fst (batch_answer ks q v))
  end.
Definition batch_events (ks : list key) (tr : list event) (m : db) : server := batch_texts ks (map fst (sent tr)) (mkServer m None).
(** The database of the world is such a server, with the catalogue [m] at the beginning. *)
Definition batch_served (ks : list key) (m : db) (w : world) : Prop :=
  forall past q, w_exec w past q = snd (batch_answer ks q (batch_events ks past m)).
