(** SPECIFICATION: a server that refuses to drop what is still needed and reads the statements it
    is sent (C86).  As SqlDb.v, every text is executed by itself, and a statement that fails changes
    nothing; as DbRefuse.v, a statement fails after which an object would lack something it needs.
    The server looks at the objects [ks] (in a catalogue [m] there may be others, for which the
    question is not asked).  (No batches: those are Spanner's.) *)
From Verif Require Import GoStr Token Ast Db Apply ApplySpec SqlRead SqlDb DbDep.
Local Open Scope list_scope.

Definition whole_on (ks : list key) (m : db) : bool :=
  forallb (fun k => match m k with Some v => intact m k v | None => true end) ks.
Definition restrict_exec (ks : list key) (d : dialect) (s : stmt) (m : db) : option db :=
  match exec d s m with
  | Some m' => if whole_on ks m' then Some m' else None
  | None => None
  end.
Definition restrict_answer (ks : list key) (d : dialect) (q : string) (m : db) : db * option string :=
  match read_sent d as_written q with
  | None => (m, Some syntax_error)
  | Some s => match restrict_exec ks d s m with Some m' => (m', None) | None => (m, Some exec_error) end
  end.
(** The catalogue after the texts *)
Fixpoint restrict_after (ks : list key) (d : dialect) (qs : list string) (m : db) : db :=
  match qs with
  | [] => m
  | q :: r => restrict_after ks d r (fst (restrict_answer ks d q m))
  end.
Definition restrict_now (ks : list key) (d : dialect) (tr : list event) (m : db) : db := restrict_after ks d (map fst (sent tr)) m.
(** The database of the world is such a server, with the catalogue [m] at the beginning. *)
Definition restrict_served (ks : list key) (d : dialect) (m : db) (w : world) : Prop :=
  forall past q, w_exec w past q = snd (restrict_answer ks d q (restrict_now ks d past m)).
