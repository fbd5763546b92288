(** SPECIFICATION: a server that insists on the keys foreign keys refer to and reads the statements
    it is sent (C85).  As DepServer.v, every text is executed by itself with dependencies enforced,
    and a statement that fails changes nothing; as DbKeyed.v, a statement fails after which a
    foreign key to a table that is there would lack its key.  The server looks at the objects
    [ks].  (No batches: those are Spanner's, which asks for no keys.) *)
From Verif Require Import GoStr Token Ast Db Apply ApplySpec SqlRead SqlDb DbDep DbKeyed.
Local Open Scope list_scope.

Definition keyed_on (ks : list key) (m : db) : bool :=
  forallb (fun k => match m k with
    | Some (VCon (SForeign _ ref cols _)) =>
        negb (present (m (KTab ref))) || existsb (fun q => match m q with Some u => backs ref cols q u | None => false end) ks
    | _ => true
    end) ks.
Definition keyed_exec (ks : list key) (d : dialect) (s : stmt) (m : db) : option db :=
  match dep_exec d s m with
  | Some m' => if keyed_on ks m' then Some m' else None
  | None => None
  end.
Definition keyed_answer (ks : list key) (d : dialect) (q : string) (m : db) : db * option string :=
  match read_sent d as_written q with
  | None => (m, Some syntax_error)
  | Some s => match keyed_exec ks d s m with Some m' => (m', None) | None => (m, Some exec_error) end
  end.
(** The catalogue after the texts *)
Fixpoint keyed_after (ks : list key) (d : dialect) (qs : list string) (m : db) : db :=
  match qs with
  | [] => m
  | q :: r => keyed_after ks d r (fst (keyed_answer ks d q m))
  end.
Definition keyed_now (ks : list key) (d : dialect) (tr : list event) (m : db) : db := keyed_after ks d (map fst (sent tr)) m.
(** The database of the world is such a server, with the catalogue [m] at the beginning. *)
Definition keyed_served (ks : list key) (d : dialect) (m : db) (w : world) : Prop :=
  forall past q, w_exec w past q = snd (keyed_answer ks d q (keyed_now ks d past m)).
