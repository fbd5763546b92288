(** SPECIFICATION (C76): a schema that only gains, or only loses, objects; statements that
    only add or only remove. *)
From Verif Require Import GoStr Token Ast Db Tidy Reconcile DbDep.

(** Every object of [m] - table, column, constraint, index, option, row deletion policy -
    is in [m'] as it is. *)
Definition part_of (m m' : db) : Prop := forall k v, m k = Some v -> m' k = Some v.

(** The statement creates something, and changes and removes nothing. *)
Definition only_adds (s : stmt) : bool :=
  match s with
  | CreateTable _ | CreateIndex _ => true
  | AlterTable _ _ (AddColumn _ | AddConstraint _ _ | TableOption _ _ | AddRowDeletion _) => true
  | _ => false
  end.
(** The statement removes something, and changes and creates nothing. *)
Definition only_removes (s : stmt) : bool :=
  match s with
  | DropTable _ _ _ | DropIndex _ _ _ => true
  | AlterTable _ _ (DropColumn _ | DropConstraint _ | DropRowDeletion) => true
  | _ => false
  end.

(** The statement sets the table option of this table to a value. *)
Definition sets_option (s : stmt) : option key :=
  match s with AlterTable _ n (TableOption o _) => Some (KOpt (qname n) o) | _ => None end.

(** What comes into a schema that grows needs nothing that comes later: a new table or index
    needs what was there and the new ones in front of it - and itself -, a table that stays
    what was there, the new tables, and itself; and everything needed is declared. *)
Definition grows_in_order (d : dialect) (b a : ddl) : bool :=
  closed d b && closed d a && created_in_order d (keys d b) (fresh b a)
  && forallb (fun s => match partner s a with
                       | Some p => DbDep.within (needed d [p]) (keys d b ++ keys d (fresh b a) ++ keys d [p])%list
                       | None => false
                       end) b.
