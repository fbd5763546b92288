(** SPECIFICATION (C86): a database that refuses to drop what is still needed.

    Refines DbDep.v, where a table or column takes along what depends on it (CASCADE).  The
    statements of a diff are printed without CASCADE: a database that keeps everything whole
    refuses a statement after which an object lacks something it needs - a foreign key its
    table, say.  (An ALTER TABLE DROP COLUMN still takes along the keys and indexes of its own
    table that use the column, a DROP TABLE those of the table, as in Db.v.) *)
From Verif Require Import GoStr Token Ast Db Tidy Reconcile DbDep.

Definition whole (m : db) : Prop := forall k v, m k = Some v -> intact m k v = true.

Inductive tolerates (d : dialect) : ddl -> db -> db -> Prop :=
| tolerates_nil : forall m, tolerates d [] m m
| tolerates_cons : forall s r m m1 m2, exec d s m = Some m1 -> whole m1 -> tolerates d r m1 m2 -> tolerates d (s :: r) m m2.

(** Tables that go are dropped in the order of the old schema: none that goes later refers to one
    that goes earlier. *)
Definition gone (b a : ddl) : ddl := filter (fun s => negb (stays a s)) b.
Fixpoint dropped_in_order (d : dialect) (l : ddl) : bool :=
  match l with
  | [] => true
  | s :: r => match s with
              | CreateTable t => forallb (fun x => negb (mem_key (KTab (table_name t)) (referred d [x]))) r
              | _ => true
              end && dropped_in_order d r
  end.
