(** SPECIFICATION for C72: schemas in which every CREATE INDEX comes behind the
    CREATE TABLE of its table, which has the key columns.  (No database accepts the
    statements of a schema in another order.) *)
From Verif Require Import GoStr Token Ast Db Tidy Reconcile.

Definition carries (d : dialect) (i : create_index) (t : create_table) : bool :=
  String.eqb (table_name t) (qname (cx_table i))
  && forallb (fun k => memb (fst k) (col_names t)) (sem_keycols d (cx_columns i)).

(** [seen]: the tables so far. *)
Fixpoint placed_behind (d : dialect) (seen : list create_table) (l : ddl) : bool :=
  match l with
  | [] => true
  | CreateTable t :: r => placed_behind d (t :: seen) r
  | CreateIndex i :: r => existsb (carries d i) seen && placed_behind d seen r
  | _ :: r => placed_behind d seen r
  end.
Definition placed (d : dialect) (l : ddl) : bool := placed_behind d [] l.
