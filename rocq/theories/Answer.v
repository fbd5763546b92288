(** Specification for C89: what a difference has to contain, as a relation between
    two schemas and a statement.  No definition of the comparison (Diff.v) is used;
    the texts that are compared and printed are those of Ast.v, the names those of Db.v. *)
From Verif Require Import GoStr Token Ast Db.

(** The first element with a property *)
Definition first_with {A} (P : A -> Prop) (l : list A) (x : A) : Prop :=
  exists l1 l2, l = (l1 ++ x :: l2)%list /\ P x /\ forall y, In y l1 -> ~ P y.
(** No element with a property *)
Definition none_with {A} (P : A -> Prop) (l : list A) : Prop := forall y, In y l -> ~ P y.

(** The statements for one object, by kind and name *)
Definition for_table (q : string) (s : stmt) : Prop := match s with CreateTable t => qname (ct_name t) = q | _ => False end.
Definition for_index (q : string) (s : stmt) : Prop := match s with CreateIndex i => qname (cx_name i) = q | _ => False end.
(** Columns, constraints and options by name *)
Definition column_called (q : string) (c : column) : Prop := id_name (c_name c) = q.
Definition label (c : constraint) : string := match con_name c with Some i => id_name i | None => "" end.
Definition called (q : string) (c : constraint) : Prop := label c = q.
Definition option_called (q : string) (o : option_) : Prop := o_name o = q.
(** Declared inside of CREATE TABLE, but an index of its own *)
Definition own_index (d : dialect) (c : constraint) : Prop :=
  match c with CIndex _ _ _ _ _ => d = Crdb \/ d = My | _ => False end.
(** The name of such an index: in MySQL in the schema of its table *)
Definition own_name (d : dialect) (t : objname) (c : constraint) : objname :=
  mkON (match d with My => on_schema t | _ => None end)
       (match con_name c with Some i => i | None => mkIdent "" "" "" end).
(** CREATE INDEX for such an index *)
Definition own_create (d : dialect) (cmt : string) (t : objname) (c : constraint) : stmt :=
  match c with
  | CIndex _ unique pre cols post => CreateIndex (mkCX cmt unique false (own_name d t c) t [] pre cols post)
  | _ => CreateIndex (mkCX cmt false false (own_name d t c) t [] None [] None)
  end.
(** The shadow column of a hash-sharded index (CockroachDB) *)
Definition shadow (d : dialect) (c : column) : Prop :=
  d = Crdb /\ c_notvisible c = true /\ exists a, c_as c = Some a /\ as_type a = "VIRTUAL"%string.

Section Spec.
Variable d : dialect.
(** The text of the comment above a statement *)
Variable cmt : string -> string -> string.

(** What is to be done about a column [b] of a table that is now [a] *)
Inductive column_change (b a : column) : action -> Prop :=
| cc_type : d = Pg \/ d = Crdb -> datatype_diff (c_type b) <> datatype_diff (c_type a) ->
    column_change b a (SetDataType (c_name a) (c_type a))
| cc_spanner_type : d = Sp -> datatype_diff (c_type b) <> datatype_diff (c_type a) \/ c_notnull b <> c_notnull a ->
    column_change b a (AlterDataType (c_name a) (c_type a) (c_notnull a))
| cc_drop_default : c_default b <> None -> c_default a = None -> column_change b a (DropDefault (c_name a))
| cc_set_default : d <> My -> c_default a <> None -> default_diff d (c_default b) <> default_diff d (c_default a) ->
    column_change b a (SetDefault (c_name a) (c_default a))
| cc_drop_not_null : d = Pg \/ d = Crdb -> c_notnull b = true -> c_notnull a = false -> column_change b a (DropNotNull (c_name a))
| cc_set_not_null : d = Pg \/ d = Crdb -> c_notnull b = false -> c_notnull a = true -> column_change b a (SetNotNull (c_name a))
| cc_drop_options : d = Sp -> c_options b <> None -> c_options a = None -> column_change b a (DropOptions (c_name a))
| cc_set_options : d = Sp -> c_options a <> None -> expr_diff (c_options b) <> expr_diff (c_options a) ->
    column_change b a (SetOptions (c_name a) (c_options a))
| cc_modify : d = My ->
    datatype_diff (c_type b) <> datatype_diff (c_type a) \/ oident_diff (c_charset b) <> oident_diff (c_charset a)
    \/ oident_diff (c_collate b) <> oident_diff (c_collate a) \/ c_notnull b <> c_notnull a
    \/ ((c_default b = None \/ c_default a <> None) /\ default_diff d (c_default b) <> default_diff d (c_default a))
    \/ c_autoinc b <> c_autoinc a \/ c_onaction b <> c_onaction a \/ c_comment b <> c_comment a ->
    column_change b a (ModifyColumn
      (mkCol (c_name a) (c_type a) (c_default a) (c_notnull a) false None None (c_collate a)
             (c_autoinc a) (c_onaction a) (c_comment a) None)).

(** What is to be done about a table [b] that is now [a], under the same name *)
Inductive table_change (b a : create_table) : stmt -> Prop :=
| tc_column : forall x y t, In x (ct_columns b) -> first_with (column_called (id_name (c_name x))) (ct_columns a) y ->
    column_change x y t ->
    table_change b a (AlterTable (cmt (column_string d x) (column_string d y)) (ct_name a) t)
| tc_drop_column : forall x, In x (ct_columns b) -> none_with (column_called (id_name (c_name x))) (ct_columns a) -> ~ shadow d x ->
    table_change b a (AlterTable (cmt (column_string d x) "") (ct_name a) (DropColumn (c_name x)))
| tc_add_column : forall y, In y (ct_columns a) -> none_with (column_called (id_name (c_name y))) (ct_columns b) ->
    table_change b a (AlterTable (cmt "" (column_string d y)) (ct_name a) (AddColumn y))
| tc_drop_constraint : forall x, In x (ct_constraints b) -> none_with (called (label x)) (ct_constraints a) -> ~ own_index d x ->
    table_change b a (AlterTable (cmt (constraint_string d x) "") (ct_name a) (DropConstraint (con_name x)))
| tc_drop_index : forall x, In x (ct_constraints b) -> none_with (called (label x)) (ct_constraints a) -> own_index d x ->
    table_change b a (DropIndex (cmt (constraint_diff d x) "") false (own_name d (ct_name b) x))
| tc_change_constraint_drop : forall x y, In x (ct_constraints b) -> first_with (called (label x)) (ct_constraints a) y ->
    constraint_diff d x <> constraint_diff d y -> ~ own_index d y ->
    table_change b a (AlterTable (cmt (constraint_string d x) "") (ct_name a) (DropConstraint (con_name x)))
| tc_change_constraint_add : forall x y, In x (ct_constraints b) -> first_with (called (label x)) (ct_constraints a) y ->
    constraint_diff d x <> constraint_diff d y -> ~ own_index d y ->
    table_change b a (AlterTable (cmt "" (constraint_string d y)) (ct_name a) (AddConstraint y false))
| tc_change_index_drop : forall x y, In x (ct_constraints b) -> first_with (called (label x)) (ct_constraints a) y ->
    constraint_diff d x <> constraint_diff d y -> own_index d y ->
    table_change b a (DropIndex (match d with My => ""%string | _ => cmt (constraint_string d x) (constraint_string d y) end)
                                false (own_name d (ct_name b) x))
| tc_change_index_create : forall x y, In x (ct_constraints b) -> first_with (called (label x)) (ct_constraints a) y ->
    constraint_diff d x <> constraint_diff d y -> own_index d y ->
    table_change b a (own_create d "" (ct_name a) y)
| tc_add_constraint : forall y, In y (ct_constraints a) -> none_with (called (label y)) (ct_constraints b) -> ~ own_index d y ->
    table_change b a (AlterTable (cmt "" (constraint_string d y)) (ct_name a) (AddConstraint y false))
| tc_create_index : forall y, In y (ct_constraints a) -> none_with (called (label y)) (ct_constraints b) -> own_index d y ->
    table_change b a (own_create d (cmt "" (constraint_diff d y)) (ct_name a) y)
| tc_option : forall x y, d = My -> In x (ct_options b) -> to_upper (o_name x) <> "AUTO_INCREMENT"%string ->
    first_with (option_called (o_name x)) (ct_options a) y -> option_diff d x <> option_diff d y ->
    table_change b a (AlterTable (cmt (option_string d x) (option_string d y)) (ct_name a) (TableOption (o_name y) (o_value y)))
| tc_new_option : forall y, d = My -> In y (ct_options a) -> to_upper (o_name y) <> "AUTO_INCREMENT"%string ->
    none_with (option_called (o_name y)) (ct_options b) ->
    table_change b a (AlterTable (cmt "" (option_string d y)) (ct_name a) (TableOption (o_name y) (o_value y)))
| tc_add_policy : forall y, d = Sp -> ct_rowdel b = None -> ct_rowdel a = Some y -> option_diff d y <> ""%string ->
    table_change b a (AlterTable (cmt "" (option_string d y)) (ct_name a) (AddRowDeletion y))
| tc_drop_policy : forall x, d = Sp -> ct_rowdel b = Some x -> ct_rowdel a = None -> option_diff d x <> ""%string ->
    table_change b a (AlterTable (cmt (option_string d x) "") (ct_name a) DropRowDeletion)
| tc_replace_policy : forall x y, d = Sp -> ct_rowdel b = Some x -> ct_rowdel a = Some y -> option_diff d x <> option_diff d y ->
    table_change b a (AlterTable (cmt (option_string d x) (option_string d y)) (ct_name a) (ReplaceRowDeletion y)).

(** Options of a Spanner table (primary key, interleaving) cannot be altered. *)
Definition recreate (b a : create_table) : Prop := d = Sp /\ options_diff d (ct_options b) <> options_diff d (ct_options a).

(** What is to be done to get from one schema to another *)
Inductive asked (before after : ddl) : stmt -> Prop :=
| as_drop_table : forall t, In (CreateTable t) before -> none_with (for_table (qname (ct_name t))) after ->
    asked before after (DropTable "" false (ct_name t))
| as_drop_index : forall i, In (CreateIndex i) before -> none_with (for_index (qname (cx_name i))) after ->
    asked before after (DropIndex "" false (cx_name i))
| as_create_table : forall t, In (CreateTable t) after -> none_with (for_table (qname (ct_name t))) before ->
    asked before after (CreateTable t)
| as_create_index : forall i, In (CreateIndex i) after -> none_with (for_index (qname (cx_name i))) before ->
    asked before after (CreateIndex i)
| as_change_index_drop : forall i j, In (CreateIndex i) before -> first_with (for_index (qname (cx_name i))) after (CreateIndex j) ->
    create_index_diff d i <> create_index_diff d j ->
    asked before after (DropIndex (cmt (create_index_diff d i) (create_index_diff d j)) false (cx_name i))
| as_change_index_create : forall i j, In (CreateIndex i) before -> first_with (for_index (qname (cx_name i))) after (CreateIndex j) ->
    create_index_diff d i <> create_index_diff d j -> asked before after (CreateIndex j)
| as_recreate_drop : forall b a, In (CreateTable b) before -> first_with (for_table (qname (ct_name b))) after (CreateTable a) ->
    recreate b a ->
    asked before after (DropTable (cmt (options_string d (ct_options b)) (options_string d (ct_options a))) false (ct_name b))
| as_recreate_create : forall b a, In (CreateTable b) before -> first_with (for_table (qname (ct_name b))) after (CreateTable a) ->
    recreate b a -> asked before after (CreateTable a)
| as_change_table : forall b a s, In (CreateTable b) before -> first_with (for_table (qname (ct_name b))) after (CreateTable a) ->
    ~ recreate b a -> create_table_string d b <> create_table_string d a -> table_change b a s -> asked before after s.
End Spec.
