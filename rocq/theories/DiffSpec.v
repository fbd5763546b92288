(** SPECIFICATION: when a statement of a diff is justified, and what a statement
    is about. *)
From Verif Require Import GoStr Token Ast Db Tidy Reconcile.

(** * What a statement is about *)
Definition mentions_table (t : string) (s : stmt) : bool :=
  match s with
  | CreateTable x => String.eqb (table_name x) t
  | DropTable _ _ n | AlterTable _ n _ => String.eqb (qname n) t
  | _ => false
  end.
Definition mentions_index (i : string) (s : stmt) : bool :=
  match s with
  | CreateIndex x => String.eqb (qname (cx_name x)) i
  | DropIndex _ _ n => String.eqb (qname n) i
  | _ => false
  end.

(** * Justification *)
(** A column of the same name [n] is on both sides, and satisfies [P]. *)
Definition column_change (tb ta : create_table) (n : ident) (P : column -> column -> Prop) : Prop :=
  exists b a, In b (ct_columns tb) /\ In a (ct_columns ta) /\
              id_name (c_name b) = id_name n /\ id_name (c_name a) = id_name n /\ P b a.
(** The constraint (or in-table index) [a] of [ta] is new or has changed. *)
Definition con_new (d : dialect) (tb ta : create_table) (a : constraint) : Prop :=
  In a (ct_constraints ta) /\
  (~ In (con_label a) (con_labels tb) \/
   exists b, In b (ct_constraints tb) /\ con_label b = con_label a /\
             con_value d (ct_name tb) b <> con_value d (ct_name ta) a).
(** The constraint (or in-table index) [b] of [tb] has vanished or has changed. *)
Definition con_old (d : dialect) (tb ta : create_table) (b : constraint) : Prop :=
  In b (ct_constraints tb) /\
  (~ In (con_label b) (con_labels ta) \/
   exists a, In a (ct_constraints ta) /\ con_label b = con_label a /\
             con_value d (ct_name tb) b <> con_value d (ct_name ta) a).

Definition type_of (c : column) : string * list tok := (dt_type (c_type c), etoks (dt_expr (c_type c))).

Definition action_justified (d : dialect) (tb ta : create_table) (a : action) : Prop :=
  match a with
  | AddColumn c => In c (ct_columns ta) /\ ~ In (id_name (c_name c)) (col_names tb)
  | DropColumn n => In (id_name n) (col_names tb) /\ ~ In (id_name n) (col_names ta)
  | SetDataType n t => column_change tb ta n (fun b a => type_of b <> type_of a /\ t = c_type a)
  | SetDefault n v => column_change tb ta n (fun b a => sem_default (c_default b) <> sem_default (c_default a) /\ v = c_default a)
  | DropDefault n => column_change tb ta n (fun b a => sem_default (c_default b) <> None /\ sem_default (c_default a) = None)
  | SetNotNull n => column_change tb ta n (fun b a => c_notnull b = false /\ c_notnull a = true)
  | DropNotNull n => column_change tb ta n (fun b a => c_notnull b = true /\ c_notnull a = false)
  | AddConstraint c _ => is_inner_index c = false /\ con_new d tb ta c
  | DropConstraint n => exists b, con_name b = n /\ is_inner_index b = false /\ con_old d tb ta b
  | ModifyColumn c => column_change tb ta (c_name c) (fun b a => sem_col d b <> sem_col d a /\ c_type c = c_type a)
  | TableOption n v => exists o, In o (ct_options ta) /\ o_name o = n /\ o_value o = v /\ counter_option o = false /\
      (~ In n (map o_name (ct_options tb)) \/
       exists b, In b (ct_options tb) /\ o_name b = n /\ etoks (o_value b) <> etoks v)
  | AlterDataType n t nn => column_change tb ta n (fun b a =>
      (type_of b <> type_of a \/ c_notnull b <> c_notnull a) /\ t = c_type a /\ nn = c_notnull a)
  | SetOptions n v => column_change tb ta n (fun b a => d = Sp /\ option_map toks (c_options b) <> option_map toks (c_options a) /\ v = c_options a)
  | DropOptions n => column_change tb ta n (fun b a => d = Sp /\ c_options b <> None /\ c_options a = None)
  | AddRowDeletion o => ct_rowdel tb = None /\ ct_rowdel ta = Some o
  | ReplaceRowDeletion o => exists b, ct_rowdel tb = Some b /\ ct_rowdel ta = Some o /\ etoks (o_value b) <> etoks (o_value o)
  | DropRowDeletion => ct_rowdel tb <> None /\ ct_rowdel ta = None
  | RenameTable _ | RenameColumn _ _ | RenameConstraint _ _ | AlterConstraint _ _ _ => False
  end.

Definition has_table (t : string) (l : ddl) : Prop := In t (map table_name (tables l)).
Definition has_index (i : string) (l : ddl) : Prop := In i (index_names l).
(** The two definitions of a table *)
Definition table_pair (b a : ddl) (tb ta : create_table) : Prop :=
  In tb (tables b) /\ In ta (tables a) /\ table_name tb = table_name ta.
(** Spanner: primary key or interleaving changed, the table has to be re-created. *)
Definition recreated (d : dialect) (b a : ddl) (t : string) : Prop :=
  d = Sp /\ exists tb ta, table_pair b a tb ta /\ table_name tb = t /\
    map (fun o => (o_name o, etoks (o_value o))) (ct_options tb) <> map (fun o => (o_name o, etoks (o_value o))) (ct_options ta).
(** In-table index statements of cockroachdb and mysql *)
Definition inner_name (d : dialect) (t : create_table) (c : constraint) : option string :=
  match inner_index d (ct_name t) c with [n] => Some n | _ => None end.

Definition stmt_justified (d : dialect) (b a : ddl) (s : stmt) : Prop :=
  match s with
  | CreateTable t => In t (tables a) /\ (~ has_table (table_name t) b \/ recreated d b a (table_name t))
  | DropTable _ _ n => has_table (qname n) b /\ (~ has_table (qname n) a \/ recreated d b a (qname n))
  | CreateIndex i =>
      (In i (indexes a) /\
       (~ has_index (qname (cx_name i)) b \/
        exists ib, In ib (indexes b) /\ qname (cx_name ib) = qname (cx_name i) /\ sem_index d ib <> sem_index d i))
      \/ exists tb ta c, table_pair b a tb ta /\ con_new d tb ta c /\ inner_name d ta c = Some (qname (cx_name i))
                         /\ con_value d (ct_name ta) c = Some (VIdx (sem_index d i))
  | DropIndex _ _ n =>
      (has_index (qname n) b /\
       (~ has_index (qname n) a \/
        exists ib ia, In ib (indexes b) /\ In ia (indexes a) /\ qname (cx_name ib) = qname n /\ qname (cx_name ia) = qname n
                      /\ sem_index d ib <> sem_index d ia))
      \/ exists tb ta c, table_pair b a tb ta /\ con_old d tb ta c /\ inner_name d tb c = Some (qname n)
  | AlterTable _ n act => exists tb ta, table_pair b a tb ta /\ qname n = table_name ta /\ action_justified d tb ta act
  end.

(** In terms of the catalogues: the table (the index) the statement is about is not
    the same in both. *)
Definition table_changes (m m' : db) (t : string) : Prop := exists k, owner k = Some t /\ m k <> m' k.
Definition subject_changes (m m' : db) (s : stmt) : Prop :=
  match s with
  | CreateTable t => table_changes m m' (table_name t)
  | DropTable _ _ n | AlterTable _ n _ => table_changes m m' (qname n)
  | CreateIndex i => m (KIdx (qname (cx_name i))) <> m' (KIdx (qname (cx_name i)))
  | DropIndex _ _ n => m (KIdx (qname n)) <> m' (KIdx (qname n))
  end.

(** No constraint turns into an in-table index of the same name, nor vice versa. *)
Definition same_kinds (b a : ddl) : bool :=
  all_pairs table_name (fun tb ta =>
    all_pairs con_label (fun x y => Bool.eqb (is_inner_index x) (is_inner_index y)) (ct_constraints tb) (ct_constraints ta))
    (tables b) (tables a).

(** * Order of the statements *)
(** The object has vanished; is new; exists on both sides. *)
Definition vanished (b a : ddl) (s : stmt) : Prop :=
  match s with
  | DropTable _ _ n => has_table (qname n) b /\ ~ has_table (qname n) a
  | DropIndex _ _ n => has_index (qname n) b /\ ~ has_index (qname n) a
  | _ => False
  end.
Definition appeared (b a : ddl) (s : stmt) : Prop :=
  match s with
  | CreateTable t => In t (tables a) /\ ~ has_table (table_name t) b
  | CreateIndex i => In i (indexes a) /\ ~ has_index (qname (cx_name i)) b
  | _ => False
  end.
Definition on_both (d : dialect) (b a : ddl) (s : stmt) : Prop :=
  match s with
  | CreateTable t => has_table (table_name t) b /\ has_table (table_name t) a
  | DropTable _ _ n | AlterTable _ n _ => has_table (qname n) b /\ has_table (qname n) a
  | CreateIndex i => (has_index (qname (cx_name i)) b /\ has_index (qname (cx_name i)) a)
      \/ exists tb ta c, table_pair b a tb ta /\ In c (ct_constraints ta) /\ inner_name d ta c = Some (qname (cx_name i))
  | DropIndex _ _ n => (has_index (qname n) b /\ has_index (qname n) a)
      \/ exists tb ta c, table_pair b a tb ta /\
           ((In c (ct_constraints tb) /\ inner_name d tb c = Some (qname n)) \/ (In c (ct_constraints ta) /\ inner_name d ta c = Some (qname n)))
  end.

Definition action_of (s : stmt) : option action := match s with AlterTable _ _ a => Some a | _ => None end.
(** Statements about the columns of a table *)
Definition about_column (s : stmt) : bool :=
  match action_of s with
  | Some (AddColumn _ | DropColumn _ | SetDataType _ _ | SetDefault _ _ | DropDefault _ | SetNotNull _ | DropNotNull _
         | ModifyColumn _ | AlterDataType _ _ _ | SetOptions _ _ | DropOptions _) => true
  | _ => false
  end.
(** Dropping a constraint or in-table index of [tb] that is not in [ta] *)
Definition drops_vanished (d : dialect) (tb ta : create_table) (s : stmt) : Prop :=
  exists b, In b (ct_constraints tb) /\ ~ In (con_label b) (con_labels ta) /\
  match s with
  | AlterTable _ _ (DropConstraint n) => is_inner_index b = false /\ con_name b = n
  | DropIndex _ _ n => inner_name d tb b = Some (qname n)
  | _ => False
  end.

(** * Names that can be told apart in a text *)
Fixpoint avoids (stop : string) (s : string) : bool :=
  match s with EmptyString => true | String c r => negb (has_byte c stop) && avoids stop r end.
(** An index on at least one column whose table has no blank in its name, and whose
    columns have no blank, comma or closing parenthesis in theirs.  (USING in front
    of the columns is rejected by the cockroachdb parser.) *)
Definition plain_index (i : create_index) : bool :=
  avoids " " (qname (cx_table i)) && forallb (fun c => avoids " ,)" (id_name (ci_ident c))) (cx_columns i)
  && match cx_columns i with [] => false | _ => true end && match cx_pre i with None => true | Some _ => false end.

(** The new name of a renamed table: the schema is that of the old table if none is given. *)
Definition new_name (b a : objname) : objname :=
  mkON (match on_schema a with Some s => Some s | None => on_schema b end) (on_name a).
(** The statement is about the table [n] (DROP INDEX does not say whose index it is). *)
Definition addresses (n : objname) (s : stmt) : Prop :=
  match s with
  | AlterTable _ m _ => m = n
  | CreateIndex i => cx_table i = n
  | DropIndex _ _ _ => True
  | _ => False
  end.
