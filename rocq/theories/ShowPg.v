(** The show command for PostgreSQL: pkg/show/postgres/show_create_all_tables.go.  Its two queries
    are modelled as functions on a description of the database; rows for which the query gives no
    order come in the order of the description; errors of queries are left out. *)
From Verif Require Import GoStr Show.

(** * Content of a database *)

(** A column; [pc_detail]: what data_type and character_maximum_length do not tell of the type
    (precision and scale of a number, elements of an array, name of an enumeration).  Read from information_schema.columns by show_create_all_tables.go:25-42 *)
Record p_column := mkPColumn {
  pc_name : string; pc_type : string; pc_length : option string; pc_detail : string; pc_nullable : bool; pc_default : option string }.
(** Constraint_type of information_schema.table_constraints: show_create_all_tables.go:44-76 *)
Inductive p_kind :=
| PPrimary | PUnique
| PForeign (ref : string) (refcols : list string) (update delete : string)
| PCheck (text : string).
(** Information_schema.table_constraints and key_column_usage: show_create_all_tables.go:44-76 *)
Record p_constraint := mkPConstraint { pk_name : string; pk_kind : p_kind; pk_columns : list string }.
(** An index that does not belong to a constraint: its name and its definition.  A row of pg_indexes: show_create_all_tables.go:95-107 *)
Record p_index := mkPIndex { pi_name : string; pi_def : string }.
(** A table or a view ([pt_view]).  show_create_all_tables.go:18-107 *)
Record p_table := mkPTable {
  pt_schema : string; pt_name : string; pt_view : bool; pt_columns : list p_column; pt_constraints : list p_constraint; pt_indexes : list p_index }.

(** * Columns *)

(** show_create_all_tables.go:30-33: the text of a column *)
Definition p_column_text (c : p_column) : string :=
  pc_name c ++ " " ++ pc_type c
  ++ (match pc_length c with Some n => "(" ++ n ++ ")" | None => "" end)
  ++ (if pc_nullable c then "" else " NOT NULL")
  ++ (match pc_default c with Some x => " DEFAULT " ++ x | None => "" end).
(** The separator given to string_agg: show_create_all_tables.go:34, 53 *)
Definition agg_sep : string := "," ++ nl ++ "  ".
(** show_create_all_tables.go:25-42: information_schema.columns lists views as well; a table without
    columns has no row and no group. *)
Definition column_defs (t : p_table) : option string :=
  match pt_columns t with [] => None | l => Some (join agg_sep (map p_column_text l)) end.

(** * Constraints *)

(** Tc.constraint_type: show_create_all_tables.go:50 *)
Definition kind_text (k : p_kind) : string :=
  match k with PPrimary => "PRIMARY KEY" | PUnique => "UNIQUE" | PForeign _ _ _ _ => "FOREIGN KEY" | PCheck _ => "CHECK" end.
(** information_schema.referential_constraints: the rules of all foreign keys; show_create_all_tables.go:70-71 *)
Definition referential_rows (db : list p_table) : list (string * (string * string)) :=
  flat_map (fun t => flat_map (fun c => match pk_kind c with PForeign _ _ u d => [(pk_name c, (u, d))] | _ => [] end) (pt_constraints t)) db.
(** show_create_all_tables.go:50-52 *)
Definition constraint_row (c : p_constraint) (rules : option (string * string)) : string :=
  "CONSTRAINT " ++ pk_name c ++ " " ++ kind_text (pk_kind c) ++ " (" ++ join ", " (pk_columns c) ++ ")"
  ++ (match rules with Some (u, _) => " ON UPDATE " ++ u | None => "" end)
  ++ (match rules with Some (_, d) => " ON DELETE " ++ d | None => "" end).
(** LEFT JOIN ... ON tc.constraint_name = rc.constraint_name (show_create_all_tables.go:70-71): one
    row for each foreign key of that name, in whatever table *)
Definition constraint_rows (db : list p_table) (c : p_constraint) : list string :=
  match filter (fun r => String.eqb (pk_name c) (fst r)) (referential_rows db) with
  | [] => [constraint_row c None]
  | l => map (fun r => constraint_row c (Some (snd r))) l
  end.
(** show_create_all_tables.go:44-76: JOIN with the columns of key_column_usage, where CHECK
    constraints have none; the kinds asked for *)
Definition asked_kind (k : p_kind) : bool := match k with PCheck _ => false | _ => true end.
(** JOIN key_column_usage: show_create_all_tables.go:57-69 *)
Definition has_columns (c : p_constraint) : bool := match pk_columns c with [] => false | _ => true end.
(** show_create_all_tables.go:44-76 *)
Definition constraint_defs (db : list p_table) (t : p_table) : option string :=
  match flat_map (constraint_rows db) (filter (fun c => asked_kind (pk_kind c) && has_columns c) (pt_constraints t)) with
  | [] => None
  | l => Some (join agg_sep l)
  end.

(** * Statements *)

(** show_create_all_tables.go:18-22 *)
Definition p_table_text (db : list p_table) (t : p_table) : option string :=
  match column_defs t with
  | None => None
  | Some cols =>
      Some ("CREATE TABLE " ++ pt_schema t ++ "." ++ pt_name t ++ " (" ++ nl ++ "  " ++ cols
            ++ (match constraint_defs db t with Some cs => "," ++ nl ++ "  " ++ cs | None => "" end) ++ nl ++ ");")
  end.
(** WHERE c.table_schema = '%s' and ORDER BY: show_create_all_tables.go:39, 77-78 *)
Definition of_schema (schema : string) (db : list p_table) : list p_table := filter (fun t => String.eqb (pt_schema t) schema) db.
(** ORDER BY c.table_name: show_create_all_tables.go:77-78 *)
Definition le_table (a b : p_table) : bool := match String.compare (pt_name a) (pt_name b) with Gt => false | _ => true end.
(** The first query: show_create_all_tables.go:18-80 *)
Definition table_statements (schema : string) (db : list p_table) : list string :=
  flat_map (fun t => match p_table_text db t with Some s => [s] | None => [] end) (order_by le_table (of_schema schema db)).
(** pg_indexes of a table: the indexes of its keys and the others; show_create_all_tables.go:98-99 *)
Definition index_rows (t : p_table) : list p_index :=
  (flat_map (fun c => match pk_kind c with
                      | PPrimary | PUnique => [mkPIndex (pk_name c) ("CREATE UNIQUE INDEX " ++ pk_name c ++ " ON " ++ pt_schema t ++ "." ++ pt_name t ++ " USING btree (" ++ join ", " (pk_columns c) ++ ")")]
                      | _ => []
                      end) (pt_constraints t) ++ pt_indexes t)%list.
(** show_create_all_tables.go:95-107 *)
Definition schema_constraint_names (schema : string) (db : list p_table) : list string :=
  flat_map (fun t => map pk_name (pt_constraints t)) (of_schema schema db).
(** The second query: show_create_all_tables.go:95-107 *)
Definition index_statements (schema : string) (db : list p_table) : list string :=
  map pi_def (filter (fun r => negb (existsb (String.eqb (pi_name r)) (schema_constraint_names schema db))) (flat_map index_rows (of_schema schema db))).

(** ShowCreateAllTables: show_create_all_tables.go:128-159 *)
Definition show_postgres (schema : string) (db : list p_table) : string :=
  concat_str (map (fun s => s ++ nl) (table_statements schema db)) ++ concat_str (map (fun s => s ++ ";" ++ nl) (index_statements schema db)).

Example show_postgres_example :
  show_postgres "public"
    [mkPTable "public" "u" false [mkPColumn "a" "character varying" (Some "36") "" false (Some "'x'::character varying")] [] [mkPIndex "i" "CREATE INDEX i ON public.u USING btree (a)"];
     mkPTable "public" "t" false [mkPColumn "a" "integer" None "" false None; mkPColumn "b" "text" None "" true None] [mkPConstraint "t_pkey" PPrimary ["a"]; mkPConstraint "k" (PCheck "(a > 0)") []] []]
  = ("CREATE TABLE public.t (" ++ nl ++ "  a integer NOT NULL," ++ nl ++ "  b text," ++ nl ++ "  CONSTRAINT t_pkey PRIMARY KEY (a)" ++ nl ++ ");" ++ nl
     ++ "CREATE TABLE public.u (" ++ nl ++ "  a character varying(36) NOT NULL DEFAULT 'x'::character varying" ++ nl ++ ");" ++ nl
     ++ "CREATE INDEX i ON public.u USING btree (a);" ++ nl).
Proof. reflexivity. Qed.
