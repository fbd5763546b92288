(** The show command for Spanner: pkg/show/spanner/show_create_all_tables.go.
    The queries are modelled as functions on the content of the
    information schema; errors of queries are left out. *)
From Verif Require Import GoStr.

(** * Content of a database *)
(** A row of INFORMATION_SCHEMA.COLUMNS: show_create_all_tables.go:37-47 *)
Record s_column := mkSColumn { sc_name : string; sc_default : option string; sc_nullable : bool; sc_type : string }.
(** A row of INFORMATION_SCHEMA.COLUMN_OPTIONS: show_create_all_tables.go:60-68 *)
Record s_option := mkSOption { so_column : string; so_name : string; so_value : string }.
(** A part of a key: a column and whether it is in descending order.  show_create_all_tables.go:98-106 *)
Record s_part := mkPart { pt_column : string; pt_desc : bool }.
(** A secondary index: its key columns and its stored (non-key) columns.  show_create_all_tables.go:108-149 *)
Record s_index := mkSIndex { si_name : string; si_unique : bool; si_columns : list s_part; si_stored : list string }.
(** [st_parent]: the parent table, if any; [st_further]: foreign keys and CHECK constraints.  No
    query asks for these.  The queries: show_create_all_tables.go:20-149 *)
Record s_table := mkSTable {
  st_name : string; st_columns : list s_column; st_options : list s_option; st_key : list s_part;
  st_policy : string; st_indexes : list s_index; st_parent : option string; st_further : list string }.

(** * The information schema *)

(** INFORMATION_SCHEMA.INDEXES and INFORMATION_SCHEMA.INDEX_COLUMNS restricted to a
    table.  ORDINAL_POSITION counts the key columns from 1 and is NULL (here 0, for
    NULL is first in ascending order) for stored columns; COLUMN_ORDERING is DESC if
    [icr_desc].  show_create_all_tables.go:108-115 *)
Record indexes_row := mkIR { ir_name : string; ir_type : string; ir_unique : bool }.
(** A row of INFORMATION_SCHEMA.INDEX_COLUMNS: show_create_all_tables.go:98-106, 141-149 *)
Record index_columns_row := mkICR { icr_name : string; icr_type : string; icr_column : string; icr_desc : bool; icr_position : nat }.
(** INFORMATION_SCHEMA.INDEXES of a table, read by show_create_all_tables.go:74-97, 108-111 *)
Definition indexes_rows (t : s_table) : list indexes_row :=
  ((match st_key t with [] => [] | _ => [mkIR "PRIMARY_KEY" "PRIMARY_KEY" true] end)
   ++ map (fun i => mkIR (si_name i) "INDEX" (si_unique i)) (st_indexes t))%list.
(** INFORMATION_SCHEMA.INDEX_COLUMNS of one index, read by show_create_all_tables.go:74-97, 117-139 *)
Definition column_rows (name type : string) (key : list s_part) (stored : list string) : list index_columns_row :=
  (map (fun nc => mkICR name type (pt_column (snd nc)) (pt_desc (snd nc)) (fst nc)) (combine (seq 1 (List.length key)) key)
   ++ map (fun c => mkICR name type c false 0) stored)%list.
(** INFORMATION_SCHEMA.INDEX_COLUMNS of a table, read by show_create_all_tables.go:74-97, 117-139 *)
Definition index_columns_rows (t : s_table) : list index_columns_row :=
  (column_rows "PRIMARY_KEY" "PRIMARY_KEY" (st_key t) []
   ++ flat_map (fun i => column_rows (si_name i) "INDEX" (si_columns i) (si_stored i)) (st_indexes t))%list.

(** ORDER BY: an insertion sort; rows that compare equal keep their order (the
    columns selected do not tell them apart).  show_create_all_tables.go:92-93, 135-136 *)
Fixpoint put {A} (le : A -> A -> bool) (x : A) (l : list A) : list A :=
  match l with [] => [x] | y :: r => if le x y then x :: l else y :: put le x r end.
(** ORDER BY: show_create_all_tables.go:92-93, 135-136 *)
Definition order_by {A} (le : A -> A -> bool) (l : list A) : list A := fold_right (put le) [] l.
(** ORDER BY ic.ORDINAL_POSITION: show_create_all_tables.go:92-93 *)
Definition le_position (a b : index_columns_row) : bool := Nat.leb (icr_position a) (icr_position b).
(** ORDER BY ic.INDEX_NAME, ic.ORDINAL_POSITION: show_create_all_tables.go:135-136 *)
Definition le_name_position (a b : index_columns_row) : bool :=
  match String.compare (icr_name a) (icr_name b) with
  | Lt => true
  | Gt => false
  | Eq => le_position a b
  end.

(** INNER JOIN ... ON i.TABLE_NAME = ic.TABLE_NAME: every pair of rows of the table.  show_create_all_tables.go:82-87, 125-130 *)
Definition join_rows (i : list indexes_row) (ic : list index_columns_row) : list index_columns_row :=
  flat_map (fun _ => ic) i.

(** queryShowPrimaryKey: show_create_all_tables.go:74-96 *)
Definition query_primary_key (t : s_table) : list index_columns_row :=
  order_by le_position
    (join_rows (filter (fun r => String.eqb (ir_type r) "PRIMARY_KEY") (indexes_rows t))
               (filter (fun r => String.eqb (icr_type r) "PRIMARY_KEY") (index_columns_rows t))).
(** querySelectIndexes: show_create_all_tables.go:108-110 *)
Definition query_indexes (t : s_table) : list indexes_row :=
  filter (fun r => negb (String.eqb (ir_type r) "PRIMARY_KEY")) (indexes_rows t).
(** queryShowIndexes: show_create_all_tables.go:117-139 *)
Definition query_index_columns (t : s_table) : list index_columns_row :=
  order_by le_name_position
    (join_rows (filter (fun r => negb (String.eqb (ir_type r) "PRIMARY_KEY")) (indexes_rows t))
               (filter (fun r => negb (String.eqb (icr_name r) "PRIMARY_KEY")) (index_columns_rows t))).

(** * The text *)

(** informationSchemaColumn.String, informationSchemaColumnOption.String:
    show_create_all_tables.go:49-73 *)
Definition column_text (c : s_column) : string :=
  sc_name c ++ " " ++ sc_type c
  ++ (match sc_default c with Some d => " DEFAULT (" ++ d ++ ")" | None => "" end)
  ++ (if sc_nullable c then "" else " NOT NULL").
(** InformationSchemaColumnOption.String: show_create_all_tables.go:70-72 *)
Definition option_text (o : s_option) : string := so_name o ++ " = " ++ so_value o.
(** The options of a column: show_create_all_tables.go:203-220 *)
Definition options_text (t : s_table) (c : s_column) : string :=
  match filter (fun o => String.eqb (sc_name c) (so_column o)) (st_options t) with
  | [] => ""
  | l => " OPTIONS (" ++ join ", " (map option_text l) ++ ")"
  end.
(** The loop over the columns: show_create_all_tables.go:200-227 *)
Fixpoint columns_text (t : s_table) (l : list s_column) : string :=
  match l with
  | [] => ""
  | c :: r => "    " ++ column_text c ++ options_text t c ++ (match r with [] => "" | _ => "," end) ++ nl ++ columns_text t r
  end.
(** show_create_all_tables.go:188-261 *)
Definition table_text (t : s_table) : string :=
  "CREATE TABLE " ++ st_name t ++ " (" ++ nl ++ columns_text t (st_columns t) ++ ")"
  ++ (match query_primary_key t with
      | [] => ""
      | l => " PRIMARY KEY (" ++ join ", " (map icr_column l) ++ ")"
      end)
  ++ (if String.eqb (st_policy t) "" then "" else "," ++ nl ++ "ROW DELETION POLICY (" ++ st_policy t ++ ")")
  ++ ";" ++ nl.
(** show_create_all_tables.go:270-291 *)
Definition index_text (t : s_table) (r : indexes_row) : string :=
  "CREATE " ++ (if ir_unique r then "UNIQUE " else "") ++ "INDEX " ++ ir_name r ++ " ON " ++ st_name t ++ " ("
  ++ join ", " (map icr_column (query_index_columns t)) ++ ");" ++ nl.
(** The loop over the indexes: show_create_all_tables.go:264-292 *)
Definition index_texts (t : s_table) : list string := map (index_text t) (query_indexes t).

(** ShowCreateAllTables: show_create_all_tables.go:170-300 *)
Fixpoint show_spanner (l : list s_table) : string :=
  match l with
  | [] => ""
  | t :: r => table_text t ++ concat_str (index_texts t) ++ (match r with [] => "" | _ => nl end) ++ show_spanner r
  end.

Example show_example :
  show_spanner [mkSTable "T" [mkSColumn "A" None false "INT64"; mkSColumn "B" (Some "1") true "INT64"] [mkSOption "B" "x" "true"] [mkPart "A" false] "" [mkSIndex "I" true [mkPart "B" false; mkPart "A" false] []] None []]
  = ("CREATE TABLE T (" ++ nl ++ "    A INT64 NOT NULL," ++ nl ++ "    B INT64 DEFAULT (1) OPTIONS (x = true)" ++ nl ++ ") PRIMARY KEY (A);" ++ nl
     ++ "CREATE UNIQUE INDEX I ON T (B, A);" ++ nl).
Proof. reflexivity. Qed.
