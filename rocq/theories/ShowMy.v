(** pkg/show/mysql/show_create_all_tables.go and pkg/show/cockroachdb/show_create_all_tables.go.

    Both leave the description of the tables to the server and put the answers one
    behind the other.  What the servers answer is described in ShowMyRead.v. *)
From Verif Require Import GoStr Ast.

(** ShowCreateAllTables of mysql: show_create_all_tables.go:35-87.  [answers] are the answers
    to SHOW CREATE TABLE for the names of the tables, [None] is an error (line 71). *)
Fixpoint show_mysql (answers : list (option string)) : option string :=
  match answers with
  | [] => Some ""
  | None :: _ => None
  | Some s :: r => match show_mysql r with Some t => Some ((s ++ ";" ++ nl) ++ t) | None => None end
  end.
(** The query for the names: mysql/show_create_all_tables.go:43-48, 55.  [database] is the option
    of lines 28-33; no command sets it. *)
Definition names_query (database : string) : string :=
  "SELECT TABLE_NAME FROM information_schema.TABLES WHERE TABLE_SCHEMA = "
  ++ (if String.eqb database "" then "database()" else "`" ++ database ++ "`").
(** SHOW CREATE TABLE: mysql/show_create_all_tables.go:69 *)
Definition create_query (name : string) : string := "SHOW CREATE TABLE `" ++ name ++ "`".
(** ShowCreateAllTables as it asks the server: mysql/show_create_all_tables.go:54-58, 67-74, 86.
    [names] and [create] are the answers to queries, [None] is an error. *)
Definition ask_mysql (names : string -> option (list string)) (create : string -> option string) (database : string) : option string :=
  match names (names_query database) with
  | Some l => show_mysql (map (fun n => create (create_query n)) l)
  | None => None
  end.

(** ShowCreateAllTables of cockroachdb: show_create_all_tables.go:23-39.  [rows] is the answer
    to SHOW CREATE ALL TABLES, [None] is an error (line 32). *)
Definition show_cockroach (rows : option (list string)) : option string :=
  match rows with Some l => Some (concat_str (map (fun s => s ++ nl) l)) | None => None end.

Example show_mysql_example : show_mysql [Some "CREATE TABLE `t` (`a` int)"; Some "CREATE TABLE `u` (`b` int)"]
  = Some ("CREATE TABLE `t` (`a` int);" ++ nl ++ "CREATE TABLE `u` (`b` int);" ++ nl).
Proof. reflexivity. Qed.
Example show_mysql_error : show_mysql [Some "CREATE TABLE `t` (`a` int)"; None] = None.
Proof. reflexivity. Qed.
Example show_cockroach_example : show_cockroach (Some ["CREATE TABLE public.t (a INT8);"]) = Some ("CREATE TABLE public.t (a INT8);" ++ nl).
Proof. reflexivity. Qed.
