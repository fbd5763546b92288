(** Syntax trees of pkg/ddl/{postgres,cockroachdb,mysql,spanner} and their
    [String] / [StringForDiff] methods.

    The four packages declare the same types up to a few fields, so one set of
    records with the union of the fields is used; a field that a package does
    not have is left at its zero value by that package's parser and is never
    printed by that package's printer.  Line numbers are those of
    pkg/ddl/postgres unless said otherwise.  nil pointers are [None]. *)
From Verif Require Import GoStr Token.

(** Ident: ddl.go:61-65 *)
Record ident := mkIdent { id_name : string; id_quote : string; id_raw : string }.

(** ColumnIdent: ddl.go:83-85; Order: cockroachdb/ddl.go:82-87, mysql/ddl.go:82-87,
    spanner/ddl.go:82-87 ([Some true] = DESC). *)
Record colident := mkCI { ci_ident : ident; ci_order : option bool }.

(** Expr: ddl_table.go:266-268 ([None] = nil pointer) *)
Definition expr := option (list ident).

(** DataType: ddl.go:99-103 *)
Record datatype := mkDT { dt_name : string; dt_type : tokentype; dt_expr : expr }.

(** Default: ddl_table.go:252-254.  A column holds a pointer to it, i.e. an
    [option expr]: [None] = no default, [Some None] = Default without value. *)
Definition default := option expr.

(** As: cockroachdb/ddl_table.go:358-361 *)
Record asdef := mkAs { as_value : expr; as_type : tokentype }.

(** Using, With: cockroachdb/ddl.go:152-155,169-171.  [us_with = Some e] is a
    non-nil With with value e. *)
Record usingdef := mkUsing { us_value : expr; us_with : option expr }.

(** ObjectName: ddl_table.go:219-222 *)
Record objname := mkON { on_schema : option ident; on_name : ident }.

(** Column: ddl_table.go:245-250; cockroachdb/ddl_table.go:276-283 (NotVisible, As);
    mysql/ddl_table.go:257-267 (CharacterSet .. Comment); spanner/ddl_table.go:171-177
    (Options). *)
Record column := mkCol {
  c_name : ident; c_type : datatype; c_default : default; c_notnull : bool;
  c_notvisible : bool; c_as : option asdef;
  c_charset : option ident; c_collate : option ident; c_autoinc : bool;
  c_onaction : string; c_comment : string;
  c_options : expr }.

(** The constraint types: ddl_table.go:32-36 (primary key), 70-77 (foreign key),
    128-132 (unique), 165-169 (check); IndexConstraint: cockroachdb/ddl_table.go:140-147,
    mysql/ddl_table.go:133-138. *)
Inductive constraint :=
| CPrimary (name : option ident) (cols : list colident)
| CForeign (name : option ident) (cols : list colident) (ref : ident) (refcols : list colident) (onaction : string)
| CUnique (name : option ident) (cols : list colident)
| CIndex (name : option ident) (unique : bool) (pre : option usingdef) (cols : list colident) (post : option usingdef)
| CCheck (name : option ident) (e : expr).

(** Option: mysql/ddl_table.go:371-374, spanner/ddl_table.go:289-292 (the
    postgres and cockroachdb parsers never create one). *)
Record option_ := mkOpt { o_name : string; o_value : expr }.

(** CreateTableStmt: ddl_table_create.go:13-21, spanner/ddl_table_create.go:13-22.
    The field Indent is not read by any method and is dropped. *)
Record create_table := mkCT {
  ct_comment : string; ct_ifnotexists : bool; ct_name : objname;
  ct_columns : list column; ct_constraints : list constraint;
  ct_options : list option_; ct_rowdel : option option_ }.

(** CreateIndexStmt: ddl_index_create.go:15-23; cockroachdb/ddl_index_create.go:15-24
    (UsingPreColumns, UsingPostColumns instead of Using).  The index name is an
    *Ident in postgres and cockroachdb ([on_schema = None]) and an *ObjectName in
    mysql and spanner. *)
Record create_index := mkCX {
  cx_comment : string; cx_unique : bool; cx_ifnotexists : bool;
  cx_name : objname; cx_table : objname; cx_using : list ident;
  cx_pre : option usingdef; cx_columns : list colident; cx_post : option usingdef }.

(** AlterTableAction: ddl_table_alter.go:83-213, mysql/ddl_table_alter.go:120-234,
    spanner/ddl_table_alter.go:97-258. *)
Inductive action :=
| RenameTable (new : objname)
| RenameColumn (name new : ident)
| RenameConstraint (name new : ident)
| AddColumn (c : column)
| DropColumn (name : ident)
| SetDataType (name : ident) (t : datatype)
| SetDefault (name : ident) (v : default)
| DropDefault (name : ident)
| SetNotNull (name : ident)
| DropNotNull (name : ident)
| AddConstraint (c : constraint) (notvalid : bool)
| DropConstraint (name : option ident)
| AlterConstraint (name : ident) (deferrable initially_deferred : bool)
| ModifyColumn (c : column)                                   (* mysql *)
| TableOption (name : string) (v : expr)                      (* mysql *)
| AlterDataType (name : ident) (t : datatype) (notnull : bool) (* spanner *)
| SetOptions (name : ident) (v : expr)                        (* spanner *)
| DropOptions (name : ident)                                  (* spanner *)
| AddRowDeletion (o : option_)                                (* spanner *)
| ReplaceRowDeletion (o : option_)                            (* spanner *)
| DropRowDeletion.                                            (* spanner *)

(** The statements.  DropTableStmt: ddl_table_drop.go:13-17; DropIndexStmt:
    ddl_index_drop.go:13-17; AlterTableStmt: ddl_table_alter.go:13-18.  The
    Comment field of the last three comes first. *)
Inductive stmt :=
| CreateTable (t : create_table)
| CreateIndex (i : create_index)
| DropTable (comment : string) (ifexists : bool) (name : objname)
| DropIndex (comment : string) (ifexists : bool) (name : objname)
| AlterTable (comment : string) (name : objname) (a : action).

(** DDL: ddl.go:50-52 *)
Definition ddl := list stmt.

(** Ident.String, Ident.StringForDiff: ddl.go:69-81 *)
Definition ident_string (i : ident) : string := id_raw i.
(** Ident.StringForDiff: ddl.go:75-81 *)
Definition ident_diff (i : ident) : string := id_name i.
(** Ident.String of a pointer that may be nil: ddl.go:68-73 *)
Definition oident_string (i : option ident) : string :=
  match i with Some i => ident_string i | None => "" end.
(** Ident.StringForDiff of a pointer that may be nil: ddl.go:75-81 *)
Definition oident_diff (i : option ident) : string :=
  match i with Some i => ident_diff i | None => "" end.

(** ColumnIdent.String: ddl.go:89-92; cockroachdb/ddl.go:91-101 and
    spanner/ddl.go:91-101; mysql/ddl.go:91-103. *)
Definition colident_string (d : dialect) (c : colident) : string :=
  ident_string (ci_ident c) ++
  match d, ci_order c with
  | Pg, _ => ""
  | My, Some true => " DESC"
  | My, _ => ""
  | _, Some true => " DESC"
  | _, Some false => " ASC"
  | _, None => ""
  end.

(** ColumnIdent.StringForDiff: ddl.go:94-97; cockroachdb/ddl.go:103-111,
    spanner/ddl.go:103-111; mysql/ddl.go:105-115. *)
Definition colident_diff (d : dialect) (c : colident) : string :=
  ident_diff (ci_ident c) ++
  match d, ci_order c with
  | Pg, _ => ""
  | My, Some true => " DESC"
  | My, _ => ""
  | _, Some true => " DESC"
  | _, _ => " ASC"
  end.

(** " (" + join + ")" as used by all constraint and index printers.  The loops of ddl_table.go:43-51, 84-97 *)
Definition cols_string (d : dialect) (cs : list colident) : string :=
  "(" ++ join ", " (map (colident_string d) cs) ++ ")".
(** The loops of ddl_table.go:53-70, 99-125 *)
Definition cols_diff (d : dialect) (cs : list colident) : string :=
  "(" ++ join ", " (map (colident_diff d) cs) ++ ")".

(** Go == of strings *)
Definition eqs (a b : string) : bool := String.eqb a b.

(** The separator Expr.String puts between two tokens: ddl_table.go:278-289;
    cockroachdb/ddl_table.go:310-322 (also ":::"); mysql/ddl_table.go:294-304 and
    spanner/ddl_table.go:206-219 (no "||" case, also ":::"). *)
Definition expr_sep (d : dialect) (prev cur : string) : string :=
  if match d with Pg | Crdb => eqs prev "||" || eqs cur "||" | _ => false end then " "
  else if eqs prev "(" || eqs cur "(" || eqs cur ")" || eqs prev "::" || eqs cur "::"
          || match d with Pg => false | _ => eqs prev ":::" || eqs cur ":::" end
          || eqs cur ","
  then "" else " ".

(** The loop of Expr.String: ddl_table.go:276-289; [prev] is the text in front *)
Fixpoint idents_string_from (d : dialect) (prev : string) (l : list ident) : string :=
  match l with
  | [] => ""
  | i :: r => expr_sep d prev (ident_string i) ++ ident_string i ++ idents_string_from d (ident_string i) r
  end.

(** Expr.String: ddl_table.go:270-293 *)
Definition idents_string (d : dialect) (l : list ident) : string :=
  match l with
  | [] => ""
  | i :: r => ident_string i ++ idents_string_from d (ident_string i) r
  end.

(** Expr.String: ddl_table.go:271-294 *)
Definition expr_string (d : dialect) (e : expr) : string :=
  match e with None => "" | Some l => idents_string d l end.

(** Names joined by spaces: ddl_table.go:188-193, 311-316 and
    Expr.StringForDiff, spanner/ddl_table.go:226-240. *)
Definition idents_diff (l : list ident) : string := join " " (map ident_diff l).
(** Expr.StringForDiff: spanner/ddl_table.go:226-240 *)
Definition expr_diff (e : expr) : string :=
  match e with None => "" | Some l => idents_diff l end.

(** DataType.String: ddl.go:105-114 *)
Definition datatype_string (d : dialect) (t : datatype) : string :=
  dt_name t ++
  match dt_expr t with
  | None | Some [] => ""
  | Some l => "(" ++ idents_string d l ++ ")"
  end.

(** DataType.StringForDiff: ddl.go:116-136 *)
Definition datatype_diff (t : datatype) : string :=
  (if eqs (dt_type t) "" then TOKEN_ILLEGAL else dt_type t) ++
  match dt_expr t with
  | None | Some [] => ""
  | Some l => "(" ++ concat_str (map ident_diff l) ++ ")"
  end.

(** Default.String: ddl_table.go:298-306 *)
Definition default_string (d : dialect) (v : default) : string :=
  match v with
  | Some (Some l) => "DEFAULT " ++ idents_string d l
  | _ => ""
  end.

(** Default.StringForDiff: ddl_table.go:308-322; spanner/ddl_table.go:254-270 *)
Definition default_diff (d : dialect) (v : default) : string :=
  match v with
  | Some (Some l) =>
      match d with
      | Sp => "DEFAULT (" ++ idents_diff l ++ ")"
      | _ => "DEFAULT " ++ idents_diff l
      end
  | _ => ""
  end.

(** As.String: cockroachdb/ddl_table.go:365-380 *)
Definition as_string (d : dialect) (a : option asdef) : string :=
  match a with
  | Some a =>
      match as_value a with
      | Some l => "AS " ++ idents_string d l ++ (if eqs (as_type a) "" then "" else " " ++ as_type a)
      | None => ""
      end
  | None => ""
  end.

(** As.StringForDiff: cockroachdb/ddl_table.go:382-404 *)
Definition as_diff (a : option asdef) : string :=
  match a with
  | Some a =>
      match as_value a with
      | Some l => "AS " ++ idents_diff l ++ (if eqs (as_type a) "" then "" else " " ++ as_type a)
      | None => ""
      end
  | None => ""
  end.

(** Using.String, With.String: cockroachdb/ddl.go:157-179 *)
Definition using_string (d : dialect) (u : usingdef) : string :=
  "USING " ++ expr_string d (us_value u) ++
  match us_with u with None => "" | Some w => " " ++ "WITH " ++ expr_string d w end.

(** ObjectName.String, ObjectName.StringForDiff: ddl_table.go:224-243 *)
Definition objname_string (n : objname) : string :=
  match on_schema n with
  | Some s => id_quote (on_name n) ++ ident_diff s ++ "." ++ ident_diff (on_name n) ++ id_quote (on_name n)
  | None => ident_string (on_name n)
  end.
(** ObjectName.StringForDiff: ddl_table.go:235-243 *)
Definition objname_diff (n : objname) : string :=
  match on_schema n with
  | Some s => ident_diff s ++ "." ++ ident_diff (on_name n)
  | None => ident_diff (on_name n)
  end.

(** Column.String: ddl_table.go:324-334 (postgres), cockroachdb/ddl_table.go:406-422,
    mysql/ddl_table.go:340-367, spanner/ddl_table.go:272-285. *)
Definition nonempty_prefixed (p s : string) : string := if eqs s "" then "" else p ++ s.
(** Column.String: ddl_table.go:324-334, cockroachdb/ddl_table.go:406-422, mysql/ddl_table.go:341-367, spanner/ddl_table.go:272-285 *)
Definition column_string (d : dialect) (c : column) : string :=
  ident_string (c_name c) ++ " " ++ datatype_string d (c_type c) ++
  match d with
  | Pg => nonempty_prefixed " " (default_string d (c_default c)) ++ (if c_notnull c then " NOT NULL" else "")
  | Crdb =>
      (if c_notvisible c then " NOT VISIBLE" else "") ++
      (if c_notnull c then " NOT NULL" else "") ++
      nonempty_prefixed " " (default_string d (c_default c)) ++
      match c_as c with Some _ => " " ++ as_string d (c_as c) | None => "" end
  | My =>
      nonempty_prefixed " CHARACTER SET " (oident_string (c_charset c)) ++
      nonempty_prefixed " COLLATE " (oident_string (c_collate c)) ++
      (if c_notnull c then " NOT NULL" else " NULL") ++
      nonempty_prefixed " " (default_string d (c_default c)) ++
      (if c_autoinc c then " AUTO_INCREMENT" else "") ++
      nonempty_prefixed " " (c_onaction c) ++
      nonempty_prefixed " COMMENT " (c_comment c)
  | Sp =>
      (if c_notnull c then " NOT NULL" else "") ++
      nonempty_prefixed " " (default_string d (c_default c)) ++
      nonempty_prefixed " OPTIONS " (expr_string d (c_options c))
  end.

(** GetName of every constraint type: ddl_table.go:41,82,137,174 *)
Definition con_name (c : constraint) : option ident :=
  match c with
  | CPrimary n _ | CForeign n _ _ _ _ | CUnique n _ | CIndex n _ _ _ _ | CCheck n _ => n
  end.

(** The optional name of the constraints: ddl_table.go:44-47, 54-57 *)
Definition name_prefix (kw : string) (f : ident -> string) (n : option ident) : string :=
  match n with Some n => kw ++ f n ++ " " | None => "" end.

(** Constraint.String: ddl_table.go:43-51, 84-97, 139-147, 176-184;
    cockroachdb/ddl_table.go:154-170 (index); mysql/ddl_table.go:53-62 (primary key,
    without name), 95-106 (foreign key, without action), 145-156 (index);
    spanner/ddl_table.go:47-57 (foreign key, without action). *)
Definition constraint_string (d : dialect) (c : constraint) : string :=
  match c with
  | CPrimary n cols =>
      (match d with My => "" | _ => name_prefix "CONSTRAINT " ident_string n end)
      ++ "PRIMARY KEY" ++ " " ++ cols_string d cols
  | CForeign n cols ref refcols onaction =>
      name_prefix "CONSTRAINT " ident_string n ++ "FOREIGN KEY" ++ " " ++ cols_string d cols
      ++ " REFERENCES " ++ ident_string ref ++ " " ++ cols_string d refcols
      ++ match d with Pg | Crdb => nonempty_prefixed " " onaction | _ => "" end
  | CUnique n cols => name_prefix "CONSTRAINT " ident_string n ++ "UNIQUE " ++ cols_string d cols
  | CIndex n unique pre cols post =>
      (if unique then "UNIQUE " else "")
      ++ name_prefix (match d with My => "KEY " | _ => "INDEX " end) ident_string n
      ++ match pre with Some u => " " ++ using_string d u | None => "" end
      ++ cols_string d cols
      ++ match post with Some u => " " ++ using_string d u | None => "" end
  | CCheck n e => name_prefix "CONSTRAINT " ident_string n ++ "CHECK " ++ expr_string d e
  end.

(** Constraint.StringForDiff: ddl_table.go:53-67, 99-125, 149-163, 186-199;
    cockroachdb/ddl_table.go:172-195; mysql/ddl_table.go:64-80, 108-131, 158-175;
    spanner/ddl_table.go:59-83.  A CheckConstraint with nil Expr would panic; the
    parsers always set it. *)
Definition constraint_diff (d : dialect) (c : constraint) : string :=
  match c with
  | CPrimary n cols =>
      (match d with My => "" | _ => name_prefix "CONSTRAINT " ident_diff n end)
      ++ "PRIMARY KEY" ++ " " ++ cols_diff d cols
  | CForeign n cols ref refcols onaction =>
      name_prefix "CONSTRAINT " ident_diff n ++ "FOREIGN KEY" ++ " " ++ cols_diff d cols
      ++ " REFERENCES " ++ id_name ref ++ " " ++ cols_diff d refcols
      ++ match d with Pg | Crdb => nonempty_prefixed " " onaction | _ => "" end
  | CUnique n cols => name_prefix "CONSTRAINT " ident_diff n ++ "UNIQUE " ++ cols_diff d cols
  | CIndex n unique pre cols post =>
      (if unique then "UNIQUE " else "")
      ++ name_prefix (match d with My => "KEY " | _ => "INDEX " end) ident_diff n
      ++ match pre with Some u => " " ++ using_string d u | None => "" end
      ++ cols_diff d cols
      ++ match post with Some u => " " ++ using_string d u | None => "" end
  | CCheck n e => name_prefix "CONSTRAINT " ident_diff n ++ "CHECK " ++ expr_diff e
  end.

(** Option.String: mysql/ddl_table.go:376-381, spanner/ddl_table.go:294-299. *)
Definition option_string (d : dialect) (o : option_) : string :=
  match o_value o with
  | None => ""
  | Some l => o_name o ++ match d with My => "=" | _ => " " end ++ idents_string d l
  end.

(** Option.StringForDiff: mysql/ddl_table.go:383-395, spanner/ddl_table.go:301-306. *)
Definition option_diff (d : dialect) (o : option_) : string :=
  match o_value o with
  | None => ""
  | Some l => o_name o ++ match d with My => "=" | _ => " " end ++ idents_diff l
  end.
(** Option.StringForDiff of a pointer that may be nil: spanner/ddl_table.go:301-306 *)
Definition ooption_diff (d : dialect) (o : option option_) : string :=
  match o with Some o => option_diff d o | None => "" end.
(** Option.String of a pointer that may be nil: spanner/ddl_table.go:294-299 *)
Definition ooption_string (d : dialect) (o : option option_) : string :=
  match o with Some o => option_string d o | None => "" end.

(** Options.String: mysql/ddl_table.go:401-410, spanner/ddl_table.go:312-321 and the
    loops ddl_table_create.go:63-72, spanner/ddl_table_create.go:67-76. *)
Definition options_string (d : dialect) (l : list option_) : string :=
  join (match d with My => " " | _ => "," ++ nl end) (map (option_string d) l).

(** Options.StringForDiff: spanner/ddl_table.go:323-332.  mysql/ddl_table.go:412-429
    prints its unsorted copy, so its text is the same function with " "; that it
    sorts its receiver instead has no effect, for nothing calls it. *)
Definition options_diff (d : dialect) (l : list option_) : string :=
  join (match d with My => " " | _ => ", " end) (map (option_diff d) l).

(** The comment block printed in front of a statement: ddl_table_create.go:30-37 and
    the same lines of the other statements; CommentPrefix: ddl.go:13. *)
Definition comment_line (c : string) : string := if eqs c "" then "" else "-- " ++ c ++ nl.
(** The comment lines in front of a statement: ddl_table_create.go:30-37 (the same in the other statements) *)
Definition comment_string (c : string) : string :=
  if eqs c "" then "" else concat_str (map comment_line (split nl c)).

(** ddl.go:12 *)
Definition Indent : string := "    ".

(** The items between the parentheses of CREATE TABLE, each on its own line,
    separated by commas: ddl_table_create.go:43-62.  [last] = nothing follows. *)
Fixpoint lines_string (items : list string) : string :=
  match items with
  | [] => ""
  | [x] => Indent ++ x ++ nl
  | x :: r => Indent ++ x ++ "," ++ nl ++ lines_string r
  end.

(** CreateTableStmt.String: ddl_table_create.go:28-76, mysql/ddl_table_create.go:28-70,
    spanner/ddl_table_create.go:29-82.  The loops over columns and constraints
    print a comma after every item but the last one. *)
Definition create_table_string (d : dialect) (s : create_table) : string :=
  comment_string (ct_comment s)
  ++ "CREATE TABLE " ++ (if ct_ifnotexists s then "IF NOT EXISTS " else "")
  ++ objname_string (ct_name s) ++ " (" ++ nl
  ++ lines_string (map (column_string d) (ct_columns s) ++ map (constraint_string d) (ct_constraints s))
  ++ ")"
  ++ match ct_options s with
     | [] => ""
     | l => match d with My | Sp => " " | _ => nl end ++ options_string d l
     end
  ++ match d, ct_rowdel s with
     | Sp, Some o => "," ++ nl ++ option_string d o
     | _, _ => ""
     end
  ++ ";" ++ nl.

(** CreateIndexStmt.String: ddl_index_create.go:29-54, cockroachdb/ddl_index_create.go:30-58 *)
Definition create_index_string (d : dialect) (s : create_index) : string :=
  comment_string (cx_comment s)
  ++ "CREATE " ++ (if cx_unique s then "UNIQUE " else "") ++ "INDEX "
  ++ (if cx_ifnotexists s then "IF NOT EXISTS " else "")
  ++ objname_string (cx_name s) ++ " ON " ++ objname_string (cx_table s)
  ++ match d, cx_using s with
     | Crdb, _ => match cx_pre s with Some u => " " ++ using_string d u | None => "" end
     | _, [] => ""
     | _, l => " USING " ++ join " " (map ident_string l)
     end
  ++ " " ++ cols_string d (cx_columns s)
  ++ match d, cx_post s with Crdb, Some u => " " ++ using_string d u | _, _ => "" end
  ++ ";" ++ nl.

(** CreateIndexStmt.StringForDiff: ddl_index_create.go:56-73,
    cockroachdb/ddl_index_create.go:60-83 *)
Definition create_index_diff (d : dialect) (s : create_index) : string :=
  "CREATE " ++ (if cx_unique s then "UNIQUE " else "") ++ "INDEX "
  ++ objname_diff (cx_name s) ++ " ON " ++ objname_diff (cx_table s)
  ++ match d, cx_pre s with Crdb, Some u => " " ++ using_string d u | _, _ => "" end
  ++ " " ++ cols_diff d (cx_columns s)
  ++ match d, cx_post s with Crdb, Some u => " " ++ using_string d u | _, _ => "" end
  ++ ";" ++ nl.

(** The action part of AlterTableStmt.String: ddl_table_alter.go:39-78,
    mysql/ddl_table_alter.go:40-105, spanner/ddl_table_alter.go:39-89. *)
Definition action_string (d : dialect) (a : action) : string :=
  match a with
  | RenameTable n => "RENAME TO " ++ objname_string n
  | RenameColumn n m => "RENAME COLUMN " ++ ident_string n ++ " TO " ++ ident_string m
  | RenameConstraint n m => "RENAME CONSTRAINT " ++ ident_string n ++ " TO " ++ ident_string m
  | AddColumn c => "ADD COLUMN " ++ column_string d c
  | DropColumn n => "DROP COLUMN " ++ ident_string n
  | SetDataType n t => "ALTER COLUMN " ++ ident_string n ++ " SET DATA TYPE " ++ datatype_string d t
  | SetDefault n v => "ALTER COLUMN " ++ ident_string n ++ " SET " ++ default_string d v
  | DropDefault n =>
      match d with
      | My => "ALTER " ++ ident_string n ++ " " ++ "DROP DEFAULT"
      | _ => "ALTER COLUMN " ++ ident_string n ++ " DROP DEFAULT"
      end
  | SetNotNull n => "ALTER COLUMN " ++ ident_string n ++ " SET NOT NULL"
  | DropNotNull n => "ALTER COLUMN " ++ ident_string n ++ " DROP NOT NULL"
  | AddConstraint c nv => "ADD " ++ constraint_string d c ++ (if nv then " NOT VALID" else "")
  | DropConstraint n =>
      match d with
      | My => "DROP " ++ (if eqs (oident_string n) "PRIMARY KEY" then "PRIMARY KEY" else "CONSTRAINT " ++ oident_string n)
      | _ => "DROP CONSTRAINT " ++ oident_string n
      end
  | AlterConstraint n df ii =>
      "ALTER CONSTRAINT " ++ ident_string n ++ " " ++ (if df then "DEFERRABLE" else "NOT DEFERRABLE")
      ++ (if ii then " INITIALLY DEFERRED" else " INITIALLY IMMEDIATE")
  | ModifyColumn c =>
      "MODIFY " ++ ident_string (c_name c) ++ " " ++ datatype_string d (c_type c)
      ++ match c_charset c with Some i => " CHARACTER SET " ++ ident_string i | None => "" end
      ++ match c_collate c with Some i => " COLLATE " ++ ident_string i | None => "" end
      ++ (if c_notnull c then " NOT NULL" else " NULL")
      ++ (if c_autoinc c then " AUTO_INCREMENT" else "")
      ++ match c_default c with Some v => " " ++ default_string d (Some v) | None => "" end
      ++ nonempty_prefixed " " (c_onaction c)
      ++ nonempty_prefixed " COMMENT " (c_comment c)
  | TableOption n v => n ++ "=" ++ expr_string d v
  | AlterDataType n t nn =>
      "ALTER COLUMN " ++ ident_string n ++ " " ++ datatype_string d t ++ (if nn then " NOT NULL" else "")
  | SetOptions n v => "ALTER COLUMN " ++ ident_string n ++ " SET OPTIONS " ++ expr_string d v
  | DropOptions n => "ALTER COLUMN " ++ ident_string n ++ " DROP OPTIONS"
  | AddRowDeletion o => "ADD " ++ option_string d o
  | ReplaceRowDeletion o => "REPLACE " ++ option_string d o
  | DropRowDeletion => "DROP ROW DELETION POLICY"
  end.

(** Stmt.String: the String methods above; DropTableStmt.String:
    ddl_table_drop.go:23-39; DropIndexStmt.String: ddl_index_drop.go:23-39;
    AlterTableStmt.String: ddl_table_alter.go:27-81. *)
Definition stmt_string (d : dialect) (s : stmt) : string :=
  match s with
  | CreateTable t => create_table_string d t
  | CreateIndex i => create_index_string d i
  | DropTable c ie n =>
      comment_string c ++ "DROP TABLE " ++ (if ie then "IF EXISTS " else "") ++ objname_string n ++ ";" ++ nl
  | DropIndex c ie n =>
      comment_string c ++ "DROP INDEX " ++ (if ie then "IF EXISTS " else "") ++ objname_string n ++ ";" ++ nl
  | AlterTable c n a =>
      comment_string c ++ "ALTER TABLE " ++ objname_string n ++ " " ++ action_string d a ++ ";" ++ nl
  end.

(** Stmt.GetNameForDiff: ddl_table_create.go:23-25 and the same method of the
    other statements. *)
Definition stmt_name (s : stmt) : string :=
  match s with
  | CreateTable t => objname_diff (ct_name t)
  | CreateIndex i => objname_diff (cx_name i)
  | DropTable _ _ n | DropIndex _ _ n | AlterTable _ n _ => objname_diff n
  end.

(** DDL.String: ddl.go:54-59.  JoinStringers("", stmts) is the concatenation. *)
Definition ddl_string (d : dialect) (l : ddl) : string := concat_str (map (stmt_string d) l).
