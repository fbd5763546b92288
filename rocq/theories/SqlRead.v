(** SPECIFICATION: what a printed statement says (C47).

    A reader for the statements ddlctl prints.  It knows the grammar of DROP TABLE, DROP INDEX
    and ALTER TABLE on its own; CREATE statements, and the column, constraint, type and value
    clauses that ALTER TABLE shares with CREATE TABLE, are read with the parser of the dialect.
    Nothing here mentions the printer. *)
From Verif Require Import GoStr Token Lexer Ast Parser LexSpec Printable.

(** * The reader *)

Section Reader.
Variable d : dialect.
Variable srt : list constraint -> list constraint.

(** Words of the ALTER grammar are known by their spelling, in any letter case; quoted names
    keep their marks and are never such a word. *)
Definition spells (w : string) (t : token) : bool := String.eqb (to_upper (tk_lit t)) w.
Fixpoint after_words (ws : list string) (ts : list token) : option (list token) :=
  match ws, ts with
  | [], _ => Some ts
  | w :: ws, t :: ts => if spells w t then after_words ws ts else None
  | _ :: _, [] => None
  end.
(** Try one reading, then another one. *)
Definition either {A : Type} (a b : option A) : option A := match a with Some x => Some x | None => b end.
Definition reading {A : Type} (ws : list string) (f : list token -> option A) (ts : list token) : option A :=
  match after_words ws ts with Some r => f r | None => None end.

Definition is_name (t : token) : bool := String.eqb (tk_type t) TOKEN_IDENT.
(** One name, with what is done with the rest. *)
Definition name_then {A : Type} (f : ident -> list token -> option A) (ts : list token) : option A :=
  match ts with
  | t :: r => if is_name t then f (NewRawIdent d (tk_lit t)) r else None
  | [] => None
  end.
Definition only_name {A : Type} (f : ident -> A) : list token -> option A :=
  name_then (fun i r => match r with [] => Some (f i) | _ => None end).
Definition object_then {A : Type} (f : objname -> list token -> option A) (ts : list token) : option A :=
  match ts with
  | t :: r => if is_name t then f (NewObjectName d (tk_lit t)) r else None
  | [] => None
  end.
(** Names of indexes are never qualified in postgres and cockroachdb. *)
Definition index_name (t : token) : objname :=
  match d with Pg | Crdb => mkON None (NewRawIdent d (tk_lit t)) | _ => NewObjectName d (tk_lit t) end.

(** Clauses shared with CREATE TABLE: read in front of a comma, as in the list of columns. *)
Definition comma : token := mkTok TOKEN_COMMA ",".
Definition semicolon : token := mkTok TOKEN_SEMICOLON ";".
Definition is_comma (ts : list token) : bool :=
  match ts with [t] => String.eqb (tk_type t) TOKEN_COMMA | _ => false end.
(** DEFAULT needs a value. *)
Definition with_value (v : default) : bool := match v with Some None => false | _ => true end.
Definition column_clause (tbl : ident) (ts : list token) : option column :=
  match parseColumn d srt tbl (ts ++ [comma])%list with
  | Ok (c, [], r) => if is_comma r && with_value (c_default c) then Some c else None
  | _ => None
  end.
(** A constraint and what follows it. *)
Definition constraint_clause (tbl : ident) (ts : list token) : option constraint :=
  match parseTableConstraint d tbl (ts ++ [comma])%list with
  | Ok (c, r) => if is_comma r then Some c else None
  | _ => None
  end.
(** A type and what follows it (the parser stops at the last token of the type). *)
Definition type_clause (ts : list token) : option (datatype * list token) :=
  match ts with
  | [] => None
  | t :: _ =>
      if isDataType d (tk_type t) then
        match parseDataType d (ts ++ [comma])%list with Ok (t, _ :: r) => Some (t, r) | _ => None end
      else None
  end.
Definition value_clause (ts : list token) : option expr :=
  match parseColumnDefault d (ts ++ [comma])%list with
  | Ok (v, r) => if is_comma r && with_value (Some v) then Some v else None
  | _ => None
  end.
Definition group_clause (ts : list token) : option (list ident) :=
  match parseExpr d ts with Ok (l, []) => Some l | _ => None end.
Definition policy_clause (ts : list token) : option option_ :=
  match parseOptionsSp_loop d (S (S (List.length ts))) [] None (ts ++ [semicolon])%list with
  | Ok ([], Some o, [_]) => Some o
  | _ => None
  end.
Definition nothing {A : Type} (x : A) (ts : list token) : option A := match ts with [] => Some x | _ => None end.

(** ... NOT VALID *)
Definition without_last_two (ts : list token) : list token := removelast (removelast ts).
Definition ends_not_valid (ts : list token) : bool :=
  match rev ts with v :: n :: _ => spells "VALID" v && spells "NOT" n | _ => false end.

(** ALTER [COLUMN] name ... *)
Definition column_change (i : ident) (ts : list token) : option action :=
  either (reading ["SET"; "DATA"; "TYPE"] (fun r => match type_clause r with
            | Some (t, r) => if is_comma r then Some (SetDataType i t) else None
            | None => None
            end) ts)
  (either (reading ["SET"; "DEFAULT"] (fun r => match value_clause r with Some v => Some (SetDefault i (Some v)) | None => None end) ts)
  (either (reading ["DROP"; "DEFAULT"] (nothing (DropDefault i)) ts)
  (either (reading ["SET"; "NOT"; "NULL"] (nothing (SetNotNull i)) ts)
  (either (reading ["DROP"; "NOT"; "NULL"] (nothing (DropNotNull i)) ts)
  (either (reading ["SET"; "OPTIONS"] (fun r => match group_clause r with Some l => Some (SetOptions i (Some l)) | None => None end) ts)
  (either (reading ["DROP"; "OPTIONS"] (nothing (DropOptions i)) ts)
  (match type_clause ts with
   | Some (t, r) =>
       if is_comma r then Some (AlterDataType i t false)
       else match after_words ["NOT"; "NULL"] r with
            | Some r => if is_comma r then Some (AlterDataType i t true) else None
            | None => None
            end
   | None => None
   end))))))).

Definition constraint_change (i : ident) (ts : list token) : option action :=
  either (reading ["DEFERRABLE"; "INITIALLY"; "DEFERRED"] (nothing (AlterConstraint i true true)) ts)
  (either (reading ["DEFERRABLE"; "INITIALLY"; "IMMEDIATE"] (nothing (AlterConstraint i true false)) ts)
  (either (reading ["NOT"; "DEFERRABLE"; "INITIALLY"; "DEFERRED"] (nothing (AlterConstraint i false true)) ts)
  (reading ["NOT"; "DEFERRABLE"; "INITIALLY"; "IMMEDIATE"] (nothing (AlterConstraint i false false)) ts))).

(** name = value *)
Definition table_option (name : string) (ts : list token) : option action :=
  match ts with
  | [e; v] => if spells "=" e && is_name v then Some (TableOption name (Some [NewRawIdent d (tk_lit v)])) else None
  | _ => None
  end.

(** The action of ALTER TABLE tbl, without the final semicolon. *)
Definition read_action (tbl : objname) (ts : list token) : option action :=
  either (reading ["RENAME"; "TO"] (object_then (fun n => nothing (RenameTable n))) ts)
  (either (reading ["RENAME"; "COLUMN"] (name_then (fun i => reading ["TO"] (only_name (RenameColumn i)))) ts)
  (either (reading ["RENAME"; "CONSTRAINT"] (name_then (fun i => reading ["TO"] (only_name (RenameConstraint i)))) ts)
  (either (reading ["ADD"; "COLUMN"] (fun r => match column_clause (on_name tbl) r with Some c => Some (AddColumn c) | None => None end) ts)
  (either (reading ["ADD"; "ROW"] (fun _ => match policy_clause (tl ts) with Some o => Some (AddRowDeletion o) | None => None end) ts)
  (either (reading ["ADD"] (fun r =>
     if ends_not_valid r
     then match constraint_clause (on_name tbl) (without_last_two r) with Some c => Some (AddConstraint c true) | None => None end
     else match constraint_clause (on_name tbl) r with Some c => Some (AddConstraint c false) | None => None end) ts)
  (either (reading ["DROP"; "COLUMN"] (only_name DropColumn) ts)
  (either (reading ["DROP"; "CONSTRAINT"] (only_name (fun i => DropConstraint (Some i))) ts)
  (either (reading ["DROP"; "PRIMARY"; "KEY"] (nothing (DropConstraint (Some (NewRawIdent d "PRIMARY KEY")))) ts)
  (either (reading ["DROP"; "ROW"; "DELETION"; "POLICY"] (nothing DropRowDeletion) ts)
  (either (reading ["REPLACE"] (fun r => match policy_clause r with Some o => Some (ReplaceRowDeletion o) | None => None end) ts)
  (either (reading ["ALTER"; "CONSTRAINT"] (name_then constraint_change) ts)
  (either (reading ["ALTER"; "COLUMN"] (name_then column_change) ts)
  (either (reading ["ALTER"] (name_then column_change) ts)
  (either (reading ["MODIFY"] (fun r => match column_clause (on_name tbl) r with Some c => Some (ModifyColumn c) | None => None end) ts)
  (either (reading ["ENGINE"] (table_option "ENGINE") ts)
  (either (reading ["AUTO_INCREMENT"] (table_option "AUTO_INCREMENT") ts)
  (either (reading ["DEFAULT"; "CHARSET"] (table_option "DEFAULT CHARSET") ts)
  (either (reading ["COLLATE"] (table_option "COLLATE") ts)
  (reading ["COMMENT"] (table_option "COMMENT") ts))))))))))))))))))).

(** A statement other than CREATE, without the final semicolon. *)
Definition read_body (ts : list token) : option stmt :=
  either (reading ["DROP"; "TABLE"; "IF"; "EXISTS"] (object_then (fun n => nothing (DropTable "" true n))) ts)
  (either (reading ["DROP"; "TABLE"] (object_then (fun n => nothing (DropTable "" false n))) ts)
  (either (reading ["DROP"; "INDEX"; "IF"; "EXISTS"]
             (fun r => match r with [t] => if is_name t then Some (DropIndex "" true (index_name t)) else None | _ => None end) ts)
  (either (reading ["DROP"; "INDEX"]
             (fun r => match r with [t] => if is_name t then Some (DropIndex "" false (index_name t)) else None | _ => None end) ts)
  (reading ["ALTER"; "TABLE"]
     (object_then (fun n r => match read_action n r with Some a => Some (AlterTable "" n a) | None => None end)) ts)))).

(** One statement of a script, with the semicolon that ends it; one statement as it is sent to
    the database, without. *)
Definition ends_statement (ts : list token) : bool :=
  match rev ts with t :: _ => String.eqb (tk_type t) TOKEN_SEMICOLON | [] => false end.
Definition read_text (text : string) : option stmt :=
  if ends_statement (lex d text) then
    match lex d text with
    | t :: _ =>
        if spells "CREATE" t
        then match parse_tokens d srt (lex d text) with Ok [s] => Some s | _ => None end
        else read_body (removelast (lex d text))
    | [] => None
    end
  else None.
Definition read_sent (text : string) : option stmt := read_text (text ++ ";").
End Reader.

(** * The statements that can be read back *)

Definition index_name_ok (d : dialect) (n : objname) : bool :=
  match d with Pg | Crdb => missing (on_schema n) && name_ok d (on_name n) | _ => objname_ok d n end.
(** What is dropped under the name of a constraint. *)
Definition dropped_ok (d : dialect) (n : option ident) : bool :=
  match n with
  | Some i => name_ok d i
              || match d with My => String.eqb (id_name i) "PRIMARY KEY" && bare_ident d i | _ => false end
  | None => false
  end.
Definition action_ok (d : dialect) (a : action) : bool :=
  match a with
  | RenameTable n => objname_ok d n
  | RenameColumn n m | RenameConstraint n m => name_ok d n && name_ok d m
  | AddColumn c => column_ok d c
  | DropColumn n => name_ok d n
  | SetDataType n t => name_ok d n && datatype_ok d t
  | SetDefault n v => name_ok d n && match v with Some (Some l) => value_ok d l | _ => false end
  | DropDefault n | SetNotNull n | DropNotNull n | DropOptions n => name_ok d n
  | AddConstraint c _ => constraint_ok d c
  | DropConstraint n => dropped_ok d n
  | AlterConstraint n _ _ => name_ok d n
  | ModifyColumn c => match d with My => column_ok d c | _ => false end
  | TableOption n v => match d with My => option_ok d (mkOpt n v) | _ => false end
  | AlterDataType n t _ => name_ok d n && match d with Sp => datatype_ok d t | _ => false end
  | SetOptions n v => name_ok d n && match v with Some l => group_ok d l | None => false end
  | AddRowDeletion o | ReplaceRowDeletion o => match d with Sp => rowdel_ok d (Some o) | _ => false end
  | DropRowDeletion => true
  end.
Definition readable (d : dialect) (s : stmt) : bool :=
  match s with
  | CreateTable _ | CreateIndex _ => stmt_ok d s
  | DropTable c _ n => no_nul c && objname_ok d n
  | DropIndex c _ n => no_nul c && index_name_ok d n
  | AlterTable c n a => no_nul c && objname_ok d n && action_ok d a
  end.

(** In mysql the indexes of a table are dropped and created under the schema of the table: the
    names of its constraints must be fit for that, the one of the primary key apart. *)
Definition index_names_ok (d : dialect) (l : ddl) : bool :=
  match d with
  | My =>
      forallb (fun s => match s with
        | CreateTable t =>
            forallb (fun c => is_pkey c || match con_name c with
              | Some i => objname_ok d (mkON (on_schema (ct_name t)) i) && negb (String.eqb (id_name i) "PRIMARY KEY")
              | None => false
              end) (ct_constraints t)
        | _ => true
        end) l
  | _ => true
  end.
