(** Schema comparison: pkg/ddl/*/diff.go (identical in the four packages, the
    package clause apart; lines are those of postgres/diff.go) and
    pkg/ddl/*/diff_create_table.go (pg/crdb/my/sp: their line numbers).

    [sdiff a b] stands for simplediff.Diff(a, b).String(), the text of the
    explanatory comment; it is an arbitrary function.  The test
    "reflect.DeepEqual(a, b) || a.String() == b.String()" is modelled by its
    second half: values that are deeply equal print the same. *)
From Verif Require Import GoStr Token Lexer Ast Parser.

(** The results of Diff and DiffCreateTable: 15-105, pg:36-138 (ErrNoDifference and ErrNotSupported are errors) *)
Inductive dres := DOk (l : ddl) | DNoDiff | DNotSupported | DPanic.

Section Diff.
Variable d : dialect.
Variable srt : list constraint -> list constraint.
Variable sdiff : string -> string -> string.

(** findColumnByName: pg:235-242, crdb:285-292, my:309-316, sp:276-283 *)
Definition find_column (n : string) (cols : list column) : option column :=
  find (fun c => eqs (id_name (c_name c)) n) cols.

(** onlyLeftColumn: pg:224-233, crdb:274-283, my:298-307, sp:265-274 *)
Definition only_left_columns (left right : list column) : list column :=
  filter (fun c => match find_column (id_name (c_name c)) right with None => true | Some _ => false end) left.

(** c.GetName() of a constraint known to be named (see [all_named]).  Used in pg:75-131 *)
Definition con_ident (c : constraint) : ident :=
  match con_name c with Some i => i | None => mkIdent "" "" "" end.
(** GetName().Name: pg:75-131, 244-262 *)
Definition con_key (c : constraint) : string := id_name (con_ident c).

(** A nil name makes DiffCreateTable panic: all constraints of before are visited
    by the first loop, all constraints of after by the last one.  GetName() != nil: ddl_table.go:41, 82, 137, 175 *)
Definition named (c : constraint) : bool := match con_name c with Some _ => true | None => false end.
(** The constraints visited by pg:75-88 and pg:121-131 *)
Definition all_named (cs : list constraint) : bool := forallb named cs.

(** findConstraintByName: pg:255-262, crdb:305-312, my:329-336, sp:296-303 *)
Definition find_constraint (n : string) (cs : list constraint) : option constraint :=
  find (fun c => eqs (con_key c) n) cs.

(** onlyLeftConstraint: pg:244-253, crdb:294-303, my:318-327, sp:285-294.  The result is
    built with Constraints.Append. *)
Definition only_left_constraints (left right : list constraint) : res (list constraint) :=
  append_constraints d srt []
    (filter (fun c => match find_constraint (con_key c) right with None => true | Some _ => false end) left).

(** findOptionByName, onlyLeftOption: my:338-356 *)
Definition find_option (n : string) (os : list option_) : option option_ :=
  find (fun o => eqs (o_name o) n) os.
(** OnlyLeftOption: my:338-347 *)
Definition only_left_options (left right : list option_) : list option_ :=
  filter (fun o => match find_option (o_name o) right with None => true | Some _ => false end) left.

(** The column loop body for a column present on both sides: pg:156-209, crdb:206-259,
    my:247-283, sp:194-250.  [n] is after.Name. *)
Definition is_some {A} (o : option A) : bool := match o with Some _ => true | None => false end.
(** Go != of strings *)
Definition neqs (a b : string) : bool := negb (eqs a b).

(** The default of a column: pg:168-188, crdb:218-238, sp:208-228 *)
Definition diff_default (cmt : string) (n : objname) (b a : column) : list stmt :=
  if is_some (c_default b) && negb (is_some (c_default a))
  then [AlterTable cmt n (DropDefault (c_name a))]
  else if is_some (c_default a) && neqs (default_diff d (c_default b)) (default_diff d (c_default a))
  then [AlterTable cmt n (SetDefault (c_name a) (c_default a))]
  else [].

(** NOT NULL of a column: pg:190-209, crdb:240-259 *)
Definition diff_notnull (cmt : string) (n : objname) (b a : column) : list stmt :=
  if c_notnull b && negb (c_notnull a) then [AlterTable cmt n (DropNotNull (c_name a))]
  else if negb (c_notnull b) && c_notnull a then [AlterTable cmt n (SetNotNull (c_name a))]
  else [].

(** The options of a column: sp:230-250 *)
Definition diff_options (cmt : string) (n : objname) (b a : column) : list stmt :=
  if is_some (c_options b) && negb (is_some (c_options a))
  then [AlterTable cmt n (DropOptions (c_name a))]
  else if is_some (c_options a) && neqs (expr_diff (c_options b)) (expr_diff (c_options a))
  then [AlterTable cmt n (SetOptions (c_name a) (c_options a))]
  else [].

(** The fields copied into ModifyColumn: my:261-270.  CharacterSet is not copied. *)
Definition modified_column (a : column) : column :=
  mkCol (c_name a) (c_type a) (c_default a) (c_notnull a) false None None (c_collate a)
        (c_autoinc a) (c_onaction a) (c_comment a) None.

(** A column present on both sides: pg:156-209, crdb:206-259, my:247-283, sp:194-250 *)
Definition diff_common_column (n : objname) (b a : column) : list stmt :=
  let cmt := sdiff (column_string d b) (column_string d a) in
  match d with
  | Pg | Crdb =>
      (if neqs (datatype_diff (c_type b)) (datatype_diff (c_type a))
       then [AlterTable cmt n (SetDataType (c_name a) (c_type a))] else [])
      ++ diff_default cmt n b a ++ diff_notnull cmt n b a
  | My =>
      let dropDefault := is_some (c_default b) && negb (is_some (c_default a)) in
      (if neqs (datatype_diff (c_type b)) (datatype_diff (c_type a))
          || neqs (oident_diff (c_charset b)) (oident_diff (c_charset a))
          || neqs (oident_diff (c_collate b)) (oident_diff (c_collate a))
          || negb (Bool.eqb (c_notnull b) (c_notnull a))
          || (negb dropDefault && neqs (default_diff d (c_default b)) (default_diff d (c_default a)))
          || negb (Bool.eqb (c_autoinc b) (c_autoinc a))
          || neqs (c_onaction b) (c_onaction a)
          || neqs (c_comment b) (c_comment a)
       then [AlterTable cmt n (ModifyColumn (modified_column a))] else [])
      ++ (if dropDefault then [AlterTable cmt n (DropDefault (c_name a))] else [])
  | Sp =>
      (if neqs (datatype_diff (c_type b)) (datatype_diff (c_type a))
          || negb (Bool.eqb (c_notnull b) (c_notnull a))
       then [AlterTable cmt n (AlterDataType (c_name a) (c_type a) (c_notnull a))] else [])
      ++ diff_default cmt n b a ++ diff_options cmt n b a
  end%list.

(** A hidden computed column is taken for the shadow column of a hash-sharded index
    and never dropped: crdb:190-194 *)
Definition keep_hidden (b : column) : bool :=
  match d with
  | Crdb => c_notvisible b && match c_as b with Some a => eqs (as_type a) TOKEN_VIRTUAL | None => false end
  | _ => false
  end.

(** diffCreateTableColumn: pg:141-222, crdb:186-272, my:232-296, sp:179-263 *)
Definition diff_before_column (n : objname) (acols : list column) (b : column) : list stmt :=
  match find_column (id_name (c_name b)) acols with
  | None =>
      if keep_hidden b then []
      else [AlterTable (sdiff (column_string d b) "") n (DropColumn (c_name b))]
  | Some a => diff_common_column n b a
  end.
(** A column present in after only: pg:212-221, crdb:262-271, my:285-295, sp:253-262 *)
Definition add_column (n : objname) (a : column) : stmt :=
  AlterTable (sdiff "" (column_string d a)) n (AddColumn a).
(** DiffCreateTableColumn: pg:141-222, crdb:186-272, my:232-296, sp:179-263 *)
Definition diff_columns (n : objname) (bcols acols : list column) : list stmt :=
  (flat_map (diff_before_column n acols) bcols
   ++ map (add_column n) (only_left_columns acols bcols))%list.

(** The name of an index held by a table constraint: *Ident in cockroachdb
    (crdb:82-85), *ObjectName with the table's schema in mysql (my:84-87). *)
Definition index_objname (schema : option ident) (i : ident) : objname :=
  match d with My => mkON schema i | _ => mkON None i end.

(** CREATE INDEX for an IndexConstraint: crdb:115-122,155-164; my:121-129,162-171 *)
Definition index_of_constraint (cmt : string) (n : objname) (c : constraint) : stmt :=
  match c with
  | CIndex _ unique pre cols post =>
      CreateIndex (mkCX cmt unique false (index_objname (on_schema n) (con_ident c)) n [] pre cols post)
  | _ => CreateIndex (mkCX cmt false false (index_objname (on_schema n) (con_ident c)) n [] None [] None)
  end.

(** Does this package treat the constraint as an index?; the type switches crdb:78-80, 106-108, 154-156; my:78-80, 109-111, 160-162 *)
Definition is_index (c : constraint) : bool :=
  match d, c with Crdb, CIndex _ _ _ _ _ | My, CIndex _ _ _ _ _ => true | _, _ => false end.

(** First loop over before.Constraints: pg:75-88, crdb:76-98, my:76-101, sp:83-96.
    [bn], [n]: before.Name, after.Name. *)
Definition drop_gone_constraint (bn n : objname) (acs : list constraint) (b : constraint) : list stmt :=
  match find_constraint (con_key b) acs with
  | Some _ => []
  | None =>
      if is_index b
      then [DropIndex (sdiff (constraint_diff d b) "") false (index_objname (on_schema bn) (con_ident b))]
      else [AlterTable (sdiff (constraint_string d b) "") n (DropConstraint (con_name b))]
  end.

(** Second loop: pg:92-119, crdb:102-150, my:105-156, sp:100-127 *)
Definition change_constraint (nv : bool) (bn n : objname) (acs : list constraint) (b : constraint) : list stmt :=
  match find_constraint (con_key b) acs with
  | None => []
  | Some a =>
      if neqs (constraint_diff d b) (constraint_diff d a) then
        if is_index a
        then [DropIndex (match d with My => "" | _ => sdiff (constraint_string d b) (constraint_string d a) end)
                        false (index_objname (on_schema bn) (con_ident b));
              index_of_constraint "" n a]
        else [AlterTable (sdiff (constraint_string d b) "") n (DropConstraint (con_name b));
              AlterTable (sdiff "" (constraint_string d a)) n (AddConstraint a nv)]
      else []
  end.

(** Third loop: pg:121-131, crdb:152-176, my:158-183, sp:129-139 *)
Definition add_constraint (nv : bool) (n : objname) (a : constraint) : stmt :=
  if is_index a then index_of_constraint (sdiff "" (constraint_diff d a)) n a
  else AlterTable (sdiff "" (constraint_string d a)) n (AddConstraint a nv).

(** Table options: my:187-222 *)
Definition is_auto_increment (o : option_) : bool := eqs (to_upper (o_name o)) "AUTO_INCREMENT".
(** Table options: my:187-222 *)
Definition diff_table_options (n : objname) (bos aos : list option_) : list stmt :=
  match d with
  | My =>
      flat_map (fun b =>
        if is_auto_increment b then []
        else match find_option (o_name b) aos with
             | Some a => if neqs (option_diff d b) (option_diff d a)
                         then [AlterTable (sdiff (option_string d b) (option_string d a)) n
                                          (TableOption (o_name a) (o_value a))]
                         else []
             | None => []
             end) bos
      ++ map (fun a => AlterTable (sdiff "" (option_string d a)) n (TableOption (o_name a) (o_value a)))
             (filter (fun a => negb (is_auto_increment a)) (only_left_options aos bos))
  | _ => []
  end%list.

(** Row deletion policy: sp:141-169 *)
Definition diff_row_deletion (n : objname) (b a : option option_) : list stmt :=
  match d with
  | Sp =>
      if neqs (ooption_diff d b) (ooption_diff d a) then
        match b, a with
        | None, Some a => [AlterTable (sdiff "" (option_string d a)) n (AddRowDeletion a)]
        | Some b, None => [AlterTable (sdiff (option_string d b) "") n DropRowDeletion]
        | Some b, Some a => [AlterTable (sdiff (option_string d b) (option_string d a)) n (ReplaceRowDeletion a)]
        | None, None => []     (* both texts are "" *)
        end
      else []
  | _ => []
  end.

(** The object name after.Name as the function leaves it: when the names differ and
    the new one has no schema, it is given the old schema (through the pointer
    shared by RenameTable.NewName and after.Name): pg:60-67, crdb:61-68, my:61-68,
    sp:68-75 *)
Definition renamed (b a : objname) : bool := neqs (objname_diff b) (objname_diff a).
(** pg:60-67, crdb:61-68, my:61-68, sp:68-75 *)
Definition final_name (b a : objname) : objname :=
  if renamed b a && negb (is_some (on_schema a)) then mkON (on_schema b) (on_name a) else a.

(** RENAME TO: pg:60-72, crdb:61-73, my:61-73, sp:68-80 *)
Definition diff_rename (b a : objname) : list stmt :=
  let n := final_name b a in
  if renamed b a
  then [AlterTable (sdiff (objname_diff b) (objname_diff n)) b (RenameTable n)]
  else [].

(** Body of DiffCreateTable behind the guards: pg:60-131, crdb:61-176, my:61-222, sp:68-169 *)
Definition diff_tables (nv : bool) (b a : create_table) : res (list stmt) :=
  let n := final_name (ct_name b) (ct_name a) in
  let! added := only_left_constraints (ct_constraints a) (ct_constraints b) in
  Ok (diff_rename (ct_name b) (ct_name a)
      ++ flat_map (drop_gone_constraint (ct_name b) n (ct_constraints a)) (ct_constraints b)
      ++ diff_columns n (ct_columns b) (ct_columns a)
      ++ flat_map (change_constraint nv (ct_name b) n (ct_constraints a)) (ct_constraints b)
      ++ map (add_constraint nv n) added
      ++ diff_table_options n (ct_options b) (ct_options a)
      ++ diff_row_deletion n (ct_rowdel b) (ct_rowdel a))%list.

(** DiffCreateTable on two non-nil statements: pg:36-138, crdb:37-183, my:37-229, sp:35-176.
    [nv] = UseAlterTableAddConstraintNotValid. *)
Definition diff_create_table (nv : bool) (b a : create_table) : dres :=
  if match d with Sp => neqs (options_diff d (ct_options b)) (options_diff d (ct_options a)) | _ => false end
  then DOk [DropTable (sdiff (options_string d (ct_options b)) (options_string d (ct_options a))) false (ct_name b);
            CreateTable a]
  else if eqs (create_table_string d b) (create_table_string d a) then DNoDiff
  else if all_named (ct_constraints b) && all_named (ct_constraints a) then
    match diff_tables nv b a with
    | Ok [] => DNoDiff
    | Ok l => DOk l
    | _ => DPanic
    end
  else DPanic.

(** DiffCreateTable with nil arguments: pg:46-58.  Two nil arguments panic
    (GetNameForDiff of nil in the error text; in spanner already Options of nil). *)
Definition diff_create_table_opt (nv : bool) (b a : option create_table) : dres :=
  match b, a with
  | None, Some a => DOk [CreateTable a]
  | Some b, None => DOk [DropTable "" false (ct_name b)]
  | None, None => DPanic
  | Some b, Some a => diff_create_table nv b a
  end.

(** What the argument after points to when DiffCreateTable has returned.  pg:60-67, crdb:61-68, my:61-68, sp:68-75 *)
Definition after_effect (b a : create_table) : create_table :=
  if match d with Sp => neqs (options_diff d (ct_options b)) (options_diff d (ct_options a)) | _ => false end
     || eqs (create_table_string d b) (create_table_string d a)
  then a
  else mkCT (ct_comment a) (ct_ifnotexists a) (final_name (ct_name b) (ct_name a)) (ct_columns a)
            (ct_constraints a) (ct_options a) (ct_rowdel a).

(** reflect.TypeOf(a) == reflect.TypeOf(b); used by findStmtByTypeAndName: 119-126 *)
Definition same_type (a b : stmt) : bool :=
  match a, b with
  | CreateTable _, CreateTable _ | CreateIndex _, CreateIndex _ | DropTable _ _ _, DropTable _ _ _
  | DropIndex _ _ _, DropIndex _ _ _ | AlterTable _ _ _, AlterTable _ _ _ => true
  | _, _ => false
  end.

(** findStmtByTypeAndName: 119-126 *)
Definition find_stmt (s : stmt) (l : ddl) : option stmt :=
  find (fun x => same_type s x && eqs (stmt_name s) (stmt_name x)) l.

(** onlyLeftStmt: 107-117 *)
Definition only_left_stmts (left right : ddl) : ddl :=
  filter (fun s => match find_stmt s right with None => true | Some _ => false end) left.

(** DROP for a statement of before: 24-35, 44-55 ([None] = not supported) *)
Definition drop_stmt (s : stmt) : option stmt :=
  match s with
  | CreateTable t => Some (DropTable "" false (ct_name t))
  | CreateIndex i => Some (DropIndex "" false (cx_name i))
  | _ => None
  end.

(** 60-67 *)
Definition create_stmt (s : stmt) : option stmt :=
  match s with CreateTable _ | CreateIndex _ => Some s | _ => None end.

(** A loop that returns at the first statement not supported: 24-35, 44-67 *)
Fixpoint map_opt {A B} (f : A -> option B) (l : list A) : option (list B) :=
  match l with
  | [] => Some []
  | x :: r => match f x, map_opt f r with Some y, Some ys => Some (y :: ys) | _, _ => None end
  end.

(** The loop body 72-97 for one statement of before *)
Definition diff_stmt (s : stmt) (after : ddl) : res (list stmt) :=
  match s, find_stmt s after with
  | CreateTable b, Some (CreateTable a) =>
      match diff_create_table false b a with
      | DOk l => Ok l
      | DNoDiff => Ok []
      | _ => Panic
      end
  | CreateIndex b, Some (CreateIndex a) =>
      if neqs (create_index_diff d b) (create_index_diff d a)
      then Ok [DropIndex (sdiff (create_index_diff d b) (create_index_diff d a)) false (cx_name b); CreateIndex a]
      else Ok []
  | _, _ => Ok []
  end.

(** The loop over before.Stmts: 70-98 *)
Fixpoint diff_stmts (before after : ddl) : res (list stmt) :=
  match before with
  | [] => Ok []
  | s :: r =>
      let! l := diff_stmt s after in
      let! l' := diff_stmts r after in
      Ok (l ++ l')%list
  end.

(** Diff: 15-105 on two non-nil arguments (38-104) *)
Definition diff_ddl (before after : ddl) : dres :=
  if eqs (ddl_string d before) (ddl_string d after) then DNoDiff
  else
    match map_opt drop_stmt (only_left_stmts before after) with
    | None => DNotSupported
    | Some drops =>
        match map_opt create_stmt (only_left_stmts after before) with
        | None => DNotSupported
        | Some creates =>
            match diff_stmts before after with
            | Ok changes =>
                match (drops ++ creates ++ changes)%list with
                | [] => DNoDiff
                | l => DOk l
                end
            | _ => DPanic
            end
        end
    end.

(** Diff: 15-105, nil arguments: 19-39 *)
Definition diff (before after : option ddl) : dres :=
  match before, after with
  | None, Some a => DOk a
  | Some b, None => match map_opt drop_stmt b with Some l => DOk l | None => DNotSupported end
  | None, None => DNoDiff
  | Some b, Some a => diff_ddl b a
  end.

End Diff.
