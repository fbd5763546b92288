(** SPECIFICATION: schemas up to the letter case of keywords.  Names of tables,
    columns, constraints, indexes and referenced objects are kept; data types,
    expressions, actions and comments, which may contain keywords, are compared
    in upper case. *)
From Verif Require Import GoStr Token Ast.

Definition up_ident (i : ident) : ident := mkIdent (to_upper (id_name i)) (id_quote i) (to_upper (id_raw i)).
Definition up_expr (e : expr) : expr := option_map (map up_ident) e.
Definition up_type (t : datatype) : datatype := mkDT (to_upper (dt_name t)) (dt_type t) (up_expr (dt_expr t)).
Definition up_using (u : usingdef) : usingdef := mkUsing (up_expr (us_value u)) (option_map up_expr (us_with u)).
Definition up_as (a : asdef) : asdef := mkAs (up_expr (as_value a)) (as_type a).
Definition up_column (c : column) : column :=
  mkCol (c_name c) (up_type (c_type c)) (option_map up_expr (c_default c)) (c_notnull c) (c_notvisible c)
        (option_map up_as (c_as c)) (option_map up_ident (c_charset c)) (option_map up_ident (c_collate c))
        (c_autoinc c) (to_upper (c_onaction c)) (to_upper (c_comment c)) (up_expr (c_options c)).
Definition up_constraint (k : constraint) : constraint :=
  match k with
  | CPrimary n cols => CPrimary n cols
  | CForeign n cols ref refcols on => CForeign n cols ref refcols (to_upper on)
  | CUnique n cols => CUnique n cols
  | CIndex n u pre cols post => CIndex n u (option_map up_using pre) cols (option_map up_using post)
  | CCheck n e => CCheck n (up_expr e)
  end.
Definition up_option (o : option_) : option_ := mkOpt (o_name o) (up_expr (o_value o)).
Definition up_table (t : create_table) : create_table :=
  mkCT (ct_comment t) (ct_ifnotexists t) (ct_name t) (map up_column (ct_columns t)) (map up_constraint (ct_constraints t))
       (map up_option (ct_options t)) (option_map up_option (ct_rowdel t)).
Definition up_index (x : create_index) : create_index :=
  mkCX (cx_comment x) (cx_unique x) (cx_ifnotexists x) (cx_name x) (cx_table x) (map up_ident (cx_using x))
       (option_map up_using (cx_pre x)) (cx_columns x) (option_map up_using (cx_post x)).
Definition up_stmt (s : stmt) : stmt :=
  match s with CreateTable t => CreateTable (up_table t) | CreateIndex x => CreateIndex (up_index x) | s => s end.
