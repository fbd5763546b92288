(** SPECIFICATION: schemas that differ in quotation marks only, and schemas that
    differ in the order of their parts only. *)
From Verif Require Import GoStr Token Ast Db.
From Coq Require Import Sorting.Permutation.

(** * Quotation marks *)
(** A name without its quotation marks.  String literals (single quotes) stay
    literals.  The words of a cockroachdb USING clause are not names. *)
Definition bare (i : ident) : ident := mkIdent (id_name i) "" (if literal i then "'" else "").
Definition bare_ci (c : colident) : colident := mkCI (bare (ci_ident c)) (ci_order c).
Definition bare_expr (e : expr) : expr := option_map (map bare) e.
Definition bare_type (t : datatype) : datatype := mkDT (dt_name t) (dt_type t) (bare_expr (dt_expr t)).
Definition bare_as (a : asdef) : asdef := mkAs (bare_expr (as_value a)) (as_type a).
Definition bare_name (n : objname) : objname := mkON (option_map bare (on_schema n)) (bare (on_name n)).
Definition bare_col (c : column) : column :=
  mkCol (bare (c_name c)) (bare_type (c_type c)) (option_map bare_expr (c_default c)) (c_notnull c) (c_notvisible c)
        (option_map bare_as (c_as c)) (option_map bare (c_charset c)) (option_map bare (c_collate c)) (c_autoinc c)
        (c_onaction c) (c_comment c) (bare_expr (c_options c)).
Definition bare_con (c : constraint) : constraint :=
  match c with
  | CPrimary n cols => CPrimary (option_map bare n) (map bare_ci cols)
  | CForeign n cols r rcols a => CForeign (option_map bare n) (map bare_ci cols) (bare r) (map bare_ci rcols) a
  | CUnique n cols => CUnique (option_map bare n) (map bare_ci cols)
  | CIndex n u pre cols post => CIndex (option_map bare n) u pre (map bare_ci cols) post
  | CCheck n e => CCheck (option_map bare n) (bare_expr e)
  end.
Definition bare_opt (o : option_) : option_ := mkOpt (o_name o) (bare_expr (o_value o)).
Definition bare_stmt (s : stmt) : stmt :=
  match s with
  | CreateTable t => CreateTable (mkCT (ct_comment t) (ct_ifnotexists t) (bare_name (ct_name t)) (map bare_col (ct_columns t))
      (map bare_con (ct_constraints t)) (map bare_opt (ct_options t)) (option_map bare_opt (ct_rowdel t)))
  | CreateIndex i => CreateIndex (mkCX (cx_comment i) (cx_unique i) (cx_ifnotexists i) (bare_name (cx_name i))
      (bare_name (cx_table i)) (map bare (cx_using i)) (cx_pre i) (map bare_ci (cx_columns i)) (cx_post i))
  | s => s
  end.
(** Two schemas are equal but for quotation marks. *)
Definition same_but_quotes (l l' : ddl) : Prop := map bare_stmt l = map bare_stmt l'.

(** * Order *)
(** The columns, constraints and (mysql) options of the table in another order.  The
    options of a Spanner table (PRIMARY KEY, INTERLEAVE) keep theirs. *)
Definition reordered_table (d : dialect) (t t' : create_table) : Prop :=
  ct_name t = ct_name t' /\ Permutation (ct_columns t) (ct_columns t') /\
  Permutation (ct_constraints t) (ct_constraints t') /\
  (if match d with My => true | _ => false end then Permutation (ct_options t) (ct_options t') else ct_options t = ct_options t') /\
  ct_rowdel t = ct_rowdel t'.
Definition reordered_stmt (d : dialect) (s s' : stmt) : Prop :=
  match s, s' with
  | CreateTable t, CreateTable t' => reordered_table d t t'
  | CreateIndex i, CreateIndex i' => i = i'
  | _, _ => False
  end.
(** The statements in another order, each reordered. *)
Definition reordered (d : dialect) (l l' : ddl) : Prop :=
  exists l0, Permutation l l0 /\ Forall2 (reordered_stmt d) l0 l'.
