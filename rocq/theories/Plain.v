(** SPECIFICATION: schemas without anything that could be taken for a comment, a line
    or the end of a statement.  Said about the two schemas, not about the statements
    that lead from one to the other. *)
From Verif Require Import GoStr Token Lexer Ast Tidy Lines ApplySpec.
Local Open Scope list_scope.

(** The texts a schema is made of: words, and the quotation marks of names *)
Inductive leaf := Word (s : string) | Mark (s : string).

Definition ident_leaves (i : ident) : list leaf := [Word (id_raw i); Word (id_name i); Mark (id_quote i); Mark (id_quote i)].
Definition oident_leaves (i : option ident) : list leaf := match i with Some i => ident_leaves i | None => [] end.
Definition expr_leaves (e : expr) : list leaf := match e with Some l => flat_map ident_leaves l | None => [] end.
Definition objname_leaves (n : objname) : list leaf := oident_leaves (on_schema n) ++ ident_leaves (on_name n).
Definition datatype_leaves (t : datatype) : list leaf := Word (dt_name t) :: expr_leaves (dt_expr t).
Definition default_leaves (v : default) : list leaf := match v with Some e => expr_leaves e | None => [] end.
Definition using_leaves (u : option usingdef) : list leaf :=
  match u with
  | Some u => expr_leaves (us_value u) ++ match us_with u with Some e => expr_leaves e | None => [] end
  | None => []
  end.
Definition as_leaves (a : option asdef) : list leaf := match a with Some a => expr_leaves (as_value a) ++ [Word (as_type a)] | None => [] end.
Definition column_leaves (c : column) : list leaf :=
  ident_leaves (c_name c) ++ datatype_leaves (c_type c) ++ default_leaves (c_default c) ++ as_leaves (c_as c)
  ++ oident_leaves (c_charset c) ++ oident_leaves (c_collate c) ++ [Word (c_onaction c); Word (c_comment c)] ++ expr_leaves (c_options c).
Definition cols_leaves (cs : list colident) : list leaf := flat_map (fun c => ident_leaves (ci_ident c)) cs.
Definition constraint_leaves (c : constraint) : list leaf :=
  oident_leaves (con_name c) ++
  match c with
  | CPrimary _ cols | CUnique _ cols => cols_leaves cols
  | CForeign _ cols ref refcols onaction => cols_leaves cols ++ ident_leaves ref ++ cols_leaves refcols ++ [Word onaction]
  | CIndex _ _ pre cols post => using_leaves pre ++ cols_leaves cols ++ using_leaves post
  | CCheck _ e => expr_leaves e
  end.
Definition option_leaves (o : option_) : list leaf := Word (o_name o) :: expr_leaves (o_value o).
Definition ooption_leaves (o : option option_) : list leaf := match o with Some o => option_leaves o | None => [] end.
Definition table_leaves (t : create_table) : list leaf :=
  objname_leaves (ct_name t) ++ flat_map column_leaves (ct_columns t) ++ flat_map constraint_leaves (ct_constraints t)
  ++ flat_map option_leaves (ct_options t) ++ ooption_leaves (ct_rowdel t).
Definition index_leaves (i : create_index) : list leaf :=
  objname_leaves (cx_name i) ++ objname_leaves (cx_table i) ++ flat_map ident_leaves (cx_using i)
  ++ using_leaves (cx_pre i) ++ cols_leaves (cx_columns i) ++ using_leaves (cx_post i).
Definition stmt_leaves (s : stmt) : list leaf :=
  match s with
  | CreateTable t => table_leaves t
  | CreateIndex i => index_leaves i
  | DropTable _ _ n | DropIndex _ _ n | AlterTable _ n _ => objname_leaves n
  end.

(** No two dashes, no line break, no carriage return, no semicolon at the end *)
Definition plain_text (s : string) : bool :=
  negb (contains "--" s) && negb (has_byte ch_nl s) && negb (has_byte ch_cr s) && negb (has_suffix_byte ";" s).
Definition plain_leaf (l : leaf) : bool :=
  match l with Word s => plain_text s | Mark s => plain_text s && negb (has_byte "-" s) end.
(** The bytes of the texts, eight more being counted for each *)
Fixpoint weight (l : list leaf) : nat :=
  match l with
  | [] => 0
  | Word s :: r | Mark s :: r => String.length s + 8 + weight r
  end.
(** Every option of a table has a value. *)
Definition valued (s : stmt) : bool :=
  match s with
  | CreateTable t => forallb (fun o => match o_value o with Some _ => true | None => false end) (ct_options t)
                     && match ct_rowdel t with Some o => match o_value o with Some _ => true | None => false end | None => true end
  | _ => true
  end.
(** A schema of plain texts, no statement of which is longer than 20000 bytes *)
Definition plain_schema (l : ddl) : bool :=
  forallb (fun s => forallb plain_leaf (stmt_leaves s) && (N.of_nat (weight (stmt_leaves s)) <=? 20000)%N && valued s && clean_comment (comment_of s)) l.

(** The comment explaining a difference has no line longer than the two texts it compares (and 64 bytes). *)
Definition modest (sdiff : string -> string -> string) : Prop :=
  forall x y l, In l (split nl (sdiff x y)) -> String.length l <= String.length x + String.length y + 64.

(** Sources in which no literal could be taken for a comment, a line or the end of a
    statement: no token but a semicolon itself contains two dashes, a line break, a
    carriage return or a semicolon. *)
Definition quiet (s : string) : bool :=
  negb (contains "--" s) && negb (has_byte ch_nl s) && negb (has_byte ch_cr s) && negb (has_byte ";" s).
Definition quiet_source (d : dialect) (s : string) : bool :=
  forallb (fun t => quiet (tk_lit t) || String.eqb (tk_lit t) ";") (lex d s).
(** No word of the schema is a semicolon, and no statement is longer than 20000 bytes. *)
Definition is_semicolon (l : leaf) : bool := match l with Word s | Mark s => String.eqb s ";" end.
Definition compact_schema (l : ddl) : bool :=
  forallb (fun s => forallb (fun x => negb (is_semicolon x)) (stmt_leaves s) && (N.of_nat (weight (stmt_leaves s)) <=? 20000)%N) l.
