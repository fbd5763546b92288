(** SPECIFICATION: what executing a DDL statement does to a database catalogue.

    This file says what the statements mean; it does not model code of /repo
    (only the syntax trees of Ast.v are used).  A catalogue is a finite map from
    object keys to object descriptions, written as a function.  Executing a
    statement either fails ([None]) or yields the new catalogue.

    Simplifications (also listed in DESIGN.md): names are compared as byte strings
    after removal of the quotation marks (no case folding); an expression is the
    sequence of its tokens, each without quotation marks and with a flag telling
    string literals from the rest; nullability implied by a
    primary key is not represented; NOT VALID is not represented; that a new
    object refers to existing objects only is not checked here (see DbDep.v). *)
From Verif Require Import GoStr Token Ast.

(** * Descriptions *)

(** A token of an expression: is it a string literal?, its text. *)
Definition tok := (bool * string)%type.

(** Column order of the columns of a table is not part of the description. *)
Record scol := mkSC {
  sc_type : string; sc_args : list tok; sc_default : option (list tok); sc_notnull : bool;
  sc_hidden : bool; sc_as : option (list tok * string);
  sc_charset : option string; sc_collate : option string; sc_autoinc : bool;
  sc_onaction : string; sc_comment : string;
  sc_options : option (list tok) }.

(** A key column: name, and whether it is descending. *)
Definition keycol := (string * bool)%type.

Inductive scon :=
| SPrimary (cols : list keycol)
| SForeign (cols : list keycol) (ref : string) (refcols : list keycol) (onaction : string)
| SUnique (cols : list keycol)
| SCheck (e : list tok).

Record sindex := mkSI {
  si_table : string; si_unique : bool; si_cols : list keycol;
  si_using : list tok;                                            (* USING x in front of the columns *)
  si_pre : option (list string * option (list string));              (* cockroachdb: USING .. WITH .. *)
  si_post : option (list string * option (list string)) }.

Inductive key :=
| KTab (t : string)            (* the table t exists *)
| KCol (t c : string)          (* column c of table t *)
| KCon (t n : string)          (* constraint n of table t *)
| KOpt (t o : string)          (* option o of table t *)
| KRow (t : string)            (* row deletion policy of table t *)
| KIdx (n : string).           (* index n *)

Inductive value :=
| VTab
| VCol (c : scol)
| VCon (c : scon)
| VOpt (v : list tok)
| VRow (v : list tok)
| VIdx (i : sindex).

Definition db := key -> option value.
Definition empty_db : db := fun _ => None.

(** * Meaning of the parts of a syntax tree *)

Definition qname (n : objname) : string :=
  match on_schema n with
  | Some s => id_name s ++ "." ++ id_name (on_name n)
  | None => id_name (on_name n)
  end.

(** Single quotes make a string literal in every dialect.  (Double quotes make one
    in MySQL and Spanner, too; this is not represented.) *)
Definition literal (i : ident) : bool := has_prefix_byte ch_quote (id_raw i).
Definition tok_of (i : ident) : tok := (literal i, id_name i).
Definition toks (l : list ident) : list tok := map tok_of l.
Definition etoks (e : expr) : list tok := match e with Some l => toks l | None => [] end.

Definition sem_default (v : default) : option (list tok) :=
  match v with Some (Some l) => Some (toks l) | _ => None end.

Definition sem_as (a : option asdef) : option (list tok * string) :=
  match a with Some a => Some (etoks (as_value a), as_type a) | None => None end.

(** Only the attributes that exist in the dialect count. *)
Definition sem_col (d : dialect) (c : column) : scol :=
  mkSC (dt_type (c_type c)) (etoks (dt_expr (c_type c))) (sem_default (c_default c)) (c_notnull c)
       (match d with Crdb => c_notvisible c | _ => false end)
       (match d with Crdb => sem_as (c_as c) | _ => None end)
       (match d with My => option_map id_name (c_charset c) | _ => None end)
       (match d with My => option_map id_name (c_collate c) | _ => None end)
       (match d with My => c_autoinc c | _ => false end)
       (match d with My => c_onaction c | _ => "" end)
       (match d with My => c_comment c | _ => "" end)
       (match d with Sp => option_map toks (c_options c) | _ => None end).

Definition sem_keycol (d : dialect) (c : colident) : keycol :=
  (id_name (ci_ident c), match d, ci_order c with Pg, _ => false | _, Some true => true | _, _ => false end).
Definition sem_keycols (d : dialect) (cs : list colident) : list keycol := map (sem_keycol d) cs.

(** The description of a table constraint ([None]: it is an index). *)
Definition sem_con (d : dialect) (c : constraint) : option scon :=
  match c with
  | CPrimary _ cols => Some (SPrimary (sem_keycols d cols))
  | CForeign _ cols ref refcols act =>
      Some (SForeign (sem_keycols d cols) (id_name ref) (sem_keycols d refcols)
                     (match d with Sp => "" | _ => act end))
  | CUnique _ cols => Some (SUnique (sem_keycols d cols))
  | CCheck _ e => Some (SCheck (etoks e))
  | CIndex _ _ _ _ _ => None
  end.

Definition raws (e : expr) : list string := match e with Some l => map id_raw l | None => [] end.
Definition sem_using (u : option usingdef) : option (list string * option (list string)) :=
  match u with Some u => Some (raws (us_value u), option_map raws (us_with u)) | None => None end.

Definition sem_index (d : dialect) (i : create_index) : sindex :=
  mkSI (qname (cx_table i)) (cx_unique i) (sem_keycols d (cx_columns i))
       (match d with Crdb => [] | _ => toks (cx_using i) end)
       (match d with Crdb => sem_using (cx_pre i) | _ => None end)
       (match d with Crdb => sem_using (cx_post i) | _ => None end).

(** An index declared inside CREATE TABLE.  Index names are global; in MySQL they
    carry the schema of the table. *)
Definition intable_key (d : dialect) (t : objname) (n : ident) : key :=
  KIdx (match d with My => qname (mkON (on_schema t) n) | _ => id_name n end).
Definition sem_intable (d : dialect) (t : objname) (unique : bool) (pre : option usingdef)
    (cols : list colident) (post : option usingdef) : sindex :=
  mkSI (qname t) unique (sem_keycols d cols) []
       (match d with Crdb => sem_using pre | _ => None end)
       (match d with Crdb => sem_using post | _ => None end).

(** * Elementary operations *)

Inductive op :=
| Has (k : key)                          (* fails unless k exists *)
| Add (k : key) (v : value)              (* fails if k exists *)
| Upd (k : key) (f : value -> value)     (* fails unless k exists *)
| Del (k : key)                          (* fails unless k exists *)
| Put (k : key) (v : value)              (* never fails *)
| Fresh (t : string)                     (* a new table without columns; fails if t exists *)
| Wipe (t : string)                      (* removes the table, all that belongs to it and its indexes;
                                            fails unless the table exists *)
| DelCol (t c : string)                  (* removes the column, the constraints of the table and the
                                            indexes on the table that involve it; fails unless it exists *)
| Fail.

Definition key_eqb (a b : key) : bool :=
  match a, b with
  | KTab t, KTab u | KRow t, KRow u | KIdx t, KIdx u => String.eqb t u
  | KCol t c, KCol u e | KCon t c, KCon u e | KOpt t c, KOpt u e => String.eqb t u && String.eqb c e
  | _, _ => false
  end.

(** The table an object belongs to. *)
Definition owner (k : key) : option string :=
  match k with KTab t | KCol t _ | KCon t _ | KOpt t _ | KRow t => Some t | KIdx _ => None end.
Definition owned_by (t : string) (k : key) : bool :=
  match owner k with Some u => String.eqb t u | None => false end.

Definition present {A} (o : option A) : bool := match o with Some _ => true | None => false end.

(** Does the object involve the column c of table t? *)
Definition con_involves (c : string) (s : scon) : bool :=
  match s with
  | SPrimary cols | SForeign cols _ _ _ | SUnique cols => existsb (fun x => String.eqb (fst x) c) cols
  | SCheck e => existsb (fun x => negb (fst x) && String.eqb (snd x) c) e
  end.
Definition involves (t c : string) (k : key) (v : value) : bool :=
  match k, v with
  | KCon u _, VCon s => String.eqb u t && con_involves c s
  | KIdx _, VIdx i => String.eqb (si_table i) t && existsb (fun x => String.eqb (fst x) c) (si_cols i)
  | _, _ => false
  end.
Definition index_on (t : string) (v : value) : bool :=
  match v with VIdx i => String.eqb (si_table i) t | _ => false end.
Definition unless (b : value -> bool) (o : option value) : option value :=
  match o with Some v => if b v then None else Some v | None => None end.

(** Does the operation succeed? *)
Definition op_ok (o : op) (m : db) : bool :=
  match o with
  | Has k | Upd k _ | Del k => present (m k)
  | Add k _ => negb (present (m k))
  | Put _ _ => true
  | Fresh t => negb (present (m (KTab t)))
  | Wipe t => present (m (KTab t))
  | DelCol t c => present (m (KCol t c))
  | Fail => false
  end.

(** The catalogue after it. *)
Definition op_db (o : op) (m : db) : db :=
  match o with
  | Has _ | Fail => m
  | Add k v | Put k v => fun x => if key_eqb k x then Some v else m x
  | Upd k f => fun x => if key_eqb k x then option_map f (m x) else m x
  | Del k => fun x => if key_eqb k x then None else m x
  | Fresh t => fun x => if key_eqb (KTab t) x then Some VTab else if owned_by t x then None else m x
  | Wipe t => fun x => if owned_by t x then None else unless (index_on t) (m x)
  | DelCol t c => fun x => if key_eqb (KCol t c) x then None else unless (involves t c x) (m x)
  end.

Fixpoint run (os : list op) (m : db) : option db :=
  match os with
  | [] => Some m
  | o :: r => if op_ok o m then run r (op_db o m) else None
  end.

(** * Statements *)

Definition on_col (f : scol -> scol) (v : value) : value :=
  match v with VCol c => VCol (f c) | _ => v end.

Definition set_type (t : datatype) (c : scol) : scol :=
  mkSC (dt_type t) (etoks (dt_expr t)) (sc_default c) (sc_notnull c) (sc_hidden c) (sc_as c) (sc_charset c)
       (sc_collate c) (sc_autoinc c) (sc_onaction c) (sc_comment c) (sc_options c).
Definition set_dflt (v : option (list tok)) (c : scol) : scol :=
  mkSC (sc_type c) (sc_args c) v (sc_notnull c) (sc_hidden c) (sc_as c) (sc_charset c)
       (sc_collate c) (sc_autoinc c) (sc_onaction c) (sc_comment c) (sc_options c).
Definition set_nn (b : bool) (c : scol) : scol :=
  mkSC (sc_type c) (sc_args c) (sc_default c) b (sc_hidden c) (sc_as c) (sc_charset c)
       (sc_collate c) (sc_autoinc c) (sc_onaction c) (sc_comment c) (sc_options c).
Definition set_opts (v : option (list tok)) (c : scol) : scol :=
  mkSC (sc_type c) (sc_args c) (sc_default c) (sc_notnull c) (sc_hidden c) (sc_as c) (sc_charset c)
       (sc_collate c) (sc_autoinc c) (sc_onaction c) (sc_comment c) v.

(** ADD of a constraint or an in-table index.  Constraints without a name are not
    covered (the database would invent one). *)
Definition add_con_ops (d : dialect) (t : objname) (c : constraint) : list op :=
  match c with
  | CIndex (Some n) unique pre cols post => [Add (intable_key d t n) (VIdx (sem_intable d t unique pre cols post))]
  | _ => match con_name c, sem_con d c with
         | Some n, Some s => [Add (KCon (qname t) (id_name n)) (VCon s)]
         | _, _ => [Fail]
         end
  end.

Definition add_col_ops (d : dialect) (t : objname) (c : column) : list op :=
  [Add (KCol (qname t) (id_name (c_name c))) (VCol (sem_col d c))].

(** The next value of the AUTO_INCREMENT counter is state, not schema. *)
Definition counter_option (o : option_) : bool := String.eqb (o_name o) "AUTO_INCREMENT".
Definition add_opt_ops (d : dialect) (t : objname) (o : option_) : list op :=
  match d with
  | My => if counter_option o then [] else [Add (KOpt (qname t) (o_name o)) (VOpt (etoks (o_value o)))]
  | _ => [Add (KOpt (qname t) (o_name o)) (VOpt (etoks (o_value o)))]
  end.
Definition add_row_ops (t : objname) (o : option option_) : list op :=
  match o with Some o => [Add (KRow (qname t)) (VRow (etoks (o_value o)))] | None => [] end.

Definition create_table_ops (d : dialect) (t : create_table) : list op :=
  (Fresh (qname (ct_name t))
   :: flat_map (add_col_ops d (ct_name t)) (ct_columns t)
   ++ flat_map (add_con_ops d (ct_name t)) (ct_constraints t)
   ++ flat_map (add_opt_ops d (ct_name t)) (ct_options t)
   ++ add_row_ops (ct_name t) (ct_rowdel t))%list.

Definition create_index_ops (d : dialect) (i : create_index) : list op :=
  [Add (KIdx (qname (cx_name i))) (VIdx (sem_index d i))].

(** MySQL knows no DROP INDEX without a table: the statement fails. *)
Definition drop_index_ops (d : dialect) (n : objname) : list op :=
  match d with My => [Fail] | _ => [Del (KIdx (qname n))] end.

(** ALTER TABLE t ..., RENAME TO excepted *)
Definition action_ops (d : dialect) (t : objname) (a : action) : list op :=
  match a with
  | AddColumn c => add_col_ops d t c
  | DropColumn n => [DelCol (qname t) (id_name n)]
  | SetDataType n ty => [Upd (KCol (qname t) (id_name n)) (on_col (set_type ty))]
  | SetDefault n (Some (Some l)) => [Upd (KCol (qname t) (id_name n)) (on_col (set_dflt (Some (toks l))))]
  | SetDefault _ _ => [Fail]                                  (* no expression: not SQL *)
  | DropDefault n => [Upd (KCol (qname t) (id_name n)) (on_col (set_dflt None))]
  | SetNotNull n => [Upd (KCol (qname t) (id_name n)) (on_col (set_nn true))]
  | DropNotNull n => [Upd (KCol (qname t) (id_name n)) (on_col (set_nn false))]
  | AddConstraint c _ => add_con_ops d t c
  | DropConstraint (Some n) => [Del (KCon (qname t) (id_name n))]
  | DropConstraint None => [Fail]
  | ModifyColumn c => [Upd (KCol (qname t) (id_name (c_name c))) (fun _ => VCol (sem_col d c))]
  | TableOption o v => [Put (KOpt (qname t) o) (VOpt (etoks v))]
  | AlterDataType n ty nn => [Upd (KCol (qname t) (id_name n)) (on_col (fun c => set_nn nn (set_type ty c)))]
  | SetOptions n v => [Upd (KCol (qname t) (id_name n)) (on_col (set_opts (option_map toks v)))]
  | DropOptions n => [Upd (KCol (qname t) (id_name n)) (on_col (set_opts None))]
  | AddRowDeletion o => [Add (KRow (qname t)) (VRow (etoks (o_value o)))]
  | ReplaceRowDeletion o => [Upd (KRow (qname t)) (fun _ => VRow (etoks (o_value o)))]
  | DropRowDeletion => [Del (KRow (qname t))]
  | RenameTable _ | RenameColumn _ _ | RenameConstraint _ _ | AlterConstraint _ _ _ => [Fail]
  end.

(** The operations of a statement without IF (NOT) EXISTS *)
Definition stmt_ops (d : dialect) (s : stmt) : list op :=
  match s with
  | CreateTable t => create_table_ops d t
  | CreateIndex i => create_index_ops d i
  | DropTable _ _ n => [Wipe (qname n)]
  | DropIndex _ _ n => drop_index_ops d n
  | AlterTable _ n a => Has (KTab (qname n)) :: action_ops d n a
  end.

(** ALTER TABLE t RENAME TO u: everything that belongs to t now belongs to u, and
    the indexes on t are indexes on u. *)
Definition rename_key (t u : string) (k : key) : key :=
  let r x := if String.eqb x u then t else x in
  match k with
  | KTab x => KTab (r x) | KCol x c => KCol (r x) c | KCon x n => KCon (r x) n
  | KOpt x o => KOpt (r x) o | KRow x => KRow (r x) | KIdx n => KIdx n
  end.
Definition rename_value (t u : string) (v : value) : value :=
  match v with
  | VIdx i => if String.eqb (si_table i) t
              then VIdx (mkSI u (si_unique i) (si_cols i) (si_using i) (si_pre i) (si_post i)) else v
  | _ => v
  end.
Definition rename_db (t u : string) (m : db) : db :=
  fun k => if owned_by t k then None else option_map (rename_value t u) (m (rename_key t u k)).

(** Executing one statement: IF NOT EXISTS / IF EXISTS turn a failure into success
    without effect. *)
Definition exec (d : dialect) (s : stmt) (m : db) : option db :=
  match s with
  | CreateTable t =>
      if ct_ifnotexists t && present (m (KTab (qname (ct_name t)))) then Some m else run (stmt_ops d s) m
  | CreateIndex i =>
      if cx_ifnotexists i && present (m (KIdx (qname (cx_name i)))) then Some m else run (stmt_ops d s) m
  | DropTable _ ie n =>
      if ie && negb (present (m (KTab (qname n)))) then Some m else run (stmt_ops d s) m
  | DropIndex _ ie n =>
      if ie && negb (present (m (KIdx (qname n)))) then Some m else run (stmt_ops d s) m
  | AlterTable _ n (RenameTable u) =>
      if present (m (KTab (qname n))) && negb (present (m (KTab (qname u))))
      then Some (rename_db (qname n) (qname u) m) else None
  | AlterTable _ _ _ => run (stmt_ops d s) m
  end.

Fixpoint exec_all (d : dialect) (l : ddl) (m : db) : option db :=
  match l with
  | [] => Some m
  | s :: r => match exec d s m with Some m' => exec_all d r m' | None => None end
  end.

(** The schema [l] describes the catalogue [m]: creating all its objects in an empty
    database, none of them twice, yields [m]. *)
Definition forget_ine (s : stmt) : stmt :=
  match s with
  | CreateTable t => CreateTable (mkCT (ct_comment t) false (ct_name t) (ct_columns t) (ct_constraints t)
                                       (ct_options t) (ct_rowdel t))
  | CreateIndex i => CreateIndex (mkCX (cx_comment i) (cx_unique i) false (cx_name i) (cx_table i) (cx_using i)
                                       (cx_pre i) (cx_columns i) (cx_post i))
  | s => s
  end.
Definition is_create (s : stmt) : bool :=
  match s with CreateTable _ | CreateIndex _ => true | _ => false end.
Definition describes (d : dialect) (l : ddl) (m : db) : Prop :=
  forallb is_create l = true /\ exec_all d (map forget_ine l) empty_db = Some m.

(** Same catalogue *)
Definition db_eq (m m' : db) : Prop := forall k, m k = m' k.
