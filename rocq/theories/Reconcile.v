(** SPECIFICATION: pairs of schemas for which a diff can be expected to work, as
    executable tests.

    Each test excludes a situation in which the statements of /repo's Diff are
    wrong (the _refuted theorems show that); [reconcilable] is their conjunction
    and is cited by the theorems of PropsDiff.v. *)
From Verif Require Import GoStr Token Ast Db Tidy.

(** * Equality tests for descriptions *)
Definition string_eq_dec : forall a b : string, {a = b} + {a <> b} := String.string_dec.
Definition bool_eq_dec : forall a b : bool, {a = b} + {a <> b} := Bool.bool_dec.
Definition tok_eq_dec : forall a b : tok, {a = b} + {a <> b}.
Proof. decide equality; [apply string_eq_dec|apply bool_eq_dec]. Defined.
Definition keycol_eq_dec : forall a b : keycol, {a = b} + {a <> b}.
Proof. decide equality; [apply bool_eq_dec|apply string_eq_dec]. Defined.
Definition list_dec {A} (dec : forall a b : A, {a = b} + {a <> b}) : forall a b : list A, {a = b} + {a <> b} :=
  List.list_eq_dec dec.
Definition option_dec {A} (dec : forall a b : A, {a = b} + {a <> b}) : forall a b : option A, {a = b} + {a <> b}.
Proof. decide equality. Defined.
Definition pair_dec {A B} (da : forall a b : A, {a = b} + {a <> b}) (db : forall a b : B, {a = b} + {a <> b}) :
  forall a b : A * B, {a = b} + {a <> b}.
Proof. decide equality. Defined.
Definition toks_dec := list_dec tok_eq_dec.
Definition strings_dec := list_dec string_eq_dec.
Definition scol_dec : forall a b : scol, {a = b} + {a <> b}.
Proof.
  decide equality; try apply string_eq_dec; try apply bool_eq_dec; try apply (option_dec string_eq_dec);
    try apply (option_dec toks_dec); try apply toks_dec. apply (option_dec (pair_dec toks_dec string_eq_dec)).
Defined.
Definition scon_dec : forall a b : scon, {a = b} + {a <> b}.
Proof. decide equality; try apply string_eq_dec; try apply (list_dec keycol_eq_dec). apply toks_dec. Defined.
Definition sindex_dec : forall a b : sindex, {a = b} + {a <> b}.
Proof.
  decide equality; try apply string_eq_dec; try apply bool_eq_dec; try apply (list_dec keycol_eq_dec); try apply toks_dec;
    apply (option_dec (pair_dec strings_dec (option_dec strings_dec))).
Defined.
Definition value_dec : forall a b : value, {a = b} + {a <> b}.
Proof. decide equality; [apply scol_dec|apply scon_dec|apply toks_dec|apply toks_dec|apply sindex_dec]. Defined.

Definition same {A} (dec : forall a b : A, {a = b} + {a <> b}) (x y : A) : bool := if dec x y then true else false.

(** The texts that are compared tell the two meanings apart. *)
Definition told {A} (dec : forall a b : A, {a = b} + {a <> b}) (tb ta : string) (vb va : A) : bool :=
  if String.eqb tb ta then same dec vb va else true.

(** * Parts of a schema *)
Definition tables (l : ddl) : list create_table := flat_map (fun s => match s with CreateTable t => [t] | _ => [] end) l.
Definition indexes (l : ddl) : list create_index := flat_map (fun s => match s with CreateIndex i => [i] | _ => [] end) l.
Definition table_name (t : create_table) : string := qname (ct_name t).
Definition col_names (t : create_table) : list string := map (fun c => id_name (c_name c)) (ct_columns t).
Definition con_labels (t : create_table) : list string := map con_label (ct_constraints t).
Definition index_names (l : ddl) : list string := map (fun i => qname (cx_name i)) (indexes l).
Definition gone_columns (tb ta : create_table) : list string := filter (fun c => negb (memb c (col_names ta))) (col_names tb).

(** Every pair of a table of [b] and the table of the same name of [a] satisfies [f]. *)
Definition all_pairs {A} (name : A -> string) (f : A -> A -> bool) (b a : list A) : bool :=
  forallb (fun x => forallb (fun y => if String.eqb (name x) (name y) then f x y else true) a) b.

(** * Two columns of the same name *)
Definition col_ok (d : dialect) (b a : column) : bool :=
  (* VARCHAR(1 0) and VARCHAR(10) have the same text *)
  told (pair_dec string_eq_dec toks_dec) (datatype_diff (c_type b)) (datatype_diff (c_type a))
       (dt_type (c_type b), etoks (dt_expr (c_type b))) (dt_type (c_type a), etoks (dt_expr (c_type a)))
  (* DEFAULT 'NULL' and DEFAULT NULL have the same text (mysql, spanner) *)
  && told (option_dec toks_dec) (default_diff d (c_default b)) (default_diff d (c_default a))
          (sem_default (c_default b)) (sem_default (c_default a))
  && match d with
     | Pg => true
     (* changes of NOT VISIBLE and AS are not noticed *)
     | Crdb => Bool.eqb (c_notvisible b) (c_notvisible a)
               && same (option_dec (pair_dec toks_dec string_eq_dec)) (sem_as (c_as b)) (sem_as (c_as a))
     (* MODIFY does not print the character set *)
     | My => negb (present (c_charset b)) && negb (present (c_charset a))
             && told (option_dec string_eq_dec) (oident_diff (c_collate b)) (oident_diff (c_collate a))
                     (option_map id_name (c_collate b)) (option_map id_name (c_collate a))
     | Sp => if present (c_options a)
             then told (option_dec toks_dec) (expr_diff (c_options b)) (expr_diff (c_options a))
                       (option_map toks (c_options b)) (option_map toks (c_options a))
             else true
     end.

(** * Constraints and in-table indexes *)
Definition is_inner_index (c : constraint) : bool := match c with CIndex _ _ _ _ _ => true | _ => false end.
Definition con_value (d : dialect) (t : objname) (c : constraint) : option value :=
  match c with
  | CIndex _ u pre cols post => Some (VIdx (sem_intable d t u pre cols post))
  | _ => option_map VCon (sem_con d c)
  end.
Definition con_uses (d : dialect) (t : objname) (col : string) (c : constraint) : bool :=
  match con_value d t c with
  | Some (VCon s) => con_involves col s
  | Some (VIdx i) => existsb (fun x => String.eqb (fst x) col) (si_cols i)
  | _ => false
  end.
Definition con_pair_ok (d : dialect) (tb ta : create_table) (b a : constraint) : bool :=
  (* a constraint does not become an index: DROP INDEX would be emitted for it *)
  Bool.eqb (is_inner_index b) (is_inner_index a)
  && told (option_dec value_dec) (constraint_diff d b) (constraint_diff d a)
          (con_value d (ct_name tb) b) (con_value d (ct_name ta) a)
  (* mysql: DROP INDEX needs ON table *)
  && match d with My => negb (is_inner_index b) || String.eqb (constraint_diff d b) (constraint_diff d a) | _ => true end.

(** A hidden virtual column is never dropped by the cockroachdb diff. *)
Definition sticky (d : dialect) (b : column) : bool :=
  match d with
  | Crdb => c_notvisible b && match c_as b with Some a => String.eqb (as_type a) TOKEN_VIRTUAL | None => false end
  | _ => false
  end.

(** * Table options *)
Definition option_value (l : list option_) (n : string) : option (list tok) :=
  option_map (fun o => etoks (o_value o)) (find (fun o => String.eqb (o_name o) n) l).
Definition options_ok (d : dialect) (b a : list option_) : bool :=
  match d with
  | Pg | Crdb => true
  (* mysql: a removed option is not noticed *)
  | My => nodupb (map o_name b) && nodupb (map o_name a)
          && forallb (fun o => counter_option o || memb (o_name o) (map o_name a)) b
          && all_pairs o_name (fun x y => told toks_dec (option_diff d x) (option_diff d y) (etoks (o_value x)) (etoks (o_value y))) b a
  | Sp => if String.eqb (options_diff d b) (options_diff d a)
          then forallb (fun n => same (option_dec toks_dec) (option_value b n) (option_value a n)) (map o_name b ++ map o_name a)%list
          else true
  end.
Definition row_ok (d : dialect) (b a : option option_) : bool :=
  match d with
  | Sp => told (option_dec toks_dec) (ooption_diff d b) (ooption_diff d a)
               (option_map (fun o => etoks (o_value o)) b) (option_map (fun o => etoks (o_value o)) a)
  | _ => true
  end.

(** * Two tables of the same name *)
Definition pair_ok_b (d : dialect) (tb ta : create_table) : bool :=
  all_pairs (fun c => id_name (c_name c)) (col_ok d) (ct_columns tb) (ct_columns ta)
  && forallb (fun b => memb (id_name (c_name b)) (col_names ta) || negb (sticky d b)) (ct_columns tb)
  && all_pairs con_label (con_pair_ok d tb ta) (ct_constraints tb) (ct_constraints ta)
  (* no dropped column is used by a constraint of the same name on both sides *)
  && forallb (fun c => forallb (fun b => negb (memb (con_label b) (con_labels ta)) || negb (con_uses d (ct_name tb) c b))
                               (ct_constraints tb)) (gone_columns tb ta)
  (* mysql: no in-table index vanishes *)
  && match d with
     | My => forallb (fun b => negb (is_inner_index b) || memb (con_label b) (con_labels ta)) (ct_constraints tb)
     | _ => true
     end
  && options_ok d (ct_options tb) (ct_options ta) && row_ok d (ct_rowdel tb) (ct_rowdel ta).

(** * Two indexes of the same name *)
Definition index_pair_ok (d : dialect) (b a : create_index) : bool :=
  (* a changed USING is not noticed (postgres, mysql, spanner) *)
  told sindex_dec (create_index_diff d b) (create_index_diff d a) (sem_index d b) (sem_index d a)
  && match d with My => String.eqb (create_index_diff d b) (create_index_diff d a) | _ => true end.

(** * Two schemas *)
(** No in-table index moves to a table of another name. *)
Definition inner_stay (d : dialect) (b a : ddl) : bool :=
  forallb (fun tb => forallb (fun ta => String.eqb (table_name tb) (table_name ta)
      || disjoint (inner_indexes d [CreateTable tb]) (inner_indexes d [CreateTable ta])) (tables a)) (tables b).
(** A table with separately declared indexes is neither dropped nor re-created. *)
Definition no_wipe (d : dialect) (b a : ddl) : bool :=
  forallb (fun i => forallb (fun tb => negb (String.eqb (qname (cx_table i)) (table_name tb))
      || existsb (fun ta => String.eqb (table_name ta) (table_name tb)
                   && match d with Sp => String.eqb (options_diff d (ct_options tb)) (options_diff d (ct_options ta)) | _ => true end)
                 (tables a)) (tables b)) (indexes b ++ indexes a)%list.
(** A dropped column is not used by a separately declared index that stays or is new. *)
Definition dropped_unused (d : dialect) (b a : ddl) : bool :=
  all_pairs table_name (fun tb ta => forallb (fun c => forallb (fun i =>
      negb (String.eqb (qname (cx_table i)) (table_name tb))
      || negb (memb (qname (cx_name i)) (index_names a))
      || negb (existsb (fun x => String.eqb (fst x) c) (sem_keycols d (cx_columns i))))
    (indexes b ++ indexes a)%list) (gone_columns tb ta)) (tables b) (tables a).

(** The objects a schema consists of, by key *)
Definition created (o : op) : list (key * value) :=
  match o with Add k v => [(k, v)] | Fresh t => [(KTab t, VTab)] | _ => [] end.
Definition objects (d : dialect) (l : ddl) : list (key * value) := flat_map created (flat_map (stmt_ops d) l).
Fixpoint lookup_key (k : key) (l : list (key * value)) : option value :=
  match l with [] => None | (x, v) :: r => if key_eqb x k then Some v else lookup_key k r end.
Definition same_objects (x y : list (key * value)) : bool :=
  forallb (fun e => same (option_dec value_dec) (lookup_key (fst e) x) (lookup_key (fst e) y)) (x ++ y)%list.

(** Schemas and tables that print the same are the same (Diff stops there). *)
Definition text_ok (d : dialect) (b a : ddl) : bool :=
  (if String.eqb (ddl_string d b) (ddl_string d a) then same_objects (objects d b) (objects d a) else true)
  && all_pairs table_name (fun tb ta =>
       if String.eqb (create_table_string d tb) (create_table_string d ta)
       then same_objects (objects d [CreateTable tb]) (objects d [CreateTable ta]) else true) (tables b) (tables a).

Definition reconcilable (d : dialect) (b a : ddl) : bool :=
  tidy d b && tidy d a && same_style d b a && inner_stay d b a
  && all_pairs table_name (pair_ok_b d) (tables b) (tables a)
  && all_pairs (fun i => qname (cx_name i)) (index_pair_ok d) (indexes b) (indexes a)
  && match d with My => forallb (fun i => memb (qname (cx_name i)) (index_names a)) (indexes b) | _ => true end
  && no_wipe d b a && dropped_unused d b a.

(** * The weaker condition under which "no difference" can be relied on *)
Definition col_cmp (d : dialect) (b a : column) : bool :=
  told (pair_dec string_eq_dec toks_dec) (datatype_diff (c_type b)) (datatype_diff (c_type a))
       (dt_type (c_type b), etoks (dt_expr (c_type b))) (dt_type (c_type a), etoks (dt_expr (c_type a)))
  && told (option_dec toks_dec) (default_diff d (c_default b)) (default_diff d (c_default a))
          (sem_default (c_default b)) (sem_default (c_default a))
  && match d with
     | Pg => true
     | Crdb => Bool.eqb (c_notvisible b) (c_notvisible a)
               && same (option_dec (pair_dec toks_dec string_eq_dec)) (sem_as (c_as b)) (sem_as (c_as a))
     | My => told (option_dec string_eq_dec) (oident_diff (c_charset b)) (oident_diff (c_charset a))
                  (option_map id_name (c_charset b)) (option_map id_name (c_charset a))
             && told (option_dec string_eq_dec) (oident_diff (c_collate b)) (oident_diff (c_collate a))
                     (option_map id_name (c_collate b)) (option_map id_name (c_collate a))
     | Sp => if present (c_options a)
             then told (option_dec toks_dec) (expr_diff (c_options b)) (expr_diff (c_options a))
                       (option_map toks (c_options b)) (option_map toks (c_options a))
             else true
     end.
Definition table_cmp (d : dialect) (tb ta : create_table) : bool :=
  all_pairs (fun c => id_name (c_name c)) (col_cmp d) (ct_columns tb) (ct_columns ta)
  && forallb (fun b => memb (id_name (c_name b)) (col_names ta) || negb (sticky d b)) (ct_columns tb)
  && all_pairs con_label (fun b a => told (option_dec value_dec) (constraint_diff d b) (constraint_diff d a)
                                       (con_value d (ct_name tb) b) (con_value d (ct_name ta) a))
               (ct_constraints tb) (ct_constraints ta)
  && options_ok d (ct_options tb) (ct_options ta) && row_ok d (ct_rowdel tb) (ct_rowdel ta).
Definition comparable (d : dialect) (b a : ddl) : bool :=
  tidy d b && tidy d a
  && all_pairs table_name (table_cmp d) (tables b) (tables a)
  && all_pairs (fun i => qname (cx_name i))
       (fun b a => told sindex_dec (create_index_diff d b) (create_index_diff d a) (sem_index d b) (sem_index d a))
       (indexes b) (indexes a).
