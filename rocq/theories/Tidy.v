(** SPECIFICATION: schemas free of a few degenerate shapes, as executable tests.

    [tidy] only excludes what no parser of /repo produces, or what is named in the
    comment; the theorems that need it cite it in their statements. *)
From Verif Require Import GoStr Token Ast Db.

Fixpoint has_byte (c : ascii) (s : string) : bool :=
  match s with EmptyString => false | String x r => Ascii.eqb x c || has_byte c r end.

(** Neither the schema nor the table name contains a dot ("a.b.c" is a table name
    with dots for the parsers of /repo). *)
Definition dot : ascii := ".".
Definition tidy_name (n : objname) : bool :=
  match on_schema n with Some s => negb (has_byte dot (id_name s)) | None => true end
  && negb (has_byte dot (id_name (on_name n))).

(** DEFAULT is followed by an expression. *)
Definition tidy_col (c : column) : bool := match c_default c with Some None => false | _ => true end.

Definition no_using (u : option usingdef) : bool := match u with None => true | Some _ => false end.
(** Indexes inside CREATE TABLE exist in cockroachdb and mysql only; USING in
    cockroachdb only.  Every constraint has a name. *)
Definition tidy_con (d : dialect) (c : constraint) : bool :=
  present (con_name c) &&
  match c, d with
  | CIndex _ _ _ _ _, Crdb => true
  | CIndex _ _ pre _ post, My => no_using pre && no_using post
  | CIndex _ _ _ _ _, _ => false
  | _, _ => true
  end.

Definition upper_auto (o : option_) : bool := String.eqb (to_upper (o_name o)) "AUTO_INCREMENT".
Definition tidy_opt (d : dialect) (o : option_) : bool :=
  present (o_value o) &&
  match d with
  | My => Bool.eqb (upper_auto o) (counter_option o)
  | Sp => true
  | _ => false
  end.
Definition tidy_row (d : dialect) (r : option option_) : bool :=
  match r, d with
  | None, _ => true
  | Some o, Sp => String.eqb (o_name o) "ROW DELETION POLICY" && present (o_value o)
  | Some _, _ => false
  end.

Fixpoint memb (x : string) (l : list string) : bool :=
  match l with [] => false | y :: r => String.eqb x y || memb x r end.
Fixpoint nodupb (l : list string) : bool :=
  match l with [] => true | x :: r => negb (memb x r) && nodupb r end.

Definition con_label (c : constraint) : string := match con_name c with Some i => id_name i | None => "" end.

Definition tidy_table (d : dialect) (t : create_table) : bool :=
  tidy_name (ct_name t) && forallb tidy_col (ct_columns t)
  && forallb (tidy_con d) (ct_constraints t) && nodupb (map con_label (ct_constraints t))
  && forallb (tidy_opt d) (ct_options t) && tidy_row d (ct_rowdel t).

Definition tidy_stmt (d : dialect) (s : stmt) : bool :=
  match s with
  | CreateTable t => tidy_table d t
  | CreateIndex i => tidy_name (cx_name i) && tidy_name (cx_table i)
  | _ => false
  end.
Definition tidy (d : dialect) (l : ddl) : bool := forallb (tidy_stmt d) l.

(** The names of the indexes declared inside CREATE TABLE, and of those declared by
    CREATE INDEX. *)
Definition inner_index (d : dialect) (t : objname) (c : constraint) : list string :=
  match c with
  | CIndex (Some n) _ _ _ _ => [match d with My => qname (mkON (on_schema t) n) | _ => id_name n end]
  | _ => []
  end.
Definition inner_indexes (d : dialect) (l : ddl) : list string :=
  flat_map (fun s => match s with
                     | CreateTable t => flat_map (inner_index d (ct_name t)) (ct_constraints t)
                     | _ => []
                     end) l.
Definition outer_indexes (l : ddl) : list string :=
  flat_map (fun s => match s with CreateIndex i => [qname (cx_name i)] | _ => [] end) l.
Definition disjoint (a b : list string) : bool := forallb (fun x => negb (memb x b)) a.

(** No index moves between CREATE TABLE and CREATE INDEX. *)
Definition same_style (d : dialect) (b a : ddl) : bool :=
  disjoint (inner_indexes d b) (outer_indexes a) && disjoint (outer_indexes b) (inner_indexes d a).

(** Spanner: the options behind the columns come in the same order. *)
Fixpoint eq_strings (a b : list string) : bool :=
  match a, b with
  | [], [] => true
  | x :: a, y :: b => String.eqb x y && eq_strings a b
  | _, _ => false
  end.
Definition same_option_order (b a : ddl) : bool :=
  forallb (fun s => match s with
    | CreateTable tb =>
        forallb (fun s' => match s' with
          | CreateTable ta => if String.eqb (qname (ct_name tb)) (qname (ct_name ta))
                              then eq_strings (map o_name (ct_options tb)) (map o_name (ct_options ta)) else true
          | _ => true
          end) a
    | _ => true
    end) b.
