(** SPECIFICATION: the statements a PostgreSQL database consists of (C55). *)
From Verif Require Import GoStr Token Lexer Ast LexSpec Printable Written GenRead ShowPg.

(** A column: its full type, NOT NULL unless nullable, its default value. *)
Definition length_text (n : option string) : string := match n with Some n => "(" ++ n ++ ")" | None => "" end.
Definition p_default_says (x : option string) (ks : list clause) : Prop :=
  match x with None => ks = [] | Some x => exists v, ks = [KDefault v] /\ alike Pg x (idents_string Pg v) end.
Definition p_column_says (c : p_column) (w : wcolumn) : Prop :=
  wc_name w = plain_name (pc_name c) /\ alike Pg (pc_type c ++ length_text (pc_length c) ++ pc_detail c) (datatype_string Pg (wc_type w))
  /\ (exists ks, p_default_says (pc_default c) ks /\ wc_clauses w = ((if pc_nullable c then [] else [KNotNull]) ++ ks)%list)
  /\ wc_keys w = [] /\ wc_late w = LNone.
(** A constraint: its name, kind and columns; what a foreign key refers to. *)
Definition key_columns (l : list string) : list colident := map (fun n => mkCI (plain_name n) None) l.
Definition rule_text (u d : string) : string :=
  let on k r := if String.eqb r "NO ACTION" then "" else "ON " ++ k ++ " " ++ r in
  match on "UPDATE" u, on "DELETE" d with
  | "", y => y
  | x, "" => x
  | x, y => x ++ " " ++ y
  end.
Definition p_constraint_says (c : p_constraint) (i : item) : Prop :=
  match pk_kind c with
  | PPrimary => i = ICon (CPrimary (Some (plain_name (pk_name c))) (key_columns (pk_columns c)))
  | PUnique => i = ICon (CUnique (Some (plain_name (pk_name c))) (key_columns (pk_columns c)))
  | PForeign ref refcols u d => i = ICon (CForeign (Some (plain_name (pk_name c))) (key_columns (pk_columns c)) (plain_name ref) (key_columns refcols) (rule_text u d))
  | PCheck x => exists v, i = ICon (CCheck (Some (plain_name (pk_name c))) (Some v)) /\ alike Pg x (idents_string Pg v)
  end.
(** A table (not a view) and its indexes. *)
Definition p_table_says (t : p_table) (w : written) : Prop :=
  pt_view t = false /\
  exists cols cons, w = WTable (mkWT false (mkON (Some (plain_name (pt_schema t))) (plain_name (pt_name t))) (map ICol cols ++ cons)%list [] None)
    /\ Forall2 p_column_says (pt_columns t) cols /\ Forall2 p_constraint_says (pt_constraints t) cons.
Definition p_index_says (i : p_index) (w : written) : Prop := exists x, w = WIndex x /\ alike Pg (pi_def i ++ ";") (create_index_string Pg x).
(** The statements of a schema: its tables, then their indexes. *)
Definition p_consists (l : list p_table) (tables indexes : list written) : Prop :=
  Forall2 p_table_says l tables /\ Forall2 p_index_says (flat_map pt_indexes l) indexes.

(** What the show command takes account of: columns whose type is told by its name and length;
    PRIMARY KEY and UNIQUE constraints with columns whose names no foreign key shares; indexes whose
    names no constraint shares. *)
Definition key_kind (k : p_kind) : bool := match k with PPrimary | PUnique => true | _ => false end.
Definition foreign_names (db : list p_table) : list string :=
  flat_map (fun t => flat_map (fun c => match pk_kind c with PForeign _ _ _ _ => [pk_name c] | _ => [] end) (pt_constraints t)) db.
Record plain_pg (db l : list p_table) : Prop := {
  pp_columns : forall t, In t l -> pt_columns t <> [] /\ forall c, In c (pt_columns t) -> pc_detail c = "";
  pp_constraints : forall t c, In t l -> In c (pt_constraints t) -> key_kind (pk_kind c) = true /\ pk_columns c <> [] /\ ~ In (pk_name c) (foreign_names db);
  pp_indexes : forall t i t' c, In t l -> In i (pt_indexes t) -> In t' l -> In c (pt_constraints t') -> pi_name i <> pk_name c }.
(** The tables of a schema, in order of their names. *)
Definition by_name (schema : string) (db l : list p_table) : Prop :=
  l = filter (fun t => String.eqb (pt_schema t) schema) db /\ forall a x b y c, l = (a ++ x :: b ++ y :: c)%list -> String.compare (pt_name x) (pt_name y) = Lt.
