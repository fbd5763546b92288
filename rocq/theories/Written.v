(** SPECIFICATION: written schemas and what they mean (C52, C53).

    The printed form of a schema (Printable.v) is only one way to write it.  Here the
    clauses of a column come in any order, keys may stand in the column, constraints
    may lack a name. *)
From Verif Require Import GoStr Token Ast LexSpec Printable.

(** * Columns *)

Inductive clause :=
| KNotNull | KNull | KDefault (v : list ident) | KNotVisible | KAs (a : asdef)
| KCharset (i : ident) | KCollate (i : ident) | KAutoIncrement | KOnAction (s : string).
(** Constraints behind the clauses. *)
Inductive inline := KPrimary | KUnique | KReferences (ref : ident) (cols : list colident) (action : string) | KCheck (l : list ident).
(** What comes last: COMMENT in mysql, OPTIONS in spanner. *)
Inductive late := LNone | LComment (s : string) | LOptions (l : list ident).
Record wcolumn := mkWC { wc_name : ident; wc_type : datatype; wc_clauses : list clause; wc_keys : list inline; wc_late : late }.

Definition clause_string (d : dialect) (k : clause) : string :=
  match k with
  | KNotNull => "NOT NULL"
  | KNull => "NULL"
  | KDefault v => default_string d (Some (Some v))
  | KNotVisible => "NOT VISIBLE"
  | KAs a => as_string d (Some a)
  | KCharset i => "CHARACTER SET " ++ ident_string i
  | KCollate i => "COLLATE " ++ ident_string i
  | KAutoIncrement => "AUTO_INCREMENT"
  | KOnAction s => s
  end.
Definition inline_string (d : dialect) (k : inline) : string :=
  match k with
  | KPrimary => "PRIMARY KEY"
  | KUnique => "UNIQUE"
  | KReferences ref cols action => "REFERENCES " ++ ident_string ref ++ " " ++ cols_string d cols ++ (if String.eqb action "" then "" else " " ++ action)
  | KCheck l => "CHECK " ++ idents_string d l
  end.
Definition late_string (d : dialect) (l : late) : string :=
  match l with LNone => "" | LComment s => " COMMENT " ++ s | LOptions l => " OPTIONS " ++ idents_string d l end.
(** The type and everything behind it. *)
Definition type_string (d : dialect) (c : wcolumn) : string :=
  datatype_string d (wc_type c)
  ++ concat_str (map (fun k => " " ++ clause_string d k) (wc_clauses c))
  ++ concat_str (map (fun k => " " ++ inline_string d k) (wc_keys c))
  ++ late_string d (wc_late c).

Definition clause_ok (d : dialect) (k : clause) : bool :=
  match k with
  | KNotNull | KNull => true
  | KDefault v => value_ok d v
  | KNotVisible => match d with Crdb => true | _ => false end
  | KAs a => match d with Crdb => as_ok d a | _ => false end
  | KCharset i | KCollate i => match d with My => wellformed_ident d i && text_piece d (id_raw i) | _ => false end
  | KAutoIncrement => match d with My => true | _ => false end
  | KOnAction s => match d with My => onaction_ok d s | _ => false end
  end.
(** A default value is followed by NOT or a constraint, in mysql also by ON or COMMENT; a computed
    column ends with its value. *)
Definition followed (d : dialect) (k : clause) (r : list clause) (keys : list inline) (l : late) : bool :=
  match k with
  | KDefault _ =>
      match r with
      | KNotNull :: _ | KNotVisible :: _ | KOnAction _ :: _ => true
      | [] => match keys, l with [], LOptions _ => false | _, _ => true end
      | _ => false
      end
  | KAs _ => match r, keys, l with [], [], LNone => true | _, _, _ => false end
  | _ => true
  end.
Fixpoint clauses_ok (d : dialect) (ks : list clause) (keys : list inline) (l : late) : bool :=
  match ks with [] => true | k :: r => clause_ok d k && followed d k r keys l && clauses_ok d r keys l end.
Definition late_ok (d : dialect) (l : late) : bool :=
  match d, l with
  | _, LNone => true
  | My, LComment s => text_piece d s
  | Sp, LOptions l => group_ok d l
  | _, _ => false
  end.
Definition actions : list string := ["ON DELETE CASCADE"; "ON DELETE NO ACTION"; "ON UPDATE CASCADE"; "ON UPDATE NO ACTION"].
Definition inline_ok (d : dialect) (k : inline) : bool :=
  match k with
  | KPrimary | KUnique => match d with Sp => false | _ => true end
  | KReferences ref cols action =>
      name_ok d ref && colidents_ok d cols && (String.eqb action "" || match d with Sp => false | _ => existsb (String.eqb action) actions end)
  | KCheck l => group_ok d l
  end.
(** REFERENCES without action (in mysql and spanner with or without) and CHECK take the token behind
    them away: they come last, and the comma and another column follow. *)
Definition greedy (d : dialect) (k : inline) : bool :=
  match k with
  | KPrimary | KUnique => false
  | KReferences _ _ action => match d with Pg | Crdb => String.eqb action "" | _ => true end
  | KCheck _ => true
  end.
Fixpoint keys_ok (d : dialect) (ks : list inline) (l : late) : bool :=
  match ks with
  | [] => true
  | k :: r => inline_ok d k && (negb (greedy d k) || match r, l with [], LNone => true | _, _ => false end) && keys_ok d r l
  end.
Definition takes_comma (d : dialect) (c : wcolumn) : bool := existsb (greedy d) (wc_keys c).
Definition wcolumn_ok (d : dialect) (c : wcolumn) : bool :=
  name_ok d (wc_name c) && datatype_ok d (wc_type c) && clauses_ok d (wc_clauses c) (wc_keys c) (wc_late c)
  && keys_ok d (wc_keys c) (wc_late c) && late_ok d (wc_late c).

(** The column that is meant: a later clause wins over an earlier one. *)
Definition on (c : column) (k : clause) : column :=
  let '(mkCol n t df nn nv a cs co ai oa cm op) := c in
  match k with
  | KNotNull => mkCol n t df true nv a cs co ai oa cm op
  | KNull => mkCol n t df false nv a cs co ai oa cm op
  | KDefault v => mkCol n t (Some (Some v)) nn nv a cs co ai oa cm op
  | KNotVisible => mkCol n t df nn true a cs co ai oa cm op
  | KAs v => mkCol n t df nn nv (Some v) cs co ai oa cm op
  | KCharset i => mkCol n t df nn nv a (Some i) co ai oa cm op
  | KCollate i => mkCol n t df nn nv a cs (Some i) ai oa cm op
  | KAutoIncrement => mkCol n t df nn nv a cs co true oa cm op
  | KOnAction s => mkCol n t df nn nv a cs co ai s cm op
  end.
Definition column_meant (c : wcolumn) : column :=
  let '(mkCol n t df nn nv a cs co ai oa _ _) :=
    fold_left on (wc_clauses c) (mkCol (wc_name c) (wc_type c) None false false None None None false "" "" None) in
  mkCol n t df nn nv a cs co ai oa (match wc_late c with LComment s => s | _ => "" end)
        (match wc_late c with LOptions l => Some l | _ => None end).

(** * Constraints *)

Definition plain_name (s : string) : ident := mkIdent s "" s.
Definition pkey_default (d : dialect) (tbl : string) : string := match d with My => "PRIMARY KEY" | _ => tbl ++ "_pkey" end.
Definition inline_meant (d : dialect) (tbl : string) (col : ident) (k : inline) : constraint :=
  match k with
  | KPrimary => CPrimary (Some (plain_name (pkey_default d tbl))) [mkCI col None]
  | KUnique =>
      let n := Some (plain_name (tbl ++ "_unique_" ++ id_name col)) in
      match d with Pg => CUnique n [mkCI col None] | _ => CIndex n true None [mkCI col None] None end
  | KReferences ref cols action => CForeign (Some (plain_name (tbl ++ "_" ++ id_name col ++ "_fkey"))) [mkCI col None] ref cols action
  | KCheck l => CCheck (Some (plain_name (tbl ++ "_" ++ id_name col ++ "_check"))) (Some l)
  end.

(** The name given to a constraint that has none. *)
Definition joined (cs : list colident) : string := concat_str (map (fun c => "_" ++ id_name (ci_ident c)) cs).
Definition default_name (d : dialect) (tbl : string) (c : constraint) : string :=
  match c with
  | CPrimary _ _ => pkey_default d tbl
  | CForeign _ cols _ _ _ => tbl ++ joined cols ++ "_fkey"
  | CUnique _ cols => tbl ++ "_unique" ++ joined cols
  | CCheck _ _ => tbl ++ "_chk"
  | CIndex _ _ _ _ _ => ""
  end.
Definition rename (n : option ident) (c : constraint) : constraint :=
  match c with
  | CPrimary _ cols => CPrimary n cols
  | CForeign _ cols ref refcols onaction => CForeign n cols ref refcols onaction
  | CUnique _ cols => CUnique n cols
  | CIndex _ u pre cols post => CIndex n u pre cols post
  | CCheck _ e => CCheck n e
  end.
Definition unordered (cs : list colident) : bool := forallb (fun c => missing (ci_order c)) cs.
Definition nameless_ok (d : dialect) (c : constraint) : bool :=
  match c with
  | CPrimary _ cols => match d with Sp => false | _ => colidents_ok d cols end
  | CForeign _ cols ref refcols onaction =>
      match d with
      | Pg | My => colidents_ok d cols && unordered cols && name_ok d ref && colidents_ok d refcols && String.eqb onaction ""
      | _ => false
      end
  | CUnique _ cols => match d with Pg => colidents_ok d cols && unordered cols | _ => false end
  | CCheck _ (Some l) => match d with My => group_ok d l | _ => false end
  | _ => false
  end.

(** * Tables *)

Inductive item := ICol (c : wcolumn) | ICon (c : constraint) | INameless (c : constraint).
Definition item_string (d : dialect) (i : item) : string :=
  match i with
  | ICol c => ident_string (wc_name c) ++ " " ++ type_string d c
  | ICon c => constraint_string d c
  | INameless c => constraint_string d (rename None c)
  end.
Definition item_ok (d : dialect) (i : item) : bool :=
  match i with ICol c => wcolumn_ok d c | ICon c => constraint_ok d c | INameless c => nameless_ok d c end.
Definition item_columns (i : item) : list column := match i with ICol c => [column_meant c] | _ => [] end.
Definition item_constraints (d : dialect) (tbl : string) (i : item) : list constraint :=
  match i with
  | ICol c => map (inline_meant d tbl (wc_name c)) (wc_keys c)
  | ICon c => [c]
  | INameless c => [rename (Some (plain_name (default_name d tbl c))) c]
  end.

Record wtable := mkWT { wt_ifnotexists : bool; wt_name : objname; wt_items : list item; wt_options : list option_; wt_rowdel : option option_ }.
Definition head_string (t : wtable) : string :=
  "CREATE TABLE " ++ (if wt_ifnotexists t then "IF NOT EXISTS " else "") ++ objname_string (wt_name t).
Definition wtable_string (d : dialect) (t : wtable) : string :=
  head_string t ++ " (" ++ nl ++ lines_string (map (item_string d) (wt_items t)) ++ ")"
  ++ match wt_options t with [] => "" | l => " " ++ options_string d l end
  ++ match d, wt_rowdel t with Sp, Some o => "," ++ nl ++ option_string d o | _, _ => "" end
  ++ ";" ++ nl.
Definition table_name (t : wtable) : string := id_name (on_name (wt_name t)).
Definition table_constraints (d : dialect) (t : wtable) : list constraint := flat_map (item_constraints d (table_name t)) (wt_items t).
(** In cockroachdb and mysql the primary key is put in front. *)
Definition keys_first (d : dialect) (cs : list constraint) : list constraint :=
  match d with Crdb | My => (filter is_pkey cs ++ filter (fun c => negb (is_pkey c)) cs)%list | _ => cs end.
Definition table_meant (d : dialect) (t : wtable) : create_table :=
  mkCT "" (wt_ifnotexists t) (wt_name t) (flat_map item_columns (wt_items t)) (keys_first d (table_constraints d t)) (wt_options t) (wt_rowdel t).
(** At most one primary key where it is put in front, among the first twelve constraints. *)
Definition one_key (d : dialect) (cs : list constraint) : bool :=
  match d with
  | Crdb | My => Nat.leb (List.length (filter is_pkey cs)) 1 && forallb (fun c => negb (is_pkey c)) (skipn 12 cs)
  | _ => true
  end.
(** A column that takes the comma away is followed by another column. *)
Fixpoint columns_follow (d : dialect) (l : list item) : bool :=
  match l with
  | [] => true
  | ICol c :: r => (negb (takes_comma d c) || match r with ICol _ :: _ => true | _ => false end) && columns_follow d r
  | _ :: r => columns_follow d r
  end.
(** Names are distinct. *)
Definition wtable_ok (d : dialect) (t : wtable) : bool :=
  objname_ok d (wt_name t) && negb (starts_with_mark d (table_name t)) && forallb (item_ok d) (wt_items t) && columns_follow d (wt_items t)
  && distinct (constraint_names (table_constraints d t))
  && one_key d (table_constraints d t)
  && forallb (option_ok d) (wt_options t) && rowdel_ok d (wt_rowdel t).

(** * Schemas *)

Inductive written := WTable (t : wtable) | WIndex (x : create_index).
Definition written_string (d : dialect) (w : written) : string :=
  match w with WTable t => wtable_string d t | WIndex x => create_index_string d x end.
Definition written_ok (d : dialect) (w : written) : bool :=
  match w with WTable t => wtable_ok d t | WIndex x => create_index_ok d x end.
Definition meant (d : dialect) (w : written) : stmt :=
  match w with WTable t => CreateTable (table_meant d t) | WIndex x => without_comment (CreateIndex x) end.
