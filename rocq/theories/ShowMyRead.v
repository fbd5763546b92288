(** SPECIFICATION: the tables of a MySQL or CockroachDB database, the text in which the
    server describes them, and the statements that text stands for (C57, C58). *)
From Verif Require Import GoStr Token Lexer Ast LexSpec Printable Written Generate GenRead.

(** * MySQL: SHOW CREATE TABLE *)

(** A column; texts of values are as the server writes them, [mc_null] is the word NULL behind
    the type of a column that is nullable (written for TIMESTAMP only). *)
Record m_column := mkMColumn {
  mc_name : string; mc_type : string; mc_charset : option string; mc_collate : option string; mc_generated : option string;
  mc_notnull : bool; mc_null : bool; mc_default : option string; mc_update : option string; mc_auto : bool; mc_comment : option string }.
(** The columns of a key with their order ([true] for DESC). *)
Inductive m_key :=
| MPrimary (cols : list (string * bool))
| MKey (unique : bool) (name : string) (cols : list (string * bool))
| MForeign (name : string) (cols : list string) (ref : string) (refcols : list string) (rules : string)
| MCheck (name : string) (text : string).
Record m_table := mkMTable { mt_name : string; mt_columns : list m_column; mt_keys : list m_key; mt_options : string }.

Definition tick (s : string) : string := "`" ++ s ++ "`".
Definition told_opt (before : string) (x : option string) : string := match x with Some x => before ++ x | None => "" end.
Definition m_column_text (c : m_column) : string :=
  tick (mc_name c) ++ " " ++ mc_type c ++ told_opt " CHARACTER SET " (mc_charset c) ++ told_opt " COLLATE " (mc_collate c)
  ++ told_opt " GENERATED ALWAYS AS " (mc_generated c)
  ++ (if mc_notnull c then " NOT NULL" else "") ++ (if mc_null c then " NULL" else "")
  ++ told_opt " DEFAULT " (mc_default c) ++ told_opt " ON UPDATE " (mc_update c)
  ++ (if mc_auto c then " AUTO_INCREMENT" else "") ++ told_opt " COMMENT " (mc_comment c).
Definition m_cols_text (l : list (string * bool)) : string :=
  "(" ++ join "," (map (fun c : string * bool => tick (fst c) ++ if snd c then " DESC" else "") l) ++ ")".
Definition m_key_text (k : m_key) : string :=
  match k with
  | MPrimary l => "PRIMARY KEY " ++ m_cols_text l
  | MKey u n l => (if u then "UNIQUE " else "") ++ "KEY " ++ tick n ++ " " ++ m_cols_text l
  | MForeign n l r rl rules =>
      "CONSTRAINT " ++ tick n ++ " FOREIGN KEY (" ++ join ", " (map tick l) ++ ") REFERENCES " ++ tick r ++ " (" ++ join ", " (map tick rl) ++ ")" ++ rules
  | MCheck n x => "CONSTRAINT " ++ tick n ++ " CHECK " ++ x
  end.
Definition line_sep : string := "," ++ nl ++ "  ".
Definition m_table_text (t : m_table) : string :=
  "CREATE TABLE " ++ tick (mt_name t) ++ " (" ++ nl ++ "  "
  ++ join line_sep (map m_column_text (mt_columns t) ++ map m_key_text (mt_keys t)) ++ nl ++ ") " ++ mt_options t.

(** What it says.  The restrictions are those of the program: no generated column, no rules of
    foreign keys. *)
Definition ticked (n : string) : ident := marked MyPrinter n.
Definition maybe {A B : Type} (f : A -> B) (x : option A) : list B := match x with Some a => [f a] | None => [] end.
Definition m_default_says (x : option string) (ks : list clause) : Prop :=
  match x with None => ks = [] | Some x => exists v, ks = [KDefault v] /\ alike My x (idents_string My v) end.
Definition m_column_says (c : m_column) (w : wcolumn) : Prop :=
  wc_name w = ticked (mc_name c) /\ alike My (mc_type c) (datatype_string My (wc_type w)) /\ mc_generated c = None
  /\ (exists ks, m_default_says (mc_default c) ks
      /\ wc_clauses w = (maybe (fun x => KCharset (plain_name x)) (mc_charset c) ++ maybe (fun x => KCollate (plain_name x)) (mc_collate c)
           ++ (if mc_notnull c then [KNotNull] else []) ++ (if mc_null c then [KNull] else [])
           ++ ks ++ maybe (fun x => KOnAction ("ON UPDATE " ++ x)) (mc_update c) ++ (if mc_auto c then [KAutoIncrement] else []))%list)
  /\ wc_keys w = [] /\ wc_late w = match mc_comment c with Some x => LComment x | None => LNone end.
Definition m_cols_say (l : list (string * bool)) : list colident := map (fun c : string * bool => mkCI (ticked (fst c)) (if snd c then Some true else None)) l.
Definition m_names_say (l : list string) : list colident := map (fun n : string => mkCI (ticked n) None) l.
Definition m_key_says (k : m_key) (i : item) : Prop :=
  match k with
  | MPrimary l => i = INameless (CPrimary None (m_cols_say l))
  | MKey u n l => i = ICon (CIndex (Some (ticked n)) u None (m_cols_say l) None)
  | MForeign n l r rl rules => rules = "" /\ i = ICon (CForeign (Some (ticked n)) (m_names_say l) (ticked r) (m_names_say rl) "")
  | MCheck n x => exists v, i = ICon (CCheck (Some (ticked n)) (Some v)) /\ alike My x (idents_string My v)
  end.
Definition m_table_says (t : m_table) (w : written) : Prop :=
  exists cols cons opts, w = WTable (mkWT false (mkON None (ticked (mt_name t))) (map ICol cols ++ cons)%list opts None)
    /\ mt_columns t <> [] /\ Forall2 m_column_says (mt_columns t) cols /\ Forall2 m_key_says (mt_keys t) cons
    /\ opts <> [] /\ alike My (mt_options t) (options_string My opts).

(** * CockroachDB: SHOW CREATE ALL TABLES *)

(** Names are as the server writes them, with quotation marks where they are needed. *)
Record c_column := mkCColumn {
  cc_name : string; cc_type : string; cc_visible : bool; cc_nullable : bool; cc_default : option string; cc_computed : option string }.
(** [Some true] for DESC; the server always writes the order of the columns of a key. *)
Inductive c_key :=
| CkPrimary (name : string) (cols : list (string * bool))
| CkIndex (unique : bool) (name : string) (cols : list (string * bool)) (storing : string)
| CkCheck (name : string) (text : string).
Record c_table := mkCTable { cb_schema : string; cb_name : string; cb_columns : list c_column; cb_keys : list c_key }.
(** A foreign key is told behind the tables. *)
Record c_foreign := mkCForeign { cf_table : string; cf_name : string; cf_cols : list string; cf_ref : string; cf_refcols : list string; cf_rules : string }.

Definition c_column_text (c : c_column) : string :=
  cc_name c ++ " " ++ cc_type c ++ (if cc_visible c then "" else " NOT VISIBLE") ++ (if cc_nullable c then " NULL" else " NOT NULL")
  ++ told_opt " DEFAULT " (cc_default c) ++ told_opt " AS " (cc_computed c).
Definition c_cols_text (l : list (string * bool)) : string :=
  "(" ++ join ", " (map (fun c : string * bool => fst c ++ if snd c then " DESC" else " ASC") l) ++ ")".
Definition c_key_text (k : c_key) : string :=
  match k with
  | CkPrimary n l => "CONSTRAINT " ++ n ++ " PRIMARY KEY " ++ c_cols_text l
  | CkIndex u n l s => (if u then "UNIQUE " else "") ++ "INDEX " ++ n ++ " " ++ c_cols_text l ++ s
  | CkCheck n x => "CONSTRAINT " ++ n ++ " CHECK " ++ x
  end.
Definition tab : string := String (Ascii.ascii_of_nat 9) "".
Definition tab_sep : string := "," ++ nl ++ tab.
Definition c_table_text (t : c_table) : string :=
  "CREATE TABLE " ++ cb_schema t ++ "." ++ cb_name t ++ " (" ++ nl ++ tab
  ++ join tab_sep (map c_column_text (cb_columns t) ++ map c_key_text (cb_keys t)) ++ nl ++ ");".
Definition c_foreign_text (f : c_foreign) : string :=
  "ALTER TABLE " ++ cf_table f ++ " ADD CONSTRAINT " ++ cf_name f ++ " FOREIGN KEY (" ++ join ", " (cf_cols f) ++ ") REFERENCES "
  ++ cf_ref f ++ "(" ++ join ", " (cf_refcols f) ++ ")" ++ cf_rules f ++ ";".
Definition c_rows (ts : list c_table) (fs : list c_foreign) : list string := (map c_table_text ts ++ map c_foreign_text fs)%list.

Definition named (s : string) (i : ident) : Prop := id_raw i = s.
Definition c_default_says (x : option string) (ks : list clause) : Prop :=
  match x with None => ks = [] | Some x => exists v, ks = [KDefault v] /\ alike Crdb x (idents_string Crdb v) end.
Definition c_computed_says (x : option string) (ks : list clause) : Prop :=
  match x with None => ks = [] | Some x => exists a, ks = [KAs a] /\ alike Crdb ("AS " ++ x) (as_string Crdb (Some a)) end.
Definition c_column_says (c : c_column) (w : wcolumn) : Prop :=
  named (cc_name c) (wc_name w) /\ alike Crdb (cc_type c) (datatype_string Crdb (wc_type w))
  /\ (exists ks ka, c_default_says (cc_default c) ks /\ c_computed_says (cc_computed c) ka
      /\ wc_clauses w = ((if cc_visible c then [] else [KNotVisible]) ++ [if cc_nullable c then KNull else KNotNull] ++ ks ++ ka)%list)
  /\ wc_keys w = [] /\ wc_late w = LNone.
Definition c_cols_say (l : list (string * bool)) (cs : list colident) : Prop := Forall2 (fun c x => named (fst c) (ci_ident x) /\ ci_order x = Some (snd c)) l cs.
Definition c_key_says (k : c_key) (i : item) : Prop :=
  match k with
  | CkPrimary n l => exists a cs, named n a /\ c_cols_say l cs /\ i = ICon (CPrimary (Some a) cs)
  | CkIndex u n l s => s = "" /\ exists a cs, named n a /\ c_cols_say l cs /\ i = ICon (CIndex (Some a) u None cs None)
  | CkCheck n x => False
  end.
Definition c_table_says (t : c_table) (w : written) : Prop :=
  exists a b cols cons, w = WTable (mkWT false (mkON (Some a) b) (map ICol cols ++ cons)%list [] None)
    /\ objname_string (mkON (Some a) b) = cb_schema t ++ "." ++ cb_name t
    /\ cb_columns t <> [] /\ Forall2 c_column_says (cb_columns t) cols /\ Forall2 c_key_says (cb_keys t) cons.
