(** SPECIFICATION: the statements a Spanner database consists of (C54). *)
From Verif Require Import GoStr Token Lexer Ast LexSpec Printable Written GenRead Show.

(** A column: its type; its default value in parentheses; NOT NULL unless nullable; its options. *)
Definition options_of (t : s_table) (c : s_column) : list s_option := filter (fun o => String.eqb (so_column o) (sc_name c)) (st_options t).
Definition default_says (x : option string) (ks : list clause) : Prop :=
  match x with
  | None => ks = []
  | Some x => exists v, ks = [KDefault v] /\ alike Sp ("(" ++ x ++ ")") (idents_string Sp v)
  end.
Definition options_say (l : list s_option) (k : late) : Prop :=
  match l with
  | [] => k = LNone
  | _ => exists v, k = LOptions v /\ alike Sp ("(" ++ join ", " (map (fun o => so_name o ++ " = " ++ so_value o) l) ++ ")") (idents_string Sp v)
  end.
Definition column_says (t : s_table) (c : s_column) (w : wcolumn) : Prop :=
  wc_name w = plain_name (sc_name c) /\ alike Sp (sc_type c) (datatype_string Sp (wc_type w))
  /\ (exists ks, default_says (sc_default c) ks /\ wc_clauses w = (ks ++ if sc_nullable c then [] else [KNotNull])%list)
  /\ wc_keys w = [] /\ options_say (options_of t c) (wc_late w).

(** The primary key and the parent are options. *)
Definition part_says (p : s_part) : list ident := plain_name (pt_column p) :: if pt_desc p then [plain_name "DESC"] else [].
Fixpoint parts_say (l : list s_part) : list ident :=
  match l with [] => [] | [p] => part_says p | p :: r => (part_says p ++ plain_name "," :: parts_say r)%list end.
Definition key_says (k : list s_part) : option_ := mkOpt "PRIMARY KEY" (Some (plain_name "(" :: parts_say k ++ [plain_name ")"])%list).
Definition parent_says (p : option string) : list option_ :=
  match p with Some p => [mkOpt "INTERLEAVE IN PARENT" (Some [plain_name p])] | None => [] end.
Definition policy_says (x : string) (o : option option_) : Prop :=
  match x with
  | "" => o = None
  | _ => exists v, o = Some (mkOpt "ROW DELETION POLICY" (Some v)) /\ alike Sp ("(" ++ x ++ ")") (idents_string Sp v)
  end.

Definition bare_name (n : string) : objname := mkON None (plain_name n).
Definition table_says (t : s_table) (w : wtable) : Prop :=
  wt_ifnotexists w = false /\ wt_name w = bare_name (st_name t)
  /\ (exists cols cons, wt_items w = (map ICol cols ++ cons)%list /\ Forall2 (column_says t) (st_columns t) cols
        /\ Forall2 (fun x i => is_column i = false /\ alike Sp x (item_string Sp i)) (st_further t) cons)
  /\ wt_options w = (key_says (st_key t) :: parent_says (st_parent t))
  /\ policy_says (st_policy t) (wt_rowdel w).

(** A secondary index that stores no further columns. *)
Definition index_says (t : s_table) (i : s_index) (x : create_index) : Prop :=
  si_stored i = []
  /\ x = mkCX "" (si_unique i) false (bare_name (si_name i)) (bare_name (st_name t)) [] None
           (map (fun p => mkCI (plain_name (pt_column p)) (if pt_desc p then Some true else None)) (si_columns i)) None.

(** A table and its indexes. *)
Inductive consists (t : s_table) : list written -> Prop :=
| consists_of : forall w xs, table_says t w -> Forall2 (index_says t) (st_indexes t) xs -> consists t (WTable w :: map WIndex xs).

(** What the show command takes account of: a primary key and at most one index, all in
    ascending order, no parent, no foreign key or CHECK. *)
Definition ascending (k : list s_part) : Prop := forall p, In p k -> pt_desc p = false.
Record plain_table (t : s_table) : Prop := {
  pt_key : st_key t <> [];
  pt_key_ascending : ascending (st_key t);
  pt_key_columns : incl (map pt_column (st_key t)) (map sc_name (st_columns t));
  pt_parent : st_parent t = None;
  pt_further : st_further t = [];
  pt_one_index : List.length (st_indexes t) <= 1;
  pt_index : forall i, In i (st_indexes t) -> ascending (si_columns i) /\ si_name i <> "PRIMARY_KEY" }.
