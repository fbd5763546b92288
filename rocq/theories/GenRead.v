(** SPECIFICATION: when statements of the generator say the same as written statements of
    a dialect (C52). *)
From Verif Require Import GoStr Token Lexer Ast LexSpec Printable Written Generate GenSpec.

(** The printer of the generator and the dialect whose parser reads its output. *)
Definition speaks (p : printer) (d : dialect) : bool :=
  match p, d with PgPrinter, Pg | PgPrinter, Crdb | MyPrinter, My | SpPrinter, Sp => true | _, _ => false end.

(** A text taken over from an annotation or tag: no NUL, no open quotation or comment, and
    the tokens of the text [b]. *)
Definition alike (d : dialect) (a b : string) : Prop := no_nul a = true /\ outside d a /\ lex d a = lex d b.

(** A column name in the quotation marks of the printer. *)
Definition marked (p : printer) (n : string) : ident := mkIdent n (quotation p) (quotation p ++ n ++ quotation p).

(** Columns: the name in quotation marks, the text of the tag behind it. *)
Definition column_says (p : printer) (d : dialect) (c : gcolumn) (w : wcolumn) : Prop :=
  wc_name w = marked p (gc_name c) /\ alike d (gc_type c) (type_string d w).
(** The primary key in the tags: a constraint without name or, in spanner, an option. *)
Definition key_item (p : printer) (pk : list string) : list item :=
  match pk with [] => [] | _ => [INameless (CPrimary None (map (fun n => mkCI (marked p n) None) pk))] end.
Fixpoint comma_names (p : printer) (l : list string) : list ident :=
  match l with [] => [] | [n] => [marked p n] | n :: r => marked p n :: plain_name "," :: comma_names p r end.
Definition key_option (p : printer) (pk : list string) : list option_ :=
  match pk with [] => [] | _ => [mkOpt "PRIMARY KEY" (Some (plain_name "(" :: comma_names p pk ++ [plain_name ")"])%list)] end.
Definition is_column (i : item) : bool := match i with ICol _ => true | _ => false end.
(** Constraints: the text of the annotation. *)
Definition constraint_says (d : dialect) (x : gtext) (i : item) : Prop := is_column i = false /\ alike d (gt_text x) (item_string d i).
(** Options: none in postgres and cockroachdb; in mysql one annotation with all of them; in
    spanner one annotation each, the row deletion policy behind the others. *)
Definition options_say (p : printer) (d : dialect) (t : gtable) (w : wtable) : Prop :=
  match d with
  | Pg | Crdb => g_options t = [] /\ wt_options w = [] /\ wt_rowdel w = None
  | My => wt_rowdel w = None /\
      match g_options t with
      | [] => wt_options w = []
      | [x] => wt_options w <> [] /\ alike d (gt_text x) (options_string d (wt_options w))
      | _ => False
      end
  | Sp => exists others, (wt_options w ++ match wt_rowdel w with Some o => [o] | None => [] end)%list = (key_option p (g_pk t) ++ others)%list
      /\ Forall2 (fun x o => alike d (gt_text x) (option_string d o)) (g_options t) others
      /\ (wt_rowdel w <> None -> wt_options w <> [])
      /\ incl (g_pk t) (map gc_name (g_columns t))
  end.
Inductive says (p : printer) (d : dialect) : gstmt -> written -> Prop :=
| says_a_table : forall t w cols cons,
    alike d (g_create t) (head_string w) ->
    wt_items w = (map ICol cols ++ (match d with Sp => [] | _ => key_item p (g_pk t) end) ++ cons)%list ->
    Forall2 (column_says p d) (g_columns t) cols -> Forall2 (constraint_says d) (g_constraints t) cons -> options_say p d t w ->
    says p d (GTable t) (WTable w)
| says_an_index : forall i x, alike d (gi_create i ++ ";") (create_index_string d x) -> says p d (GIndex i) (WIndex x).

(** Comments that stay on their line. *)
Definition remarks_ok (short : string -> string) (s : gstmt) : Prop :=
  LexSpec.one_line (short (stmt_file s)) = true /\ forallb LexSpec.one_line (all_comments s) = true.

(** Sources without NUL whose names and comments stay on their line. *)
Record plain_settings (cfg : settings) : Prop :=
  { ps_column : LexSpec.one_line (column_tag cfg) = true; ps_ddl : LexSpec.one_line (ddl_tag cfg) = true; ps_pk : LexSpec.one_line (pk_tag cfg) = true }.
Definition plain_nodes (nodes : list cnode) : Prop := forall n, In n nodes ->
  (forall t, In t (n_types n) -> LexSpec.one_line (ts_name t) = true
     /\ forall fs f, ts_fields t = Some fs -> In f fs -> no_nul (f_doc f) = true /\ forall x, In x (f_names f) -> LexSpec.one_line x = true)
  /\ forall g l, In g (n_groups n) -> In l g -> LexSpec.one_line (cl_text l) = true.
