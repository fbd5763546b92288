(** SPECIFICATION for C73: schemas whose texts show what they mean, and changes that a
    difference can make, as executable tests.

    [ordinary] speaks about one schema and about how its pieces are written, never about
    the texts that Diff compares; [safe_change] speaks about what changes between two
    schemas.  Together they replace the comparisons of texts in [reconcilable] and
    [text_ok] (Reconcile.v). *)
From Verif Require Import GoStr Token Ast Db Tidy Reconcile DiffSpec Printable.

(** * Pieces *)

Definition quote_first (s : string) : bool := match s with String c _ => Ascii.eqb c ch_quote | EmptyString => false end.
(** A piece that shows where it ends: a literal in single quotes without further quote, or
    a text without blank and quote. *)
Definition own_text (s : string) : bool :=
  match s with
  | EmptyString => false
  | String c r => if Ascii.eqb c ch_quote then closed_by ch_quote r else avoids " '" s
  end.
Definition lower_byte (c : ascii) : bool := N.leb 97 (N_of_ascii c) && N.leb (N_of_ascii c) 122.
Definition digit_byte (c : ascii) : bool := N.leb 48 (N_of_ascii c) && N.leb (N_of_ascii c) 57.
Fixpoint some_lower (s : string) : bool :=
  match s with EmptyString => false | String c r => lower_byte c || some_lower r end.
Fixpoint some_nondigit (s : string) : bool :=
  match s with EmptyString => false | String c r => negb (digit_byte c) || some_nondigit r end.

(** [lit s]: a piece with the text [s] is a string literal.  The texts of mysql and spanner
    do not contain the quotation marks, so that a convention is needed there. *)
Definition piece (lit : string -> bool) (i : ident) : bool :=
  own_text (id_name i) && Bool.eqb (literal i) (lit (id_name i)).
Definition pieces (lit : string -> bool) (l : list ident) : bool := forallb (piece lit) l.

(** In DEFAULT of mysql and spanner the literals are those with a small letter. *)
Definition default_literal (d : dialect) (s : string) : bool :=
  match d with Pg | Crdb => quote_first s | _ => some_lower s end.
(** In other expressions of mysql and spanner there are none. *)
Definition value_literal (d : dialect) (s : string) : bool :=
  match d with Pg | Crdb => quote_first s | _ => false end.
(** Among the arguments of a type of mysql all but the numbers. *)
Definition argument_literal (d : dialect) (s : string) : bool :=
  match d with Pg | Crdb => quote_first s | My => some_nondigit s | Sp => false end.
(** The arguments of a type are separated by commas. *)
Definition argument (d : dialect) (i : ident) : bool :=
  piece (argument_literal d) i && (quote_first (id_name i) || avoids "," (id_name i)).
Definition comma_piece (i : ident) : bool := String.eqb (id_name i) "," && negb (literal i).
Fixpoint arguments (d : dialect) (l : list ident) : bool :=
  match l with
  | [] => false
  | i :: r => argument d i && match r with [] => true | c :: r' => comma_piece c && arguments d r' end
  end.

(** * Columns *)
Definition ordinary_type (d : dialect) (t : datatype) : bool :=
  negb (String.eqb (dt_type t) "") && avoids "(" (dt_type t)
  && match dt_expr t with None | Some [] => true | Some l => arguments d l end.
Definition ordinary_default (d : dialect) (v : default) : bool :=
  match v with Some (Some l) => pieces (default_literal d) l | _ => true end.
Definition ordinary_column (d : dialect) (c : column) : bool :=
  ordinary_type d (c_type c) && ordinary_default d (c_default c)
  && match d with
     | My => negb (present (c_charset c)) && match c_collate c with Some i => negb (String.eqb (id_name i) "") | None => true end
     | Sp => match c_options c with Some [] => false | Some l => pieces (value_literal d) l | None => true end
     | _ => true
     end.

(** * Constraints and indexes *)
Definition plain_columns (cs : list colident) : bool :=
  match cs with [] => false | _ => forallb (fun c => avoids " ,)" (id_name (ci_ident c))) cs end.
Definition ordinary_constraint (d : dialect) (c : constraint) : bool :=
  match c with
  | CPrimary _ cols | CUnique _ cols => plain_columns cols
  | CForeign _ cols ref refcols act =>
      plain_columns cols && avoids " " (id_name ref) && plain_columns refcols
      && match d with My => String.eqb act "" | _ => true end
  | CIndex _ _ pre cols post => no_using pre && plain_columns cols && no_using post
  | CCheck _ e => match e with Some l => pieces (value_literal d) l | None => true end
  end.
Definition ordinary_index (i : create_index) : bool :=
  avoids " " (qname (cx_table i)) && plain_columns (cx_columns i) && no_using (cx_pre i) && no_using (cx_post i).

(** * Options *)
(** PRIMARY KEY (a, b DESC) *)
Definition key_piece (i : ident) : bool := piece (value_literal Sp) i && avoids "'()" (id_name i).
Definition sign_piece (s : string) (i : ident) : bool := String.eqb (id_name i) s && negb (literal i).
Fixpoint key_rest (l : list ident) : bool :=
  match l with
  | [] => false
  | i :: r => match r with [] => sign_piece ")" i | _ => key_piece i && key_rest r end
  end.
Definition key_option (o : option_) : bool :=
  String.eqb (o_name o) "PRIMARY KEY"
  && match o_value o with Some (i :: r) => sign_piece "(" i && key_rest r | _ => false end.
(** INTERLEAVE IN PARENT t, or with ON DELETE as one piece *)
Definition parent_option (o : option_) : bool :=
  String.eqb (o_name o) "INTERLEAVE IN PARENT"
  && match o_value o with
     | Some [t] => piece (value_literal Sp) t && avoids "'" (id_name t)
     | Some [t; on] => piece (value_literal Sp) t && avoids "'" (id_name t) && negb (literal on)
     | _ => false
     end.
Definition my_option (o : option_) : bool :=
  match o_value o with Some l => pieces (fun _ => String.eqb (o_name o) "COMMENT") l | None => false end.
Definition ordinary_options (d : dialect) (l : list option_) : bool :=
  match d with
  | Pg | Crdb => true
  | My => nodupb (map o_name l) && forallb my_option l
  | Sp => match l with
          | [] => true
          | [k] => key_option k
          | [k; p] => key_option k && parent_option p
          | _ => false
          end
  end.
Definition ordinary_row (d : dialect) (r : option option_) : bool :=
  match r with Some o => match o_value o with Some l => pieces (value_literal d) l | None => false end | None => true end.

Definition ordinary_table (d : dialect) (t : create_table) : bool :=
  forallb (ordinary_column d) (ct_columns t) && forallb (ordinary_constraint d) (ct_constraints t)
  && ordinary_options d (ct_options t) && ordinary_row d (ct_rowdel t).
Definition ordinary_stmt (d : dialect) (s : stmt) : bool :=
  match s with CreateTable t => ordinary_table d t | CreateIndex i => ordinary_index i | _ => false end.
(** The schemas of C73; [printable] is what C08 asks of a schema. *)
Definition ordinary (d : dialect) (l : ddl) : bool := tidy d l && printable d l && forallb (ordinary_stmt d) l.

(** * Changes *)

Definition safe_column (d : dialect) (b a : column) : bool :=
  match d with
  | Crdb => Bool.eqb (c_notvisible b) (c_notvisible a)
            && same (option_dec (pair_dec toks_dec string_eq_dec)) (sem_as (c_as b)) (sem_as (c_as a))
  | _ => true
  end.
(** A constraint does not become an index; mysql: an index does not change. *)
Definition safe_constraint (d : dialect) (tb ta : create_table) (b a : constraint) : bool :=
  Bool.eqb (is_inner_index b) (is_inner_index a)
  && match d with
     | My => negb (is_inner_index b) || same (option_dec value_dec) (con_value d (ct_name tb) b) (con_value d (ct_name ta) a)
     | _ => true
     end.
Definition safe_options (d : dialect) (b a : list option_) : bool :=
  match d with My => forallb (fun o => counter_option o || memb (o_name o) (map o_name a)) b | _ => true end.
Definition safe_table (d : dialect) (tb ta : create_table) : bool :=
  all_pairs (fun c => id_name (c_name c)) (safe_column d) (ct_columns tb) (ct_columns ta)
  && forallb (fun b => memb (id_name (c_name b)) (col_names ta) || negb (sticky d b)) (ct_columns tb)
  && all_pairs con_label (safe_constraint d tb ta) (ct_constraints tb) (ct_constraints ta)
  && forallb (fun c => forallb (fun b => negb (memb (con_label b) (con_labels ta)) || negb (con_uses d (ct_name tb) c b))
                               (ct_constraints tb)) (gone_columns tb ta)
  && match d with
     | My => forallb (fun b => negb (is_inner_index b) || memb (con_label b) (con_labels ta)) (ct_constraints tb)
     | _ => true
     end
  && safe_options d (ct_options tb) (ct_options ta).
(** The method of an index does not change alone (postgres, mysql, spanner). *)
Definition noticed_index (d : dialect) (b a : create_index) : bool :=
  match d with
  | Crdb => true
  | _ => if Bool.eqb (cx_unique b) (cx_unique a) && String.eqb (qname (cx_table b)) (qname (cx_table a))
            && same (list_dec keycol_eq_dec) (sem_keycols d (cx_columns b)) (sem_keycols d (cx_columns a))
         then same toks_dec (toks (cx_using b)) (toks (cx_using a)) else true
  end.
(** mysql: nothing of an index changes. *)
Definition safe_index (d : dialect) (b a : create_index) : bool :=
  match d with My => same sindex_dec (sem_index d b) (sem_index d a) | _ => noticed_index d b a end.
(** Spanner: a table with separately declared indexes keeps its options. *)
Definition same_options (b a : list option_) : bool :=
  same (list_dec (pair_dec string_eq_dec toks_dec)) (map (fun o => (o_name o, etoks (o_value o))) b) (map (fun o => (o_name o, etoks (o_value o))) a).
Definition safe_wipe (d : dialect) (b a : ddl) : bool :=
  forallb (fun i => forallb (fun tb => negb (String.eqb (qname (cx_table i)) (table_name tb))
      || existsb (fun ta => String.eqb (table_name ta) (table_name tb)
                   && match d with Sp => same_options (ct_options tb) (ct_options ta) | _ => true end)
                 (tables a)) (tables b)) (indexes b ++ indexes a)%list.
Definition safe_change (d : dialect) (b a : ddl) : bool :=
  same_style d b a && inner_stay d b a
  && all_pairs table_name (safe_table d) (tables b) (tables a)
  && all_pairs (fun i => qname (cx_name i)) (safe_index d) (indexes b) (indexes a)
  && match d with My => forallb (fun i => memb (qname (cx_name i)) (index_names a)) (indexes b) | _ => true end
  && safe_wipe d b a && dropped_unused d b a.

(** What a difference notices: not NOT VISIBLE and AS, not a removed hidden column
    (cockroachdb), not a removed table option (mysql), not the method of an index. *)
Definition noticed_table (d : dialect) (tb ta : create_table) : bool :=
  all_pairs (fun c => id_name (c_name c)) (safe_column d) (ct_columns tb) (ct_columns ta)
  && forallb (fun b => memb (id_name (c_name b)) (col_names ta) || negb (sticky d b)) (ct_columns tb)
  && safe_options d (ct_options tb) (ct_options ta).
Definition noticed (d : dialect) (b a : ddl) : bool :=
  all_pairs table_name (noticed_table d) (tables b) (tables a)
  && all_pairs (fun i => qname (cx_name i)) (noticed_index d) (indexes b) (indexes a).
