(** SPECIFICATION: the schemas whose printed text can be read back (C08, C09).

    Everything here speaks about the pieces a text is made of: words, quoted
    literals, signs, balanced parentheses.  [printable d l] lists exactly what is
    asked of a schema; what it leaves out is discussed at C08 in PropsRound.v. *)
From Verif Require Import GoStr Token Ast LexSpec.

(** * Words, quoted texts, signs *)

Definition is_word (s : string) : bool := negb (String.eqb s "") && all_bytes word_byte s.
(** A word that means something to the dialect, in any letter case. *)
Definition is_keyword (d : dialect) (w : string) : bool :=
  existsb (String.eqb (to_upper w)) (map fst (keywords d)).
(** The meaning of a keyword, by its token; other words are names. *)
Definition means (d : dialect) (w : string) (t : tokentype) : bool := String.eqb (lookupIdent d w) t.
Definition means_one_of (d : dialect) (w : string) (ts : list tokentype) : bool := existsb (means d w) ts.

(** The marks that may enclose a name. *)
Definition name_marks (d : dialect) : list ascii :=
  match d with Pg | Crdb => [ch_dquote] | _ => [ch_dquote; ch_bquote; ch_quote] end.
Definition quotable (q : ascii) (s : string) : bool :=
  all_bytes (fun c => negb (Ascii.eqb c q) && negb (Ascii.eqb c ch_nul)) s.
(** A literal between two equal quotation marks that does not contain the mark. *)
Fixpoint closed_by (q : ascii) (s : string) : bool :=
  match s with
  | EmptyString => false
  | String c EmptyString => Ascii.eqb c q
  | String c r => negb (Ascii.eqb c q) && negb (Ascii.eqb c ch_nul) && closed_by q r
  end.
Definition quoted_text (d : dialect) (s : string) : bool :=
  match s with EmptyString => false | String q r => quote_byte d q && closed_by q r end.

(** One ASCII byte that is neither part of a word nor blank, quotation mark or
    parenthesis. *)
Definition sign (d : dialect) (s : string) : bool :=
  match s with
  | String c EmptyString =>
      N.ltb (N_of_ascii c) 128 && negb (word_byte c) && negb (is_blank_byte c) && negb (quote_byte d c)
      && negb (Ascii.eqb c ch_nul) && negb (Ascii.eqb c "(") && negb (Ascii.eqb c ")")
  | _ => false
  end.
(** The signs that every dialect knows. *)
Definition known_sign (s : string) : bool :=
  existsb (String.eqb s) [","; ";"; "="; ">"; "<"; "+"; "-"; "*"; "/"].
(** The operators made of several bytes. *)
Definition long_operator (d : dialect) (s : string) : bool :=
  match d with
  | Pg => String.eqb s "||" || String.eqb s "::"
  | Crdb => String.eqb s "||" || String.eqb s "::" || String.eqb s ":::"
  | _ => false
  end.
Definition comparison_byte (c : ascii) : bool := Ascii.eqb c "=" || Ascii.eqb c "<" || Ascii.eqb c ">".
Definition comparison (s : string) : bool :=
  match s with String c EmptyString => comparison_byte c | _ => false end.
Definition long_comparison (s : string) : bool :=
  match s with String a (String b EmptyString) => comparison_byte a && comparison_byte b | _ => false end.

(** * Names *)

(** A name between quotation marks; a text that is its own name. *)
Definition quoted_ident (d : dialect) (i : ident) : bool :=
  match id_quote i with
  | String q EmptyString =>
      existsb (Ascii.eqb q) (name_marks d) && quotable q (id_name i)
      && String.eqb (id_raw i) (String q (id_name i ++ String q ""))
  | _ => false
  end.
Definition starts_with_mark (d : dialect) (s : string) : bool :=
  match s with EmptyString => false | String c _ => existsb (Ascii.eqb c) (name_marks d) end.
Definition bare_ident (d : dialect) (i : ident) : bool :=
  String.eqb (id_quote i) "" && String.eqb (id_name i) (id_raw i) && negb (starts_with_mark d (id_raw i)).
Definition wellformed_ident (d : dialect) (i : ident) : bool := quoted_ident d i || bare_ident d i.
(** An identifier that stands for a name: quoted, or a word that is no keyword. *)
Definition name_ok (d : dialect) (i : ident) : bool :=
  quoted_ident d i || bare_ident d i && is_word (id_raw i) && negb (is_keyword d (id_raw i)).
Definition oname_ok (d : dialect) (i : option ident) : bool :=
  match i with Some i => name_ok d i | None => false end.
(** A word or a quoted text, whatever it means. *)
Definition text_piece (d : dialect) (s : string) : bool := is_word s || quoted_text d s.

(** A table name: one name without exactly one period, or schema and name, both quoted
    in the same way, without further period. *)
Definition objname_ok (d : dialect) (n : objname) : bool :=
  match on_schema n with
  | None =>
      name_ok d (on_name n)
      && match split "." (id_name (on_name n)) with [_; _] => false | _ => true end
  | Some s =>
      String.eqb (id_quote s) (id_quote (on_name n))
      && match split "." (id_name s ++ "." ++ id_name (on_name n)) with
         | [a; b] => String.eqb a (id_name s) && String.eqb b (id_name (on_name n))
         | _ => false
         end
      && (quoted_ident d s && quoted_ident d (on_name n)
          || bare_ident d s && bare_ident d (on_name n)
             && is_word (id_name s ++ "." ++ id_name (on_name n))
             && negb (is_keyword d (id_name s ++ "." ++ id_name (on_name n))))
  end.

(** * Expressions *)

Definition open_paren (i : ident) : bool :=
  String.eqb (id_raw i) "(" && String.eqb (id_name i) "(" && String.eqb (id_quote i) "".
Definition close_paren (i : ident) : bool :=
  String.eqb (id_raw i) ")" && String.eqb (id_name i) ")" && String.eqb (id_quote i) "".

(** A piece of an expression inside parentheses, followed by the pieces [r].  NULL, TRUE
    and FALSE are in upper case; a comparison sign is not followed by another one (two
    of them make one piece). *)
Definition comparison_next (r : list ident) : bool :=
  match r with
  | i :: _ => match id_raw i with String c _ => comparison_byte c | EmptyString => false end
  | [] => false
  end.
Definition value_words : list tokentype := [TOKEN_NULL; TOKEN_TRUE; TOKEN_FALSE].
Definition comparison_words : list tokentype := [TOKEN_EQUAL; TOKEN_GREATER; TOKEN_LESS].
Definition inner_piece (d : dialect) (i : ident) (r : list ident) : bool :=
  wellformed_ident d i
  && (is_word (id_raw i) && negb (means_one_of d (id_raw i) comparison_words)
      && implb (means_one_of d (id_raw i) value_words) (String.eqb (id_raw i) (to_upper (id_raw i)))
      || quoted_text d (id_raw i)
      || long_operator d (id_raw i)
      || long_comparison (id_raw i)
      || sign d (id_raw i) && implb (comparison (id_raw i)) (negb (comparison_next r))).

(** Words naming a type where a value may be cast to a type. *)
Definition type_tokens (d : dialect) : list tokentype :=
  match d with
  | Pg => [TOKEN_BOOLEAN; TOKEN_SMALLINT; TOKEN_INTEGER; TOKEN_BIGINT; TOKEN_DECIMAL;
           TOKEN_NUMERIC; TOKEN_REAL; TOKEN_DOUBLE; TOKEN_SMALLSERIAL; TOKEN_SERIAL;
           TOKEN_BIGSERIAL; TOKEN_UUID; TOKEN_JSONB; TOKEN_CHARACTER; TOKEN_VARYING;
           TOKEN_TEXT; TOKEN_TIMESTAMP; TOKEN_TIMESTAMPTZ]
  | Crdb => [TOKEN_BOOL; TOKEN_INT2; TOKEN_INT4; TOKEN_INT8; TOKEN_DECIMAL; TOKEN_NUMERIC;
             TOKEN_REAL; TOKEN_DOUBLE; TOKEN_FLOAT4; TOKEN_FLOAT8; TOKEN_SMALLSERIAL;
             TOKEN_SERIAL; TOKEN_BIGSERIAL; TOKEN_UUID; TOKEN_JSONB; TOKEN_CHARACTER;
             TOKEN_VARYING; TOKEN_VARCHAR; TOKEN_STRING; TOKEN_TIMESTAMP; TOKEN_TIMESTAMPTZ]
  | My => [TOKEN_BIT; TOKEN_TINYINT; TOKEN_SMALLINT; TOKEN_INTEGER;
           TOKEN_BIGINT; TOKEN_DECIMAL; TOKEN_NUMERIC; TOKEN_REAL; TOKEN_DOUBLE;
           TOKEN_SMALLSERIAL; TOKEN_SERIAL; TOKEN_BIGSERIAL; TOKEN_JSON; TOKEN_CHAR;
           TOKEN_CHARACTER; TOKEN_VARYING; TOKEN_VARCHAR; TOKEN_TEXT; TOKEN_MEDIUMTEXT;
           TOKEN_LONGTEXT; TOKEN_TIMESTAMP; TOKEN_DATE; TOKEN_TIME; TOKEN_DATETIME; TOKEN_ENUM]
  | Sp => [TOKEN_BOOL; TOKEN_INT64; TOKEN_NUMERIC; TOKEN_FLOAT64; TOKEN_JSON; TOKEN_STRING;
           TOKEN_TIMESTAMP]
  end.
Definition casts (d : dialect) : bool := match d with Pg | Crdb => true | _ => false end.
Definition type_word (d : dialect) (i : ident) : bool :=
  is_word (id_raw i) && means_one_of d (id_raw i) (type_tokens d).
Definition operator_text (d : dialect) (s : string) : bool :=
  existsb (String.eqb s) ["="; ">"; "<"; "+"; "-"; "*"; "/"] || long_operator d s.

(** A piece of a value outside parentheses. *)
Definition outer_piece (d : dialect) (i : ident) : bool :=
  open_paren i
  || wellformed_ident d i
     && (quoted_text d (id_raw i)
         || is_word (id_raw i) && negb (is_keyword d (id_raw i))
         || match d with My => is_word (id_raw i) && means d (id_raw i) TOKEN_CURRENT_TIMESTAMP | _ => false end
         || casts d && (operator_text d (id_raw i) || type_word d i))
  || is_word (id_raw i) && means_one_of d (id_raw i) value_words
     && String.eqb (id_name i) (to_upper (id_raw i)) && String.eqb (id_quote i) "".

(** The pieces [l] close [n] open parentheses. *)
Fixpoint balanced (d : dialect) (outer : ident -> bool) (n : nat) (l : list ident) : bool :=
  match l with
  | [] => Nat.eqb n 0
  | i :: r =>
      match n with
      | O => outer i && balanced d outer (if open_paren i then 1 else 0) r
      | S m =>
          if open_paren i then balanced d outer (S n) r
          else if close_paren i then balanced d outer m r
          else inner_piece d i r && balanced d outer n r
      end
  end.
(** No two pieces with colons next to each other. *)
Definition starts_colon (i : ident) : bool :=
  match id_raw i with String c _ => Ascii.eqb c ":" | EmptyString => false end.
Fixpoint no_colons (l : list ident) : bool :=
  match l with
  | a :: (b :: _) as r => negb (starts_colon a && starts_colon b) && no_colons r
  | _ => true
  end.

(** An expression in parentheses. *)
Definition group_ok (d : dialect) (l : list ident) : bool :=
  match l with
  | i :: r => open_paren i && balanced d (fun _ => false) 1 r && no_colons l
  | [] => false
  end.
(** The value of DEFAULT or AS: not empty and not beginning with a type. *)
Definition value_ok (d : dialect) (l : list ident) : bool :=
  match l with
  | i :: _ => negb (casts d && type_word d i) && balanced d (outer_piece d) 0 l && no_colons l
  | [] => false
  end.

(** * Columns *)

(** The type a sequence of words stands for. *)
Definition type_of_words (d : dialect) (ws : list string) : option tokentype :=
  match ws with
  | [w] =>
      let t := lookupIdent d w in
      if existsb (String.eqb t) (type_tokens d)
         && negb (match d with
                  | Sp => false
                  | My => String.eqb t TOKEN_CHARACTER
                  | _ => String.eqb t TOKEN_CHARACTER || String.eqb t TOKEN_DOUBLE
                  end)
      then Some (match d with
                 | Pg => if String.eqb t TOKEN_TIMESTAMPTZ then TOKEN_TIMESTAMP_WITH_TIME_ZONE else t
                 | _ => t
                 end)
      else None
  | [v; w] =>
      match d with
      | Sp => None
      | _ =>
          if means d v TOKEN_DOUBLE && means d w TOKEN_PRECISION
          then Some (match d with Crdb => TOKEN_FLOAT8 | _ => TOKEN_DOUBLE_PRECISION end)
          else if means d v TOKEN_CHARACTER && means d w TOKEN_VARYING
          then Some (match d with Pg => TOKEN_CHARACTER_VARYING | _ => TOKEN_VARCHAR end)
          else None
      end
  | [a; b; c; e] =>
      match d with
      | Pg | Crdb =>
          if means d a TOKEN_TIMESTAMP && means d b TOKEN_WITH && means d c TOKEN_TIME && means d e TOKEN_ZONE
          then Some (match d with Pg => TOKEN_TIMESTAMP_WITH_TIME_ZONE | _ => TOKEN_TIMESTAMPTZ end)
          else None
      | _ => None
      end
  | _ => None
  end.
(** An argument of a type. *)
Definition argument_ok (d : dialect) (i : ident) : bool :=
  wellformed_ident d i
  && (text_piece d (id_raw i) || long_operator d (id_raw i) || known_sign (id_raw i)).
Definition datatype_ok (d : dialect) (t : datatype) : bool :=
  let ws := split " " (dt_name t) in
  String.eqb (join " " ws) (dt_name t) && forallb is_word ws
  && match type_of_words d ws with Some k => String.eqb k (dt_type t) | None => false end
  && match dt_expr t with
     | None => true
     | Some [] => false
     | Some l => forallb (argument_ok d) l && no_colons l
     end.

Definition default_ok (d : dialect) (v : default) : bool :=
  match v with None => true | Some (Some l) => value_ok d l | Some None => false end.
Definition as_ok (d : dialect) (a : asdef) : bool :=
  match as_value a with Some l => value_ok d l | None => false end
  && existsb (String.eqb (as_type a)) [""; TOKEN_STORED; TOKEN_VIRTUAL].
(** ON UPDATE CURRENT_TIMESTAMP and the like. *)
Definition onaction_ok (d : dialect) (s : string) : bool :=
  match split " " s with
  | [o; u; v] =>
      String.eqb o "ON" && String.eqb s ("ON " ++ u ++ " " ++ v) && is_word u && is_word v
      && means_one_of d u [TOKEN_UPDATE; TOKEN_DELETE]
      && means_one_of d v [TOKEN_CASCADE; TOKEN_RESTRICT; TOKEN_CURRENT_TIMESTAMP]
  | _ => false
  end.
Definition ident_text_ok (d : dialect) (i : option ident) : bool :=
  match i with None => true | Some i => wellformed_ident d i && text_piece d (id_raw i) end.

Definition missing {A : Type} (o : option A) : bool := match o with None => true | Some _ => false end.
Definition column_ok (d : dialect) (c : column) : bool :=
  name_ok d (c_name c) && datatype_ok d (c_type c) && default_ok d (c_default c)
  && match d with
     | Pg => negb (c_notvisible c) && missing (c_as c)
     | Crdb => match c_as c with None => true | Some a => as_ok d a && missing (c_default c) end
     | My | Sp => negb (c_notvisible c) && missing (c_as c)
     end
  && match d with
     | My => ident_text_ok d (c_charset c) && ident_text_ok d (c_collate c)
             && implb (c_autoinc c) (missing (c_default c))
             && (String.eqb (c_onaction c) "" || onaction_ok d (c_onaction c))
             && (String.eqb (c_comment c) "" || text_piece d (c_comment c))
     | _ => missing (c_charset c) && missing (c_collate c) && negb (c_autoinc c)
            && String.eqb (c_onaction c) "" && String.eqb (c_comment c) ""
     end
  && match d, c_options c with
     | _, None => true
     | Sp, Some l => group_ok d l && missing (c_default c)
     | _, Some _ => false
     end.

(** * Constraints *)

Definition colident_ok (d : dialect) (c : colident) : bool :=
  name_ok d (ci_ident c)
  && match d, ci_order c with
     | _, None => true
     | Pg, Some _ => false
     | My, Some desc => desc
     | _, Some _ => true
     end.
Definition colidents_ok (d : dialect) (cs : list colident) : bool := forallb (colident_ok d) cs.

Definition is_pkey (c : constraint) : bool := match c with CPrimary _ _ => true | _ => false end.
Definition constraint_ok (d : dialect) (c : constraint) : bool :=
  match c with
  | CPrimary n cols =>
      match d with
      | Pg | Crdb => oname_ok d n && colidents_ok d cols
      | My => match n with
              | Some n => String.eqb (id_name n) "PRIMARY KEY" && bare_ident d n
              | None => false
              end && colidents_ok d cols
      | Sp => false
      end
  | CForeign n cols ref refcols onaction =>
      oname_ok d n && colidents_ok d cols && name_ok d ref && colidents_ok d refcols && String.eqb onaction ""
  | CUnique n cols => match d with Pg => oname_ok d n && colidents_ok d cols | _ => false end
  | CIndex n unique pre cols post =>
      match d with
      | Crdb | My => oname_ok d n && colidents_ok d cols && missing pre && missing post
      | _ => false
      end
  | CCheck n e =>
      match d, e with
      | My, Some l | Sp, Some l => oname_ok d n && group_ok d l
      | _, _ => false
      end
  end.
Definition constraint_names (cs : list constraint) : list string :=
  map (fun c => match con_name c with Some n => id_name n | None => "" end) cs.
Fixpoint distinct (l : list string) : bool :=
  match l with [] => true | x :: r => negb (existsb (String.eqb x) r) && distinct r end.
(** Names are distinct; where the primary key is kept in front it comes first. *)
Definition constraints_ok (d : dialect) (cs : list constraint) : bool :=
  forallb (constraint_ok d) cs && distinct (constraint_names cs)
  && match d with Crdb | My => forallb (fun c => negb (is_pkey c)) (tl cs) | _ => true end.

(** * Options, statements *)

Definition same_text (i : ident) (s : string) : bool :=
  String.eqb (id_raw i) s && String.eqb (id_name i) s && String.eqb (id_quote i) "".
Definition word_for (d : dialect) (t : tokentype) (i : ident) : bool :=
  bare_ident d i && is_word (id_raw i) && means d (id_raw i) t.
Definition option_ok (d : dialect) (o : option_) : bool :=
  match d, o_value o with
  | My, Some [v] =>
      existsb (String.eqb (o_name o)) ["ENGINE"; "AUTO_INCREMENT"; "DEFAULT CHARSET"; "COLLATE"; "COMMENT"]
      && name_ok d v
  | Sp, Some l =>
      String.eqb (o_name o) "PRIMARY KEY" && group_ok d l
      || String.eqb (o_name o) "INTERLEAVE IN PARENT"
         && match l with
            | [t] => name_ok d t
            | [t; on] => name_ok d t && (same_text on "ON DELETE CASCADE" || same_text on "ON DELETE NO ACTION")
            | _ => false
            end
  | _, _ => false
  end.
Definition rowdel_ok (d : dialect) (o : option option_) : bool :=
  match d, o with
  | _, None => true
  | Sp, Some o =>
      String.eqb (o_name o) "ROW DELETION POLICY"
      && match o_value o with
         | Some [a; b; c; col; e; f; n; g; h; i] =>
             open_paren a && word_for d TOKEN_OLDER_THAN b && open_paren c && name_ok d col && same_text e ","
             && word_for d TOKEN_INTERVAL f && name_ok d n && word_for d TOKEN_DAY g && close_paren h && close_paren i
         | _ => false
         end
  | _, Some _ => false
  end.
Definition create_table_ok (d : dialect) (t : create_table) : bool :=
  no_nul (ct_comment t) && objname_ok d (ct_name t) && forallb (column_ok d) (ct_columns t)
  && constraints_ok d (ct_constraints t) && forallb (option_ok d) (ct_options t) && rowdel_ok d (ct_rowdel t).

Definition create_index_ok (d : dialect) (x : create_index) : bool :=
  no_nul (cx_comment x)
  && match d with
     | Pg | Crdb => missing (on_schema (cx_name x)) && name_ok d (on_name (cx_name x))
     | _ => objname_ok d (cx_name x)
     end
  && objname_ok d (cx_table x) && colidents_ok d (cx_columns x) && missing (cx_pre x) && missing (cx_post x)
  && match d, cx_using x with
     | _, [] => true
     | Crdb, _ => false
     | _, [u] => String.eqb (id_quote u) "" && String.eqb (id_name u) (id_raw u) && text_piece d (id_raw u)
     | _, _ => false
     end.

Definition stmt_ok (d : dialect) (s : stmt) : bool :=
  match s with
  | CreateTable t => create_table_ok d t
  | CreateIndex x => create_index_ok d x
  | _ => false
  end.
Definition printable (d : dialect) (l : ddl) : bool := forallb (stmt_ok d) l.

(** Comments in front of a statement are printed but are not part of the schema. *)
Definition without_comment (s : stmt) : stmt :=
  match s with
  | CreateTable t => CreateTable (mkCT "" (ct_ifnotexists t) (ct_name t) (ct_columns t) (ct_constraints t) (ct_options t) (ct_rowdel t))
  | CreateIndex x => CreateIndex (mkCX "" (cx_unique x) (cx_ifnotexists x) (cx_name x) (cx_table x) (cx_using x) (cx_pre x) (cx_columns x) (cx_post x))
  | s => s
  end.
