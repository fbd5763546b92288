(** The parsers pkg/ddl/{postgres,cockroachdb,mysql,spanner}/parser.go.

    The four files are forks of each other (they even carry
    "diff:ignore-line-postgres-cockroach" markers), so each function is modelled
    once, with a [dialect] argument selecting the lines that differ.  In the
    comments, pg/crdb/my/sp:a-b are line ranges of the parser.go of the
    respective package.

    State.  The Go parser holds (currentToken, peekToken, lexer); the model holds
    the list of tokens starting at currentToken (EOF for ever after its end).
    A lexer panic is the pseudo token [boom]; [next] yields [Panic] as soon as
    peekToken would have to be that token.

    Error texts are not modelled: every returned error is [Err].  Loops carry
    fuel; running out of it is the distinct value [OutOfFuel]. *)
From Verif Require Import GoStr Token Lexer Ast.

(** The result of a Go function of this file: a value, an error, a panic; running out of fuel stands for not terminating (as in pg:75-103) *)
Inductive res (A : Type) := Ok (a : A) | Err | Panic | OutOfFuel.
Arguments Ok {A} a. Arguments Err {A}. Arguments Panic {A}. Arguments OutOfFuel {A}.

(** "if err != nil { return nil, ... }" behind every call, as in pg:85-88 *)
Definition bind {A B} (r : res A) (f : A -> res B) : res B :=
  match r with Ok a => f a | Err => Err | Panic => Panic | OutOfFuel => OutOfFuel end.
Notation "'let!' x ':=' e 'in' k" := (bind e (fun x => k)) (at level 200, x pattern, e at level 100, k at level 200).

(** Parser state: remaining tokens, head = currentToken.  Parser: pg:50-54 *)
Definition ps := list token.
(** What NextToken yields at the end: lexar.go:346-348 *)
Definition eof_token : token := mkTok TOKEN_EOF EmptyString.
(** CurrentToken: pg:52 *)
Definition cur (p : ps) : token := match p with t :: _ => t | [] => eof_token end.
(** PeekToken: pg:53 *)
Definition peek (p : ps) : token := match p with _ :: t :: _ => t | _ => eof_token end.
(** CurrentToken.Type: pg:52 *)
Definition curT (p : ps) : tokentype := tk_type (cur p).
(** PeekToken.Type: pg:53 *)
Definition peekT (p : ps) : tokentype := tk_type (peek p).
(** CurrentToken.Literal: pg:52 *)
Definition curL (p : ps) : string := tk_lit (cur p).
(** PeekToken.Literal: pg:53 *)
Definition peekL (p : ps) : string := tk_lit (peek p).

(** nextToken: pg:66-72 *)
Definition next (p : ps) : res ps :=
  if eqs (peekT (tl p)) TOKEN_BOOM then Panic else Ok (tl p).

(** The loops of isCurrentToken and isPeekToken: pg:789-796, 807-814 *)
Definition isin (t : tokentype) (l : list tokentype) : bool := existsb (eqs t) l.

(** checkCurrentToken / checkPeekToken (pg:798-805, 816-823) are [guard] applied to
    a membership test. *)
Definition guard (b : bool) : res unit := if b then Ok tt else Err.

Section Parser.
Variable d : dialect.
(** Order in which sort.Slice leaves more than 12 constraints (see [append_constraint]). *)
Variable srt : list constraint -> list constraint.

(** quotationMarks: pg:21, crdb:21, my:20, sp:20 *)
Definition quotationMarks : list ascii :=
  match d with Pg | Crdb => [ch_dquote] | _ => [ch_dquote; ch_bquote; ch_quote] end.

(** The loop of NewRawIdent: pg:24-32 *)
Fixpoint raw_ident_with (qs : list ascii) (raw : string) : ident :=
  match qs with
  | [] => mkIdent raw "" raw
  | q :: r =>
      if has_prefix_byte q raw && has_suffix_byte q raw
      then mkIdent (trim_byte q raw) (String q "") raw
      else raw_ident_with r raw
  end.

(** NewRawIdent: pg:23-39, crdb:23-39, my:22-38, sp:22-38 *)
Definition NewRawIdent (raw : string) : ident := raw_ident_with quotationMarks raw.

(** NewObjectName: pkg/ddl/postgres/ddl_table.go:201-217 and the same function of
    the other packages *)
Definition NewObjectName (name : string) : objname :=
  let t := NewRawIdent name in
  match split "." (id_name t) with
  | [a; b] => mkON (Some (NewRawIdent (id_quote t ++ a ++ id_quote t)))
                   (NewRawIdent (id_quote t ++ b ++ id_quote t))
  | _ => mkON None t
  end.

(** isOperator: pg:739-748, crdb:865-875 (commented out in mysql, spanner) *)
Definition isOperator (t : tokentype) : bool :=
  isin t [TOKEN_EQUAL; TOKEN_GREATER; TOKEN_LESS; TOKEN_PLUS; TOKEN_MINUS; TOKEN_ASTERISK;
          TOKEN_SLASH; TOKEN_STRING_CONCAT; TOKEN_TYPECAST]
  || match d with Crdb => eqs t TOKEN_TYPE_ANNOTATION | _ => false end.

(** isReservedValue: pg:750-757, crdb:877-884, my:901-908, sp:787-794 *)
Definition isReservedValue (t : tokentype) : bool := isin t [TOKEN_NULL; TOKEN_TRUE; TOKEN_FALSE].

(** isDataType: pg:759-774, crdb:886-902, my:910-930, sp:796-809 *)
Definition isDataType (t : tokentype) : bool :=
  match d with
  | Pg => isin t [TOKEN_BOOLEAN; TOKEN_SMALLINT; TOKEN_INTEGER; TOKEN_BIGINT; TOKEN_DECIMAL;
                  TOKEN_NUMERIC; TOKEN_REAL; TOKEN_DOUBLE; TOKEN_SMALLSERIAL; TOKEN_SERIAL;
                  TOKEN_BIGSERIAL; TOKEN_UUID; TOKEN_JSONB; TOKEN_CHARACTER; TOKEN_VARYING;
                  TOKEN_TEXT; TOKEN_TIMESTAMP; TOKEN_TIMESTAMPTZ]
  | Crdb => isin t [TOKEN_BOOL; TOKEN_INT2; TOKEN_INT4; TOKEN_INT8; TOKEN_DECIMAL; TOKEN_NUMERIC;
                    TOKEN_REAL; TOKEN_DOUBLE; TOKEN_FLOAT4; TOKEN_FLOAT8; TOKEN_SMALLSERIAL;
                    TOKEN_SERIAL; TOKEN_BIGSERIAL; TOKEN_UUID; TOKEN_JSONB; TOKEN_CHARACTER;
                    TOKEN_VARYING; TOKEN_VARCHAR; TOKEN_STRING; TOKEN_TIMESTAMP; TOKEN_TIMESTAMPTZ]
  | My => isin t [TOKEN_BOOLEAN; TOKEN_BIT; TOKEN_TINYINT; TOKEN_SMALLINT; TOKEN_INTEGER;
                  TOKEN_BIGINT; TOKEN_DECIMAL; TOKEN_NUMERIC; TOKEN_REAL; TOKEN_DOUBLE;
                  TOKEN_SMALLSERIAL; TOKEN_SERIAL; TOKEN_BIGSERIAL; TOKEN_JSON; TOKEN_CHAR;
                  TOKEN_CHARACTER; TOKEN_VARYING; TOKEN_VARCHAR; TOKEN_TEXT; TOKEN_MEDIUMTEXT;
                  TOKEN_LONGTEXT; TOKEN_TIMESTAMP; TOKEN_DATE; TOKEN_TIME; TOKEN_DATETIME; TOKEN_ENUM]
  | Sp => isin t [TOKEN_BOOL; TOKEN_INT64; TOKEN_NUMERIC; TOKEN_FLOAT64; TOKEN_JSON; TOKEN_STRING;
                  TOKEN_TIMESTAMP]
  end.

(** isConstraint: pg:776-787, crdb:904-916, my:932-944, sp:811-823 *)
Definition isConstraint (t : tokentype) : bool :=
  isin t [TOKEN_CONSTRAINT; TOKEN_PRIMARY; TOKEN_KEY; TOKEN_FOREIGN; TOKEN_REFERENCES;
          TOKEN_UNIQUE; TOKEN_CHECK]
  || match d with Pg => false | _ => eqs t TOKEN_INDEX end.

(** Expr.Append: pkg/ddl/postgres/ddl_table.go:257-264 *)
Definition expr_append (e : expr) (ids : list ident) : expr :=
  match e with None => Some ids | Some l => Some (l ++ ids)%list end.

(** Replacement of the first constraint of the same name by Constraints.Append:
    pkg/ddl/postgres/ddl_table.go:22-27.  [None]: nil pointer dereference, which
    happens when a compared name is nil (GetName().Name). *)
Fixpoint replace_constraint (cs : list constraint) (c : constraint) : option (option (list constraint)) :=
  match cs with
  | [] => Some None
  | x :: r =>
      match con_name x, con_name c with
      | Some n, Some m =>
          if eqs (id_name n) (id_name m) then Some (Some (c :: r))
          else match replace_constraint r c with
               | Some (Some r') => Some (Some (x :: r'))
               | o => o
               end
      | _, _ => None
      end
  end.

(** The type test of the sort: cockroachdb/ddl_table.go:32 *)
Definition is_primary (c : constraint) : bool := match c with CPrimary _ _ => true | _ => false end.

(** sort.Slice with less(i, _) = "constraint i is a primary key"
    (cockroachdb/ddl_table.go:31-39, mysql/ddl_table.go:31-39).  For up to 12 elements
    Go runs an insertion sort: the element at position i = 1, 2, .. moves left as
    long as it is "less", i.e. to the front if it is a primary key, not at all
    otherwise.  For more elements the order is that of Go's pdqsort on an
    inconsistent comparison; it is left open ([srt]). *)
Fixpoint insert_primaries (done todo : list constraint) : list constraint :=
  match todo with
  | [] => done
  | c :: r => if is_primary c then insert_primaries (c :: done) r
              else insert_primaries (done ++ [c])%list r
  end.
(** The sort of Constraints.Append: cockroachdb/ddl_table.go:31-39, mysql/ddl_table.go:31-39 *)
Definition sort_constraints (cs : list constraint) : list constraint :=
  if Nat.leb (List.length cs) 12
  then match cs with [] => [] | c :: r => insert_primaries [c] r end
  else srt cs.

(** Constraints.Append: pkg/ddl/postgres/ddl_table.go:21-30, spanner/ddl_table.go:22-32;
    with sorting: cockroachdb/ddl_table.go:22-42, mysql/ddl_table.go:22-42. *)
Definition append_constraint (cs : list constraint) (c : constraint) : res (list constraint) :=
  match replace_constraint cs c with
  | None => Panic
  | Some (Some cs') => Ok cs'
  | Some None =>
      Ok (match d with Crdb | My => sort_constraints (cs ++ [c]) | _ => cs ++ [c] end)%list
  end.

(** A loop of calls of Append, as pg:187-189 *)
Fixpoint append_constraints (cs new : list constraint) : res (list constraint) :=
  match new with
  | [] => Ok cs
  | c :: r => let! cs' := append_constraint cs c in append_constraints cs' r
  end.

(** parseIdents: pg:716-737, crdb:842-863, my:864-885, sp:752-771 (the arguments of a
    data type).  The explicit IDENT case of pg, crdb and my does the same as the
    default case.  Leaves current at the closing parenthesis. *)
Fixpoint parseIdents_loop (fuel : nat) (acc : list ident) (p : ps) : res (list ident * ps) :=
  match fuel with
  | O => OutOfFuel
  | S f =>
      if eqs (curT p) TOKEN_OPEN_PAREN then
        let! p1 := next p in parseIdents_loop f acc p1
      else if eqs (curT p) TOKEN_CLOSE_PAREN then Ok (acc, p)
      else if isin (curT p) [TOKEN_EOF; TOKEN_ILLEGAL] then Err
      else let! p1 := next p in parseIdents_loop f (acc ++ [NewRawIdent (curL p)])%list p1
  end.
(** ParseIdents: pg:716, crdb:842, my:864, sp:752 *)
Definition parseIdents (p : ps) := parseIdents_loop (S (List.length p)) [] p.

(** parseColumnIdents: pg:691-714, crdb:809-840, my:801-834, sp:719-750.  ASC and
    DESC are not recognised by postgres. *)
Fixpoint parseColumnIdents_loop (fuel : nat) (acc : list colident) (p : ps) : res (list colident * ps) :=
  match fuel with
  | O => OutOfFuel
  | S f =>
      if eqs (curT p) TOKEN_OPEN_PAREN then
        let! p1 := next p in parseColumnIdents_loop f acc p1
      else if eqs (curT p) TOKEN_IDENT then
        let i := NewRawIdent (curL p) in
        let! (o, p1) :=
          match d with
          | Pg => Ok (None, p)
          | _ => if eqs (peekT p) TOKEN_ASC then let! p1 := next p in Ok (Some false, p1)
                 else if eqs (peekT p) TOKEN_DESC then let! p1 := next p in Ok (Some true, p1)
                 else Ok (None, p)
          end in
        let! p2 := next p1 in
        parseColumnIdents_loop f (acc ++ [mkCI i o])%list p2
      else if eqs (curT p) TOKEN_COMMA then
        let! p1 := next p in parseColumnIdents_loop f acc p1
      else if eqs (curT p) TOKEN_CLOSE_PAREN then
        let! p1 := next p in Ok (acc, p1)
      else Err
  end.
(** ParseColumnIdents: pg:691, crdb:809, my:801, sp:719 *)
Definition parseColumnIdents (p : ps) := parseColumnIdents_loop (S (List.length p)) [] p.

(** The comparisons put together with what follows: pg:400-406 *)
Definition isCmp (t : tokentype) : bool := isin t [TOKEN_EQUAL; TOKEN_GREATER; TOKEN_LESS].

(** The loop of parseExpr: pg:386-419 (identical in the four packages); the
    recursive call for a nested parenthesis is inlined. *)
Fixpoint parseExpr_loop (fuel : nat) (acc : list ident) (p : ps) : res (list ident * ps) :=
  match fuel with
  | O => OutOfFuel
  | S f =>
      if eqs (curT p) TOKEN_OPEN_PAREN then
        let! p1 := next p in
        let! (ids, p2) := parseExpr_loop f [NewRawIdent (curL p)] p1 in
        parseExpr_loop f (acc ++ ids)%list p2
      else if eqs (curT p) TOKEN_CLOSE_PAREN then
        let! p1 := next p in Ok ((acc ++ [NewRawIdent (curL p)])%list, p1)
      else if isCmp (curT p) then
        if isCmp (peekT p) then
          let! p1 := next p in
          let! p2 := next p1 in
          parseExpr_loop f (acc ++ [NewRawIdent (curL p ++ peekL p)])%list p2
        else
          let! p1 := next p in
          parseExpr_loop f (acc ++ [NewRawIdent (curL p)])%list p1
      else if eqs (curT p) TOKEN_EOF then Err
      else
        let! p1 := next p in
        parseExpr_loop f
          (acc ++ [NewRawIdent (if isReservedValue (curT p) then curT p else curL p)])%list p1
  end.

(** parseExpr: pg:377-422, crdb:484-529, my:478-523, sp:527-572 *)
Definition parseExpr (p : ps) : res (list ident * ps) :=
  if eqs (curT p) TOKEN_OPEN_PAREN then
    let! p1 := next p in
    parseExpr_loop (S (List.length p)) [NewRawIdent (curL p)] p1
  else Err.

(** parseDataType: pg:632-689, crdb:753-807, my:745-799, sp:699-717.  Returns with
    current at the last token of the type. *)
Definition parseDataTypeName (p : ps) : res (string * tokentype * expr * ps) :=
  let t := curT p in
  let l := curL p in
  match d with
  | Sp => Ok (l, t, None, p)
  | My =>
      if eqs t TOKEN_BOOLEAN then Ok ("TINYINT", TOKEN_BOOLEAN, Some [NewRawIdent "1"], p)
      else if eqs t TOKEN_DOUBLE then
        if eqs (peekT p) TOKEN_PRECISION then
          let! p1 := next p in Ok (l ++ " " ++ curL p1, TOKEN_DOUBLE_PRECISION, None, p1)
        else Ok (l, TOKEN_DOUBLE, None, p)
      else if eqs t TOKEN_CHARACTER then
        let! _ := guard (eqs (peekT p) TOKEN_VARYING) in
        let! p1 := next p in Ok (l ++ " " ++ curL p1, TOKEN_VARCHAR, None, p1)
      else Ok (l, t, None, p)
  | _ =>
      if match d with Pg => eqs t TOKEN_TIMESTAMPTZ | _ => false end
      then Ok (l, TOKEN_TIMESTAMP_WITH_TIME_ZONE, None, p)
      else if eqs t TOKEN_TIMESTAMP then
        if eqs (peekT p) TOKEN_WITH then
          let! p1 := next p in
          let! _ := guard (eqs (peekT p1) TOKEN_TIME) in
          let! p2 := next p1 in
          let! _ := guard (eqs (peekT p2) TOKEN_ZONE) in
          let! p3 := next p2 in
          Ok (l ++ " " ++ curL p1 ++ " " ++ curL p2 ++ " " ++ curL p3,
              match d with Pg => TOKEN_TIMESTAMP_WITH_TIME_ZONE | _ => TOKEN_TIMESTAMPTZ end, None, p3)
        else Ok (l, TOKEN_TIMESTAMP, None, p)
      else if eqs t TOKEN_DOUBLE then
        let! _ := guard (eqs (peekT p) TOKEN_PRECISION) in
        let! p1 := next p in
        Ok (l ++ " " ++ curL p1,
            match d with Pg => TOKEN_DOUBLE_PRECISION | _ => TOKEN_FLOAT8 end, None, p1)
      else if eqs t TOKEN_CHARACTER then
        let! _ := guard (eqs (peekT p) TOKEN_VARYING) in
        let! p1 := next p in
        Ok (l ++ " " ++ curL p1,
            match d with Pg => TOKEN_CHARACTER_VARYING | _ => TOKEN_VARCHAR end, None, p1)
      else Ok (l, t, None, p)
  end.
(** ParseDataType: pg:632, crdb:753, my:745, sp:699 *)
Definition parseDataType (p : ps) : res (datatype * ps) :=
  let! (n, t, e, p1) := parseDataTypeName p in
  if eqs (peekT p1) TOKEN_OPEN_PAREN then
    let! p2 := next p1 in
    let! (ids, p3) := parseIdents p2 in
    Ok (mkDT n t (expr_append e ids), p3)
  else Ok (mkDT n t e, p1).

(** parseColumnDefault: pg:331-374, crdb:358-401, my:430-475, sp:479-524.
    [v] is def.Value. *)
Fixpoint parseDefault_loop (fuel : nat) (v : expr) (p : ps) : res (expr * ps) :=
  match fuel with
  | O => OutOfFuel
  | S f =>
      let t := curT p in
      if eqs t TOKEN_IDENT || match d with My => eqs t TOKEN_CURRENT_TIMESTAMP | _ => false end then
        let! p1 := next p in parseDefault_loop f (expr_append v [NewRawIdent (curL p)]) p1
      else if eqs t TOKEN_OPEN_PAREN then
        let! (ids, p1) := parseExpr p in
        parseDefault_loop f (expr_append v ids) p1
      else if isin t [TOKEN_NOT; TOKEN_COMMA; TOKEN_CLOSE_PAREN]
              || match d with My => isin t [TOKEN_ON; TOKEN_COMMENT] | _ => false end then Ok (v, p)
      else if isReservedValue t then
        let! p1 := next p in parseDefault_loop f (expr_append v [mkIdent t "" (curL p)]) p1
      else if match d with Pg | Crdb => isOperator t | _ => false end then
        let! p1 := next p in parseDefault_loop f (expr_append v [NewRawIdent (curL p)]) p1
      else if match d with Pg | Crdb => isDataType t | _ => false end then
        match v with
        | None => Panic    (* def.Value.Idents with def.Value == nil: pg:360 *)
        | Some l => let! p1 := next p in parseDefault_loop f (Some (l ++ [NewRawIdent (curL p)])%list) p1
        end
      else if isConstraint t then Ok (v, p)
      else Err
  end.
(** ParseColumnDefault: pg:331, crdb:358, my:430, sp:479 *)
Definition parseColumnDefault (p : ps) := parseDefault_loop (S (List.length p)) None p.

(** parseColumnAs: crdb:404-449 *)
Fixpoint parseAs_loop (fuel : nat) (v : expr) (ty : tokentype) (p : ps) : res (asdef * ps) :=
  match fuel with
  | O => OutOfFuel
  | S f =>
      let t := curT p in
      if eqs t TOKEN_IDENT then
        let! p1 := next p in parseAs_loop f (expr_append v [NewRawIdent (curL p)]) ty p1
      else if eqs t TOKEN_OPEN_PAREN then
        let! (ids, p1) := parseExpr p in
        parseAs_loop f (expr_append v ids) ty p1
      else if isin t [TOKEN_STORED; TOKEN_VIRTUAL] then
        let! p1 := next p in parseAs_loop f v t p1
      else if isin t [TOKEN_NOT; TOKEN_COMMA; TOKEN_CLOSE_PAREN] then Ok (mkAs v ty, p)
      else if isReservedValue t then
        let! p1 := next p in parseAs_loop f (expr_append v [mkIdent t "" (curL p)]) ty p1
      else if isOperator t then
        let! p1 := next p in parseAs_loop f (expr_append v [NewRawIdent (curL p)]) ty p1
      else if isDataType t then
        match v with
        | None => Panic    (* crdb:435 *)
        | Some l => let! p1 := next p in parseAs_loop f (Some (l ++ [NewRawIdent (curL p)])%list) ty p1
        end
      else if isConstraint t then Ok (mkAs v ty, p)
      else Err
  end.
(** ParseColumnAs: crdb:404 *)
Definition parseColumnAs (p : ps) := parseAs_loop (S (List.length p)) None "" p.

(** parseUsing: crdb:452-481 *)
Fixpoint parseUsing_loop (fuel : nat) (v : expr) (w : option expr) (p : ps) : res (usingdef * ps) :=
  match fuel with
  | O => OutOfFuel
  | S f =>
      let t := curT p in
      if eqs t TOKEN_USING then
        let! p1 := next p in parseUsing_loop f v w p1
      else if eqs t TOKEN_IDENT then
        let! p1 := next p in parseUsing_loop f (expr_append v [NewRawIdent (curL p)]) w p1
      else if eqs t TOKEN_WITH then
        let! p1 := next p in
        let! (ids, p2) := parseExpr p1 in
        parseUsing_loop f v (Some (Some ids)) p2
      else if isin t [TOKEN_NOT; TOKEN_COMMA; TOKEN_CLOSE_PAREN; TOKEN_VIRTUAL] then Ok (mkUsing v w, p)
      else Err
  end.
(** ParseUsing: crdb:452 *)
Definition parseUsing (p : ps) := parseUsing_loop (S (List.length p)) None None p.

(** "ON DELETE|UPDATE CASCADE|NO [ACTION]", current = ON.
    strict = true: NO must be followed by ACTION (pg:457-477 and crdb:564-584, column
    level; parseOnAction my:836-862).  strict = false: pg:573-589, crdb:681-697 (table
    level).  Leaves current at the last token of the action. *)
Definition parseOn (strict : bool) (p : ps) : res (string * ps) :=
  let! p1 := next p in
  let! _ := guard (isin (curT p1) [TOKEN_DELETE; TOKEN_UPDATE]) in
  let! _ := guard (isin (peekT p1) [TOKEN_CASCADE; TOKEN_NO]) in
  let! p2 := next p1 in
  let s := curL p ++ " " ++ curL p1 ++ " " ++ curL p2 in
  if strict then
    if eqs (curT p2) TOKEN_NO then
      let! _ := guard (eqs (peekT p2) TOKEN_ACTION) in
      let! p3 := next p2 in Ok (s ++ " " ++ curL p3, p3)
    else Ok (s, p2)
  else
    if eqs (curT p2) TOKEN_NO && eqs (peekT p2) TOKEN_ACTION then
      let! p3 := next p2 in Ok (s ++ " " ++ curL p3, p3)
    else Ok (s, p2).

(** parseOnAction: my:836-862 (leaves current behind the action) *)
Definition parseOnAction (p : ps) : res (string * ps) :=
  let! (s, p1) := parseOn true p in
  let! p2 := next p1 in Ok (s, p2).

(** The optional action of a column level REFERENCES: pg:457-477, crdb:564-584,
    my:557-570 (two actions, the second overwrites the first), none in spanner. *)
Definition parseColumnOn (p : ps) : res (string * ps) :=
  match d with
  | Sp => Ok ("", p)
  | My =>
      let! (s, p1) := if eqs (curT p) TOKEN_ON then parseOnAction p else Ok ("", p) in
      if eqs (curT p1) TOKEN_ON then parseOnAction p1 else Ok (s, p1)
  | _ => if eqs (curT p) TOKEN_ON then parseOn true p else Ok ("", p)
  end.

(** The optional action of a table level FOREIGN KEY: pg:573-589, crdb:681-697,
    my:666-679, none in spanner. *)
Definition parseTableOn (p : ps) : res (string * ps) :=
  match d with
  | Sp => Ok ("", p)
  | My =>
      let! (s, p1) := if eqs (curT p) TOKEN_ON then parseOnAction p else Ok ("", p) in
      if eqs (curT p1) TOKEN_ON then
        let! (s2, p2) := parseOnAction p1 in Ok (s ++ " " ++ s2, p2)
      else Ok (s, p1)
  | _ => if eqs (curT p) TOKEN_ON then parseOn false p else Ok ("", p)
  end.

(** Generated names.  pg:437, 538; crdb:544, 646; my:538, 633 *)
Definition pkey_name (tbl : ident) : ident :=
  match d with My => NewRawIdent "PRIMARY KEY" | _ => NewRawIdent (ident_diff tbl ++ "_pkey") end.
(** Foreign key of a column: pg:446, crdb:553, my:547, sp:587 *)
Definition col_fkey_name (tbl col : ident) : ident :=
  NewRawIdent (ident_diff tbl ++ "_" ++ ident_diff col ++ "_fkey").
(** Unique constraint of a column: pg:482, crdb:590, my:577 *)
Definition col_unique_name (tbl col : ident) : ident :=
  NewRawIdent (ident_diff tbl ++ "_unique_" ++ ident_diff col).
(** Check constraint of a column: pg:491, crdb:599, my:586, sp:604 *)
Definition col_check_name (tbl col : ident) : ident :=
  NewRawIdent (ident_diff tbl ++ "_" ++ ident_diff col ++ "_check").
(** The loop putting the columns into a name: pg:590-595, crdb:698-703, my:681-686, sp:664-669 *)
Fixpoint underscore_cols (cs : list colident) : string :=
  match cs with [] => "" | c :: r => "_" ++ colident_diff d c ++ underscore_cols r end.
(** Foreign key of a table: pg:590-596, crdb:703, my:686, sp:669 *)
Definition tbl_fkey_name (tbl : ident) (cs : list colident) : ident :=
  NewRawIdent (ident_diff tbl ++ underscore_cols cs ++ "_fkey").
(** Unique constraint of a table: pg:617 *)
Definition tbl_unique_name (tbl : ident) (cs : list colident) : ident :=
  NewRawIdent (ident_diff tbl ++ "_unique" ++ underscore_cols cs).

(** parseColumnConstraints: pg:425-509, crdb:532-617, my:526-604, sp:575-622 *)
Fixpoint parseColumnConstraints_loop (fuel : nat) (tbl col : ident) (cs : list constraint) (p : ps)
  : res (list constraint * ps) :=
  match fuel with
  | O => OutOfFuel
  | S f =>
      let t := curT p in
      if match d with Sp => false | _ => eqs t TOKEN_PRIMARY end then
        let! _ := guard (eqs (peekT p) TOKEN_KEY) in
        let! p1 := next p in
        let! cs' := append_constraint cs (CPrimary (Some (pkey_name tbl)) [mkCI col None]) in
        let! p2 := next p1 in
        parseColumnConstraints_loop f tbl col cs' p2
      else if eqs t TOKEN_REFERENCES then
        let! _ := guard (eqs (peekT p) TOKEN_IDENT) in
        let! p1 := next p in
        let ref := NewRawIdent (curL p1) in
        let! p2 := next p1 in
        let! (ids, p3) := parseColumnIdents p2 in
        let! (on, p4) := parseColumnOn p3 in
        let! cs' := append_constraint cs
                      (CForeign (Some (col_fkey_name tbl col)) [mkCI col None] ref ids on) in
        let! p5 := next p4 in
        parseColumnConstraints_loop f tbl col cs' p5
      else if match d with Sp => false | _ => eqs t TOKEN_UNIQUE end then
        let! cs' := append_constraint cs
                      (match d with
                       | Pg => CUnique (Some (col_unique_name tbl col)) [mkCI col None]
                       | _ => CIndex (Some (col_unique_name tbl col)) true None [mkCI col None] None
                       end) in
        let! p1 := next p in
        parseColumnConstraints_loop f tbl col cs' p1
      else if eqs t TOKEN_CHECK then
        let! _ := guard (eqs (peekT p) TOKEN_OPEN_PAREN) in
        let! p1 := next p in
        let! (ids, p2) := parseExpr p1 in
        let! cs' := append_constraint cs (CCheck (Some (col_check_name tbl col)) (Some ids)) in
        let! p3 := next p2 in
        parseColumnConstraints_loop f tbl col cs' p3
      else if isin t [TOKEN_IDENT; TOKEN_COMMA; TOKEN_CLOSE_PAREN]
              || match d with
                 | My => eqs t TOKEN_COMMENT
                 | Sp => eqs t TOKEN_OPTIONS
                 | _ => false
                 end then Ok (cs, p)
      else Err
  end.
(** ParseColumnConstraints: pg:425, crdb:532, my:526, sp:575 *)
Definition parseColumnConstraints (tbl col : ident) (p : ps) :=
  parseColumnConstraints_loop (S (List.length p)) tbl col [] p.

(** A column being parsed: everything but the name and the type.  pg:266-287 *)
Definition column0 (n : ident) (t : datatype) : column :=
  mkCol n t None false false None None None false "" "" None.
(** Column.NotNull = ...: pg:291-298, crdb:305-317, my:358-365, sp:430-437 *)
Definition set_notnull (c : column) (b : bool) : column :=
  mkCol (c_name c) (c_type c) (c_default c) b (c_notvisible c) (c_as c) (c_charset c) (c_collate c)
        (c_autoinc c) (c_onaction c) (c_comment c) (c_options c).
(** Column.Default = ...: pg:299, crdb:318, my:366, sp:438 *)
Definition set_default (c : column) (v : default) : column :=
  mkCol (c_name c) (c_type c) v (c_notnull c) (c_notvisible c) (c_as c) (c_charset c) (c_collate c)
        (c_autoinc c) (c_onaction c) (c_comment c) (c_options c).
(** Column.NotVisible = true: crdb:312 *)
Definition set_notvisible (c : column) : column :=
  mkCol (c_name c) (c_type c) (c_default c) (c_notnull c) true (c_as c) (c_charset c) (c_collate c)
        (c_autoinc c) (c_onaction c) (c_comment c) (c_options c).
(** Column.As = ...: crdb:326-332 *)
Definition set_as (c : column) (a : asdef) : column :=
  mkCol (c_name c) (c_type c) (c_default c) (c_notnull c) (c_notvisible c) (Some a) (c_charset c) (c_collate c)
        (c_autoinc c) (c_onaction c) (c_comment c) (c_options c).
(** Column.CharacterSet = ...: my:388-394 *)
Definition set_charset (c : column) (i : ident) : column :=
  mkCol (c_name c) (c_type c) (c_default c) (c_notnull c) (c_notvisible c) (c_as c) (Some i) (c_collate c)
        (c_autoinc c) (c_onaction c) (c_comment c) (c_options c).
(** Column.Collate = ...: my:395-397 *)
Definition set_collate (c : column) (i : ident) : column :=
  mkCol (c_name c) (c_type c) (c_default c) (c_notnull c) (c_notvisible c) (c_as c) (c_charset c) (Some i)
        (c_autoinc c) (c_onaction c) (c_comment c) (c_options c).
(** Column.AutoIncrement = true: my:398-399 *)
Definition set_autoinc (c : column) : column :=
  mkCol (c_name c) (c_type c) (c_default c) (c_notnull c) (c_notvisible c) (c_as c) (c_charset c) (c_collate c)
        true (c_onaction c) (c_comment c) (c_options c).
(** Column.OnAction = ...: my:374-387 *)
Definition set_onaction (c : column) (s : string) : column :=
  mkCol (c_name c) (c_type c) (c_default c) (c_notnull c) (c_notvisible c) (c_as c) (c_charset c) (c_collate c)
        (c_autoinc c) s (c_comment c) (c_options c).
(** Column.Comment = ...: my:419 *)
Definition set_comment (c : column) (s : string) : column :=
  mkCol (c_name c) (c_type c) (c_default c) (c_notnull c) (c_notvisible c) (c_as c) (c_charset c) (c_collate c)
        (c_autoinc c) (c_onaction c) s (c_options c).
(** Column.Options = ...: sp:469 *)
Definition set_options (c : column) (e : expr) : column :=
  mkCol (c_name c) (c_type c) (c_default c) (c_notnull c) (c_notvisible c) (c_as c) (c_charset c) (c_collate c)
        (c_autoinc c) (c_onaction c) (c_comment c) e.

(** The loop LabelDefaultNotNull of parseColumn: pg:288-312, crdb:302-339, my:355-405,
    sp:427-451 *)
Fixpoint parseAttrs_loop (fuel : nat) (c : column) (p : ps) : res (column * ps) :=
  match fuel with
  | O => OutOfFuel
  | S f =>
      let t := curT p in
      if eqs t TOKEN_NOT then
        match d with
        | Crdb =>
            if eqs (peekT p) TOKEN_NULL then
              let! p1 := next p in let! p2 := next p1 in parseAttrs_loop f (set_notnull c true) p2
            else if eqs (peekT p) TOKEN_VISIBLE then
              let! p1 := next p in let! p2 := next p1 in parseAttrs_loop f (set_notvisible c) p2
            else Err
        | _ =>
            let! _ := guard (eqs (peekT p) TOKEN_NULL) in
            let! p1 := next p in let! p2 := next p1 in parseAttrs_loop f (set_notnull c true) p2
        end
      else if eqs t TOKEN_NULL then
        let! p1 := next p in parseAttrs_loop f (set_notnull c false) p1
      else if eqs t TOKEN_DEFAULT then
        let! p1 := next p in
        let! (v, p2) := parseColumnDefault p1 in
        parseAttrs_loop f (set_default c (Some v)) p2
      else
        match d with
        | Crdb =>
            if eqs t TOKEN_AS then
              let! p1 := next p in
              let! (a, p2) := parseColumnAs p1 in
              parseAttrs_loop f (set_as c a) p2
            else Ok (c, p)
        | My =>
            if eqs t TOKEN_ON then
              let! p1 := next p in
              let! _ := guard (isin (curT p1) [TOKEN_UPDATE; TOKEN_DELETE]) in
              let! p2 := next p1 in
              let! _ := guard (isin (curT p2) [TOKEN_CASCADE; TOKEN_RESTRICT; TOKEN_CURRENT_TIMESTAMP]) in
              let! p3 := next p2 in
              parseAttrs_loop f (set_onaction c ("ON " ++ curL p1 ++ " " ++ curL p2)) p3
            else if eqs t TOKEN_CHARACTER then
              let! p1 := next p in
              let! _ := guard (eqs (curT p1) TOKEN_SET) in
              let! p2 := next p1 in
              let! p3 := next p2 in
              parseAttrs_loop f (set_charset c (NewRawIdent (curL p2))) p3
            else if eqs t TOKEN_COLLATE then
              let! p1 := next p in
              let! p2 := next p1 in
              parseAttrs_loop f (set_collate c (NewRawIdent (curL p1))) p2
            else if eqs t TOKEN_AUTO_INCREMENT then
              let! p1 := next p in
              parseAttrs_loop f (set_autoinc c) p1
            else Ok (c, p)
        | _ => Ok (c, p)
        end
  end.

(** parseColumn: pg:266-328, crdb:280-355, my:333-427, sp:405-476 *)
Definition parseColumn (tbl : ident) (p : ps) : res (column * list constraint * ps) :=
  let! _ := guard (eqs (curT p) TOKEN_IDENT) in
  let name := NewRawIdent (curL p) in
  let! p1 := next p in
  if isDataType (curT p1) then
    let! (dt, p2) := parseDataType p1 in
    let! p3 := next p2 in
    let! (c, p4) := parseAttrs_loop (S (List.length p3)) (column0 name dt) p3 in
    let! (cs, p5) := parseColumnConstraints tbl name p4 in
    let! cs' := append_constraints [] cs in
    match d with
    | My =>
        if eqs (curT p5) TOKEN_COMMENT then
          let! p6 := next p5 in
          let! p7 := next p6 in
          Ok (set_comment c (curL p6), cs', p7)
        else Ok (c, cs', p5)
    | Sp =>
        if eqs (curT p5) TOKEN_OPTIONS then
          let! p6 := next p5 in
          let! (ids, p7) := parseExpr p6 in
          Ok (set_options c (Some ids), cs', p7)
        else Ok (c, cs', p5)
    | _ => Ok (c, cs', p5)
    end
  else Err.

(** parseTableConstraint: pg:512-629, crdb:620-750, my:607-742, sp:625-696 *)
Definition parseTableConstraint (tbl : ident) (p : ps) : res (constraint * ps) :=
  let! (name, p) :=
    if eqs (curT p) TOKEN_CONSTRAINT then
      let! p1 := next p in
      let! _ := guard (eqs (curT p1) TOKEN_IDENT) in
      let! p2 := next p1 in
      Ok (Some (NewRawIdent (curL p1)), p2)
    else Ok (None, p) in
  let t := curT p in
  if match d with Sp => false | _ => eqs t TOKEN_PRIMARY end then
    let! _ := guard (eqs (peekT p) TOKEN_KEY) in
    let! p1 := next p in
    let! _ := guard (eqs (peekT p1) TOKEN_OPEN_PAREN) in
    let! p2 := next p1 in
    let! (ids, p3) := parseColumnIdents p2 in
    Ok (CPrimary (match d, name with
                  | My, _ => Some (pkey_name tbl)
                  | _, Some n => Some n
                  | _, None => Some (pkey_name tbl)
                  end) ids, p3)
  else if eqs t TOKEN_FOREIGN then
    let! _ := guard (eqs (peekT p) TOKEN_KEY) in
    let! p1 := next p in
    let! _ := guard (eqs (peekT p1) TOKEN_OPEN_PAREN) in
    let! p2 := next p1 in
    let! (ids, p3) := parseColumnIdents p2 in
    let! _ := guard (eqs (curT p3) TOKEN_REFERENCES) in
    let! p4 := next p3 in
    let! _ := guard (eqs (curT p4) TOKEN_IDENT) in
    let ref := NewRawIdent (curL p4) in
    let! p5 := next p4 in
    let! (idsRef, p6) := parseColumnIdents p5 in
    let! (on, p7) := parseTableOn p6 in
    Ok (CForeign (match name with Some n => Some n | None => Some (tbl_fkey_name tbl ids) end)
                 ids ref idsRef on, p7)
  else match d with
  | Pg =>
      if eqs t TOKEN_UNIQUE then
        let! _ := guard (eqs (peekT p) TOKEN_OPEN_PAREN) in
        let! p1 := next p in
        let! (ids, p2) := parseColumnIdents p1 in
        Ok (CUnique (match name with Some n => Some n | None => Some (tbl_unique_name tbl ids) end) ids, p2)
      else Err
  | Crdb =>
      if isin t [TOKEN_UNIQUE; TOKEN_INDEX] then
        let unique := eqs t TOKEN_UNIQUE in
        let! p1 := if unique then
                     let! _ := guard (eqs (peekT p) TOKEN_INDEX) in next p
                   else Ok p in
        let! p2 := next p1 in
        let! _ := guard (eqs (curT p2) TOKEN_IDENT) in
        let n := NewRawIdent (curL p2) in
        let! _ := guard (eqs (peekT p2) TOKEN_OPEN_PAREN) in
        let! p3 := next p2 in
        let! (ids, p4) := parseColumnIdents p3 in
        if eqs (curT p4) TOKEN_USING then
          let! (u, p5) := parseUsing p4 in
          let! p6 := next p5 in
          Ok (CIndex (Some n) unique None ids (Some u), p6)
        else Ok (CIndex (Some n) unique None ids None, p4)
      else Err
  | My =>
      if isin t [TOKEN_UNIQUE; TOKEN_INDEX; TOKEN_KEY] then
        let unique := eqs t TOKEN_UNIQUE in
        let! p1 := if unique then next p else Ok p in
        let! _ := guard (isin (curT p1) [TOKEN_INDEX; TOKEN_KEY]) in
        let! p2 := next p1 in
        let! _ := guard (eqs (curT p2) TOKEN_IDENT) in
        let n := NewRawIdent (curL p2) in
        let! _ := guard (eqs (peekT p2) TOKEN_OPEN_PAREN) in
        let! p3 := next p2 in
        let! (ids, p4) := parseColumnIdents p3 in
        Ok (CIndex (Some n) unique None ids None, p4)
      else if eqs t TOKEN_CHECK then
        let! _ := guard (eqs (peekT p) TOKEN_OPEN_PAREN) in
        let! p1 := next p in
        let! (ids, p2) := parseExpr p1 in
        Ok (CCheck (match name with Some n => Some n | None => Some (NewRawIdent (ident_diff tbl ++ "_chk")) end)
                   (Some ids), p2)
      else Err
  | Sp =>
      if eqs t TOKEN_CHECK then
        let! _ := guard (eqs (peekT p) TOKEN_OPEN_PAREN) in
        let! p1 := next p in
        let! (ids, p2) := parseExpr p1 in
        Ok (CCheck name (Some ids), p2)
      else Err
  end.

(** The optional IF NOT EXISTS (current stays one token before the name):
    pg:132-143, 208-219 and the same lines of the other packages. *)
Definition parseIfNotExists (p : ps) : res (bool * ps) :=
  if eqs (peekT p) TOKEN_IF then
    let! p1 := next p in
    let! _ := guard (eqs (peekT p1) TOKEN_NOT) in
    let! p2 := next p1 in
    let! _ := guard (eqs (peekT p2) TOKEN_EXISTS) in
    let! p3 := next p2 in
    Ok (true, p3)
  else Ok (false, p).

(** The loop LabelColumns of parseCreateTableStmt: pg:161-194, crdb:161-196, my:160-189,
    sp:160-189.  Returns with current as the break leaves it (postgres, cockroachdb:
    at the closing parenthesis; mysql, spanner: behind it). *)
Fixpoint parseColumns_loop (fuel : nat) (tbl : ident) (cols : list column) (cs : list constraint) (p : ps)
  : res (list column * list constraint * ps) :=
  match fuel with
  | O => OutOfFuel
  | S f =>
      if eqs (curT p) TOKEN_IDENT then
        let! (c, ccs, p1) := parseColumn tbl p in
        let! cs' := append_constraints cs ccs in
        parseColumns_loop f tbl (cols ++ [c])%list cs' p1
      else if isConstraint (curT p) then
        let! (c, p1) := parseTableConstraint tbl p in
        let! cs' := append_constraint cs c in
        parseColumns_loop f tbl cols cs' p1
      else if eqs (curT p) TOKEN_COMMA then
        let! p1 := next p in parseColumns_loop f tbl cols cs p1
      else if match d with Crdb => eqs (curT p) TOKEN_SEMICOLON | _ => false end then Ok (cols, cs, p)
      else if eqs (curT p) TOKEN_CLOSE_PAREN then
        match d with
        | Pg | Crdb =>
            let! _ := guard (isin (peekT p) [TOKEN_SEMICOLON; TOKEN_EOF]) in Ok (cols, cs, p)
        | _ => let! p1 := next p in Ok (cols, cs, p1)
        end
      else Err
  end.

(** "= value" of a table option: my:197-205 (five times the same code); current is
    one token before "=". *)
Definition parseOptionValue (p : ps) : res (ident * ps) :=
  let! p1 := next p in
  let! _ := guard (eqs (curT p1) TOKEN_EQUAL) in
  let! p2 := next p1 in
  let! _ := guard (eqs (curT p2) TOKEN_IDENT) in
  Ok (NewRawIdent (curL p2), p2).

(** The loop LabelTableOptions: my:191-261 *)
Fixpoint parseOptionsMy_loop (fuel : nat) (opts : list option_) (p : ps) : res (list option_ * ps) :=
  match fuel with
  | O => OutOfFuel
  | S f =>
      let t := curT p in
      if isin t [TOKEN_ENGINE; TOKEN_AUTO_INCREMENT; TOKEN_DEFAULT; TOKEN_COLLATE; TOKEN_COMMENT] then
        let! p1 :=
          if eqs t TOKEN_DEFAULT then
            let! _ := guard (eqs (peekT p) TOKEN_CHARSET) in next p
          else Ok p in
        let! (v, p2) := parseOptionValue p1 in
        let name := if eqs t TOKEN_ENGINE then "ENGINE"
                    else if eqs t TOKEN_AUTO_INCREMENT then "AUTO_INCREMENT"
                    else if eqs t TOKEN_DEFAULT then "DEFAULT CHARSET"
                    else if eqs t TOKEN_COLLATE then "COLLATE" else "COMMENT" in
        let! p3 := next p2 in
        parseOptionsMy_loop f (opts ++ [mkOpt name (Some [v])])%list p3
      else if isin t [TOKEN_SEMICOLON; TOKEN_EOF] then Ok (opts, p)
      else Err
  end.

(** Advance, check the type of the new current token and collect its identifier
    (the repeated pattern of sp:262-320). *)
Definition step (t : tokentype) (p : ps) : res (ident * ps) :=
  let! p1 := next p in
  let! _ := guard (eqs (curT p1) t) in
  Ok (NewRawIdent (curL p1), p1).

(** Several steps, as sp:200-260 *)
Fixpoint steps (ts : list tokentype) (p : ps) : res (list ident * ps) :=
  match ts with
  | [] => Ok ([], p)
  | t :: r =>
      let! (i, p1) := step t p in
      let! (is, p2) := steps r p1 in
      Ok (i :: is, p2)
  end.

(** The loop LabelTableOptions: sp:191-333 *)
Fixpoint parseOptionsSp_loop (fuel : nat) (opts : list option_) (rdp : option option_) (p : ps)
  : res (list option_ * option option_ * ps) :=
  match fuel with
  | O => OutOfFuel
  | S f =>
      let t := curT p in
      if eqs t TOKEN_PRIMARY then
        let! (_, p1) := step TOKEN_KEY p in
        let! p2 := next p1 in
        let! (ids, p3) := parseExpr p2 in
        parseOptionsSp_loop f (opts ++ [mkOpt "PRIMARY KEY" (Some ids)])%list rdp p3
      else if eqs t TOKEN_INTERLEAVE then
        let! (_, p1) := step TOKEN_IN p in
        let! (_, p2) := step TOKEN_PARENT p1 in
        let! (tbl, p3) := step TOKEN_IDENT p2 in
        let! (on, p4) :=
          if eqs (peekT p3) TOKEN_ON then
            let! q1 := next p3 in
            let! (_, q2) := step TOKEN_DELETE q1 in
            let! q3 := next q2 in
            if eqs (curT q3) TOKEN_CASCADE then Ok ([NewRawIdent "ON DELETE CASCADE"], q3)
            else if eqs (curT q3) TOKEN_NO then
              let! (_, q4) := step TOKEN_ACTION q3 in Ok ([NewRawIdent "ON DELETE NO ACTION"], q4)
            else Err
          else Ok ([], p3) in
        let! p5 := next p4 in
        parseOptionsSp_loop f (opts ++ [mkOpt "INTERLEAVE IN PARENT" (Some (tbl :: on))])%list rdp p5
      else if eqs t TOKEN_ROW then
        let! (_, p1) := step TOKEN_DELETION p in
        let! (_, p2) := step TOKEN_POLICY p1 in
        let! (ids, p3) := steps [TOKEN_OPEN_PAREN; TOKEN_OLDER_THAN; TOKEN_OPEN_PAREN; TOKEN_IDENT;
                                 TOKEN_COMMA; TOKEN_INTERVAL; TOKEN_IDENT; TOKEN_DAY;
                                 TOKEN_CLOSE_PAREN; TOKEN_CLOSE_PAREN] p2 in
        let! p4 := next p3 in
        parseOptionsSp_loop f opts (Some (mkOpt "ROW DELETION POLICY" (Some ids))) p4
      else if eqs t TOKEN_COMMA then
        let! p1 := next p in parseOptionsSp_loop f opts rdp p1
      else if isin t [TOKEN_SEMICOLON; TOKEN_EOF] then Ok (opts, rdp, p)
      else Err
  end.

(** parseCreateTableStmt: pg:127-197, crdb:127-199, my:126-264, sp:126-336 *)
Definition parseCreateTable (p : ps) : res (stmt * ps) :=
  let! (ine, p1) := parseIfNotExists p in
  let! p2 := next p1 in
  let! _ := guard (eqs (curT p2) TOKEN_IDENT) in
  let name := NewObjectName (curL p2) in
  let! p3 := next p2 in
  let! _ := guard (eqs (curT p3) TOKEN_OPEN_PAREN) in
  let! p4 := next p3 in
  let! (cols, cs, p5) := parseColumns_loop (S (List.length p4)) (on_name name) [] [] p4 in
  match d with
  | Pg | Crdb => Ok (CreateTable (mkCT "" ine name cols cs [] None), p5)
  | My =>
      let! (opts, p6) := parseOptionsMy_loop (S (List.length p5)) [] p5 in
      Ok (CreateTable (mkCT "" ine name cols cs opts None), p6)
  | Sp =>
      let! (opts, rdp, p6) := parseOptionsSp_loop (S (List.length p5)) [] None p5 in
      Ok (CreateTable (mkCT "" ine name cols cs opts rdp), p6)
  end.

(** parseCreateIndexStmt: pg:200-263, crdb:202-277, my:267-330, sp:339-402 *)
Definition parseCreateIndex (p : ps) : res (stmt * ps) :=
  let unique := eqs (curT p) TOKEN_UNIQUE in
  let! p0 := if unique then next p else Ok p in
  let! (ine, p1) := parseIfNotExists p0 in
  let! p2 := next p1 in
  let! _ := guard (eqs (curT p2) TOKEN_IDENT) in
  let name := match d with
              | Pg | Crdb => mkON None (NewRawIdent (curL p2))
              | _ => NewObjectName (curL p2)
              end in
  let! p3 := next p2 in
  let! _ := guard (eqs (curT p3) TOKEN_ON) in
  let! p4 := next p3 in
  let! _ := guard (eqs (curT p4) TOKEN_IDENT) in
  let tname := NewObjectName (curL p4) in
  let! p5 := next p4 in
  let! (usg, pre, p6) :=
    if eqs (curT p5) TOKEN_USING then
      match d with
      | Crdb =>
          let! (u, q1) := parseUsing p5 in
          let! q2 := next q1 in Ok ([], Some u, q2)
      | _ =>
          let! q1 := next p5 in
          let! q2 := next q1 in Ok ([mkIdent (curL q1) "" (curL q1)], None, q2)
      end
    else Ok ([], None, p5) in
  let! _ := guard (eqs (curT p6) TOKEN_OPEN_PAREN) in
  let! (ids, p7) := parseColumnIdents p6 in
  let! (post, p8) :=
    if match d with Crdb => eqs (curT p7) TOKEN_USING | _ => false end then
      let! (u, q1) := parseUsing p7 in
      let! q2 := next q1 in Ok (Some u, q2)
    else Ok (None, p7) in
  Ok (CreateIndex (mkCX "" unique ine name tname usg pre ids post), p8).

(** parseCreateStatement: pg:105-124, crdb:105-124, my:104-123, sp:104-123 *)
Definition parseCreate (p : ps) : res (stmt * ps) :=
  let! p1 := next p in
  if eqs (curT p1) TOKEN_TABLE then parseCreateTable p1
  else if isin (curT p1) [TOKEN_INDEX; TOKEN_UNIQUE] then parseCreateIndex p1
  else Err.

(** The loop LabelDDL of Parse: pg:81-101, crdb:81-101, my:80-100, sp:80-100 *)
Fixpoint parse_loop (fuel : nat) (acc : ddl) (p : ps) : res ddl :=
  match fuel with
  | O => OutOfFuel
  | S f =>
      if eqs (curT p) TOKEN_CREATE then
        let! (s, p1) := parseCreate p in
        let! p2 := next p1 in
        parse_loop f (acc ++ [s])%list p2
      else if isin (curT p) [TOKEN_CLOSE_PAREN; TOKEN_SEMICOLON] then
        let! p1 := next p in parse_loop f acc p1
      else if eqs (curT p) TOKEN_EOF then Ok acc
      else Err
  end.

(** Parse: pg:75-103, crdb:75-103, my:74-102, sp:74-102.  The two initial nextToken
    calls read the first two tokens. *)
Definition parse_tokens (ts : list token) : res ddl :=
  if eqs (curT ts) TOKEN_BOOM || eqs (peekT ts) TOKEN_BOOM then Panic
  else parse_loop (S (List.length ts)) [] ts.

(** NewParser and Parse: pg:57-103, crdb:57-103, my:56-102, sp:56-102 *)
Definition parse (input : string) : res ddl := parse_tokens (lex d input).

End Parser.
