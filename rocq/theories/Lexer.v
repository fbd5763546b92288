(** The lexers pkg/ddl/{postgres,cockroachdb,mysql,spanner}/lexar.go.

    The four files differ in the keyword table, the quotation marks and the
    cases for '|' and ':'; one function with a [dialect] argument covers them.
    Line numbers are those of pkg/ddl/postgres/lexar.go unless said otherwise.

    State: the Go lexer keeps (input, position, readPosition, ch); the model
    keeps the suffix of the input starting at [ch].  At the end of the input Go
    sets ch = 0; the suffix is then empty. *)
From Verif Require Import GoStr Token.

(** isLiteral: 398-404 *)
Definition isLiteral (c : ascii) : bool :=
  let n := N_of_ascii c in
  (N.leb 65 n && N.leb n 90) || (N.leb 97 n && N.leb n 122)
  || (N.leb 48 n && N.leb n 57) || N.eqb n 95 || N.eqb n 46.

(** The test of skipWhitespace: 407 *)
Definition isSpace (c : ascii) : bool :=
  Ascii.eqb c " " || Ascii.eqb c ch_tab || Ascii.eqb c ch_nl || Ascii.eqb c ch_cr.

(** skipWhitespace: 406-412 *)
Fixpoint skipWhitespace (s : string) : string :=
  match s with
  | EmptyString => EmptyString
  | String c r => if isSpace c then skipWhitespace r else s
  end.

(** skipComment: 414-418.  Stops in front of a newline or a NUL byte, or at the
    end of the input. *)
Fixpoint skipComment (s : string) : string :=
  match s with
  | EmptyString => EmptyString
  | String c r => if Ascii.eqb c ch_nl || Ascii.eqb c ch_nul then s else skipComment r
  end.

(** readIdentifier: 388-396 *)
Fixpoint readIdentifier (s : string) : string * string :=
  match s with
  | EmptyString => (EmptyString, EmptyString)
  | String c r =>
      if isLiteral c
      then let (w, rest) := readIdentifier r in (String c w, rest)
      else (EmptyString, s)
  end.

(** readQuotedLiteral: 364-374, called with the text after the opening quote.
    Returns the text up to and including the closing quote (or NUL byte) and the
    rest.  [None] when the input ends first: Go then slices
    input[position : len(input)+1], which panics. *)
Fixpoint readQuoted (q : ascii) (s : string) : option (string * string) :=
  match s with
  | EmptyString => None
  | String c r =>
      if Ascii.eqb c q || Ascii.eqb c ch_nul then Some (String c EmptyString, r)
      else match readQuoted q r with
           | Some (b, rest) => Some (String c b, rest)
           | None => None
           end
  end.

(** Bytes opening a quoted literal: postgres/lexar.go:305, cockroachdb/lexar.go
    (same), mysql/lexar.go:349 and spanner/lexar.go:305 (also the back quote). *)
Definition isQuote (d : dialect) (c : ascii) : bool :=
  Ascii.eqb c ch_dquote || Ascii.eqb c ch_quote
  || match d with My | Sp => Ascii.eqb c ch_bquote | _ => false end.

(** The one-byte tokens of the switch: 324-345 *)
Definition single (c : ascii) : option tokentype :=
  if Ascii.eqb c "(" then Some TOKEN_OPEN_PAREN
  else if Ascii.eqb c ")" then Some TOKEN_CLOSE_PAREN
  else if Ascii.eqb c "," then Some TOKEN_COMMA
  else if Ascii.eqb c ";" then Some TOKEN_SEMICOLON
  else if Ascii.eqb c "=" then Some TOKEN_EQUAL
  else if Ascii.eqb c ">" then Some TOKEN_GREATER
  else if Ascii.eqb c "<" then Some TOKEN_LESS
  else if Ascii.eqb c "+" then Some TOKEN_PLUS
  else if Ascii.eqb c "-" then Some TOKEN_MINUS
  else if Ascii.eqb c "*" then Some TOKEN_ASTERISK
  else if Ascii.eqb c "/" then Some TOKEN_SLASH
  else None.

(** Whether the switch has the cases '|' and ':' (postgres/lexar.go:308-323,
    cockroachdb/lexar.go:329-349; commented out in mysql and spanner). *)
Definition has_cast (d : dialect) : bool := match d with Pg | Crdb => true | _ => false end.

(** Result of one NextToken call.  NextToken: 294; a panic is not a value in Go *)
Inductive lexed := LTok (t : token) (rest : string) | LPanic.

(** NextToken after whitespace and comments have been skipped: 304-361. *)
Definition scan (d : dialect) (s : string) : lexed :=
  match s with
  | EmptyString => LTok (mkTok TOKEN_EOF EmptyString) EmptyString
  | String c r =>
      if isQuote d c then
        match readQuoted c r with
        | Some (b, rest) => LTok (mkTok TOKEN_IDENT (String c b)) rest
        | None => LPanic
        end
      else if has_cast d && Ascii.eqb c "|" then
        match r with
        | String c2 r2 =>
            if Ascii.eqb c2 "|" then LTok (mkTok TOKEN_STRING_CONCAT "||") r2
            else LTok (mkTok TOKEN_ILLEGAL (string_of_byte c)) r
        | EmptyString => LTok (mkTok TOKEN_ILLEGAL (string_of_byte c)) r
        end
      else if has_cast d && Ascii.eqb c ":" then
        match r with
        | String c2 r2 =>
            if Ascii.eqb c2 ":" then
              match d, r2 with
              | Crdb, String c3 r3 =>
                  if Ascii.eqb c3 ":" then LTok (mkTok TOKEN_TYPE_ANNOTATION ":::") r3
                  else LTok (mkTok TOKEN_TYPECAST "::") r2
              | _, _ => LTok (mkTok TOKEN_TYPECAST "::") r2
              end
            else LTok (mkTok TOKEN_ILLEGAL (string_of_byte c)) r
        | EmptyString => LTok (mkTok TOKEN_ILLEGAL (string_of_byte c)) r
        end
      else match single c with
      | Some t => LTok (mkTok t (string_of_byte c)) r
      | None =>
          if Ascii.eqb c ch_nul then LTok (mkTok TOKEN_EOF EmptyString) r
          else if isLiteral c then
            let (w, rest) := readIdentifier s in LTok (mkTok (lookupIdent d w) w) rest
          else LTok (mkTok TOKEN_ILLEGAL (string_of_byte c)) r
      end
  end.

(** The beginning of NextToken: 297-302.  The Go function calls itself after a
    comment; [fuel] bounds that recursion ([length s] always suffices, see
    LexerFacts.skipBlank_fuel). *)
Fixpoint skipBlank (fuel : nat) (s : string) : string :=
  let s := skipWhitespace s in
  match fuel with
  | O => s
  | S f => if String.prefix "--" s then skipBlank f (skipComment s) else s
  end.

(** NextToken: 294-361 *)
Definition nextToken (d : dialect) (s : string) : lexed :=
  scan d (skipBlank (String.length s) s).

(** A panic of the lexer is represented by a pseudo token, which is not the
    value of any TOKEN constant.  ReadQuotedLiteral: 364-374 (the slice expression) *)
Definition TOKEN_BOOM : tokentype := "<panic>".
(** The token of such a panic: 364-374 *)
Definition boom : token := mkTok TOKEN_BOOM EmptyString.

(** All tokens produced by repeated NextToken calls, without the EOF tokens
    produced for ever once the input is exhausted.  (An EOF token for a NUL byte
    inside the input is kept: lexing continues behind it.); NextToken: 294-361, called by nextToken of parser.go:66-72 *)
Fixpoint lex_fuel (fuel : nat) (d : dialect) (s : string) : list token :=
  match fuel with
  | O => []
  | S f =>
      match skipBlank (String.length s) s with
      | EmptyString => []
      | s' => match scan d s' with
              | LTok t rest => t :: lex_fuel f d rest
              | LPanic => [boom]
              end
      end
  end.
(** NewLexer and the calls of NextToken: 269-276, 294-361, parser.go:66-72 *)
Definition lex (d : dialect) (s : string) : list token := lex_fuel (S (String.length s)) d s.
