(** The generate command: reading annotated Go sources
    (pkg/internal/lang/go/{extract_source,parse}.go, pkg/internal/lang/util/{regex,trim}.go,
    pkg/internal/generator/ddl*.go), printing the statements
    (pkg/internal/generator/dialect/{postgres,mysql,spanner}/*.go) and the command
    itself (pkg/ddlctl/generate/ddlctl_generate.go).

    Taken as data: the syntax tree of a Go file (go/parser, ast.NewCommentMap,
    ast.Inspect), the text of a doc comment (ast.CommentGroup.Text).  Taken as
    functions: reflect.StructTag.Get ([look]), filepathz.Short ([short]) and
    sort.Slice ([srt]).  Logging is left out. *)
From Coq Require Import DecimalString.
From Verif Require Import GoStr Token Lexer Ast Parser Lines.

(** * Regular expressions
    The expressions of pkg/internal/lang/util/regex.go and
    pkg/internal/generator/ddl_create_{table,index}.go, matched by backtracking in
    the order of preference of package regexp (leftmost-first, greedy).  Each
    piece takes the rest of the expression as its continuation.  A star of these expressions: regex.go:13, 17, 21, 25 *)
Fixpoint star {A} (p : ascii -> bool) (k : string -> option A) (s : string) : option A :=
  match s with
  | String c r => if p c then match star p k r with Some x => Some x | None => k s end else k s
  | EmptyString => k s
  end.
(** One or more of a class: regex.go:13, 17, 21, 25 *)
Definition plus {A} (p : ascii -> bool) (k : string -> option A) (s : string) : option A :=
  match s with
  | String c r => if p c then star p k r else None
  | EmptyString => None
  end.
(** A literal: regex.go:13, 17, 21, 25 *)
Definition lit {A} (w : string) (k : string -> option A) (s : string) : option A :=
  match drop_prefix w s with Some r => k r | None => None end.
(** A literal under (?i); the words used have no letter with a non-ASCII case variant.  pkg/internal/generator/ddl_create_table.go:34, ddl_create_index.go:30 *)
Fixpoint drop_prefix_fold (w s : string) : option string :=
  match w, s with
  | EmptyString, _ => Some s
  | String a w', String b s' => if Ascii.eqb (upper_byte a) (upper_byte b) then drop_prefix_fold w' s' else None
  | String _ _, EmptyString => None
  end.
(** A literal under (?i): pkg/internal/generator/ddl_create_table.go:34, ddl_create_index.go:30 *)
Definition lit_fold {A} (w : string) (k : string -> option A) (s : string) : option A :=
  match drop_prefix_fold w s with Some r => k r | None => None end.
(** An optional group: regex.go:13, 17, 21, 25 *)
Definition opt {A} (m : (string -> option A) -> string -> option A) (k : string -> option A) (s : string) : option A :=
  match m k s with Some x => Some x | None => k s end.
(** An alternative: regex.go:13, 17, 21, 25 *)
Definition alt {A} (m n : (string -> option A) -> string -> option A) (k : string -> option A) (s : string) : option A :=
  match m k s with Some x => Some x | None => n k s end.

(** [\s], [\S] and [.] of package regexp on bytes: every byte of a multi-byte
    character is in [\S] and in [.] like the character itself.  pkg/internal/lang/util/regex.go:13-25 *)
Definition re_space (c : ascii) : bool := existsb (Ascii.eqb c) [ch_tab; ch_nl; "012"%char; ch_cr; " "%char].
(** [\S]: pkg/internal/lang/util/regex.go:13-25 *)
Definition re_nonspace (c : ascii) : bool := negb (re_space c).
(** [.]: pkg/internal/lang/util/regex.go:13-25 *)
Definition re_dot (c : ascii) : bool := negb (Ascii.eqb c ch_nl).

(** [\S+.*] : what follows it; pkg/internal/lang/util/regex.go:13, 17, 21, 25 *)
Definition after_line (s : string) : option string := plus re_nonspace (star re_dot (@Some string)) s.
(** The text matched by a group that ends the expression.  Group 3 of pkg/internal/lang/util/regex.go:13-26 *)
Definition capture (m : string -> option string) (s : string) : option string :=
  option_map (fun r => substring 0 (String.length s - String.length r) s) (m s).

(** The optional comment mark: two or more slashes, or a slash and an asterisk,
    each followed by white space.  pkg/internal/lang/util/regex.go:13, 17, 21, 25; pkg/internal/lang/go/extract_source.go:37 *)
Definition re_mark {A} (k : string -> option A) : string -> option A :=
  opt (alt (fun k => lit "/" (plus (Ascii.eqb "/"%char) (star re_space k))) (fun k => lit "/*" (star re_space k))) k.
(** The common beginning of the four expressions: white space, optional comment
    mark, [\S+], [\s*:\s*], the word, its optional suffix, [\s*], a colon or blank,
    [\s*].  pkg/internal/lang/util/regex.go:13, 17, 21, 25 *)
Definition re_entry {A} (word suffix : string) (k : string -> option A) : string -> option A :=
  star re_space (re_mark (plus re_nonspace (star re_space (lit ":" (star re_space
    (lit word (opt (lit suffix) (star re_space (fun s =>
      match s with
      | String c r => if Ascii.eqb c ":"%char || Ascii.eqb c " "%char then star re_space k r else None
      | EmptyString => None
      end))))))))).

(** StmtRegexCreateTable, StmtRegexCreateTableConstraint,
    StmtRegexCreateTableOptions, StmtRegexCreateIndex: pkg/internal/lang/util/regex.go:12-28 *)
Definition match_table : string -> option string :=
  re_entry "table" "s" (capture (opt (fun k => lit "CREATE" (plus re_space (lit "TABLE" (plus re_space k)))) after_line)).
(** StmtRegexCreateTableConstraint: pkg/internal/lang/util/regex.go:16-19 *)
Definition match_constraint : string -> option string := re_entry "constraint" "s" (capture after_line).
(** StmtRegexCreateTableOptions: pkg/internal/lang/util/regex.go:20-23 *)
Definition match_option : string -> option string := re_entry "option" "s" (capture after_line).
(** StmtRegexCreateIndex: pkg/internal/lang/util/regex.go:24-27 *)
Definition match_index : string -> option string := re_entry "index" "es" (capture after_line).

(** DDLTagGoCommentLineRegex: pkg/internal/lang/go/extract_source.go:33-46.  The
    configured tag is spliced into the expression; it is taken literally here,
    which is what package regexp does for a tag of letters, digits, '_' and '-'.
    The rest of the expression, behind the colon, matches every text. *)
Definition match_tag (tag : string) (s : string) : bool :=
  match star re_space (re_mark (lit tag (star re_space (lit ":" (@Some string))))) s with
  | Some _ => true
  | None => false
  end.

(** An expression that is not anchored.  FindStringSubmatch of pkg/internal/generator/ddl_create_table.go:39, ddl_create_index.go:35 *)
Fixpoint search {A} (m : string -> option A) (s : string) : bool :=
  match m s with
  | Some _ => true
  | None => match s with String _ r => search m r | EmptyString => false end
  end.
(** SetCreateTable, SetCreateIndex: pkg/internal/generator/ddl_create_table.go:31-43
    and ddl_create_index.go:27-39 *)
Definition re_create (word : string) : string -> option string :=
  star re_space (lit_fold "CREATE" (plus re_space (star re_dot (lit_fold word (plus re_space (star re_dot (plus re_nonspace (@Some string)))))))).
(** SetCreateTable, SetCreateIndex: pkg/internal/generator/ddl_create_table.go:38-45, ddl_create_index.go:34-41 *)
Definition set_create (word s : string) : string :=
  if search (re_create word) s then s else "CREATE " ++ word ++ " " ++ s.

Example entry_example : match_index "pgddl: index: UNIQUE INDEX ""i"" ON t (a)" = Some "UNIQUE INDEX ""i"" ON t (a)".
Proof. reflexivity. Qed.
Example table_example : match_table ("  x :tables CREATE  TABLE" ++ nl ++ "t, u" ++ nl ++ "more") = Some ("CREATE  TABLE" ++ nl ++ "t, u").
Proof. reflexivity. Qed.
Example tag_example : (match_tag "pgddl" "// pgddl : table: users", match_tag "pgddl" "// see pgddl: users", match_tag "pgddl" "//pgddlx: a") = (true, false, false).
Proof. reflexivity. Qed.
Example set_create_example :
  (set_create "TABLE" "users", set_create "TABLE" "create table IF NOT EXISTS users", set_create "INDEX" "CREATE UNIQUE INDEX i ON t (a)")
  = ("CREATE TABLE users", "create table IF NOT EXISTS users", "CREATE UNIQUE INDEX i ON t (a)").
Proof. reflexivity. Qed.

(** * The syntax tree *)

(** A field of a struct: its names, its tag (the literal with its quotation marks)
    and the text of its doc comment.  Ast.Field (library) as used by pkg/internal/lang/go/parse.go:159-203 *)
Record field := mkField { f_names : list string; f_tag : option string; f_doc : string }.
(** A type declaration met by ast.Inspect; the fields if it declares a struct.  pkg/internal/lang/go/extract_source.go:64-77 *)
Record typespec := mkType { ts_name : string; ts_fields : option (list field) }.
(** A comment with the line it starts on; a comment group is a list of them.  A comment of go/ast (library) as used by pkg/internal/lang/go/extract_source.go:56-62 *)
Record cline := mkLine { cl_text : string; cl_line : N }.
(** An entry of the comment map.  pkg/internal/lang/go/extract_source.go:53-54 *)
Record cnode := mkNode { n_types : list typespec; n_groups : list (list cline) }.

(** The settings read: pkg/internal/config/config.go:26-28 *)
Record settings := mkSettings { column_tag : string; ddl_tag : string; pk_tag : string }.

(** ddlSource: pkg/internal/lang/go/extract_source.go:18-25 *)
Record source := mkSource { s_line : N; s_type : option string; s_struct : option (list field); s_group : list cline }.

(** extractDDLSourceFromDDLTagGo: pkg/internal/lang/go/extract_source.go:50-90.
    [nodes] is the comment map in the order of one iteration.  ast.Inspect goes on
    after the first type declaration, so the last one (and the last struct) is kept. *)
Definition last_type (l : list typespec) : option string :=
  fold_left (fun acc t => Some (ts_name t)) l None.
(** S.StructType after ast.Inspect: pkg/internal/lang/go/extract_source.go:64-77 *)
Definition last_struct (l : list typespec) : option (list field) :=
  fold_left (fun acc t => match ts_fields t with Some fs => Some fs | None => acc end) l None.
(** The loop CommentGroupLoop: pkg/internal/lang/go/extract_source.go:55-81 *)
Definition sources_of_group (tag : string) (types : list typespec) (g : list cline) : list source :=
  match find (fun l => match_tag tag (cl_text l)) g with
  | Some l => [mkSource (cl_line l) (last_type types) (last_struct types) g]
  | None => []
  end.
(** The loop over the comment groups: pkg/internal/lang/go/extract_source.go:54-82 *)
Definition sources_of_node (tag : string) (n : cnode) : list source :=
  flat_map (sources_of_group tag (n_types n)) (n_groups n).
(** ExtractDDLSourceFromDDLTagGo: pkg/internal/lang/go/extract_source.go:50-90 *)
Definition extract_sources (tag : string) (nodes : list cnode) : list source :=
  flat_map (sources_of_node tag) nodes.

(** * Statements *)

(** pkg/internal/generator/ddl_create_table.go:11-60, ddl_create_index.go:11-16.
    The comments of constraints and options are never set by the Go source reader. *)
Record gcolumn := mkGColumn { gc_comments : list string; gc_name : string; gc_type : string }.
(** CreateTableConstraint, CreateTableOption: ddl_create_table.go:53-61 *)
Record gtext := mkGText { gt_comments : list string; gt_text : string }.
(** CreateTableStmt: ddl_create_table.go:11-20 *)
Record gtable := mkGTable {
  g_file : string; g_line : N; g_comments : list string; g_create : string;
  g_columns : list gcolumn; g_constraints : list gtext; g_options : list gtext; g_pk : list string }.
(** CreateIndexStmt: ddl_create_index.go:11-16 *)
Record gindex := mkGIndex { gi_file : string; gi_line : N; gi_comments : list string; gi_create : string }.
(** Stmt: pkg/internal/generator/ddl.go:23-28 *)
Inductive gstmt := GTable (t : gtable) | GIndex (i : gindex).
(** GetSourceFile: ddl_create_table.go:22-24, ddl_create_index.go:18-20 *)
Definition stmt_file (s : gstmt) : string := match s with GTable t => g_file t | GIndex i => gi_file i end.
(** GetSourceLine: ddl_create_table.go:26-28, ddl_create_index.go:22-24 *)
Definition stmt_line (s : gstmt) : N := match s with GTable t => g_line t | GIndex i => gi_line i end.

(** CreateTableStmt.Comments = append(...): pkg/internal/lang/go/parse.go:146, 153, 167, 209, 213 *)
Definition add_comment (t : gtable) (c : string) : gtable :=
  mkGTable (g_file t) (g_line t) (g_comments t ++ [c])%list (g_create t) (g_columns t) (g_constraints t) (g_options t) (g_pk t).
(** CreateTableStmt.SetCreateTable(...): pkg/internal/lang/go/parse.go:135, 154 *)
Definition set_table (t : gtable) (s : string) : gtable :=
  mkGTable (g_file t) (g_line t) (g_comments t) (set_create "TABLE" s) (g_columns t) (g_constraints t) (g_options t) (g_pk t).
(** CreateTableStmt.Constraints = append(...): pkg/internal/lang/go/parse.go:137-139 *)
Definition add_constraint (t : gtable) (s : string) : gtable :=
  mkGTable (g_file t) (g_line t) (g_comments t) (g_create t) (g_columns t) (g_constraints t ++ [mkGText [] s])%list (g_options t) (g_pk t).
(** CreateTableStmt.Options = append(...): pkg/internal/lang/go/parse.go:141-143 *)
Definition add_option (t : gtable) (s : string) : gtable :=
  mkGTable (g_file t) (g_line t) (g_comments t) (g_create t) (g_columns t) (g_constraints t) (g_options t ++ [mkGText [] s])%list (g_pk t).
(** CreateTableStmt.Columns = append(...): pkg/internal/lang/go/parse.go:202 *)
Definition add_column (t : gtable) (c : gcolumn) : gtable :=
  mkGTable (g_file t) (g_line t) (g_comments t) (g_create t) (g_columns t ++ [c])%list (g_constraints t) (g_options t) (g_pk t).
(** CreateTableStmt.PrimaryKey = append(...): pkg/internal/lang/go/parse.go:190-191 *)
Definition add_pk (t : gtable) (n : string) : gtable :=
  mkGTable (g_file t) (g_line t) (g_comments t) (g_create t) (g_columns t) (g_constraints t) (g_options t) (g_pk t ++ [n])%list.

(** * Trimming *)

(** strings.TrimPrefix; library; used in pkg/internal/lang/go/parse.go:115 *)
Definition trim_prefix (p s : string) : string := match drop_prefix p s with Some r => r | None => s end.
(** pkg/internal/lang/go/parse.go:115 *)
Definition clean (s : string) : string := trim_head (trim_prefix "*/" (trim_prefix "/*" (trim_prefix "//" s))).

(** TrimCommentElementHasPrefix: pkg/internal/lang/util/trim.go:9-13 *)
Definition trim_has_prefix (l : list string) (p : string) : list string := filter (fun s => negb (has_prefix p s)) l.
(** TrimCommentElementTailEmpty: pkg/internal/lang/util/trim.go:15-25 *)
Definition trim_tail_empty (l : list string) : list string :=
  match l with
  | [] => []
  | _ => if String.eqb (last l "") "" then removelast l else l
  end.

(** * Reading one annotated comment group *)

(** strconv.Itoa; library; used for %d in pkg/internal/lang/go/parse.go:153, dialect/postgres/create_table.go:17 *)
Definition itoa (n : N) : string := NilEmpty.string_of_uint (N.to_uint n).

(** extractContainingCommentFromCommentGroup: pkg/internal/lang/go/parse.go:235-242 *)
Definition containing (g : list cline) (sub : string) : option cline := find (fun l => contains sub (cl_text l)) g.

(** The body of the loop over the comments: pkg/internal/lang/go/parse.go:117-147.
    A comment that is not found again is a nil pointer whose position is asked for. *)
Definition read_comment (file : string) (g : list cline) (st : gtable * list gstmt) (comment : string) : res (gtable * list gstmt) :=
  let (t, out) := st in
  match match_index comment with
  | Some m =>
      match containing g comment with
      | Some l => Ok (t, out ++ [GIndex (mkGIndex file (cl_line l) [comment] (set_create "INDEX" m))])%list
      | None => Panic
      end
  | None =>
      let t :=
        match match_table comment with
        | Some m => set_table t m
        | None =>
            match match_constraint comment with
            | Some m => add_constraint t m
            | None => match match_option comment with Some m => add_option t m | None => t end
            end
        end in
      Ok (add_comment t comment, out)
  end.
(** The loop over the comments: pkg/internal/lang/go/parse.go:117-147 *)
Fixpoint read_comments (file : string) (g : list cline) (l : list string) (st : gtable * list gstmt) : res (gtable * list gstmt) :=
  match l with
  | [] => Ok st
  | c :: r => bind (read_comment file g st c) (read_comments file g r)
  end.

(** The messages: pkg/internal/lang/go/parse.go:153,167,171,195,209,213 *)
Definition at_line (short : string -> string) (file : string) (n : N) : string := "(" ++ short file ++ ":" ++ itoa n ++ ")".
(** pkg/internal/lang/go/parse.go:153 *)
Definition msg_struct_name (short : string -> string) (file : string) (n : N) (tag name : string) : string :=
  "WARN: the comment " ++ at_line short file n ++ " does not have a key for table (" ++ tag ++ ": table: CREATE TABLE <table>), so the struct name """ ++ name ++ """ is used as the table name.".
(** pkg/internal/lang/go/parse.go:167 *)
Definition msg_ignored (type name tag : string) : string :=
  "NOTE: the """ ++ type ++ """ struct's """ ++ name ++ """ field has a tag for column name (`" ++ tag ++ ":""-""`), so the field is ignored.".
(** pkg/internal/lang/go/parse.go:171 *)
Definition msg_field_name (type name tag : string) : string :=
  "WARN: the """ ++ type ++ """ struct's """ ++ name ++ """ field does not have a tag for column name (`" ++ tag ++ ":""<ColumnName>""`), so the field name """ ++ name ++ """ is used as the column name.".
(** pkg/internal/lang/go/parse.go:195 *)
Definition msg_primary (name tag : string) : string :=
  "WARN: the field """ ++ name ++ """ does not have valid primary key tag (`" ++ tag ++ ":""true""`), so the column is not used as primary key.".
(** pkg/internal/lang/go/parse.go:209 *)
Definition msg_no_table (short : string -> string) (file : string) (n : N) (tag : string) : string :=
  "WARN: the comment " ++ at_line short file n ++ " does not have a key for table (" ++ tag ++ ": table: CREATE TABLE <table>), or the comment is not associated with struct.".
(** pkg/internal/lang/go/parse.go:213 *)
Definition msg_no_columns (short : string -> string) (file : string) (n : N) (tag : string) : string :=
  "ERROR: the comment " ++ at_line short file n ++ " does not have struct fields for column type and constraint (`" ++ tag ++ ":""<TYPE> [CONSTRAINT]""`), or the comment is not associated with struct.".

(** One field: pkg/internal/lang/go/parse.go:159-203.  A field without a tag and
    the first name of a field without names (an embedded field) are nil
    dereferences.  The type name is that of a declaration that exists because the
    struct exists. *)
Definition first_name (f : field) : res string := match f_names f with n :: _ => Ok n | [] => Panic end.
(** The body of the loop over the fields: pkg/internal/lang/go/parse.go:160-203 *)
Definition read_field (cfg : settings) (look : string -> string -> string) (type : string) (t : gtable) (f : field) : res gtable :=
  match f_tag f with
  | None => Panic
  | Some value =>
      let tag := trim_byte ch_bquote value in
      let name := look tag (column_tag cfg) in
      if String.eqb name "-" then
        bind (first_name f) (fun n => Ok (add_comment t (msg_ignored type n (column_tag cfg))))
      else
        bind (if String.eqb name "" then bind (first_name f) (fun n => Ok (n, [msg_field_name type n (column_tag cfg)])) else Ok (name, []))
          (fun nc =>
             let (name, comments) := (nc : string * list string) in
             let type_constraint := look tag (ddl_tag cfg) in
             if String.eqb type_constraint "" || String.eqb type_constraint "-" then Ok t
             else
               let pk := look tag (pk_tag cfg) in
               let primary := String.eqb pk "true" || String.eqb pk "1" in
               let t := if primary then add_pk t name else t in
               bind (if primary || String.eqb pk "" || String.eqb pk "-" then Ok comments
                     else bind (first_name f) (fun n => Ok (comments ++ [msg_primary n (pk_tag cfg)])%list))
                 (fun comments =>
                    let doc := split nl (trim_byte ch_nl (f_doc f)) in
                    Ok (add_column t (mkGColumn (comments ++ trim_tail_empty (trim_has_prefix doc (ddl_tag cfg)))%list name type_constraint))))
  end.
(** The loop over the fields: pkg/internal/lang/go/parse.go:159-203 *)
Fixpoint read_fields (cfg : settings) (look : string -> string -> string) (type : string) (l : list field) (t : gtable) : res gtable :=
  match l with
  | [] => Ok t
  | f :: r => bind (read_field cfg look type t f) (read_fields cfg look type r)
  end.

(** The body of the loop over the sources: pkg/internal/lang/go/parse.go:106-222 *)
Definition group_line (g : list cline) : N := match g with l :: _ => cl_line l | [] => 0%N end.
(** The body of the loop over the sources: pkg/internal/lang/go/parse.go:106-222; [group_line] is the line of r.CommentGroup.Pos() *)
Definition read_source (cfg : settings) (look : string -> string -> string) (short : string -> string) (file : string) (r : source) : res (list gstmt) :=
  bind (read_comments file (s_group r) (map (fun l => clean (cl_text l)) (s_group r)) (mkGTable file (s_line r) [] "" [] [] [] [], []))
    (fun st =>
       let (t, out) := (st : gtable * list gstmt) in
       let t := match s_type r with
                | Some name => if String.eqb (g_create t) "" then set_table (add_comment t (msg_struct_name short file (group_line (s_group r)) (ddl_tag cfg) name)) name else t
                | None => t
                end in
       bind (match s_struct r with
             | Some fields => read_fields cfg look (match s_type r with Some n => n | None => "" end) fields t
             | None => Ok t
             end)
         (fun t =>
            let t := if String.eqb (g_create t) "" then add_comment t (msg_no_table short file (group_line (s_group r)) (ddl_tag cfg))
                     else match g_columns t with
                          | [] => add_comment t (msg_no_columns short file (group_line (s_group r)) (ddl_tag cfg))
                          | _ => t
                          end in
            Ok (out ++ match g_columns t with [] => [] | _ => [GTable t] end)%list)).
(** The loop over the sources: pkg/internal/lang/go/parse.go:106-222 *)
Fixpoint read_sources (cfg : settings) (look : string -> string -> string) (short : string -> string) (file : string) (l : list source) : res (list gstmt) :=
  match l with
  | [] => Ok []
  | r :: l' => bind (read_source cfg look short file r) (fun a => bind (read_sources cfg look short file l') (fun b => Ok (a ++ b)%list))
  end.

(** The sort key, [fmt.Sprintf("%s:%09d", file, line)]: pkg/internal/lang/go/parse.go:225 *)
Fixpoint zeros (n : nat) : string := match n with O => "" | S k => String "0" (zeros k) end.
(** %09d: pkg/internal/lang/go/parse.go:225 *)
Definition pad9 (s : string) : string := zeros (9 - String.length s) ++ s.
(** The key compared: pkg/internal/lang/go/parse.go:225 *)
Definition sort_key (s : gstmt) : string := stmt_file s ++ ":" ++ pad9 (itoa (stmt_line s)).

(** sort.Slice for up to twelve elements (insertionSort of package sort); the
    elements already treated are kept in reverse.  Used in pkg/internal/lang/go/parse.go:224-226; the whole of sort.Slice is in GoSort.v *)
Fixpoint sink (x : gstmt) (rev_done : list gstmt) : list gstmt :=
  match rev_done with
  | [] => [x]
  | y :: r => if String.ltb (sort_key x) (sort_key y) then y :: sink x r else x :: y :: r
  end.
(** InsertionSort as a whole: pkg/internal/lang/go/parse.go:224-226 *)
Definition sort_small (l : list gstmt) : list gstmt := rev (fold_left (fun acc x => sink x acc) l []).

(** parseFile: pkg/internal/lang/go/parse.go:91-233.  [None] for a file go/parser
    rejects; the result [None] is ErrDDLTagGoAnnotationNotFoundInSource. *)
Definition parse_file (cfg : settings) (look : string -> string -> string) (short : string -> string)
    (srt : list gstmt -> list gstmt) (file : string) (parsed : option (list cnode)) : res (option (list gstmt)) :=
  match parsed with
  | None => Err
  | Some nodes =>
      match extract_sources (ddl_tag cfg) nodes with
      | [] => Ok None
      | l => bind (read_sources cfg look short file l) (fun stmts => Ok (Some (srt stmts)))
      end
  end.

(** Parse and walkDirFn: pkg/internal/lang/go/parse.go:32-88.  [Tree] is the list
    of files in the order of filepath.WalkDir.  An error that WalkDir hands to the function
    (an unreadable directory) ends the walk with an error like a file that go/parser
    rejects, and has no representation of its own. *)
Inductive input := Missing | OneFile (name : string) (parsed : option (list cnode)) | Tree (files : list (string * option (list cnode))).
(** Strings.HasSuffix: pkg/internal/lang/go/parse.go:71 *)
Definition ends_with (suffix s : string) : bool := String.prefix (rev_str suffix) (rev_str s).
(** WalkDirFn: pkg/internal/lang/go/parse.go:65-88 *)
Fixpoint parse_tree (cfg : settings) (look : string -> string -> string) (short : string -> string)
    (srt : list gstmt -> list gstmt) (files : list (string * option (list cnode))) : res (list gstmt) :=
  match files with
  | [] => Ok []
  | (name, parsed) :: r =>
      if negb (ends_with ".go" name) || ends_with "_test.go" name then parse_tree cfg look short srt r
      else bind (parse_file cfg look short srt name parsed)
             (fun a => bind (parse_tree cfg look short srt r) (fun b => Ok (match a with Some a => a ++ b | None => b end)%list))
  end.
(** Parse: pkg/internal/lang/go/parse.go:34-60 *)
Definition parse_input (cfg : settings) (look : string -> string -> string) (short : string -> string)
    (srt : list gstmt -> list gstmt) (i : input) : res (list gstmt) :=
  match i with
  | Missing => Err
  | OneFile name parsed => bind (parse_file cfg look short srt name parsed) (fun a => match a with Some a => Ok a | None => Err end)
  | Tree files => parse_tree cfg look short srt files
  end.

(** * Printing *)

(** The printers: pkg/internal/generator/dialect/{postgres,mysql,spanner}.  The packages chosen by pkg/ddlctl/generate/ddlctl_generate.go:76-98 *)
Inductive printer := PgPrinter | MyPrinter | SpPrinter.
(** Quotation: postgres/postgres.go:14, mysql/mysql.go:14, spanner/spanner.go:14 *)
Definition quotation (d : printer) : string := match d with PgPrinter => dquote | _ => bquote end.

(** fprintComment: postgres/postgres.go:43-51 (the same in mysql and spanner) *)
Definition print_comment (indent comment : string) : string :=
  if String.eqb comment "" then indent ++ "--" ++ nl else indent ++ "--" ++ " " ++ comment ++ nl.
(** The loops over comments: postgres/create_table.go:21-23, 89-91, 106-108, 116-118 *)
Definition print_comments (indent : string) (l : list string) : string := concat_str (map (print_comment indent) l).

(** [%-Ns]: pads on the right to N characters.  Characters are counted as in valid
    UTF-8: every byte that does not continue a character. *)
Definition continues (c : ascii) : bool := let n := N_of_ascii c in (128 <=? n)%N && (n <? 192)%N.
(** The width of a text: postgres/create_table.go:93 *)
Fixpoint rune_count (s : string) : nat :=
  match s with EmptyString => 0 | String c r => (if continues c then 0 else 1) + rune_count r end.
(** The padding: postgres/create_table.go:93 *)
Fixpoint blanks (n : nat) : string := match n with O => "" | S k => String " " (blanks k) end.
(** [%-Ns]: postgres/create_table.go:86, 93 *)
Definition pad (width : nat) (s : string) : string := s ++ blanks (width - rune_count s).

(** fprintCreateTableColumn: postgres/create_table.go:78-103 *)
Definition name_width (l : list gcolumn) : nat :=
  2 + fold_left (fun m c => if Nat.ltb m (String.length (gc_name c)) then String.length (gc_name c) else m) l 0.
(** FprintCreateTableColumn: postgres/create_table.go:78-103 *)
Fixpoint print_columns (d : printer) (indent : string) (width : nat) (l : list gcolumn) (tail_comma : bool) : string :=
  match l with
  | [] => ""
  | c :: r =>
      print_comments indent (gc_comments c) ++ indent ++ pad width (quotation d ++ gc_name c ++ quotation d) ++ " " ++ gc_type c
      ++ (match r with [] => if tail_comma then "," ++ nl else nl | _ => "," ++ nl end)
      ++ print_columns d indent width r tail_comma
  end.
(** fprintCreateTableConstraint, fprintCreateTableOption: postgres/create_table.go:105-123 *)
Definition print_text (indent : string) (x : gtext) : string := print_comments indent (gt_comments x) ++ indent ++ gt_text x.
(** The loop over the constraints: postgres/create_table.go:52-58 *)
Fixpoint print_constraints (indent : string) (l : list gtext) : string :=
  match l with
  | [] => ""
  | x :: r => print_text indent x ++ (match r with [] => "" | _ => "," end) ++ nl ++ print_constraints indent r
  end.
(** The loop over the options: postgres/create_table.go:64-70 *)
Fixpoint print_options (l : list gtext) : string :=
  match l with
  | [] => ""
  | x :: r => nl ++ print_text "" x ++ (match r with [] => "" | _ => "," end) ++ print_options r
  end.
(** The names of the primary key: postgres/create_table.go:37-44, spanner/create_table.go:50-57 *)
Fixpoint print_names (d : printer) (l : list string) : string :=
  match l with
  | [] => ""
  | x :: r => quotation d ++ x ++ quotation d ++ (match r with [] => "" | _ => ", " end) ++ print_names d r
  end.

(** Len(...) > 0: postgres/create_table.go:29-30, 36 *)
Definition nonempty {A} (l : list A) : bool := match l with [] => false | _ => true end.
(** The line naming the source: postgres/create_table.go:16-18, postgres/create_index.go:14-17 *)
Definition print_source (short : string -> string) (file : string) (n : N) : string :=
  if String.eqb file "" then "" else print_comment "" ("source: " ++ short file ++ ":" ++ itoa n).

(** fprintCreateTable: postgres/create_table.go:14-76, mysql/create_table.go (the
    same), spanner/create_table.go:14-75 *)
Definition print_table (d : printer) (short : string -> string) (indent : string) (t : gtable) : string :=
  print_source short (g_file t) (g_line t)
  ++ print_comments "" (g_comments t)
  ++ (if String.eqb (g_create t) "" then ""
      else
        g_create t ++ " (" ++ nl
        ++ match d with
           | SpPrinter =>
               print_columns d indent (name_width (g_columns t)) (g_columns t) (nonempty (g_constraints t))
               ++ print_constraints indent (g_constraints t)
               ++ ")"
               ++ (if nonempty (g_pk t)
                   then " PRIMARY KEY (" ++ print_names d (g_pk t) ++ ")" ++ (if nonempty (g_options t) then "," else "")
                   else "")
           | _ =>
               print_columns d indent (name_width (g_columns t)) (g_columns t) (nonempty (g_pk t) || nonempty (g_constraints t))
               ++ (if nonempty (g_pk t)
                   then indent ++ "PRIMARY KEY (" ++ print_names d (g_pk t) ++ ")" ++ (if nonempty (g_constraints t) then "," else "") ++ nl
                   else "")
               ++ print_constraints indent (g_constraints t)
               ++ ")"
           end
        ++ print_options (g_options t)
        ++ ";" ++ nl).

(** fprintCreateIndex: postgres/create_index.go:12-29 *)
Definition print_index (short : string -> string) (i : gindex) : string :=
  print_source short (gi_file i) (gi_line i) ++ print_comments "" (gi_comments i) ++ gi_create i ++ ";" ++ nl.

(** The switch of Fprint: postgres/postgres.go:26-34 *)
Definition print_stmt (d : printer) (short : string -> string) (indent : string) (s : gstmt) : string :=
  match s with GTable t => print_table d short indent t | GIndex i => print_index short i end.

(** Fprint: postgres/postgres.go:17-41; indent and header: pkg/internal/generator/ddl.go:13-21 *)
Definition indent4 : string := "    ".
(** pkg/internal/generator/ddl.go:16-19 *)
Definition header : list string := ["Code generated by ddlctl. DO NOT EDIT."; ""].
(** Fprint: postgres/postgres.go:17-41 *)
Definition print_ddl (d : printer) (short : string -> string) (l : list gstmt) : string :=
  print_comments "" header ++ concat_str (map (fun s => nl ++ print_stmt d short indent4 s) l).

(** * The command *)

(** The choice of printer: pkg/ddlctl/generate/ddlctl_generate.go:76-98 *)
Definition printer_of (dialect : string) : option printer :=
  if String.eqb dialect "spanner" then Some SpPrinter
  else if String.eqb dialect "postgres" || String.eqb dialect "cockroachdb" then Some PgPrinter
  else if String.eqb dialect "mysql" then Some MyPrinter
  else None.

(** Generate: pkg/ddlctl/generate/ddlctl_generate.go:51-98 *)
Definition generate (cfg : settings) (look : string -> string -> string) (short : string -> string)
    (srt : list gstmt -> list gstmt) (dialect language : string) (i : input) : res string :=
  if String.eqb language "go" then
    bind (parse_input cfg look short srt i)
      (fun l => match printer_of dialect with Some d => Ok (print_ddl d short l) | None => Err end)
  else Err.

(** Command: pkg/ddlctl/generate/ddlctl_generate.go:20-49, with the file names already
    resolved: [old] is the content of the destination ([None] if it does not
    exist), [opens] tells whether it can be opened for writing.  The result is the
    content of the destination afterwards and whether the command reports success. *)
Definition generate_command (cfg : settings) (look : string -> string -> string) (short : string -> string)
    (srt : list gstmt -> list gstmt) (dialect language : string) (i : input) (old : option string) (opens : bool)
    : option string * res unit :=
  if opens then
    match generate cfg look short srt dialect language i with
    | Ok text => (Some text, Ok tt)
    | Err => (Some "", Err)
    | Panic => (Some "", Panic)
    | OutOfFuel => (Some "", OutOfFuel)
    end
  else (old, Err).

(** A simple tag reader for the examples: the value between the quotation marks
    behind [key:]. *)
Definition look_simple (tag key : string) : string :=
  match split (key ++ ":" ++ dquote) tag with
  | _ :: r :: _ => match split dquote r with v :: _ => v | [] => "" end
  | _ => ""
  end.
Definition unlines_example (l : list string) : string := concat_str (map (fun x => x ++ nl) l).
Example generate_example :
  generate (mkSettings "db" "pgddl" "pk") look_simple (fun s => s) (fun l => l) "postgres" "go"
    (OneFile "a.go" (Some [mkNode
       [mkType "User" (Some [mkField ["ID"] (Some "`db:""id"" pgddl:""TEXT NOT NULL"" pk:""true""`") ("The id." ++ nl);
                             mkField ["Name"] (Some "`pgddl:""TEXT""`") "pgddl: ignored";
                             mkField ["X"] (Some "`db:""x""`") ""])]
       [[mkLine "// User is a user." 3; mkLine "// pgddl: table: users" 4; mkLine "// pgddl: index: i ON users (id)" 5; mkLine "// pgddl: constraint: UNIQUE (Name)" 6]]]))
  = Ok (unlines_example
      ["-- Code generated by ddlctl. DO NOT EDIT."; "--"; "";
       "-- source: a.go:5"; "-- pgddl: index: i ON users (id)"; "CREATE INDEX i ON users (id);"; "";
       "-- source: a.go:4"; "-- User is a user."; "-- pgddl: table: users"; "-- pgddl: constraint: UNIQUE (Name)";
       "CREATE TABLE users (";
       "    -- The id."; "    ""id""   TEXT NOT NULL,";
       "    -- WARN: the ""User"" struct's ""Name"" field does not have a tag for column name (`db:""<ColumnName>""`), so the field name ""Name"" is used as the column name.";
       "    ""Name"" TEXT,"; "    PRIMARY KEY (""id""),"; "    UNIQUE (Name)"; ");"]).
Proof. vm_compute. reflexivity. Qed.
