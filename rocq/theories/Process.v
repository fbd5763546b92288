(** The process: cmd/ddlctl/main.go, pkg/ddlctl/ddlctl.go, the options of
    pkg/internal/config, the expression compiled once of
    pkg/internal/lang/go/extract_source.go, and the files of
    pkg/ddlctl/generate/ddlctl_generate.go.

    The library that reads the command line (cliz) is not in the sandbox.  It is taken to
    find the command called and the values given for options, a flag going before the
    environment and the environment before the default, and to report an option as not
    found if neither the command called nor the root declares it. *)
From Verif Require Import GoStr Token Ast Parser Apply Generate Show Resolve.
From Verif Require Config.
Local Open Scope string_scope.
Local Open Scope list_scope.

(** * The expression for annotations, compiled once *)

(** _DDLTagGoCommentLineRegex and its sync.Once: extract_source.go:28-31.  The tag the
    expression was compiled for, [None] before the first use. *)
Definition cell := option string.
(** DDLTagGoCommentLineRegex: extract_source.go:41-46.  The tag is taken literally (see match_tag). *)
Definition compiled (c : cell) (cfg : settings) : string := match c with Some t => t | None => ddl_tag cfg end.
(** Whether the expression is asked for at all, that is, whether there is a comment line: extract_source.go:53-59 *)
Definition asked (nodes : list cnode) : bool := existsb (fun n => existsb nonempty (n_groups n)) nodes.
(** parseFile: parse.go:91-233, with the expression of extract_source.go:59 *)
Definition parse_file_once (c : cell) (cfg : settings) (look : string -> string -> string) (short : string -> string)
    (srt : list gstmt -> list gstmt) (file : string) (parsed : option (list cnode)) : res (option (list gstmt)) * cell :=
  match parsed with
  | None => (Err, c)
  | Some nodes =>
      (match extract_sources (compiled c cfg) nodes with
       | [] => Ok None
       | l => bind (read_sources cfg look short file l) (fun stmts => Ok (Some (srt stmts)))
       end,
       if asked nodes then Some (compiled c cfg) else c)
  end.
(** walkDirFn: parse.go:65-88, with the expression of extract_source.go:59 *)
Fixpoint parse_tree_once (c : cell) (cfg : settings) (look : string -> string -> string) (short : string -> string)
    (srt : list gstmt -> list gstmt) (files : list (string * option (list cnode))) : res (list gstmt) * cell :=
  match files with
  | [] => (Ok [], c)
  | (name, parsed) :: r =>
      if negb (ends_with ".go" name) || ends_with "_test.go" name then parse_tree_once c cfg look short srt r
      else match parse_file_once c cfg look short srt name parsed with
           | (Ok a, c1) =>
               let (b, c2) := parse_tree_once c1 cfg look short srt r in
               (bind b (fun b => Ok (match a with Some a => a ++ b | None => b end)), c2)
           | (Err, c1) => (Err, c1)
           | (Panic, c1) => (Panic, c1)
           | (OutOfFuel, c1) => (OutOfFuel, c1)
           end
  end.
(** Parse: parse.go:34-60, with the expression of extract_source.go:59 *)
Definition parse_input_once (c : cell) (cfg : settings) (look : string -> string -> string) (short : string -> string)
    (srt : list gstmt -> list gstmt) (i : input) : res (list gstmt) * cell :=
  match i with
  | Missing => (Err, c)
  | OneFile name parsed =>
      let (a, c1) := parse_file_once c cfg look short srt name parsed in
      (bind a (fun a => match a with Some a => Ok a | None => Err end), c1)
  | Tree files => parse_tree_once c cfg look short srt files
  end.
(** Generate: ddlctl_generate.go:51-98, with the expression of extract_source.go:59 *)
Definition generate_once (c : cell) (cfg : settings) (look : string -> string -> string) (short : string -> string)
    (srt : list gstmt -> list gstmt) (dialect language : string) (i : input) : res string * cell :=
  if String.eqb language "go" then
    let (l, c1) := parse_input_once c cfg look short srt i in
    (bind l (fun l => match printer_of dialect with Some d => Ok (print_ddl d short l) | None => Err end), c1)
  else (Err, c).
(** Generations one after the other in a process, each after a config.Load of its own:
    ddlctl_generate.go:20-65, extract_source.go:41-46 *)
Fixpoint generations (c : cell) (look : string -> string -> string) (short : string -> string)
    (srt : list gstmt -> list gstmt) (l : list (settings * string * string * input)) : list (res string) :=
  match l with
  | [] => []
  | (cfg, dialect, language, i) :: r =>
      let (x, c1) := generate_once c cfg look short srt dialect language i in
      x :: generations c1 look short srt r
  end.

(** * Options and commands *)

(** What an option can be set to: the types of cliz.StringOption and cliz.BoolOption, ddlctl.go:22-56, 104-126 *)
Inductive value := VString (s : string) | VBool (b : bool).
(** An option: ddlctl.go:22-56, 104-126 *)
Record opt := mkOpt { o_name : string; o_env : string; o_default : value }.
(** optLanguage: ddlctl.go:22-27 *)
Definition opt_language : opt := mkOpt "lang" "DDLCTL_LANGUAGE" (VString "go").
(** optDialect: ddlctl.go:28-33 *)
Definition opt_dialect : opt := mkOpt "dialect" "DDLCTL_DIALECT" (VString "").
(** opts: ddlctl.go:34-56 *)
Definition opts : list opt :=
  [opt_language; opt_dialect;
   mkOpt "go-column-tag" "DDLCTL_GO_COLUMN_TAG" (VString "db");
   mkOpt "go-ddl-tag" "DDLCTL_GO_DDL_TAG" (VString "ddlctl");
   mkOpt "go-pk-tag" "DDLCTL_GO_PK_TAG" (VString "pk")].
(** The option of apply: ddlctl.go:104-110 *)
Definition opt_auto_approve : opt := mkOpt "auto-approve" "DDLCTL_AUTO_APPROVE" (VBool false).
(** The options of the root: ddlctl.go:115-127 *)
Definition root_options : list opt :=
  [mkOpt "trace" "DDLCTL_TRACE" (VBool false); mkOpt "debug" "DDLCTL_DEBUG" (VBool false)].

(** The RunFuncs: ddlctl.go:70-76, 84, 91, 98, 113, 129-137 *)
Inductive command := CUsage | CVersion | CGenerate | CShow | CDiff | CApply.
(** The options a command declares besides those of the root: ddlctl.go:65-114 *)
Definition options_of (c : command) : list opt :=
  match c with
  | CUsage | CVersion => []
  | CGenerate | CDiff => opts
  | CShow => [opt_dialect]
  | CApply => opts ++ [opt_auto_approve]
  end.

(** What the library made of a command line: the command called, the values given by
    flags and by the environment, and the other arguments.  cmd.Run: ddlctl.go:140 *)
Record call := mkCall {
  a_command : command; a_flags : string -> option value; a_env : string -> option value; a_args : list string }.
(** The name of a command on the command line (Name or Short): ddlctl.go:61-101.  A word that
    names no command is left to the RunFunc of the root. *)
Definition command_named (word : string) : command :=
  if String.eqb word "version" then CVersion
  else if String.eqb word "generate" || String.eqb word "gen" then CGenerate
  else if String.eqb word "show" then CShow
  else if String.eqb word "diff" then CDiff
  else if String.eqb word "apply" then CApply
  else CUsage.

(** GetOption of cliz: a library (see above).  Called in pkg/internal/config/*.go, loadX *)
Definition get_option (a : call) (name : string) : option value :=
  match find (fun o => String.eqb (o_name o) name) (root_options ++ options_of (a_command a)) with
  | None => None
  | Some o => Some (match a_flags a name with
                    | Some v => v
                    | None => match a_env a (o_env o) with Some v => v | None => o_default o end
                    end)
  end.
(** GetOptionString with its error dropped: pkg/internal/config/dialect.go:11-14 and the like *)
Definition string_option (a : call) (name : string) : string :=
  match get_option a name with Some (VString s) => s | _ => "" end.
(** GetOptionBool with its error dropped: pkg/internal/config/auto_approve.go:11-14 and the like *)
Definition bool_option (a : call) (name : string) : bool :=
  match get_option a name with Some (VBool b) => b | _ => false end.
(** load: pkg/internal/config/config.go:76-85 *)
Definition config_of (a : call) : Config.config :=
  Config.mkConfig (bool_option a "trace") (bool_option a "debug") (string_option a "lang") (string_option a "dialect")
    (bool_option a "auto-approve") (string_option a "go-column-tag") (string_option a "go-ddl-tag") (string_option a "go-pk-tag").
(** config.ColumnTagGo, config.DDLTagGo, config.PKTagGo: pkg/internal/config/*_tag_go.go *)
Definition settings_of (c : Config.config) : settings :=
  mkSettings (Config.cfg_column_tag c) (Config.cfg_ddl_tag c) (Config.cfg_pk_tag c).

(** * Files *)

(** Directories, and files with their content in the order of filepath.WalkDir.  What os.Stat,
    os.OpenFile, os.ReadFile and filepath.WalkDir meet: ddlctl_generate.go:35-42,
    ddlctl_diff.go:50-65, parse.go:36-48.  Names are taken as absolute and cleaned; unreadable
    files are not modelled. *)
Record disk := mkDisk { k_dirs : list string; k_files : list (string * string) }.
(** Reading a file: os.ReadFile in ddlctl_diff.go:62, parser.ParseFile in parse.go:94 *)
Fixpoint assoc (name : string) (l : list (string * string)) : option string :=
  match l with [] => None | (n, t) :: r => if String.eqb name n then Some t else assoc name r end.
(** The same: ddlctl_diff.go:62, parse.go:94 *)
Definition content (k : disk) (name : string) : option string := assoc name (k_files k).
(** info.IsDir(): ddlctl_generate.go:35, parse.go:45 *)
Definition is_dir (k : disk) (name : string) : bool := existsb (String.eqb name) (k_dirs k).
(** A file below a directory: filepath.WalkDir in parse.go:46 *)
Definition below (dir name : string) : bool := String.prefix (dir ++ "/") name.

(** Writing to a file there is: ddlctl_generate.go:40, 45 *)
Fixpoint overwrite (name text : string) (l : list (string * string)) : list (string * string) :=
  match l with
  | [] => []
  | (n, t) :: r => if String.eqb name n then (n, text) :: r else (n, t) :: overwrite name text r
  end.
(** A file written, created if need be, at the place [place] in the order of WalkDir:
    os.OpenFile with O_WRONLY, O_CREATE and O_TRUNC and writing: ddlctl_generate.go:40, 45 *)
Definition write (place : list (string * string) -> string -> nat) (k : disk) (name text : string) : disk :=
  mkDisk (k_dirs k)
    match content k name with
    | Some _ => overwrite name text (k_files k)
    | None => let n := place (k_files k) name in firstn n (k_files k) ++ (name, text) :: skipn n (k_files k)
    end.

(** What Parse of ddlctlgo meets: parse.go:34-60.  [gop] is parser.ParseFile with the comment map. *)
Definition input_of (gop : string -> option (list cnode)) (k : disk) (src : string) : input :=
  if is_dir k src then Tree (map (fun p => (fst p, gop (snd p))) (filter (fun p => below src (fst p)) (k_files k)))
  else match content k src with Some t => OneFile src (gop t) | None => Missing end.
(** What resolve meets: ddlctl_diff.go:50-65 *)
Definition entry_of (gop : string -> option (list cnode)) (k : disk) (arg : string) : entry :=
  if is_dir k arg then ADirectory (map (fun p => (fst p, gop (snd p))) (filter (fun p => below arg (fst p)) (k_files k)))
  else match content k arg with Some t => AFile (Some t) | None => ANothing end.

(** The file written to: ddlctl_generate.go:35-37 *)
Definition destination (k : disk) (dst : string) : string :=
  if is_dir k dst then (dst ++ "/ddlctl.gen.sql")%string else dst.

(** Everything outside of the process and of the disk that main, ddlctl.go:59-149 and the
    commands behind it use; see the records system and world. *)
Record outside := mkOutside {
  x_gop : string -> option (list cnode);                        (* parser.ParseFile *)
  x_look : string -> string -> string;                          (* reflect.StructTag.Get *)
  x_short : string -> string;                                   (* filepathz.Short *)
  x_gsrt : list gstmt -> list gstmt;                            (* sort.Slice in parseFile *)
  x_server : string -> server;                                  (* the databases *)
  x_place : list (string * string) -> string -> nat;            (* where a new file is met *)
  x_opens : disk -> string -> bool;                             (* os.OpenFile succeeds *)
  x_out : list event -> string -> bool; x_stdin : string;
  x_open : list event -> bool; x_conn : list event -> bool; x_exec : list event -> string -> option string;
  x_again : list event -> bool;
  x_srt : list constraint -> list constraint; x_sdiff : string -> string -> string;
  x_usage : string; x_version : list string }.                  (* what usage and version print *)

(** Command of generate: ddlctl_generate.go:20-49.  The file is emptied before the sources are
    read.  Errors of writing are not modelled; args[0] and args[1] panic if they are missing. *)
Definition generate_on (x : outside) (cfg : settings) (dialect language : string) (k : disk) (args : list string)
    : disk * outcome :=
  match args with
  | src :: dst :: _ =>
      let name := destination k dst in
      if x_opens x k name then
        let k1 := write (x_place x) k name "" in
        match generate cfg (x_look x) (x_short x) (x_gsrt x) dialect language (input_of (x_gop x) k1 src) with
        | Ok text => (write (x_place x) k1 name text, Done)
        | Err => (k1, Failed)
        | Panic | OutOfFuel => (k1, Crashed)
        end
      else (k, Failed)
  | _ => (k, Crashed)
  end.
(** Command of show: ddlctl_show.go:24-39; args[0] panics if it is missing *)
Definition show_command (x : outside) (dialect : string) (args : list string) : run :=
  match args with
  | dsn :: _ =>
      match show dialect (x_server x dsn) with
      | Some text => if x_out x [] text then ([EPrint text], Done) else ([], Failed)
      | None => ([], Failed)
      end
  | [] => ([], Crashed)
  end.
(** What diff and apply meet: ddlctl_diff.go:24-73, ddlctl_apply.go:31-93 (that the expression
    compiled once makes no difference within a command is C64) *)
Definition world_of (x : outside) (k : disk) (c : Config.config) : world :=
  mkWorld true (Config.cfg_auto_approve c) (Config.cfg_dialect c)
    (resolve (mkSystem (entry_of (x_gop x) k) (x_server x)) (settings_of c) (x_look x) (x_short x) (x_gsrt x)
       (Config.cfg_language c) (Config.cfg_dialect c))
    (x_out x) (x_stdin x) (x_open x) (x_conn x) (x_exec x) (x_again x) (x_srt x) (x_sdiff x).

(** DDLCtl: ddlctl.go:59-149, with the outcome main sees (ErrHelp is no error: 141-143) *)
Definition ddlctl (x : outside) (k : disk) (a : call) : disk * list event * outcome :=
  let c := config_of a in
  match a_command a with
  | CUsage => (k, [EPrint (x_usage x)], Done)
  | CVersion => (k, map EPrint (x_version x), Done)
  | CGenerate => let (k1, o) := generate_on x (settings_of c) (Config.cfg_dialect c) (Config.cfg_language c) k (a_args a) in (k1, [], o)
  | CShow => let (l, o) := show_command x (Config.cfg_dialect c) (a_args a) in (k, l, o)
  | CDiff => let (l, o) := diff_command (world_of x k c) (a_args a) in (k, l, o)
  | CApply => let (l, o) := apply_command (world_of x k c) (a_args a) in (k, l, o)
  end.
(** main: cmd/ddlctl/main.go:10-16; log.Fatalf exits with 1, a panic with 2 *)
Definition exit_code (o : outcome) : nat := match o with Done => 0 | Failed => 1 | Crashed => 2 end.
