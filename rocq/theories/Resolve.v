(** What the arguments of diff and apply stand for: resolve of
    pkg/ddlctl/diff/ddlctl_diff.go and Show of pkg/ddlctl/show/ddlctl_show.go. *)
From Verif Require Import GoStr Token Ast Parser Generate Show ShowPg ShowMy.

(** A name in the file system: a file with its content ([None] if it cannot be read), a
    directory with its parsed files, or nothing.  What os.Stat and os.ReadFile tell in ddlctl_diff.go:50-73 *)
Inductive entry := AFile (content : option string) | ADirectory (files : list (string * option (list cnode))) | ANothing.
(** A server that can be reached under a data source name, with what it answers.  What sqlz.OpenContext reaches in ddlctl_show.go:52-58 *)
Inductive server :=
| NoServer
| MySqlServer (answers : list (option string))
| PostgresServer (db : list p_table)
| CockroachServer (rows : option (list string))
| SpannerServer (db : list s_table).
(** The outside of resolve: ddlctl_diff.go:50-73 *)
Record system := mkSystem { y_entry : string -> entry; y_server : string -> server }.

(** Show: ddlctl_show.go:42-97.  A driver reaches its own kind of server only; errors of the
    queries of postgres and spanner are not modelled.  (The driver of cockroachdb is the one of
    postgres: what happens when the dialect does not fit the server is not modelled.) *)
Definition show (dialect : string) (s : server) : option string :=
  match s with
  | NoServer => None
  | MySqlServer answers => if String.eqb dialect "mysql" then show_mysql answers else None
  | PostgresServer db => if String.eqb dialect "postgres" then Some (show_postgres "public" db) else None
  | CockroachServer rows => if String.eqb dialect "cockroachdb" then show_cockroach rows else None
  | SpannerServer db => if String.eqb dialect "spanner" then Some (show_spanner db) else None
  end.

(** resolve: ddlctl_diff.go:49-73.  A panic of generate (C45) counts as an error here. *)
Definition resolve (y : system) (cfg : settings) (look : string -> string -> string) (short : string -> string)
    (srt : list gstmt -> list gstmt) (language dialect arg : string) : option string :=
  match y_entry y arg with
  | AFile content => content
  | ADirectory files => match generate cfg look short srt dialect language (Tree files) with Ok text => Some text | _ => None end
  | ANothing => show dialect (y_server y arg)
  end.
