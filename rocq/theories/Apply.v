(** pkg/ddlctl/diff/ddlctl_diff.go and pkg/ddlctl/apply/ddlctl_apply.go.

    The outside (database, terminal, sources of DDL text, configuration) is an
    argument: a record of functions, some of the history of events so far.  A run
    yields the list of its events, in order, and how it ended.  Log output and the
    texts of errors of ddlctl itself are not modelled. *)
From Verif Require Import GoStr Token Ast Lexer Parser Diff Lines.

(** What ddlctl_apply.go:31-238 and ddlctl_diff.go:24-47 do to the outside *)
Inductive event :=
| EPrint (s : string)                       (* written to standard output *)
| EAsk                                      (* a line is read from standard input *)
| EOpen (dsn : string)                      (* a connection to the database is opened *)
| EExec (q : string) (err : option string). (* ExecContext, with the text of the error *)

(** The outside of ddlctl_apply.go:31-238 and ddlctl_diff.go:24-176 *)
Record world := mkWorld {
  w_load : bool;                             (* config.Load succeeds *)
  w_auto : bool;                             (* config.AutoApprove *)
  w_dialect : string;                        (* config.Dialect *)
  w_resolve : string -> option string;       (* diff.resolve: text of a source; None = error *)
  w_out : list event -> string -> bool;      (* writing to standard output succeeds *)
  w_stdin : string;                          (* what is typed *)
  w_open : list event -> bool;               (* sqlz.OpenContext succeeds *)
  w_conn : list event -> bool;               (* db.Conn succeeds *)
  w_exec : list event -> string -> option string;  (* answer of the database: None = success *)
  w_again : list event -> bool;              (* the retryer goes on (the context is not cancelled) *)
  w_srt : list constraint -> list constraint; (* sort.Slice in Constraints.Append *)
  w_sdiff : string -> string -> string       (* simplediff.Diff, text of comments *)
}.

(** The results of the two Commands (nil, an error, a panic): ddlctl_apply.go:31, ddlctl_diff.go:24 *)
Inductive outcome := Done | Failed | Crashed.
(** The events of a command and its result: ddlctl_apply.go:31-93 *)
Definition run := (list event * outcome)%type.

(** * diff *)

(** ddl*.Dialect: ddl.go:10 of the four packages *)
Definition dialect_of (s : string) : option dialect :=
  if String.eqb s "mysql" then Some My
  else if String.eqb s "postgres" then Some Pg
  else if String.eqb s "cockroachdb" then Some Crdb
  else if String.eqb s "spanner" then Some Sp
  else None.

(** The results of Diff: ddlctl_diff.go:76-176 (ErrNoDifference: ddlctl_apply.go:47-50) *)
Inductive diff_result := Text (s : string) | NoDifference | DiffFailed | DiffCrashed.

(** Diff: ddlctl_diff.go:76-176, without writing the result.  The four cases of
    the switch do the same with the functions of their dialect; lines 171-174
    report an empty or unknown dialect. *)
Definition diff_text (w : world) (src dst : string) : diff_result :=
  match w_resolve w src with
  | None => DiffFailed
  | Some s1 =>
  match w_resolve w dst with
  | None => DiffFailed
  | Some s2 =>
  match dialect_of (w_dialect w) with
  | None => DiffFailed
  | Some d =>
  match parse d (w_srt w) s1 with
  | Panic | OutOfFuel => DiffCrashed
  | Err => DiffFailed
  | Ok b =>
  match parse d (w_srt w) s2 with
  | Panic | OutOfFuel => DiffCrashed
  | Err => DiffFailed
  | Ok a =>
  match diff d (w_srt w) (w_sdiff w) (Some b) (Some a) with
  | DOk stmts => Text (ddl_string d stmts)
  | DNoDiff => NoDifference
  | DNotSupported => DiffFailed
  | DPanic => DiffCrashed
  end end end end end end.

(** Command of diff: ddlctl_diff.go:24-47 *)
Definition diff_command (w : world) (args : list string) : run :=
  if negb (w_load w) then ([], Failed)
  else match args with
       | [src; dst] =>
           match diff_text w src dst with
           | NoDifference => ([], Done)
           | DiffFailed => ([], Failed)
           | DiffCrashed => ([], Crashed)
           | Text s => if w_out w [] s then ([EPrint s], Done) else ([], Failed)
           end
       | _ => ([], Failed)
       end.

(** * apply *)

(** One statement of the loop of splitExec: ddlctl_apply.go:207-232.  [ign] is
    notErrorNotLogFunc.  The result says whether outerErr is set. *)
Definition bad_answer (ign : string -> bool) (o : option string) : bool :=
  match o with None => false | Some e => negb (ign e) end.
(** The loop of splitExec: ddlctl_apply.go:207-232 *)
Fixpoint attempt (w : world) (ign : string -> bool) (ddls : list string) (past : list event) : list event * bool :=
  match ddls with
  | [] => ([], false)
  | q :: r =>
      if String.eqb q "" then attempt w ign r past
      else
        let o := w_exec w past q in
        let (evs, e) := attempt w ign r (past ++ [EExec q o]) in
        (EExec q o :: evs, bad_answer ign o || e)
  end.
(** retryer.Do: runs the function until it succeeds, at most [S n] times for
    WithMaxRetries(n) (the package retry is a dependency, see DESIGN.md).  Used in ddlctl_apply.go:204-205 *)
Fixpoint retry_do (w : world) (ign : string -> bool) (ddls : list string) (n : nat) (past : list event) : list event * bool :=
  let (evs, e) := attempt w ign ddls past in
  if negb e then (evs, true)
  else match n with
       | O => (evs, false)
       | S k =>
           if w_again w (past ++ evs)
           then let (more, r) := retry_do w ign ddls k (past ++ evs) in ((evs ++ more)%list, r)
           else (evs, false)
       end.
(** splitExec: ddlctl_apply.go:193-238 *)
Definition pieces (ddlStr : string) : list string := split (";" ++ nl) (remove_comments "--" ddlStr).
(** SplitExec: ddlctl_apply.go:193-238 *)
Definition split_exec (w : world) (ign : string -> bool) (ddlStr : string) (past : list event) : list event * bool :=
  retry_do w ign (pieces ddlStr) (List.length (pieces ddlStr)) past.

(** stringz.ReadLine(ddlStr, "\n", ReadLineFuncRemoveCommentLine("--")): a
    dependency, taken to drop the lines that start with the prefix (see DESIGN.md).  Used in ddlctl_apply.go:155 *)
Definition drop_comment_lines (s : string) : string :=
  join nl (filter (fun x => negb (String.prefix "--" x)) (split nl s)).

(** The statements of a Spanner batch: ddlctl_apply.go:155-164; a failure ends it. *)
Fixpoint send_all (w : world) (qs : list string) (past : list event) : list event * bool :=
  match qs with
  | [] => ([], true)
  | q :: r =>
      if String.eqb q "" then send_all w r past
      else
        let o := w_exec w past q in
        match o with
        | Some _ => ([EExec q o], false)
        | None => let (evs, ok) := send_all w r (past ++ [EExec q o]) in (EExec q o :: evs, ok)
        end
  end.
(** ddlctl_apply.go:150 *)
Definition start_batch : string := "START BATCH DDL".
(** ddlctl_apply.go:167 *)
Definition run_batch : string := "RUN BATCH".
(** ddlctl_apply.go:139-171 *)
Definition batch_exec (w : world) (ddlStr : string) (past : list event) : list event * bool :=
  if negb (w_conn w past) then ([], false)
  else
    let o := w_exec w past start_batch in
    match o with
    | Some _ => ([EExec start_batch o], false)
    | None =>
        let past1 := (past ++ [EExec start_batch o])%list in
        let (evs, ok) := send_all w (split (";" ++ nl) (drop_comment_lines ddlStr)) past1 in
        if ok then
          let o2 := w_exec w (past1 ++ evs) run_batch in
          (EExec start_batch o :: evs ++ [EExec run_batch o2],
           match o2 with None => true | Some _ => false end)%list
        else (EExec start_batch o :: evs, false)
    end.

(** ddlctl_apply.go:97-104: the name of the driver *)
Definition driver_name (dialect : string) : string := if String.eqb dialect "cockroachdb" then "postgres" else dialect.
(** ddlctl_apply.go:122-124 *)
Definition mysql_ignores (e : string) : bool := contains "already exists" e || contains "Duplicate column name" e.
(** Apply: ddlctl_apply.go:96-179.  The errors of the deferred Close calls are lost
    (err is not a named result). *)
Definition apply (w : world) (dsn ddlStr : string) (past : list event) : list event * bool :=
  if negb (w_open w past) then ([], false)
  else
    let past1 := (past ++ [EOpen dsn])%list in
    let (evs, ok) :=
      let driver := driver_name (w_dialect w) in
      if String.eqb driver "mysql" then split_exec w mysql_ignores ddlStr past1
      else if String.eqb driver "postgres" then split_exec w (fun _ => false) ddlStr past1
      else if String.eqb driver "spanner" then batch_exec w ddlStr past1
      else let o := w_exec w past1 ddlStr in ([EExec ddlStr o], match o with None => true | Some _ => false end) in
    (EOpen dsn :: evs, ok).

(** prompt: ddlctl_apply.go:181-191 *)
Definition typed_line (s : string) : string := match scan_lines s with x :: _ => x | [] => "" end.

(** The message: ddlctl_apply.go:55-68 *)
Definition message (ddlStr : string) : string :=
  nl ++ "ddlctl will exec the following DDL queries:" ++ nl ++ nl ++ "-- 8< --" ++ nl ++ nl
  ++ ddlStr
  ++ nl ++ nl ++ "-- >8 --" ++ nl ++ nl
  ++ "Do you want to apply these DDL queries?" ++ nl
  ++ "  ddlctl will exec the DDL queries described above." ++ nl
  ++ "  Only 'yes' will be accepted to approve." ++ nl ++ nl
  ++ "Enter a value: ".
(** ddlctl_apply.go:74-77 *)
Definition auto_message : string := "yes (via --auto-approve option)" ++ nl.
(** ddlctl_apply.go:47-50 *)
Definition no_difference_message : string := "no difference" ++ nl.

(** Command of apply: ddlctl_apply.go:31-93.  Writing the last two messages and
    "no difference" is not checked for errors by the code. *)
Definition apply_command (w : world) (args : list string) : run :=
  if negb (w_load w) then ([], Failed)
  else match args with
  | [dsn; src] =>
      match diff_text w dsn src with
      | NoDifference => ([EPrint no_difference_message], Done)
      | DiffFailed => ([], Failed)
      | DiffCrashed => ([], Crashed)
      | Text ddlStr =>
          if negb (w_out w [] (message ddlStr)) then ([], Failed)
          else
            let t1 := [EPrint (message ddlStr)] in
            let approval : list event * bool :=
              if w_auto w then
                if w_out w t1 auto_message then ([EPrint auto_message], true) else ([], false)
              else ([EAsk], String.eqb (typed_line (w_stdin w)) "yes") in
            let t2 := (t1 ++ fst approval)%list in
            if negb (snd approval) then (t2, Failed)
            else
              let t3 := (t2 ++ [EPrint (nl ++ "executing..." ++ nl)])%list in
              let (evs, ok) := apply w dsn ddlStr t3 in
              if ok then ((t3 ++ evs ++ [EPrint ("done" ++ nl)])%list, Done)
              else ((t3 ++ evs)%list, Failed)
      end
  | _ => ([], Failed)
  end.
