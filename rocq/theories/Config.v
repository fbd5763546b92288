(** Loading the configuration: pkg/internal/config/config.go. *)
From Verif Require Import GoStr.

(** config: pkg/internal/config/config.go:18-29 (Version is never set) *)
Record config := mkConfig {
  cfg_trace : bool; cfg_debug : bool; cfg_language : string; cfg_dialect : string; cfg_auto_approve : bool;
  cfg_column_tag : string; cfg_ddl_tag : string; cfg_pk_tag : string }.

(** The package variables of pkg/internal/config (globalConfig), pkg/logs (Trace
    and Debug write somewhere) and pkg/apperr (Errorf is the one with frames); and
    the rollback functions handed out so far, each of which holds the
    configuration it puts back.  pkg/internal/config/config.go:32-35 *)
Record state := mkState {
  current : option config; logs_trace : bool; logs_debug : bool; errors_framed : bool;
  undos : list (option config) }.

(** load: pkg/internal/config/config.go:70-104.  [None] is a context without command. *)
Definition load_config (flags : option config) (s : state) : option config * state :=
  match flags with
  | None => (None, s)
  | Some c =>
      (Some c,
       if cfg_trace c then mkState (current s) true true true (undos s)
       else if cfg_debug c then mkState (current s) (logs_trace s) true true (undos s)
       else s)
  end.

(** Load: pkg/internal/config/config.go:46-65.  The result tells which rollback
    function was returned. *)
Definition load (flags : option config) (s : state) : option nat * state :=
  let backup := current s in
  match load_config flags s with
  | (None, s) => (None, s)
  | (Some c, s) =>
      (Some (List.length (undos s)), mkState (Some c) (logs_trace s) (logs_debug s) (errors_framed s) (undos s ++ [backup])%list)
  end.

(** The function returned: pkg/internal/config/config.go:58-62 *)
Definition rollback (k : nat) (s : state) : state :=
  match nth_error (undos s) k with
  | Some backup => mkState backup (logs_trace s) (logs_debug s) (errors_framed s) (undos s)
  | None => s
  end.

(** Histories: loads, and calls of rollback functions handed out before.  Calls of pkg/internal/config/config.go:46-65 *)
Inductive action := Load (flags : option config) | Rollback (k : nat).
(** One of them: pkg/internal/config/config.go:46-65 *)
Definition act (a : action) (s : state) : state :=
  match a with Load f => snd (load f s) | Rollback k => rollback k s end.
(** A sequence of them: pkg/internal/config/config.go:46-65 *)
Definition run (l : list action) (s : state) : state := fold_left (fun s a => act a s) l s.

(** Nested use, as by the commands and tests: load, do something, roll back; a
    load that fails hands out nothing to call.  Calls of pkg/internal/config/config.go:46-65 *)
Inductive nest := Done | Use (flags : option config) (inside after : nest).
(** Such a use: pkg/internal/config/config.go:46-65 *)
Fixpoint play (n : nest) (s : state) : state :=
  match n with
  | Done => s
  | Use f inside after =>
      match load f s with
      | (Some k, s) => play after (rollback k (play inside s))
      | (None, s) => play after s
      end
  end.
