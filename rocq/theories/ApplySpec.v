(** SPECIFICATION: what a run of apply may do. *)
From Verif Require Import GoStr Token Ast Tidy Lines Apply.

(** The statement without its explanatory comment *)
Definition uncommented (s : stmt) : stmt :=
  match s with
  | CreateTable t => CreateTable (mkCT "" (ct_ifnotexists t) (ct_name t) (ct_columns t) (ct_constraints t) (ct_options t) (ct_rowdel t))
  | CreateIndex i => CreateIndex (mkCX "" (cx_unique i) (cx_ifnotexists i) (cx_name i) (cx_table i) (cx_using i) (cx_pre i) (cx_columns i) (cx_post i))
  | DropTable _ e n => DropTable "" e n
  | DropIndex _ e n => DropIndex "" e n
  | AlterTable _ n a => AlterTable "" n a
  end.
Definition comment_of (s : stmt) : string :=
  match s with
  | CreateTable t => ct_comment t
  | CreateIndex i => cx_comment i
  | DropTable c _ _ | DropIndex c _ _ | AlterTable c _ _ => c
  end.
(** [q] is the text of the statement, without comment and final semicolon. *)
Definition text_of (d : dialect) (s : stmt) (q : string) : Prop := stmt_string d (uncommented s) = (q ++ ";" ++ nl)%string.

(** Texts that survive being cut into statements: no comment mark, no semicolon at
    the end of a line, no empty line, no carriage return, no line of 64 KiB. *)
Definition clean (q : string) : bool :=
  negb (contains "--" q) && negb (contains (";" ++ nl) q) && negb (has_byte ch_cr q)
  && forallb (fun x => negb (String.eqb x "") && fits_buffer (x ++ ";")) (split nl q).
Definition clean_comment (c : string) : bool := forallb (fun x => fits_buffer ("-- " ++ x)) (split nl c).

(** The texts sent to the database during a run, with the answers *)
Fixpoint sent (tr : list event) : list (string * option string) :=
  match tr with
  | [] => []
  | EExec q o :: r => (q, o) :: sent r
  | _ :: r => sent r
  end.

(** [yes] is the first line typed. *)
Definition typed_yes (s : string) : Prop :=
  exists cr rest, (cr = "" \/ cr = String ch_cr "") /\ (rest = "" \/ exists r, rest = (nl ++ r)%string) /\ s = ("yes" ++ cr ++ rest)%string.
Definition approved (w : world) : Prop := w_auto w = true \/ typed_yes (w_stdin w).

(** Answers with which a statement counts as executed *)
Definition acceptable (d : dialect) (o : option string) : Prop :=
  match o with
  | None => True
  | Some e => d = My /\ ((exists a b, e = (a ++ "already exists" ++ b)%string) \/ (exists a b, e = (a ++ "Duplicate column name" ++ b)%string))
  end.

(** Retrying.  A statement is done once the database gave an acceptable answer to it. *)
Definition done_in (d : dialect) (past : list event) (q : string) : Prop := exists o, In (q, o) (sent past) /\ acceptable d o.
(** [evs] are statements sent after [past] with the answers of the database. *)
Inductive answers (w : world) : list event -> list event -> Prop :=
| answers_nil : forall past, answers w past []
| answers_cons : forall past q evs, answers w (past ++ [EExec q (w_exec w past q)]) evs -> answers w past (EExec q (w_exec w past q) :: evs).
(** A statement that is done may be sent again. *)
Definition repeatable (w : world) (d : dialect) (qs : list string) : Prop :=
  forall past q, In q qs -> done_in d past q -> acceptable d (w_exec w past q).
(** Sending all statements gets at least one more done, if any is missing. *)
Definition progressing (w : world) (d : dialect) (qs : list string) : Prop :=
  forall past evs, answers w past evs -> map fst (sent evs) = qs ->
    (exists q, In q qs /\ ~ done_in d past q) -> exists q, In q qs /\ ~ done_in d past q /\ done_in d (past ++ evs) q.
