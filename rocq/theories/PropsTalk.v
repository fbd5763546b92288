(** What the commands show and print, and in which order (C22, C67). *)
From Verif Require Import GoStr Token Ast Parser Diff Apply ApplyFacts Resolve Process PropsApply PropsProcess.
Local Open Scope string_scope.

(** show prints the text it got and nothing else, or prints nothing and fails; it does not crash
    if it has an argument, and does not touch any file. *)
Theorem C67_show_prints_or_fails : forall x k a dsn r, a_command a = CShow -> a_args a = dsn :: r ->
  (exists t, ddlctl x k a = (k, [EPrint t], Done)) \/ ddlctl x k a = (k, [], Failed).
Proof.
  intros x k a dsn r C A. unfold ddlctl. rewrite C. unfold show_command. rewrite A.
  destruct (show _ _) as [t|]; [|right; reflexivity]. destruct (x_out x [] t); [left; exists t; reflexivity|right; reflexivity].
Qed.
Print Assumptions C67_show_prints_or_fails.

(** While the statements are executed, nothing is printed and nothing asked. *)
Definition is_exec (e : event) : bool := match e with EExec _ _ => true | _ => false end.
Lemma attempt_execs : forall w ign ds past, forallb is_exec (fst (attempt w ign ds past)) = true.
Proof.
  intros w ign. induction ds as [|q ds IH]; intro past; [reflexivity|]. cbn [attempt]. destruct (String.eqb q ""); [apply IH|].
  specialize (IH (past ++ [EExec q (w_exec w past q)])%list). destruct (attempt w ign ds _) as [evs e]. exact IH.
Qed.
Lemma retry_execs : forall w ign ds n past, forallb is_exec (fst (retry_do w ign ds n past)) = true.
Proof.
  intros w ign ds. induction n as [|n IH]; intro past; cbn [retry_do]; pose proof (attempt_execs w ign ds past) as A; destruct (attempt w ign ds past) as [evs e]; cbn [fst] in A;
    destruct (negb e); try exact A. destruct (w_again w (past ++ evs)%list); [|exact A].
  specialize (IH (past ++ evs)%list). destruct (retry_do w ign ds n _) as [more r]. cbn [fst] in *. rewrite forallb_app, A. exact IH.
Qed.
Lemma send_execs : forall w qs past, forallb is_exec (fst (send_all w qs past)) = true.
Proof.
  intros w. induction qs as [|q qs IH]; intro past; [reflexivity|]. cbn [send_all]. destruct (String.eqb q ""); [apply IH|].
  destruct (w_exec w past q) as [x|]; [reflexivity|]. specialize (IH (past ++ [EExec q None])%list). destruct (send_all w qs _) as [evs ok]. exact IH.
Qed.
Lemma batch_execs : forall w s past, forallb is_exec (fst (batch_exec w s past)) = true.
Proof.
  intros w s past. unfold batch_exec. destruct (negb (w_conn w past)); [reflexivity|]. destruct (w_exec w past start_batch) as [x|]; [reflexivity|].
  pose proof (send_execs w (split (";" ++ nl) (drop_comment_lines s)) (past ++ [EExec start_batch None])%list) as A. destruct (send_all w _ _) as [evs ok]. cbn [fst] in A.
  destruct ok; cbn [fst forallb is_exec]; [rewrite forallb_app, A; reflexivity|exact A].
Qed.
Lemma apply_execs : forall w dsn s past evs ok, apply w dsn s past = (evs, ok) -> evs = [] \/ exists execs, evs = EOpen dsn :: execs /\ forallb is_exec execs = true.
Proof.
  intros w dsn s past evs ok H. unfold apply in H. destruct (negb (w_open w past)); [injection H as <- _; left; reflexivity|]. right. revert H. cbv zeta.
  set (r := if String.eqb (driver_name (w_dialect w)) "mysql" then _ else _).
  assert (A : forallb is_exec (fst r) = true).
  { unfold r, split_exec. destruct (String.eqb _ "mysql"); [apply retry_execs|]. destruct (String.eqb _ "postgres"); [apply retry_execs|]. destruct (String.eqb _ "spanner"); [apply batch_execs|reflexivity]. }
  destruct r as [l b]. intro H. injection H as <- _. exists l. split; [reflexivity|exact A].
Qed.

(** Before a database is opened, apply has displayed the difference, has got its answer - typed,
    or by the option, in which case it says so - and has announced the execution, in this order.
    Then it sends statements and does nothing else, and says "done" exactly if it succeeds. *)
Theorem C22_conversation : forall w args tr o dsn, apply_command w args = (tr, o) -> In (EOpen dsn) tr ->
  exists difference execs,
    tr = (EPrint (message difference)
         :: (if w_auto w then EPrint ("yes (via --auto-approve option)" ++ nl) else EAsk)
         :: EPrint (nl ++ "executing..." ++ nl) :: EOpen dsn
         :: execs ++ match o with Done => [EPrint ("done" ++ nl)] | _ => [] end)%list
    /\ Forall (fun e => exists q answer, e = EExec q answer) execs
    /\ (o = Done \/ o = Failed).
Proof.
  intros w args tr o dsn H X. destruct (command_shape _ _ _ _ H) as [S|[q [src [d [stmts [evs [ok [_ [_ [_ [_ [E [T O]]]]]]]]]]]]].
  - rewrite forallb_forall in S. specialize (S _ X). discriminate S.
  - unfold started, approval in T. cbn [app] in T. destruct (apply_execs _ _ _ _ _ _ E) as [->|[execs [-> A]]].
    + exfalso. subst tr. cbn [app In] in X. destruct X as [X|[X|[X|X]]]; try discriminate X; [destruct (w_auto w); discriminate X|].
      destruct ok; cbn [In] in X; [destruct X as [X|[]]; discriminate X|destruct X].
    + exists (ddl_string d stmts), execs. rewrite forallb_forall in A.
      assert (Q : q = dsn).
      { subst tr. cbn [app In] in X. destruct X as [X|[X|[X|[X|X]]]]; try discriminate X; [destruct (w_auto w); discriminate X|injection X as X; exact X|].
        apply in_app_or in X. destruct X as [X|X]; [specialize (A _ X); discriminate A|]. destruct ok; cbn [In] in X; [destruct X as [X|[]]; discriminate X|destruct X]. }
      subst q. split; [rewrite T; subst o; destruct ok; reflexivity|]. split; [|subst o; destruct ok; auto].
      apply Forall_forall. intros e I. specialize (A e I). destruct e; try discriminate A. eauto.
Qed.
Print Assumptions C22_conversation.
Example C22_example_conversation :
  let show_to w := map (fun e => match e with EPrint s => ("P", if String.eqb s (message (match diff_text (scene true "postgres" "" fine) "db" "new" with Text t => t | _ => "" end)) then "the difference" else s)
                                       | EAsk => ("A", "") | EOpen q => ("O", q) | EExec q _ => ("E", q) end) (fst (apply_command w ["db"; "new"])) in
  show_to (scene true "postgres" "" fine)
    = [("P", "the difference"); ("P", "yes (via --auto-approve option)" ++ nl); ("P", nl ++ "executing..." ++ nl); ("O", "db");
       ("E", "CREATE TABLE u (" ++ nl ++ "    a INTEGER" ++ nl ++ ")"); ("E", "ALTER TABLE t ADD COLUMN b TEXT"); ("P", "done" ++ nl)]
  /\ show_to (scene false "postgres" ("yes" ++ nl) fine)
    = [("P", "the difference"); ("A", ""); ("P", nl ++ "executing..." ++ nl); ("O", "db");
       ("E", "CREATE TABLE u (" ++ nl ++ "    a INTEGER" ++ nl ++ ")"); ("E", "ALTER TABLE t ADD COLUMN b TEXT"); ("P", "done" ++ nl)]
  /\ show_to (scene false "postgres" ("no" ++ nl) fine) = [("P", "the difference"); ("A", "")].
Proof. vm_compute. repeat split. Qed.
Example C67_example_show :
  let go dsn := ddlctl (demo_outside "") demo_disk (mkCall CShow (flag "dialect" (VString "cockroachdb") unset) unset [dsn]) in
  go "dsn" = (demo_disk, [EPrint ("CREATE TABLE b (id TEXT);" ++ nl)], Done) /\ go "elsewhere" = (demo_disk, [], Failed).
Proof. vm_compute. split; reflexivity. Qed.
