(** Retried statements on a server that enforces dependencies (for C93). *)
From Coq Require Import Lia.
From Verif Require Import GoStr Token Ast Parser Diff Db DbFacts AppendFacts DiffTable DiffPair DiffSound Tidy TidyFacts DiffSame Reconcile ReconcileFacts
  Honest DiffSpec Justified Frame Lines LinesFacts Apply ApplySpec ApplyFacts Intact IntactFacts SqlRead ReadFacts ReadDiff SqlDb SqlDbFacts DbDep DepServer InterruptFacts.
Local Open Scope list_scope.

Lemma dep_uncommented : forall d s m, dep_exec d (uncommented s) m = dep_exec d s m.
Proof. intros d s m. destruct s as [t|x|c ie n|c ie n|c n a]; reflexivity. Qed.
Lemma dep_after_app : forall d a b m, dep_after d (a ++ b) m = dep_after d b (dep_after d a m).
Proof. intros d a. induction a as [|q a IH]; intros b m; cbn [List.app dep_after]; [reflexivity|apply IH]. Qed.
Lemma dep_now_snoc : forall d past q o m, dep_now d (past ++ [EExec q o]) m = fst (dep_answer d q (dep_now d past m)).
Proof. intros d past q o m. unfold dep_now. rewrite sent_app, map_app, dep_after_app. reflexivity. Qed.

(** One attempt: a statement that fails is passed over. *)
Definition go (d : dialect) (s : stmt) (m : db) : db := match dep_exec d s m with Some m' => m' | None => m end.
Fixpoint goes (d : dialect) (l : ddl) (m : db) : db := match l with [] => m | s :: r => goes d r (go d s m) end.
Fixpoint trips (d : dialect) (l : ddl) (m : db) : bool :=
  match l with
  | [] => false
  | s :: r => match dep_exec d s m with Some _ => false | None => true end || trips d r (go d s m)
  end.
Lemma goes_app : forall d a b m, goes d (a ++ b) m = goes d b (goes d a m).
Proof. intros d a. induction a as [|s a IH]; intros b m; cbn [List.app goes]; [reflexivity|apply IH]. Qed.
Lemma trips_app : forall d a b m, trips d (a ++ b) m = trips d a m || trips d b (goes d a m).
Proof. intros d a. induction a as [|s a IH]; intros b m; cbn [List.app goes trips]; [reflexivity|]. rewrite IH, orb_assoc. reflexivity. Qed.
Lemma no_trip : forall d l m, trips d l m = false -> dep_exec_all d l m = Some (goes d l m).
Proof.
  intros d l. induction l as [|s l IH]; intros m H; cbn [trips dep_exec_all goes] in *; [reflexivity|]. unfold go in *.
  destruct (dep_exec d s m) as [m'|]; [|discriminate H]. apply IH. exact H.
Qed.

Section Served.
Variables (d : dialect) (m0 : db) (w : world).
Hypothesis W : dep_served d m0 w.

Lemma attempt_trips : forall stmts qs past, Forall2 (text_of d) stmts qs -> forallb (fun q => negb (String.eqb q "")) qs = true ->
  (forall s, In s stmts -> says d s) ->
  exists evs, attempt w (fun _ => false) qs past = (evs, trips d stmts (dep_now d past m0)) /\ map fst (sent evs) = qs /\ dep_now d (past ++ evs) m0 = goes d stmts (dep_now d past m0).
Proof.
  intros stmts. induction stmts as [|s stmts IH]; intros qs past F N R; inversion F; subst.
  - exists []. rewrite app_nil_r. repeat split.
  - cbn [forallb] in N. apply andb_true_iff in N. destruct N as [N1 N2]. apply negb_true_iff in N1.
    assert (Y : dep_answer d y (dep_now d past m0) = (go d s (dep_now d past m0), match dep_exec d s (dep_now d past m0) with Some _ => None | None => Some exec_error end)).
    { unfold dep_answer. rewrite (says_read d s y (R s (or_introl eq_refl)) H1), dep_uncommented. unfold go. destruct (dep_exec d s (dep_now d past m0)); reflexivity. }
    assert (O : w_exec w past y = match dep_exec d s (dep_now d past m0) with Some _ => None | None => Some exec_error end) by (rewrite W, Y; reflexivity).
    destruct (IH l' (past ++ [EExec y (w_exec w past y)]) H3 N2 (fun x Hx => R x (or_intror Hx))) as [evs [I1 [I2 I3]]].
    rewrite dep_now_snoc, Y in I1, I3. cbn [fst] in I1, I3.
    exists (EExec y (w_exec w past y) :: evs). cbn [attempt]. rewrite N1. cbv zeta. rewrite I1. split; [|split].
    + cbn [trips]. rewrite O. destruct (dep_exec d s (dep_now d past m0)); reflexivity.
    + cbn [sent map fst]. rewrite I2. reflexivity.
    + rewrite <- app_assoc in I3. exact I3.
Qed.

(** A property of the catalogue that an attempt keeps and that makes it fail. *)
Lemma retry_stuck : forall (Q : db -> Prop) stmts qs, Forall2 (text_of d) stmts qs -> forallb (fun q => negb (String.eqb q "")) qs = true ->
  (forall s, In s stmts -> says d s) -> (forall m, Q m -> trips d stmts m = true /\ Q (goes d stmts m)) ->
  forall n past, Q (dep_now d past m0) -> snd (retry_do w (fun _ => false) qs n past) = false.
Proof.
  intros Q stmts qs F N R K. induction n as [|n IH]; intros past H; cbn [retry_do];
    destruct (attempt_trips stmts qs past F N R) as [evs [E1 [E2 E3]]]; rewrite E1, (proj1 (K _ H)); cbn [negb].
  - reflexivity.
  - destruct (w_again w (past ++ evs)); [|reflexivity].
    pose proof (IH (past ++ evs)) as J. rewrite E3 in J. specialize (J (proj2 (K _ H))).
    destruct (retry_do w (fun _ => false) qs n (past ++ evs)) as [more r]. exact J.
Qed.
(** ... or only every attempt but the first. *)
Lemma retry_once : forall (Q : db -> Prop) stmts qs, Forall2 (text_of d) stmts qs -> forallb (fun q => negb (String.eqb q "")) qs = true ->
  (forall s, In s stmts -> says d s) -> (forall m, Q m -> trips d stmts m = true /\ Q (goes d stmts m)) ->
  forall n past, Q (goes d stmts (dep_now d past m0)) -> forall evs ok, retry_do w (fun _ => false) qs n past = (evs, ok) -> ok = true ->
  trips d stmts (dep_now d past m0) = false /\ map fst (sent evs) = qs /\ dep_now d (past ++ evs) m0 = goes d stmts (dep_now d past m0).
Proof.
  intros Q stmts qs F N R K n past H evs ok X Y. subst ok.
  destruct (attempt_trips stmts qs past F N R) as [ev1 [E1 [E2 E3]]].
  destruct (trips d stmts (dep_now d past m0)) eqn:T.
  - exfalso. destruct n as [|n]; cbn [retry_do] in X; rewrite E1 in X; cbn [negb] in X; [discriminate X|].
    destruct (w_again w (past ++ ev1)); [|discriminate X].
    pose proof (retry_stuck Q stmts qs F N R K n (past ++ ev1)) as J. rewrite E3 in J. specialize (J H).
    destruct (retry_do w (fun _ => false) qs n (past ++ ev1)) as [more r]. cbn [snd] in J. congruence.
  - assert (Z : evs = ev1) by (destruct n as [|n]; cbn [retry_do] in X; rewrite E1 in X; cbn [negb] in X; congruence). subst evs. auto.
Qed.
End Served.

(** The retries depend on the texts that are not empty only. *)
Lemma retry_nonempty : forall w ign ds n past, retry_do w ign (nonempty ds) n past = retry_do w ign ds n past.
Proof.
  intros w ign ds. induction n as [|n IH]; intro past; cbn [retry_do]; rewrite attempt_nonempty; [reflexivity|].
  destruct (attempt w ign ds past) as [evs e]. destruct (negb e); [reflexivity|]. destruct (w_again w (past ++ evs)); [|reflexivity]. rewrite IH. reflexivity.
Qed.

(** ** What a statement does to a column *)
Lemma action_adds_solid : forall d n a q v, In (Add q v) (action_ops d n a) -> (forall i, q <> KIdx i) -> solid (Some v).
Proof.
  intros d n a q v H K. destruct a as [new|nm new|nm new|c|nm|nm ty|nm x|nm|nm|nm|c nv|nm|nm x y|c|nm x|nm ty nn|nm x|nm|r|r|]; cbn [action_ops add_col_ops] in H;
    try (destruct x as [[|]|]); try match type of nm with option _ => destruct nm end;
    try (destruct H as [H|[]]; try discriminate H; injection H as <- <-; exact I).
  destruct c as [o1|o1|o1|o1|o1]; destruct o1; cbn in H; destruct H as [H|[]]; try discriminate H; injection H as <- <-; try exact I.
  destruct (K _ eq_refl).
Qed.
Lemma exec_solid : forall d s m m' t c, exec d s m = Some m' -> no_rename s -> solid (m (KCol t c)) -> solid (m' (KCol t c)).
Proof.
  intros d s m m' t c H N V. destruct (exec_at d s m m' H N) as [E|E]; [rewrite E; exact V|]. specialize (E (KCol t c)).
  refine (keeps_all solid (KCol t c) (stmt_ops d s) _ _ _ V E). intros o Ho w w' Hw F.
  assert (U : forall f, solid (unless f w)) by (intro f; destruct w as [x|]; [|exact I]; cbn [unless]; destruct (f x); [exact I|exact Hw]).
  destruct s as [ct|i|cm ie n|cm ie n|cm n a]; cbn [stmt_ops] in Ho.
  - apply create_ops_in in Ho. destruct Ho as [Ho|[Ho|[q [v [Ho Iv]]]]]; subst o; cbn [eff] in F; try discriminate F.
    + cbn [key_eqb] in F. destruct (owned_by _ _); injection F as <-; [exact I|exact Hw].
    + destruct (key_eqb q (KCol t c)) eqn:Q; [|injection F as <-; exact Hw]. destruct (present w); [discriminate F|]. injection F as <-. apply key_eqb_eq in Q. subst q.
      destruct (adds_keys d ct _ v Iv) as [[_ Y]|[x [y [Y _]]]]; [exact Y|discriminate Y].
  - destruct Ho as [Ho|[]]. subst o. cbn in F. injection F as <-. exact Hw.
  - destruct Ho as [Ho|[]]. subst o. cbn [eff key_eqb] in F. destruct (owned_by _ _); injection F as <-; [exact I|apply U].
  - unfold drop_index_ops in Ho. destruct d; destruct Ho as [Ho|[]]; subst o; cbn in F; try discriminate F; injection F as <-; exact Hw.
  - destruct Ho as [Ho|Ho]; [subst o; cbn in F; injection F as <-; exact Hw|]. pose proof (alter_ops_in d n a o Ho) as A. destruct A as [|q f Q Qf|q v Q|o v|x| |q Q|q b j v Q _]; cbn [eff] in F.
    + discriminate F.
    + destruct (key_eqb q (KCol t c)); [|injection F as <-; exact Hw]. destruct w as [x|]; [|discriminate F]. injection F as <-. exact (Qf x Hw).
    + destruct (key_eqb q (KCol t c)) eqn:Z; [|injection F as <-; exact Hw]. destruct (present w); [discriminate F|]. injection F as <-. apply key_eqb_eq in Z. subst q.
      apply (action_adds_solid d n a _ v Ho). intros i G. discriminate G.
    + cbn in F. injection F as <-. exact Hw.
    + cbn in F. injection F as <-. exact Hw.
    + cbn in F. injection F as <-. exact Hw.
    + destruct (key_eqb _ _); [destruct (present w); [injection F as <-; exact I|discriminate F]|]. injection F as <-. apply U.
    + cbn in F. injection F as <-. exact Hw.
Qed.

(** What is swept away needs something. *)
Lemma sweep_free : forall m k, (forall v, needs k v = []) -> sweep m k = m k.
Proof. intros m k N. unfold sweep, intact. destruct (m k) as [v|]; [|reflexivity]. rewrite N. reflexivity. Qed.
Lemma go_free : forall (P : option value -> Prop) d s m k, (forall v, needs k v = []) -> P (m k) -> (forall m', exec d s m = Some m' -> P (m' k)) -> P (go d s m k).
Proof.
  intros P d s m k N H K. unfold go, dep_exec. destruct (exec d s m) as [m'|]; [|exact H]. specialize (K m' eq_refl).
  destruct (removes s); [rewrite sweep_free; assumption|]. destruct (new_intact d s m m'); assumption.
Qed.

(** ** A column that is added and not removed *)
Section Added.
Variables (d : dialect) (t c : string).
Definition spares (s : stmt) : Prop := no_rename s /\ ~ replaces_table t s /\ ~ removes_column t c s.
Definition standing (m : db) : Prop := there (m (KTab t)) /\ solid (m (KCol t c)).
Definition having (m : db) : Prop := there (m (KTab t)) /\ there (m (KCol t c)).
Lemma go_standing : forall s m, spares s -> standing m -> standing (go d s m).
Proof.
  intros s m [S1 [S2 S3]] [H1 H2]. split.
  - apply (go_free there); [reflexivity|exact H1|]. intros m' X. exact (exec_there d s m m' t (KTab t) X S1 S2 (or_introl eq_refl) H1).
  - apply (go_free solid); [reflexivity|exact H2|]. intros m' X. exact (exec_solid d s m m' t c X S1 H2).
Qed.
Lemma go_having : forall s m, spares s -> having m -> having (go d s m).
Proof.
  intros s m [S1 [S2 S3]] [H1 H2]. split.
  - apply (go_free there); [reflexivity|exact H1|]. intros m' X. exact (exec_there d s m m' t (KTab t) X S1 S2 (or_introl eq_refl) H1).
  - apply (go_free there); [reflexivity|exact H2|]. intros m' X. refine (exec_there d s m m' t (KCol t c) X S1 S2 (or_intror (ex_intro _ c (conj eq_refl S3))) H2).
Qed.
Lemma goes_standing : forall l m, (forall s, In s l -> spares s) -> standing m -> standing (goes d l m).
Proof. intro l. induction l as [|s l IH]; intros m S H; [exact H|]. apply (IH (go d s m) (fun x Hx => S x (or_intror Hx))). apply go_standing; [apply S; left; reflexivity|exact H]. Qed.
Lemma goes_having : forall l m, (forall s, In s l -> spares s) -> having m -> having (goes d l m).
Proof. intro l. induction l as [|s l IH]; intros m S H; [exact H|]. apply (IH (go d s m) (fun x Hx => S x (or_intror Hx))). apply go_having; [apply S; left; reflexivity|exact H]. Qed.

Variables (cm : string) (n : objname) (col : column).
Hypothesis Tn : qname n = t.
Hypothesis Cn : id_name (c_name col) = c.
Let add := AlterTable cm n (AddColumn col).
Lemma add_gives : forall m, standing m -> having (go d add m).
Proof.
  intros m [H1 H2]. unfold go, dep_exec, add. cbn [exec stmt_ops action_ops add_col_ops Db.run op_ok op_db]. rewrite Tn, Cn.
  assert (P : present (m (KTab t)) = true) by (destruct (m (KTab t)); [reflexivity|destruct H1]). rewrite P. cbn [removes].
  destruct (m (KCol t c)) as [v|] eqn:V; cbn [present negb].
  - split; [exact H1|]. rewrite V. destruct v; try exact I. destruct H2.
  - match goal with |- context [new_intact d ?s ?x ?y] => destruct (new_intact d s x y) eqn:G end.
    + split; [cbn [key_eqb]; exact H1|]. rewrite key_eqb_refl. exact I.
    + exfalso. unfold new_intact in G. change (objects d [AlterTable cm n (AddColumn col)]) with [(KCol (qname n) (id_name (c_name col)), VCol (sem_col d col))] in G.
      cbn [forallb fst snd] in G. change (intact _ (KCol _ _) _) with true in G. rewrite orb_true_r in G. discriminate G.
Qed.
Lemma add_trips : forall m, having m -> dep_exec d add m = None.
Proof.
  intros m [H1 H2]. unfold dep_exec, add. cbn [exec stmt_ops action_ops add_col_ops Db.run op_ok op_db]. rewrite Tn, Cn.
  destruct (m (KTab t)); [|destruct H1]. destruct (m (KCol t c)); [|destruct H2]. reflexivity.
Qed.
Lemma attempt_having : forall l m, In add l -> (forall s, In s l -> spares s) -> standing m -> having (goes d l m).
Proof.
  intros l m Ia S H. destruct (in_split _ _ Ia) as [p [q El]]. subst l. rewrite goes_app. cbn [goes].
  apply goes_having; [intros s Is; apply S; apply in_or_app; right; right; exact Is|]. apply add_gives.
  apply goes_standing; [intros s Is; apply S; apply in_or_app; left; exact Is|exact H].
Qed.
Lemma having_trips : forall l m, In add l -> (forall s, In s l -> spares s) -> having m -> trips d l m = true /\ having (goes d l m).
Proof.
  intros l m Ia S H. split; [|apply goes_having; assumption]. destruct (in_split _ _ Ia) as [p [q El]]. subst l. rewrite trips_app. cbn [trips].
  rewrite add_trips; [cbn [orb]; apply orb_true_r|]. apply goes_having; [intros s Is; apply S; apply in_or_app; left; exact Is|exact H].
Qed.
End Added.

(** ** A table that is created *)
Section Created.
Variables (d : dialect) (t : string).
Definition lets_be (s : stmt) : Prop := no_rename s /\ match s with DropTable _ _ n => qname n <> t | _ => True end.
Lemma create_blocked : forall x m, qname (ct_name x) = t -> there (m (KTab t)) ->
  exec d (CreateTable x) m = (if ct_ifnotexists x then Some m else None).
Proof.
  intros x m E H. cbn [exec]. rewrite E. destruct (m (KTab t)) as [v|] eqn:V; [|destruct H]. cbn [present]. rewrite andb_true_r. destruct (ct_ifnotexists x); [reflexivity|].
  cbn [stmt_ops]. unfold create_table_ops. cbn [Db.run op_ok]. rewrite E, V. reflexivity.
Qed.
Lemma go_table : forall s m, lets_be s -> there (m (KTab t)) -> there (go d s m (KTab t)).
Proof.
  intros s m [S1 S2] H. apply (go_free there); [reflexivity|exact H|]. intros m' X.
  destruct s as [x|i|cm ie n|cm ie n|cm n a]; try (apply (exec_there d _ m m' t (KTab t) X S1); [exact (fun F => F)|left; reflexivity|exact H]).
  - destruct (string_eq_dec (qname (ct_name x)) t) as [E|E].
    + rewrite (create_blocked x m E H) in X. destruct (ct_ifnotexists x); [injection X as <-; exact H|discriminate X].
    + apply (exec_there d _ m m' t (KTab t) X S1); [exact E|left; reflexivity|exact H].
  - apply (exec_there d _ m m' t (KTab t) X S1); [exact S2|left; reflexivity|exact H].
Qed.
Lemma goes_table : forall l m, (forall s, In s l -> lets_be s) -> there (m (KTab t)) -> there (goes d l m (KTab t)).
Proof. intro l. induction l as [|s l IH]; intros m S H; [exact H|]. apply (IH (go d s m) (fun x Hx => S x (or_intror Hx))). apply go_table; [apply S; left; reflexivity|exact H]. Qed.
Lemma table_trips : forall l x m, In (CreateTable x) l -> qname (ct_name x) = t -> ct_ifnotexists x = false -> (forall s, In s l -> lets_be s) -> there (m (KTab t)) ->
  trips d l m = true /\ there (goes d l m (KTab t)).
Proof.
  intros l x m Ix Ex Nx S H. split; [|apply goes_table; assumption]. destruct (in_split _ _ Ix) as [p [q El]]. subst l. rewrite trips_app. cbn [trips].
  assert (K : dep_exec d (CreateTable x) (goes d p m) = None).
  { unfold dep_exec. rewrite create_blocked, Nx; [reflexivity|exact Ex|]. apply goes_table; [intros s Is; apply S; apply in_or_app; left; exact Is|exact H]. }
  rewrite K. cbn [orb]. apply orb_true_r.
Qed.
End Created.
Lemma goes_after : forall d stmts qs m, Forall2 (text_of d) stmts qs -> (forall s, In s stmts -> says d s) -> dep_after d qs m = goes d stmts m.
Proof.
  intros d stmts. induction stmts as [|s stmts IH]; intros qs m F R; inversion F; subst; [reflexivity|]. cbn [dep_after goes].
  rewrite (IH l' _ H3 (fun x Hx => R x (or_intror Hx))). f_equal. unfold dep_answer. rewrite (says_read d s y (R s (or_introl eq_refl)) H1), dep_uncommented. unfold go. destruct (dep_exec d s m); reflexivity.
Qed.
(** The table of a catalogue is not an index. *)
Lemma exec_solid_table : forall d s m m' t, exec d s m = Some m' -> no_rename s -> solid (m (KTab t)) -> solid (m' (KTab t)).
Proof.
  intros d s m m' t H N V. destruct (exec_at d s m m' H N) as [E|E]; [rewrite E; exact V|]. specialize (E (KTab t)).
  refine (keeps_all solid (KTab t) (stmt_ops d s) _ _ _ V E). intros o Ho w w' Hw F.
  assert (U : forall f, solid (unless f w)) by (intro f; destruct w as [x|]; [|exact I]; cbn [unless]; destruct (f x); [exact I|exact Hw]).
  destruct s as [ct|i|cm ie n|cm ie n|cm n a]; cbn [stmt_ops] in Ho.
  - apply create_ops_in in Ho. destruct Ho as [Ho|[Ho|[q [v [Ho Iv]]]]]; subst o; cbn [eff] in F; try discriminate F.
    + destruct (key_eqb _ _); [destruct (present w); [discriminate F|]; injection F as <-; exact I|]. destruct (owned_by _ _); injection F as <-; [exact I|exact Hw].
    + destruct (key_eqb q (KTab t)) eqn:Q; [|injection F as <-; exact Hw]. destruct (present w); [discriminate F|]. injection F as <-. apply key_eqb_eq in Q. subst q.
      destruct (adds_keys d ct _ v Iv) as [[_ Y]|[x [y [Y _]]]]; [exact Y|discriminate Y].
  - destruct Ho as [Ho|[]]. subst o. cbn in F. injection F as <-. exact Hw.
  - destruct Ho as [Ho|[]]. subst o. cbn [eff] in F. destruct (key_eqb _ _); [destruct (present w); [injection F as <-; exact I|discriminate F]|].
    destruct (owned_by _ _); injection F as <-; [exact I|apply U].
  - unfold drop_index_ops in Ho. destruct d; destruct Ho as [Ho|[]]; subst o; cbn in F; try discriminate F; injection F as <-; exact Hw.
  - destruct Ho as [Ho|Ho]; [subst o; cbn [eff] in F; destruct (key_eqb _ _); [destruct (present w); [|discriminate F]|]; injection F as <-; exact Hw|].
    pose proof (alter_ops_in d n a o Ho) as A. destruct A as [|q f Q Qf|q v Q|o v|x| |q Q|q b j v Q _]; cbn [eff] in F.
    + discriminate F.
    + destruct (key_eqb q (KTab t)); [|injection F as <-; exact Hw]. destruct w as [x|]; [|discriminate F]. injection F as <-. exact (Qf x Hw).
    + destruct (key_eqb q (KTab t)) eqn:Z; [|injection F as <-; exact Hw]. destruct (present w); [discriminate F|]. injection F as <-. apply key_eqb_eq in Z. subst q.
      apply (action_adds_solid d n a _ v Ho). intros i G. discriminate G.
    + cbn in F. injection F as <-. exact Hw.
    + cbn in F. injection F as <-. exact Hw.
    + cbn in F. injection F as <-. exact Hw.
    + cbn [key_eqb] in F. injection F as <-. apply U.
    + cbn in F. injection F as <-. exact Hw.
Qed.
Lemma goes_solid : forall d t l m, (forall s, In s l -> no_rename s) -> solid (m (KTab t)) -> solid (goes d l m (KTab t)).
Proof.
  intros d t l. induction l as [|s l IH]; intros m S H; [exact H|]. apply (IH (go d s m) (fun x Hx => S x (or_intror Hx))).
  apply (go_free solid); [reflexivity|exact H|]. intros m' X. exact (exec_solid_table d s m m' t X (S s (or_introl eq_refl)) H).
Qed.
