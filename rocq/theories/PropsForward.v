(** Property C93, continued: a new table that refers to a new table created after it. *)
From Coq Require Import Lia.
From Verif Require ReconcileFacts DiffSound.
From Verif Require Import GoStr Token Lexer LexSpec Ast Parser Diff Db DbFacts AppendFacts Tidy TidyFacts DiffSame Reconcile Honest DiffSpec Justified Frame
  Lines LinesFacts Apply ApplySpec ApplyFacts Intact IntactFacts Printable SqlRead ReadFacts ReadDiff SqlDb SqlDbFacts DbDep DepServer.
From Verif Require Import Answer AnswerFacts DepFacts DbRefuse DoomFacts DoomIndex PropsParse PropsDiff PropsApply PropsRead PropsAnswer PropsDoom InterruptFacts StuckFacts PropsStuck.
Local Open Scope list_scope.

(** A table that is not there has no constraints. *)
Definition proper (y : string) (m : db) : Prop := solid (m (KTab y)) /\ (m (KTab y) = None -> forall l, m (KCon y l) = None).
Lemma exec_proper : forall d s m m' y, exec d s m = Some m' -> InterruptFacts.no_rename s -> proper y m -> proper y m'.
Proof.
  intros d s m m' y X N [P1 P2]. pose proof (exec_solid_table d s m m' y X N P1) as Q1. split; [exact Q1|]. intros V l.
  destruct (mentions_table y s) eqn:M.
  - destruct s as [x|i|cm ie n|cm ie n|cm n a]; cbn [mentions_table] in M; try discriminate M; apply String.eqb_eq in M.
    + (* created *) exfalso. unfold table_name in M. cbn [exec] in X. rewrite M in X. destruct (ct_ifnotexists x && present (m (KTab y))) eqn:G.
      * injection X as <-. rewrite V, andb_false_r in G. discriminate G.
      * pose proof (create_table_ops_named d x m m' X) as Nm. cbn [stmt_ops] in X. rewrite create_table_ops_adds in X by exact Nm. cbn [Db.run op_ok] in X. rewrite M in X. destruct (present (m (KTab y))); [discriminate X|]. cbn [negb] in X.
        destruct (run_adds _ _ _ X) as [_ [_ Vm]]. rewrite Vm in V. destruct (assoc_key _ _); [discriminate V|]. cbn [op_db] in V. rewrite key_eqb_refl in V. discriminate V.
    + (* dropped *) cbn [exec] in X. rewrite M in X. destruct (ie && negb (present (m (KTab y)))); [injection X as <-; exact (P2 V l)|].
      cbn [stmt_ops Db.run] in X. rewrite M in X. destruct (op_ok (Wipe y) m); [|discriminate X]. injection X as <-. cbn [op_db]. unfold owned_by. cbn [owner]. rewrite String.eqb_refl. reflexivity.
    + (* altered *) exfalso. assert (H : present (m (KTab y)) = true).
      { destruct a; try (destruct N; fail); cbn [exec stmt_ops Db.run op_ok] in X; rewrite M in X; destruct (present (m (KTab y))); reflexivity || discriminate X. }
      assert (T : there (m (KTab y))) by (destruct (m (KTab y)) as [[]|]; try exact Logic.I; [destruct P1|discriminate H]).
      pose proof (exec_there d _ m m' y (KTab y) X N (fun F => F) (or_introl eq_refl) T) as Z. rewrite V in Z. destruct Z.
  - assert (E : m' (KTab y) = m (KTab y)) by exact (exec_frame d s m m' y (KTab y) X N M eq_refl P1). rewrite V in E. symmetry in E.
    pose proof (P2 E l) as L. rewrite (exec_frame d s m m' y (KCon y l) X N M eq_refl); [exact L|rewrite L; exact Logic.I].
Qed.
Lemma go_proper : forall d s m y, InterruptFacts.no_rename s -> proper y m -> proper y (go d s m).
Proof.
  intros d s m y N P. unfold go, dep_exec. destruct (exec d s m) as [m'|] eqn:X; [|exact P]. pose proof (exec_proper d s m m' y X N P) as Q.
  destruct (removes s); [|destruct (new_intact d s m m'); assumption]. destruct Q as [Q1 Q2]. split; [rewrite sweep_free by reflexivity; exact Q1|].
  intros V l. rewrite sweep_free in V by reflexivity. unfold sweep. rewrite (Q2 V l). reflexivity.
Qed.
Lemma goes_proper : forall d l m y, (forall s, In s l -> InterruptFacts.no_rename s) -> proper y m -> proper y (goes d l m).
Proof. intros d l. induction l as [|s l IH]; intros m y N P; [exact P|]. apply (IH (go d s m) y (fun x Hx => N x (or_intror Hx))). apply go_proper; [apply N; left; reflexivity|exact P]. Qed.
Lemma go_silent : forall d k s m, silent d k s = true -> m k = None -> go d s m k = None.
Proof.
  intros d k s m S V. destruct (dep_exec d s m) as [m'|] eqn:X; [|unfold go; rewrite X; exact V].
  unfold go. rewrite X. apply (dep_silent d k [s] m m'); [cbn [forallb]; rewrite S; reflexivity| |exact V]. cbn [dep_exec_all]. rewrite X. reflexivity.
Qed.
Lemma goes_silent : forall d k l m, forallb (silent d k) l = true -> m k = None -> goes d l m k = None.
Proof.
  intros d k l. induction l as [|s l IH]; intros m S V; [exact V|]. cbn [forallb] in S. apply andb_true_iff in S. destruct S as [S1 S2]. apply (IH (go d s m) S2). apply go_silent; assumption.
Qed.

(** A table that refers to one that is not there is not created. *)
Lemma reference_needed : forall d y n cols ref refcols act m, In (CForeign n cols ref refcols act) (ct_constraints y) -> ct_ifnotexists y = false ->
  id_name ref <> qname (ct_name y) -> m (KTab (id_name ref)) = None -> proper (qname (ct_name y)) m -> dep_exec d (CreateTable y) m = None.
Proof.
  intros d y n cols ref refcols act m If Ny Nr V [P1 P2]. unfold dep_exec. destruct (exec d (CreateTable y) m) as [m2|] eqn:X; [|reflexivity]. cbn [removes].
  assert (Ni : new_intact d (CreateTable y) m m2 = false); [|rewrite Ni; reflexivity].
  pose proof X as X2. cbn [exec] in X2. rewrite Ny in X2. cbn [andb stmt_ops] in X2.
  pose proof (create_table_ops_named d y m m2 X2) as Nm. rewrite create_table_ops_adds in X2 by exact Nm. cbn [Db.run op_ok] in X2.
  destruct (m (KTab (qname (ct_name y)))) as [v0|] eqn:VT; [discriminate X2|]. cbn [present negb] in X2. specialize (P2 eq_refl).
  destruct (run_adds _ _ _ X2) as [NDa [_ Vm]].
  destruct n as [n|]; [|unfold all_con_named in Nm; rewrite forallb_forall in Nm; discriminate (Nm _ If)].
  set (k := KCon (qname (ct_name y)) (id_name n)) in *. set (v := VCon (SForeign (sem_keycols d cols) (id_name ref) (sem_keycols d refcols) (match d with Sp => "" | _ => act end))) in *.
  assert (Ie : In (k, v) (table_adds d y)).
  { unfold table_adds. apply in_or_app. right. apply in_or_app. left. apply in_flat_map. eexists. split; [exact If|]. left. reflexivity. }
  assert (Pk : present (m2 k) = true).
  { rewrite Vm. destruct (assoc_key k (table_adds d y)) eqn:Z; [reflexivity|]. apply assoc_None in Z. exfalso. apply Z. apply in_map_iff. exists (k, v). auto. }
  assert (Pc : m2 (KTab (id_name ref)) = None).
  { pose proof (create_silent_tab d (id_name ref) y (fun G => Nr (eq_sym G))) as S. unfold silent in S. apply andb_true_iff in S. destruct S as [R S].
    destruct (mute_exec d _ _ m m2 R S X) as [H|H]; congruence. }
  apply not_true_is_false. intro G. unfold new_intact in G. rewrite ReconcileFacts.objects_entries in G; [|reflexivity|intros z [Hz|[]]; injection Hz as <-; exact Nm].
  rewrite forallb_forall in G. specialize (G (k, v)). cbn [fst snd] in G. unfold k in G at 2. rewrite (P2 (id_name n)), Pk in G. cbn [present negb orb] in G.
  assert (H : In (k, v) (entries d [CreateTable y])) by (unfold entries; cbn [flat_map stmt_entries]; rewrite app_nil_r; right; exact Ie).
  specialize (G H). unfold intact in G. rewrite forallb_forall in G. specialize (G (KTab (id_name ref))). cbv beta in G. rewrite Pc in G.
  assert (In (KTab (id_name ref)) (needs k v)) as J; [|discriminate (G J)].
  cbn [needs k v refers]. apply in_or_app. right. left. reflexivity.
Qed.

(** Two new tables, the one created first refers to the other: apply never ends well. *)
Theorem C93_forward_reference_never_comes : forall w dsn src d before after mb ma stmts p q r y z n cols ref refcols act tr o,
  migration w dsn src d before after mb ma stmts ->
  after = p ++ CreateTable y :: q ++ CreateTable z :: r ->
  ~ has_table (qname (ct_name y)) before -> ~ has_table (qname (ct_name z)) before ->
  ct_ifnotexists y = false -> ct_ifnotexists z = false ->
  In (CForeign n cols ref refcols act) (ct_constraints y) -> id_name ref = qname (ct_name z) ->
  apply_command w [dsn; src] = (tr, o) -> o <> Done.
Proof.
  intros w dsn src d before after mb ma stmts p q r y z n cols ref refcols act tr o M Ea Hy Hz Iy Iz If Er A ->.
  pose proof M as [Hp Hd Hs _ _ _ [DB [TB _]] [DA [TA _]] E _].
  assert (Nd : d <> Sp) by (destruct Hp; congruence).
  pose proof (diff_no_rename d (w_srt w) (w_sdiff w) before after stmts Hs TB TA E) as NR.
  assert (Lz : forall s, In s stmts -> lets_be (qname (ct_name z)) s).
  { intros s Is. split; [exact (NR s Is)|]. destruct s as [x|i|c ie m|c ie m|c m a]; try exact Logic.I. intro G.
    destruct (C16_drop_table_only_if_gone d _ _ before after stmts c ie m Nd Hs TB TA E Is) as [HB HA]. rewrite G in HB. contradiction. }
  destruct (describes_entries d after ma DA) as [NA _]. pose proof DA as [CA _]. pose proof DB as [CB _]. pose proof CA as CA'. pose proof CB as CB'. rewrite forallb_forall in CA', CB'.
  pose proof E as E0. cbn [diff] in E0. destruct (diff_ddl_shape d _ _ before after stmts CB CA E0) as [changes [_ Es]]. clear E0.
  assert (Fn : forall x, ~ has_table (qname (ct_name x)) before -> find_stmt (CreateTable x) before = None).
  { intros x Hx. destruct (find_stmt (CreateTable x) before) as [s|] eqn:F; [|reflexivity]. exfalso. destruct (found_table x before s F) as [u [-> [Iu Eu]]].
    apply Hx. unfold has_table. rewrite Eu. apply (in_map table_name). apply ReconcileFacts.in_tables. exact Iu. }
  pose proof (Fn y Hy) as Fy. pose proof (Fn z Hz) as Fz.
  assert (Iya : In (CreateTable y) after) by (rewrite Ea; apply in_or_app; right; left; reflexivity).
  assert (Iza : In (CreateTable z) after) by (rewrite Ea; apply in_or_app; right; right; apply in_or_app; right; left; reflexivity).
  assert (Nz : forall x, In (CreateTable x) (p ++ [CreateTable y]) -> qname (ct_name x) <> qname (ct_name z)).
  { intros x Ix G. pose proof (DiffSound.nodup_stmts d after CA NA) as ND.
    assert (x = z). { apply (table_names_eq d after x z CA NA); [|exact Iza|exact G]. rewrite Ea. apply in_app_or in Ix. apply in_or_app. destruct Ix as [Ix|[Ix|[]]]; [left; exact Ix|right; left; exact Ix]. }
    subst x. rewrite Ea in ND. replace (p ++ CreateTable y :: q ++ CreateTable z :: r) with (((p ++ [CreateTable y]) ++ q) ++ CreateTable z :: r) in ND by (rewrite <- !app_assoc; reflexivity).
    apply NoDup_remove_2 in ND. apply ND. apply in_or_app. left. apply in_or_app. left. exact Ix. }
  assert (Es' : exists f1 f2, only_left_stmts after before = f1 ++ CreateTable y :: f2 /\ In (CreateTable z) f2 /\ forall x, In x f1 -> In x p).
  { exists (only_left_stmts p before), (only_left_stmts (q ++ CreateTable z :: r) before). split; [|split].
    - rewrite Ea. unfold only_left_stmts. rewrite filter_app. cbn [filter]. rewrite Fy. reflexivity.
    - apply Justified.only_left_in. split; [apply in_or_app; right; left; reflexivity|exact Fz].
    - intros x Ix. apply Justified.only_left_in in Ix. apply Ix. }
  destruct Es' as [f1 [f2 [Ef [If2 Ip]]]]. rewrite Ef in Es.
  assert (Izs : In (CreateTable z) stmts) by (rewrite Es; apply in_or_app; right; apply in_or_app; left; apply in_or_app; right; right; exact If2).
  set (Q := fun m => proper (qname (ct_name y)) m /\ solid (m (KTab (qname (ct_name z))))).
  assert (Kp : forall m, Q m -> trips d stmts m = true /\ Q (goes d stmts m)).
  { intros m [Q1 Q2]. split; [|split; [apply goes_proper; assumption|exact (goes_solid d (qname (ct_name z)) stmts m NR Q2)]].
    destruct (m (KTab (qname (ct_name z)))) as [v|] eqn:V.
    - refine (proj1 (table_trips d (qname (ct_name z)) stmts z m Izs eq_refl Iz Lz _)). rewrite V. destruct v; try exact Logic.I. destruct Q2.
    - rewrite Es. replace (map DiffSound.drop1 (only_left_stmts before after) ++ (f1 ++ CreateTable y :: f2) ++ changes) with ((map DiffSound.drop1 (only_left_stmts before after) ++ f1) ++ CreateTable y :: f2 ++ changes) by (rewrite <- !app_assoc; reflexivity).
      rewrite trips_app. cbn [trips]. rewrite (reference_needed d y n cols ref refcols act); [cbn [orb]; apply orb_true_r|exact If|exact Iy| | |].
      + rewrite Er. intro G. apply (Nz y); [apply in_or_app; right; left; reflexivity|symmetry; exact G].
      + rewrite Er. apply goes_silent; [|exact V]. rewrite forallb_app, andb_true_iff. split; apply forallb_forall; intros x Ix.
        * apply in_map_iff in Ix. destruct Ix as [u [<- Iu]]. apply Justified.only_left_in in Iu. apply drop_silent. apply CB'. tauto.
        * assert (Ix' : In x after) by (rewrite Ea; apply in_or_app; left; exact (Ip x Ix)). pose proof (CA' x Ix') as C. destruct x as [u|u| | |]; try discriminate C; [|reflexivity].
          apply create_silent_tab. apply Nz. apply in_or_app. left. exact (Ip _ Ix).
      + apply goes_proper; [|exact Q1]. intros s Is. apply NR. rewrite Es. apply in_app_or in Is. apply in_or_app. destruct Is as [Is|Is]; [left; exact Is|right; apply in_or_app; left; apply in_or_app; left; exact Is]. }
  assert (Q0 : Q mb).
  { split; [split|].
    - exact (owned_solid d before mb (KTab (qname (ct_name y))) (qname (ct_name y)) DB eq_refl).
    - intros _ l. apply (no_table d before mb (KCon (qname (ct_name y)) l) _ DB eq_refl). intros x Ix G. apply Hy. unfold has_table. rewrite <- G. apply (in_map table_name). apply ReconcileFacts.in_tables. exact Ix.
    - exact (owned_solid d before mb (KTab (qname (ct_name z))) (qname (ct_name z)) DB eq_refl). }
  destruct (migration_once w dsn src d before after mb ma stmts tr Q M Kp (proj2 (Kp mb Q0)) A) as [m [X _]].
  pose proof (proj1 (Kp mb Q0)) as T. clear -T X. revert mb T X. induction stmts as [|s l IH]; intros m0 T X; cbn [trips dep_exec_all] in *; [discriminate T|].
  unfold go in T. destruct (dep_exec d s m0); [exact (IH _ T X)|discriminate X].
Qed.
Print Assumptions C93_forward_reference_never_comes.
(** The witness is C93_tables_example; tables that refer to each other in a circle are covered too. *)
Example C93_circle_example : exists tr, movable Pg "CREATE TABLE z (x INTEGER);" "CREATE TABLE z (x INTEGER); CREATE TABLE a (x INTEGER, CONSTRAINT f FOREIGN KEY (x) REFERENCES b (y)); CREATE TABLE b (y INTEGER, CONSTRAINT g FOREIGN KEY (y) REFERENCES a (x));" = true
  /\ apply_command (dep_serving Pg "postgres" "CREATE TABLE z (x INTEGER);" "CREATE TABLE z (x INTEGER); CREATE TABLE a (x INTEGER, CONSTRAINT f FOREIGN KEY (x) REFERENCES b (y)); CREATE TABLE b (y INTEGER, CONSTRAINT g FOREIGN KEY (y) REFERENCES a (x));") ["db"; "new"]%string = (tr, Failed)
  /\ forallb (fun e => match snd e with Some _ => true | None => false end) (sent tr) = true.
Proof. eexists. split; [vm_compute; reflexivity|]. split; [vm_compute; reflexivity|]. vm_compute. reflexivity. Qed.
(** In the other order they are created at once. *)
Example C93_backward_example : exists tr, apply_command (dep_serving Pg "postgres" "CREATE TABLE z (x INTEGER);" "CREATE TABLE z (x INTEGER); CREATE TABLE b (y INTEGER); CREATE TABLE a (x INTEGER, CONSTRAINT f FOREIGN KEY (x) REFERENCES b (y));") ["db"; "new"]%string = (tr, Done)
  /\ map snd (sent tr) = [None; None].
Proof. eexists. split; [vm_compute; reflexivity|]. vm_compute. reflexivity. Qed.
