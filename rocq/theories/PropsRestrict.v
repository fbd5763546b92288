(** Property C86 for apply: trying again does not help to drop tables in the wrong order. *)
From Coq Require Import Lia.
From Verif Require Import GoStr Token Lexer LexSpec Ast Parser Diff Db DbFacts AppendFacts DiffSound Tidy TidyFacts DiffSame Reconcile ReconcileFacts Honest DiffSpec Justified Frame
  Lines LinesFacts Apply ApplySpec ApplyFacts Intact IntactFacts Printable SqlRead ReadFacts ReadDiff SqlDb SqlDbFacts DbDep RestrictDb.
From Verif Require Import Answer AnswerFacts DoomFacts PropsParse PropsDiff PropsApply PropsRead InterruptFacts StuckFacts.
Local Open Scope list_scope.

Lemma restrict_uncommented : forall ks d s m, restrict_exec ks d (uncommented s) m = restrict_exec ks d s m.
Proof. intros ks d s m. destruct s as [t|x|c ie n|c ie n|c n a]; reflexivity. Qed.
Lemma restrict_after_app : forall ks d a b m, restrict_after ks d (a ++ b) m = restrict_after ks d b (restrict_after ks d a m).
Proof. intros ks d a. induction a as [|q a IH]; intros b m; cbn [List.app restrict_after]; [reflexivity|apply IH]. Qed.
Lemma restrict_now_snoc : forall ks d past q o m, restrict_now ks d (past ++ [EExec q o]) m = fst (restrict_answer ks d q (restrict_now ks d past m)).
Proof. intros ks d past q o m. unfold restrict_now. rewrite sent_app, map_app, restrict_after_app. reflexivity. Qed.
Fixpoint restrict_all (ks : list key) (d : dialect) (l : ddl) (m : db) : option db :=
  match l with
  | [] => Some m
  | s :: r => match restrict_exec ks d s m with Some m' => restrict_all ks d r m' | None => None end
  end.
Lemma restrict_all_app : forall ks d a b m, restrict_all ks d (a ++ b) m = match restrict_all ks d a m with Some m' => restrict_all ks d b m' | None => None end.
Proof. intros ks d a. induction a as [|s a IH]; intros b m; cbn [List.app restrict_all]; [reflexivity|]. destruct (restrict_exec ks d s m); [apply IH|reflexivity]. Qed.

Section Served.
Variables (ks : list key) (d : dialect) (m0 : db) (w : world) (ign : string -> bool) (J : db -> Prop).
Hypothesis W : restrict_served ks d m0 w.
Hypothesis Ig : ign exec_error = false.

(** An attempt keeps what every statement keeps; if it ends well, all statements have worked. *)
Lemma attempt_keeps : forall stmts qs past, Forall2 (text_of d) stmts qs -> forallb (fun q => negb (String.eqb q "")) qs = true ->
  (forall s, In s stmts -> says d s) -> (forall s m m', In s stmts -> restrict_exec ks d s m = Some m' -> J m -> J m') -> J (restrict_now ks d past m0) ->
  exists evs e, attempt w ign qs past = (evs, e) /\ J (restrict_now ks d (past ++ evs) m0)
    /\ (e = false -> exists m, restrict_all ks d stmts (restrict_now ks d past m0) = Some m).
Proof.
  intros stmts. induction stmts as [|s stmts IH]; intros qs past F N R K H; inversion F; subst.
  - exists [], false. rewrite app_nil_r. split; [reflexivity|]. split; [exact H|]. intros _. eexists. reflexivity.
  - cbn [forallb] in N. apply andb_true_iff in N. destruct N as [N1 N2]. apply negb_true_iff in N1.
    assert (Y : restrict_answer ks d y (restrict_now ks d past m0) = match restrict_exec ks d s (restrict_now ks d past m0) with Some m' => (m', None) | None => (restrict_now ks d past m0, Some exec_error) end).
    { unfold restrict_answer. rewrite (says_read d s y (R s (or_introl eq_refl)) H2), restrict_uncommented. reflexivity. }
    assert (O : w_exec w past y = snd (restrict_answer ks d y (restrict_now ks d past m0))) by apply W.
    pose proof (restrict_now_snoc ks d past y (w_exec w past y) m0) as Sn. rewrite Y in O, Sn.
    destruct (IH l' (past ++ [EExec y (w_exec w past y)]) H4 N2 (fun x Hx => R x (or_intror Hx)) (fun x m m' Hx => K x m m' (or_intror Hx))) as [evs [e [I1 [I2 I3]]]].
    { rewrite Sn. destruct (restrict_exec ks d s (restrict_now ks d past m0)) as [m'|] eqn:X; [|exact H]. exact (K s _ m' (or_introl eq_refl) X H). }
    exists (EExec y (w_exec w past y) :: evs), (bad_answer ign (w_exec w past y) || e). cbn [attempt]. rewrite N1. cbv zeta. rewrite I1. split; [reflexivity|]. split; [rewrite <- app_assoc in I2; exact I2|].
    intro G. apply orb_false_iff in G. destruct G as [G1 G2]. destruct (I3 G2) as [m I4]. rewrite Sn in I4. cbn [restrict_all].
    destruct (restrict_exec ks d s (restrict_now ks d past m0)) as [m'|]; [exists m; exact I4|]. exfalso. rewrite O in G1. cbn [snd bad_answer] in G1. rewrite Ig in G1. discriminate G1.
Qed.
Lemma retry_keeps : forall stmts qs, Forall2 (text_of d) stmts qs -> forallb (fun q => negb (String.eqb q "")) qs = true ->
  (forall s, In s stmts -> says d s) -> (forall s m m', In s stmts -> restrict_exec ks d s m = Some m' -> J m -> J m') ->
  forall n past, J (restrict_now ks d past m0) -> snd (retry_do w ign qs n past) = true -> exists m m', J m /\ restrict_all ks d stmts m = Some m'.
Proof.
  intros stmts qs F N R K. induction n as [|n IH]; intros past H X; cbn [retry_do] in X; destruct (attempt_keeps stmts qs past F N R K H) as [evs [e [E1 [E2 E3]]]]; rewrite E1 in X;
    (destruct e; cbn [negb] in X; [|destruct (E3 eq_refl) as [m E4]; exists (restrict_now ks d past m0), m; split; assumption]).
  - discriminate X.
  - destruct (w_again w (past ++ evs)); [|discriminate X]. apply (IH (past ++ evs) E2). destruct (retry_do w ign qs n (past ++ evs)). exact X.
Qed.
End Served.

(** ** A table that goes, and its foreign key *)
Section Gone.
Variables (ks : list key) (d : dialect) (srt : list constraint -> list constraint) (sdiff : string -> string -> string) (before after : ddl) (stmts : ddl) (t f : string) (V : scon).
Hypotheses (Nd : d <> Sp) (Hs : srt_ok srt) (TB : tidy d before = true) (TA : tidy d after = true) (E : diff d srt sdiff (Some before) (Some after) = DOk stmts).
Hypotheses (HB : has_table t before) (HA : ~ has_table t after).
Definition bound (m : db) : Prop := m (KTab t) = None \/ m (KCon t f) = Some (VCon V).

Lemma only_dropped : forall s, In s stmts -> mentions_table t s = true -> exists c ie n, s = DropTable c ie n /\ qname n = t.
Proof.
  intros s I M. destruct s as [ct|i|c ie n|c ie n|c n a]; cbn [mentions_table] in M; try discriminate M; apply String.eqb_eq in M.
  - exfalso. destruct (diff_loose d srt sdiff before after stmts _ Hs TB TA E I) as [J|[tb' [ta' [_ [p [q [_ [_ [_ [_ W]]]]]]]]]]; [|destruct W].
    destruct J as [_ [J|[J _]]]; [|contradiction]. rewrite M in J. contradiction.
  - exists c, ie, n. split; [reflexivity|exact M].
  - exfalso. destruct (diff_loose d srt sdiff before after stmts _ Hs TB TA E I) as [J|[tb [ta [[P1 [P2 P3]] [p [q [_ [_ [_ [_ W]]]]]]]]]].
    + destruct J as [tb [ta [[P1 [P2 P3]] [Q _]]]]. apply HA. unfold has_table. rewrite <- M, Q. apply in_map. exact P2.
    + destruct a; try destruct W. subst. apply HA. unfold has_table. apply in_map_iff. exists ta. split; [reflexivity|exact P2].
Qed.
Lemma exec_bound : forall s m m', In s stmts -> restrict_exec ks d s m = Some m' -> bound m -> bound m'.
Proof.
  intros s m m' I X H. unfold restrict_exec in X. destruct (exec d s m) as [m1|] eqn:X1; [|discriminate X]. destruct (whole_on ks m1); [|discriminate X]. injection X as <-.
  pose proof (diff_no_rename d srt sdiff before after stmts Hs TB TA E s I) as N.
  destruct (mentions_table t s) eqn:M.
  - destruct (only_dropped s I M) as [c [ie [n [-> Q]]]]. left. cbn [exec stmt_ops Db.run op_ok] in X1. rewrite Q in X1. destruct (m (KTab t)) eqn:P.
    + cbn [present negb] in X1. rewrite andb_false_r in X1. injection X1 as <-. cbn [op_db]. unfold owned_by. cbn [owner]. rewrite String.eqb_refl. reflexivity.
    + destruct ie; cbn in X1; [injection X1 as <-; exact P|discriminate X1].
  - destruct H as [H|H]; [left; rewrite (exec_frame d s m m1 t (KTab t) X1 N M eq_refl)|right; rewrite (exec_frame d s m m1 t (KCon t f) X1 N M eq_refl)]; try exact H; rewrite H; exact Logic.I.
Qed.
(** Once gone, the table cannot be dropped. *)
Lemma all_gone : forall l m m', (forall s, In s l -> In s stmts) -> restrict_all ks d l m = Some m' -> m (KTab t) = None -> m' (KTab t) = None.
Proof.
  intros l. induction l as [|s l IH]; intros m m' I X H; cbn [restrict_all] in X; [injection X as <-; exact H|].
  unfold restrict_exec in X. destruct (exec d s m) as [m1|] eqn:X1; [|discriminate X]. destruct (whole_on ks m1); [|discriminate X].
  apply (IH m1 m' (fun x Hx => I x (or_intror Hx)) X). pose proof (I s (or_introl eq_refl)) as Is. pose proof (diff_no_rename d srt sdiff before after stmts Hs TB TA E s Is) as N.
  destruct (mentions_table t s) eqn:M.
  - destruct (only_dropped s Is M) as [c [ie [n [-> Q]]]]. cbn [exec stmt_ops Db.run op_ok] in X1. rewrite Q, H in X1. destruct ie; cbn in X1; [injection X1 as <-; exact H|discriminate X1].
  - rewrite (exec_frame d s m m1 t (KTab t) X1 N M eq_refl); [exact H|rewrite H; exact Logic.I].
Qed.
Lemma all_bound : forall l m m', (forall s, In s l -> In s stmts) -> restrict_all ks d l m = Some m' -> bound m -> bound m'.
Proof.
  intros l. induction l as [|s l IH]; intros m m' I X H; cbn [restrict_all] in X; [injection X as <-; exact H|].
  destruct (restrict_exec ks d s m) as [m1|] eqn:X1; [|discriminate X]. exact (IH m1 m' (fun x Hx => I x (or_intror Hx)) X (exec_bound s m m1 (I s (or_introl eq_refl)) X1 H)).
Qed.
(** The table it refers to goes first: never in one attempt. *)
Lemma wrong_order : forall l1 l2 l3 c1 n1 c2 n2 cols rc act m m', stmts = l1 ++ DropTable c1 false n1 :: l2 ++ DropTable c2 false n2 :: l3 ->
  qname n2 = t -> qname n1 <> t -> V = SForeign cols (qname n1) rc act -> In (KCon t f) ks -> bound m -> restrict_all ks d stmts m = Some m' -> False.
Proof.
  intros l1 l2 l3 c1 n1 c2 n2 cols rc act m m' Es Q2 Q1 Ev Ik B X.
  assert (In1 : forall s, In s l1 -> In s stmts) by (intros s I; rewrite Es; apply in_or_app; left; exact I).
  assert (In2 : forall s, In s l2 -> In s stmts) by (intros s I; rewrite Es; apply in_or_app; right; right; apply in_or_app; left; exact I).
  rewrite Es, restrict_all_app in X. destruct (restrict_all ks d l1 m) as [ma|] eqn:X1; [|discriminate X]. pose proof (all_bound l1 m ma In1 X1 B) as Ba.
  cbn [restrict_all] in X. destruct (restrict_exec ks d (DropTable c1 false n1) ma) as [mc|] eqn:X2; [|discriminate X].
  assert (G : mc (KTab t) = None).
  { unfold restrict_exec in X2. cbn [exec andb stmt_ops Db.run op_ok] in X2. destruct (present (ma (KTab (qname n1)))); [|discriminate X2].
    match type of X2 with (if ?b then _ else _) = _ => destruct b eqn:Wh; [|discriminate X2] end. injection X2 as <-.
    assert (Ow : forall k, owner k = Some t -> owned_by (qname n1) k = false) by (intros k Hk; unfold owned_by; rewrite Hk; apply String.eqb_neq; exact Q1).
    destruct Ba as [Ba|Ba]; [cbn [op_db]; rewrite (Ow (KTab t) eq_refl), Ba; reflexivity|exfalso].
    unfold whole_on in Wh. rewrite forallb_forall in Wh. specialize (Wh _ Ik). cbn [op_db] in Wh. rewrite (Ow (KCon t f) eq_refl), Ba in Wh. cbn [unless index_on] in Wh.
    unfold intact in Wh. rewrite forallb_forall in Wh. rewrite Ev in Wh. specialize (Wh (KTab (qname n1))). cbn [needs refers] in Wh.
    assert (Z : In (KTab (qname n1)) (columns_of t cols ++ KTab (qname n1) :: columns_of (qname n1) rc)) by (apply in_or_app; right; left; reflexivity).
    specialize (Wh Z). cbn [op_db] in Wh. unfold owned_by in Wh. cbn [owner] in Wh. rewrite String.eqb_refl in Wh. discriminate Wh. }
  rewrite restrict_all_app in X. destruct (restrict_all ks d l2 mc) as [me|] eqn:X3; [|discriminate X]. pose proof (all_gone l2 mc me In2 X3 G) as G2.
  cbn [restrict_all] in X. unfold restrict_exec in X. cbn [exec andb stmt_ops Db.run op_ok] in X. rewrite Q2, G2 in X. discriminate X.
Qed.
End Gone.

(** Tables that go are dropped in the order of the old schema. *)
Lemma drops_ordered : forall d srt sdiff before after mb ma stmts b1 b2 b3 x v, describes d before mb -> describes d after ma ->
  diff d srt sdiff (Some before) (Some after) = DOk stmts ->
  before = b1 ++ CreateTable x :: b2 ++ CreateTable v :: b3 -> ~ has_table (table_name x) after -> ~ has_table (table_name v) after ->
  exists l1 l2 l3 c1 c2, stmts = l1 ++ DropTable c1 false (ct_name x) :: l2 ++ DropTable c2 false (ct_name v) :: l3.
Proof.
  intros d srt sdiff before after mb ma stmts b1 b2 b3 x v DB DA E Eb Nx Nv. destruct DB as [CB _]. destruct DA as [CA _]. cbn [diff] in E.
  destruct (diff_ddl_shape d srt sdiff before after stmts CB CA E) as [changes [_ ->]].
  assert (K : forall u, ~ has_table (table_name u) after -> find_stmt (CreateTable u) after = None).
  { intros u Nu. destruct (find_stmt (CreateTable u) after) as [s|] eqn:F; [exfalso|reflexivity]. apply find_some in F. destruct F as [F1 F2]. destruct s; try discriminate F2.
    cbn [same_type andb] in F2. rewrite !stmt_name_table in F2. apply String.eqb_eq in F2. apply Nu. unfold has_table. apply in_map_iff. exists t. split; [unfold table_name; congruence|apply in_tables; exact F1]. }
  subst before. unfold only_left_stmts at 1. rewrite filter_app. cbn [filter]. rewrite (K x Nx), filter_app. cbn [filter]. rewrite (K v Nv). rewrite !map_app. cbn [map]. rewrite map_app. cbn [map].
  rewrite <- !app_assoc. cbn [List.app]. rewrite <- !app_assoc. cbn [List.app]. eexists _, _, _, _, _. reflexivity.
Qed.

(** The server refuses to drop [x] while [v] refers to it; when [v] is gone, dropping [v] again
    fails: whatever the server and the retries do, apply does not end well. *)
Theorem C86_wrong_order_never_applied : forall ks w dsn src d s1 s2 before after mb ma stmts b1 b2 b3 x v f cols rc act tr o,
  d <> Sp -> dialect_of (w_dialect w) = Some d -> srt_ok (w_srt w) ->
  w_resolve w dsn = Some s1 -> w_resolve w src = Some s2 -> parse d (w_srt w) s1 = Ok before -> parse d (w_srt w) s2 = Ok after ->
  restrict_served ks d mb w -> describes d before mb -> describes d after ma -> tidy d before = true -> tidy d after = true ->
  printable d before = true -> printable d after = true -> index_names_ok d before = true -> index_names_ok d after = true ->
  diff d (w_srt w) (w_sdiff w) (Some before) (Some after) = DOk stmts ->
  forallb (fun s => arrives d (text d s) && comment_arrives d (comment_of s)) stmts = true ->
  before = b1 ++ CreateTable x :: b2 ++ CreateTable v :: b3 -> table_name x <> table_name v ->
  ~ has_table (table_name x) after -> ~ has_table (table_name v) after ->
  mb (KCon (table_name v) f) = Some (VCon (SForeign cols (table_name x) rc act)) -> In (KCon (table_name v) f) ks ->
  apply_command w [dsn; src] = (tr, o) -> o <> Done.
Proof.
  intros ks w dsn src d s1 s2 before after mb ma stmts b1 b2 b3 x v f cols rc act tr o Nd Hd Hs R1 R2 P1 P2 W DB DA TB TA PB PA NB NA E Cl Eb Nxv Nx Nv Fk Ik A Done0. subst o.
  destruct (command_cases _ _ _ _ A) as [[_ K]|[[t [_ O]]|[dsn' [src' [d' [stmts' [e2 [ok [Ea [Et [Ed [X [T [Q O]]]]]]]]]]]]]].
  - destruct (K eq_refl) as [p [q [Ea Et]]]. injection Ea as <- <-. unfold diff_text in Et. rewrite R1, R2, Hd, P1, P2, E in Et. discriminate Et.
  - discriminate O.
  - injection Ea as <- <-. rewrite Hd in Ed. injection Ed as <-. destruct ok; [|discriminate O]. clear O.
    unfold diff_text in Et. rewrite R1, R2, Hd, P1, P2, E in Et. injection Et as Es. rewrite <- Es in *. clear Es stmts'.
    assert (F : Forall2 (text_of d) stmts (map (text d) stmts)).
    { clear. induction stmts as [|s l IH]; constructor; [apply text_ends|exact IH]. }
    assert (C : forallb (arrives d) (map (text d) stmts) = true /\ forallb (fun s => comment_arrives d (comment_of s)) stmts = true).
    { rewrite !forallb_forall in *. split; [intros q Hq; apply in_map_iff in Hq; destruct Hq as [s [E' Hq]]; subst q|intros s Hq]; specialize (Cl s Hq); apply andb_true_iff in Cl; apply Cl. }
    destruct C as [C K]. pose proof (texts_not_empty _ _ _ F) as Ne.
    assert (Y : nonempty (pieces (ddl_string d stmts)) = map (text d) stmts).
    { pose proof (cut_arrives d stmts (map (text d) stmts) F) as Z. rewrite C, K in Z. unfold cut in Z. destruct d; try (apply Z; reflexivity). contradiction Nd; reflexivity. }
    assert (X' : exists ign, ign exec_error = false /\ retry_do w ign (map (text d) stmts) (List.length (pieces (ddl_string d stmts))) (started w (ddl_string d stmts) ++ [EOpen dsn]) = (e2, true)).
    { destruct d; try (contradiction Nd; reflexivity); [exists (fun _ => false)|exists (fun _ => false)|exists mysql_ignores]; (split; [reflexivity|]); rewrite <- Y, retry_nonempty; exact X. }
    destruct X' as [ign [Ig X']].
    assert (S0 : sent (started w (ddl_string d stmts) ++ [EOpen dsn]) = []) by (unfold started, approval; destruct (w_auto w); reflexivity).
    assert (M0 : restrict_now ks d (started w (ddl_string d stmts) ++ [EOpen dsn]) mb = mb) by (unfold restrict_now; rewrite S0; reflexivity).
    assert (Say : forall s, In s stmts -> says d s) by (intros s Is; exact (diff_says d (w_srt w) (w_sdiff w) Hs before after PB PA NB NA stmts s E Is)).
    assert (HB : has_table (table_name v) before) by (unfold has_table; apply in_map; apply in_tables; rewrite Eb; apply in_or_app; right; right; apply in_or_app; right; left; reflexivity).
    pose proof (retry_keeps ks d mb w ign (bound (table_name v) f (SForeign cols (table_name x) rc act)) W Ig stmts (map (text d) stmts) F Ne Say
      (fun s m m' Is => exec_bound ks d (w_srt w) (w_sdiff w) before after stmts (table_name v) f _ Nd Hs TB TA E HB Nv s m m' Is) (List.length (pieces (ddl_string d stmts)))
      (started w (ddl_string d stmts) ++ [EOpen dsn])) as RK.
    rewrite M0, X' in RK. destruct (RK (or_intror Fk) eq_refl) as [m [m' [Bm Xm]]].
    destruct (drops_ordered d (w_srt w) (w_sdiff w) before after mb ma stmts b1 b2 b3 x v DB DA E Eb Nx Nv) as [l1 [l2 [l3 [c1 [c2 Es]]]]].
    exact (wrong_order ks d (w_srt w) (w_sdiff w) before after stmts (table_name v) f _ Nd Hs TB TA E HB Nv l1 l2 l3 c1 (ct_name x) c2 (ct_name v) cols rc act m m' Es eq_refl Nxv eq_refl Ik Bm Xm).
Qed.
Print Assumptions C86_wrong_order_never_applied.

(** A world with such a server, which looks at the objects of both schemas *)
Definition restrict_serving (d : dialect) (name b a : string) : world :=
  mkWorld true true name (sources b a) (fun _ _ => true) "" (fun _ => true) (fun _ => true)
    (fun past q => snd (restrict_answer (keys d (schema d b) ++ keys d (schema d a)) d q
       (restrict_now (keys d (schema d b) ++ keys d (schema d a)) d past (catalogue d (schema d b))))) (fun _ => true) id_sort no_text.
Definition pair_old : string := "CREATE TABLE w (a INTEGER NULL); CREATE TABLE v (x INTEGER NULL, CONSTRAINT f FOREIGN KEY (x) REFERENCES w (a)); CREATE TABLE k (z INTEGER NULL);".
Definition pair_new : string := "CREATE TABLE k (z INTEGER NULL);".
(** The hypotheses hold in the three dialects. *)
Definition restrictable (d : dialect) (b a : string) : bool :=
  accepted d b && accepted d a && described d (schema d b) && described d (schema d a) && tidy d (schema d b) && tidy d (schema d a)
  && printable d (schema d b) && printable d (schema d a) && index_names_ok d (schema d b) && index_names_ok d (schema d a) && clean_texts d b a.
Example C86_hypotheses : forallb (fun d => restrictable d pair_old pair_new) [Pg; Crdb; My] = true
  /\ (exists b3 x v, schema Pg pair_old = [] ++ CreateTable x :: [] ++ CreateTable v :: b3 /\ table_name x = "w"%string /\ table_name v = "v"%string)
  /\ catalogue Pg (schema Pg pair_old) (KCon "v" "f") = Some (VCon (SForeign [("x"%string, false)] "w" [("a"%string, false)] ""))
  /\ mem_key (KCon "v" "f") (keys Pg (schema Pg pair_old)) = true.
Proof. split; [vm_compute; reflexivity|]. split; [eexists _, _, _; vm_compute; repeat split; reflexivity|]. split; vm_compute; reflexivity. Qed.
(** [w] is refused and [v] dropped; then [w] is dropped and [v] is missing; then both are missing. *)
Example C86_never_applied_example : exists tr, apply_command (restrict_serving Pg "postgres" pair_old pair_new) ["db"; "new"]%string = (tr, Failed)
  /\ firstn 5 (sent tr) = [("DROP TABLE w", Some exec_error); ("DROP TABLE v", None); ("DROP TABLE w", None); ("DROP TABLE v", Some exec_error); ("DROP TABLE w", Some exec_error)]%string.
Proof. eexists. split; [vm_compute; reflexivity|]. vm_compute. reflexivity. Qed.
Example C86_mysql_never_applied_example : exists tr, apply_command (restrict_serving My "mysql" pair_old pair_new) ["db"; "new"]%string = (tr, Failed)
  /\ firstn 4 (map snd (sent tr)) = [Some exec_error; None; None; Some exec_error].
Proof. eexists. split; [vm_compute; reflexivity|]. vm_compute. reflexivity. Qed.
(** Declared the other way round, they are dropped at once. *)
Example C86_right_order_example : exists tr, apply_command (restrict_serving Pg "postgres"
    "CREATE TABLE v (x INTEGER NULL, CONSTRAINT f FOREIGN KEY (x) REFERENCES w (a)); CREATE TABLE w (a INTEGER NULL); CREATE TABLE k (z INTEGER NULL);" pair_new) ["db"; "new"]%string = (tr, Done)
  /\ sent tr = [("DROP TABLE v", None); ("DROP TABLE w", None)]%string.
Proof. eexists. split; [vm_compute; reflexivity|]. vm_compute. reflexivity. Qed.
