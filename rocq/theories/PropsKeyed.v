(** C85: the keys foreign keys refer to are in place between any two statements. *)
From Verif Require Import GoStr Token Ast Parser Diff Db DbFacts AppendFacts Tidy Reconcile ReconcileFacts DiffSpec Frame InterruptFacts
  DbDep DepFacts InPlaceFacts DbKeyed KeyedFacts PropsDiff PropsDep.
Local Open Scope list_scope.

Lemma order_closed : forall d b a, in_order d b a = true -> closed d b = true /\ closed d a = true.
Proof. intros d b a H. unfold in_order in H. rewrite !andb_true_iff in H. tauto. Qed.
Lemma reconcilable_tidy : forall d b a, reconcilable d b a = true -> tidy d b = true /\ tidy d a = true.
Proof. intros d b a H. unfold reconcilable in H. rewrite !andb_true_iff in H. tauto. Qed.
Lemma reconcilable_style : forall d b a, reconcilable d b a = true -> same_style d b a = true.
Proof. intros d b a H. unfold reconcilable in H. rewrite !andb_true_iff in H. tauto. Qed.

(** Under the conditions of C19, and if every foreign key refers to a primary key, UNIQUE
    constraint or unique index that does not change, or to a constraint whose table comes or goes
    with it: whatever part of the difference is executed - with dependencies enforced -, every
    foreign key has its key.  So a database that insists on the keys executes all of it.  Missing
    for the full property: other pairs, for some of which it is false (below), and Spanner, which
    asks for no keys. *)
Theorem C85_keys_are_in_place_partial : forall d srt sdiff before after mb ma done todo,
  srt_ok srt -> describes d before mb -> describes d after ma -> d <> Sp ->
  reconcilable d before after = true -> text_ok d before after = true -> in_order d before after = true ->
  keys_in_place d before after = true ->
  diff d srt sdiff (Some before) (Some after) = DOk (done ++ todo) ->
  exists m, dep_exec_all d done mb = Some m /\ keyed m.
Proof.
  intros d srt sdiff before after mb ma p r Hs DB DA NS Rc To Or Ke E.
  pose proof (diff_respects d srt sdiff before after mb ma Hs DB DA Rc To Or) as R. rewrite E in R. destruct R as [mf [X _]].
  rewrite dep_all_app in X. destruct (dep_exec_all d p mb) as [m|] eqn:Y; [|discriminate X]. exists m. split; [reflexivity|].
  destruct (reconcilable_tidy d before after Rc) as [TB TA]. destruct (order_closed d before after Or) as [CB CA].
  exact (steps_keyed d srt sdiff before after mb ma (p ++ r) Hs DB DA TB TA E CB CA NS (reconcilable_style d before after Rc) Ke p r m eq_refl (dep_steps d p mb m Y)).
Qed.
Print Assumptions C85_keys_are_in_place_partial.

(** A primary key or UNIQUE constraint that is the same in both schemas is in place all the
    time, even if its table changes. *)
Theorem C85_same_key_stays : forall d srt sdiff before after mb ma done todo t x v m,
  srt_ok srt -> describes d before mb -> describes d after ma -> d <> Sp ->
  tidy d before = true -> tidy d after = true -> closed d before = true -> closed d after = true ->
  diff d srt sdiff (Some before) (Some after) = DOk (done ++ todo) -> dep_exec_all d done mb = Some m ->
  match v with VCon (SPrimary _) | VCon (SUnique _) => True | _ => False end ->
  mb (KCon t x) = Some v -> ma (KCon t x) = Some v -> m (KCon t x) = Some v.
Proof.
  intros d srt sdiff before after mb ma p r t x v m Hs DB DA NS TB TA CB CA E X Kv Vb Va.
  refine (key_kept d srt sdiff before after mb ma (p ++ r) Hs DB DA TB TA E CB CA NS p mb m _ (dep_steps d p mb m X) t x v Kv Vb Va _ Vb).
  - intros s I. apply in_or_app. left. exact I.
  - intros n Hn. apply (some_there d before mb n t DB); [apply (needs_key _ _ _ _ Kv Hn)|exact (closed_read d before mb _ _ _ DB CB Vb Hn)].
Qed.
Print Assumptions C85_same_key_stays.

(** And so is a unique index - in fact any index - that is the same in both. *)
Theorem C85_same_index_stays : forall d srt sdiff before after mb ma done todo i x m,
  srt_ok srt -> describes d before mb -> describes d after ma -> d <> Sp ->
  tidy d before = true -> tidy d after = true -> same_style d before after = true -> closed d before = true -> closed d after = true ->
  diff d srt sdiff (Some before) (Some after) = DOk (done ++ todo) -> dep_exec_all d done mb = Some m ->
  mb (KIdx i) = Some (VIdx x) -> ma (KIdx i) = Some (VIdx x) -> m (KIdx i) = Some (VIdx x).
Proof.
  intros d srt sdiff before after mb ma p r i x m Hs DB DA NS TB TA Sy CB CA E X Vb Va.
  refine (index_kept d srt sdiff before after mb ma (p ++ r) Hs DB DA TB TA E CB CA NS Sy p mb m _ (dep_steps d p mb m X) i x Vb Va _ Vb).
  - intros s I. apply in_or_app. left. exact I.
  - intros n Hn. apply (some_there d before mb n (si_table x) DB); [apply (needs_index _ _ _ Hn)|exact (closed_read d before mb _ _ _ DB CB Vb Hn)].
Qed.
Print Assumptions C85_same_index_stays.

(** The hypotheses hold when new tables refer to old and new ones, old tables change around
    their keys, and a pair of tables goes. *)
Definition kp_before := "CREATE TABLE u (x INTEGER, y TEXT, CONSTRAINT p PRIMARY KEY (x)); CREATE TABLE t (a INTEGER); CREATE TABLE w (a INTEGER, CONSTRAINT pw PRIMARY KEY (a)); CREATE TABLE v (x INTEGER, CONSTRAINT fv FOREIGN KEY (x) REFERENCES w (a));"%string.
Definition kp_after := "CREATE TABLE u (x INTEGER, z TEXT, CONSTRAINT p PRIMARY KEY (x)); CREATE TABLE t (a INTEGER, CONSTRAINT f FOREIGN KEY (a) REFERENCES u (x)); CREATE TABLE n (b INTEGER, CONSTRAINT pn PRIMARY KEY (b)); CREATE TABLE o (c INTEGER, CONSTRAINT fo FOREIGN KEY (c) REFERENCES n (b), CONSTRAINT fu FOREIGN KEY (c) REFERENCES u (x));"%string.
Definition my_kb := "CREATE TABLE u (x INT, y TEXT, PRIMARY KEY (x)); CREATE TABLE t (a INT);"%string.
Definition my_ka := "CREATE TABLE u (x INT, z TEXT, PRIMARY KEY (x)); CREATE TABLE t (a INT, CONSTRAINT f FOREIGN KEY (a) REFERENCES u (x)); CREATE TABLE n (b INT, PRIMARY KEY (b)); CREATE TABLE o (c INT, CONSTRAINT fo FOREIGN KEY (c) REFERENCES n (b));"%string.
Definition keeps_keys (d : dialect) (b a : string) : bool := ordered d b a && keys_in_place d (schema d b) (schema d a).
Example C85_examples : keeps_keys Pg kp_before kp_after = true /\ keeps_keys Crdb kp_before kp_after = true /\ keeps_keys My my_kb my_ka = true.
Proof. repeat split; vm_compute; reflexivity. Qed.
Example C85_text : printed Pg (diff_of Pg (schema Pg kp_before) (schema Pg kp_after)) = Some (
"DROP TABLE w;
DROP TABLE v;
CREATE TABLE n (
    b INTEGER,
    CONSTRAINT pn PRIMARY KEY (b)
);
CREATE TABLE o (
    c INTEGER,
    CONSTRAINT fo FOREIGN KEY (c) REFERENCES n (b),
    CONSTRAINT fu FOREIGN KEY (c) REFERENCES u (x)
);
ALTER TABLE u DROP COLUMN y;
ALTER TABLE u ADD COLUMN z TEXT;
ALTER TABLE t ADD CONSTRAINT f FOREIGN KEY (a) REFERENCES u (x);
")%string.
Proof. vm_compute. reflexivity. Qed.

(** A key that is a unique index; its table loses one column and gains another. *)
Definition ki_before := "CREATE TABLE u (x INTEGER, y TEXT); CREATE UNIQUE INDEX iu ON u (x); CREATE TABLE t (a INTEGER);"%string.
Definition ki_after := "CREATE TABLE u (x INTEGER, z TEXT); CREATE UNIQUE INDEX iu ON u (x); CREATE TABLE t (a INTEGER, CONSTRAINT f FOREIGN KEY (a) REFERENCES u (x)); CREATE TABLE n (b INTEGER, CONSTRAINT g FOREIGN KEY (b) REFERENCES u (x));"%string.
Example C85_index_examples : keeps_keys Pg ki_before ki_after = true /\ keeps_keys Crdb ki_before ki_after = true.
Proof. repeat split; vm_compute; reflexivity. Qed.
Example C85_index_text : printed Pg (diff_of Pg (schema Pg ki_before) (schema Pg ki_after)) = Some (
"CREATE TABLE n (
    b INTEGER,
    CONSTRAINT g FOREIGN KEY (b) REFERENCES u (x)
);
ALTER TABLE u DROP COLUMN y;
ALTER TABLE u ADD COLUMN z TEXT;
ALTER TABLE t ADD CONSTRAINT f FOREIGN KEY (a) REFERENCES u (x);
")%string.
Proof. vm_compute. reflexivity. Qed.

(** ** What fails *)
(** The keys that can be there after some statements *)
Definition made_by (o : op) : list key := match o with Add k _ | Put k _ => [k] | Fresh t => [KTab t] | _ => [] end.
Definition reachable (d : dialect) (b l : ddl) : list key := keys d b ++ flat_map made_by (flat_map (stmt_ops d) l).
Definition plain_stmt (s : stmt) : bool := match s with AlterTable _ _ (RenameTable _) => false | _ => true end.
Lemma made_op : forall o k v w, eff o k v = Some w -> w <> None -> v <> None \/ In k (made_by o).
Proof.
  intros o k v w H N. destruct v as [v|]; [left; discriminate|]. destruct o; cbn [eff made_by] in *;
    repeat match type of H with context [if ?b then _ else _] => let Eb := fresh "Eb" in destruct b eqn:Eb end; cbn in H; try discriminate H; try (injection H as <-);
    try (exfalso; apply N; reflexivity); right; left; apply key_eqb_eq; assumption.
Qed.
Lemma made_run : forall k os v w, at_key k os v = Some w -> w <> None -> v <> None \/ In k (flat_map made_by os).
Proof.
  intros k os. induction os as [|o os IH]; intros v w H N; cbn [at_key flat_map] in *; [left; congruence|].
  destruct (eff o k v) as [u|] eqn:F; [|discriminate H]. rewrite in_app_iff. destruct (IH u w H N) as [Y|Y]; [|tauto]. destruct (made_op o k v u F Y); tauto.
Qed.
Lemma made_steps : forall d l m m', forallb plain_stmt l = true -> steps d l m m' -> forall k, m' k <> None -> m k <> None \/ In k (flat_map made_by (flat_map (stmt_ops d) l)).
Proof.
  intros d l m m' P H. induction H as [m|s r m x y m' X Tr H IH]; intros k N; [left; exact N|]. cbn [forallb flat_map] in *. apply andb_true_iff in P. destruct P as [P1 P2].
  rewrite flat_map_app, in_app_iff. destruct (IH P2 k N) as [Y|Y]; [|tauto].
  assert (Nx : x k <> None) by (destruct Tr; subst y; [exact Y|]; destruct (sweep x k) as [v|] eqn:S1; [rewrite (sweep_some _ _ _ S1); discriminate|contradiction]).
  assert (NR : InterruptFacts.no_rename s) by (destruct s; try exact I; destruct a; try exact I; discriminate P1).
  destruct (exec_at d s m x X NR) as [Q|Q]; [left; congruence|]. destruct (made_run k _ _ _ (Q k) Nx); tauto.
Qed.

(** After the first [n] statements a foreign key lacks its key. *)
Definition lacks (ks : list key) (m : db) : bool :=
  existsb (fun k => match m k with
    | Some (VCon (SForeign _ ref cols _)) =>
        present (m (KTab ref)) && negb (existsb (fun q => match m q with Some u => backs ref cols q u | None => false end) ks)
    | _ => false
    end) ks.
Definition loses (d : dialect) (b a : ddl) (n : nat) : bool :=
  match diff_of d b a with
  | DOk l => forallb plain_stmt (firstn n l) &&
      match dep_exec_all d (firstn n l) (catalogue d b) with Some m => lacks (reachable d b (firstn n l)) m | None => false end
  | _ => false
  end.
Lemma lacks_not_keyed : forall ks m, (forall k, m k <> None -> In k ks) -> lacks ks m = true -> ~ keyed m.
Proof.
  intros ks m C H K. unfold lacks in H. apply existsb_exists in H. destruct H as [k [_ H]]. destruct (m k) as [v|] eqn:V; [|discriminate H].
  destruct v as [|?|s|?|?|?]; try discriminate H. destruct s as [|cols ref rc act| |]; try discriminate H. apply andb_true_iff in H. destruct H as [H1 H2].
  destruct (K k _ V H1) as [q [u [Q1 Q2]]]. apply negb_true_iff in H2. assert (F : existsb (fun q => match m q with Some u => backs ref rc q u | None => false end) ks = true); [|congruence].
  apply existsb_exists. exists q. split; [apply C; congruence|]. rewrite Q1. exact Q2.
Qed.

(** Both schemas give every foreign key its key, a database that does not ask for keys executes
    the difference with dependencies enforced (C19), but at some point a key is missing. *)
Definition key_missing (d : dialect) (b a : string) : Prop :=
  fits d b a = true /\ in_order d (schema d b) (schema d a) = true
  /\ keyed (catalogue d (schema d b)) /\ keyed (catalogue d (schema d a))
  /\ exists done todo m, diff_of d (schema d b) (schema d a) = DOk (done ++ todo)
       /\ dep_exec_all d done (catalogue d (schema d b)) = Some m /\ ~ keyed m.
Lemma covered_keyed : forall d l, described d l = true -> covered d l l = true -> keyed (catalogue d l).
Proof.
  intros d l D C k v V. apply described_ok in D. destruct v as [|?|s|?|?|?]; try exact I. destruct s as [|cols ref rc act| |]; try exact I. intros _.
  destruct (covered_read d l l _ _ k cols ref rc act D D C V) as [q [u [B [U _]]]]. exists q, u. split; assumption.
Qed.
Definition missing_test (d : dialect) (b a : string) (n : nat) : bool :=
  ordered d b a && described d (schema d b) && described d (schema d a) && covered d (schema d b) (schema d b) && covered d (schema d a) (schema d a)
  && loses d (schema d b) (schema d a) n.
Lemma missing_witness : forall d b a n, missing_test d b a n = true -> key_missing d b a.
Proof.
  intros d b a n H. unfold missing_test, ordered in H. rewrite !andb_true_iff in H. destruct H as [[[[[[F O] D1] D2] C1] C2] L].
  split; [exact F|]. split; [exact O|]. split; [exact (covered_keyed d _ D1 C1)|]. split; [exact (covered_keyed d _ D2 C2)|].
  unfold loses in L. destruct (diff_of d (schema d b) (schema d a)) as [l| | |]; try discriminate L. apply andb_true_iff in L. destruct L as [P L].
  destruct (dep_exec_all d (firstn n l) (catalogue d (schema d b))) as [m|] eqn:X; [|discriminate L].
  exists (firstn n l), (skipn n l), m. split; [rewrite firstn_skipn; reflexivity|]. split; [exact X|]. refine (lacks_not_keyed _ _ _ L). intros k N. unfold reachable. rewrite in_app_iff. destruct (made_steps d _ _ _ P (dep_steps d _ _ _ X) k N) as [Y|Y]; [left|right; exact Y].
  exact (proj2 (keys_read d (schema d b) _ k (described_ok d _ D1)) Y).
Qed.

(** A new foreign key to a new key: tables change in the order of the old schema. *)
Definition nk_before := "CREATE TABLE t (a INTEGER); CREATE TABLE u (x INTEGER);"%string.
Definition nk_after := "CREATE TABLE t (a INTEGER, CONSTRAINT f FOREIGN KEY (a) REFERENCES u (x)); CREATE TABLE u (x INTEGER, CONSTRAINT k UNIQUE (x));"%string.
Theorem C85_new_key_refuted : exists b a, key_missing Pg b a.
Proof. exists nk_before, nk_after. apply (missing_witness _ _ _ 1). vm_compute. reflexivity. Qed.
Print Assumptions C85_new_key_refuted.
Example C85_new_key_text : printed Pg (diff_of Pg (schema Pg nk_before) (schema Pg nk_after)) = Some (
"ALTER TABLE t ADD CONSTRAINT f FOREIGN KEY (a) REFERENCES u (x);
ALTER TABLE u ADD CONSTRAINT k UNIQUE (x);
")%string.
Proof. vm_compute. reflexivity. Qed.
(** The name of a key changes: it is dropped before it is added. *)
Definition rk_before := "CREATE TABLE u (x INTEGER, CONSTRAINT p PRIMARY KEY (x)); CREATE TABLE t (a INTEGER, CONSTRAINT f FOREIGN KEY (a) REFERENCES u (x));"%string.
Definition rk_after := "CREATE TABLE u (x INTEGER, CONSTRAINT q PRIMARY KEY (x)); CREATE TABLE t (a INTEGER, CONSTRAINT f FOREIGN KEY (a) REFERENCES u (x));"%string.
Theorem C85_renamed_key_refuted : exists b a, key_missing Pg b a.
Proof. exists rk_before, rk_after. apply (missing_witness _ _ _ 1). vm_compute. reflexivity. Qed.
Print Assumptions C85_renamed_key_refuted.
(** A key and the foreign key to it go: the key goes first if its table is the first. *)
Definition gk_before := "CREATE TABLE u (x INTEGER, CONSTRAINT k UNIQUE (x)); CREATE TABLE t (a INTEGER, CONSTRAINT f FOREIGN KEY (a) REFERENCES u (x));"%string.
Definition gk_after := "CREATE TABLE u (x INTEGER); CREATE TABLE t (a INTEGER);"%string.
Theorem C85_dropped_key_refuted : exists b a, key_missing Pg b a.
Proof. exists gk_before, gk_after. apply (missing_witness _ _ _ 1). vm_compute. reflexivity. Qed.
Print Assumptions C85_dropped_key_refuted.
(** The same with a unique index, which goes before any table changes. *)
Definition gi_before := "CREATE TABLE t (a INTEGER, CONSTRAINT f FOREIGN KEY (a) REFERENCES u (x)); CREATE TABLE u (x INTEGER); CREATE UNIQUE INDEX iu ON u (x);"%string.
Definition gi_after := "CREATE TABLE t (a INTEGER); CREATE TABLE u (x INTEGER);"%string.
Theorem C85_dropped_index_refuted : exists b a, key_missing Pg b a.
Proof. exists gi_before, gi_after. apply (missing_witness _ _ _ 1). vm_compute. reflexivity. Qed.
Print Assumptions C85_dropped_index_refuted.
Example C85_dropped_index_text : printed Pg (diff_of Pg (schema Pg gi_before) (schema Pg gi_after)) = Some (
"DROP INDEX iu;
ALTER TABLE t DROP CONSTRAINT f;
")%string.
Proof. vm_compute. reflexivity. Qed.
(** The order of statements is the same in the other dialects. *)
Theorem C85_cockroach_new_key_refuted : exists b a, key_missing Crdb b a.
Proof. exists nk_before, "CREATE TABLE t (a INTEGER, CONSTRAINT f FOREIGN KEY (a) REFERENCES u (x)); CREATE TABLE u (x INTEGER, CONSTRAINT p PRIMARY KEY (x));"%string. apply (missing_witness _ _ _ 1). vm_compute. reflexivity. Qed.
Print Assumptions C85_cockroach_new_key_refuted.
Theorem C85_mysql_new_key_refuted : exists b a, key_missing My b a.
Proof.
  exists "CREATE TABLE t (a INT); CREATE TABLE u (x INT NOT NULL);"%string, "CREATE TABLE t (a INT, CONSTRAINT f FOREIGN KEY (a) REFERENCES u (x)); CREATE TABLE u (x INT NOT NULL, PRIMARY KEY (x));"%string.
  apply (missing_witness _ _ _ 1). vm_compute. reflexivity.
Qed.
Print Assumptions C85_mysql_new_key_refuted.
(** What is new is created in the order of the new schema: a unique index at its end comes after the
    table that refers to its columns. *)
Definition ei_before := "CREATE TABLE u (x INTEGER);"%string.
Definition ei_after := "CREATE TABLE u (x INTEGER); CREATE TABLE t (a INTEGER, CONSTRAINT f FOREIGN KEY (a) REFERENCES u (x)); CREATE UNIQUE INDEX iu ON u (x);"%string.
Theorem C85_index_at_the_end_refuted : exists b a, key_missing Pg b a.
Proof. exists ei_before, ei_after. apply (missing_witness _ _ _ 1). vm_compute. reflexivity. Qed.
Print Assumptions C85_index_at_the_end_refuted.
Example C85_index_at_the_end_text : printed Pg (diff_of Pg (schema Pg ei_before) (schema Pg ei_after)) = Some (
"CREATE TABLE t (
    a INTEGER,
    CONSTRAINT f FOREIGN KEY (a) REFERENCES u (x)
);
CREATE UNIQUE INDEX iu ON u (x);
")%string.
Proof. vm_compute. reflexivity. Qed.
(** With the index before that table, or with the foreign key added to a table that was there, the
    key is there in time. *)
Definition keeps_all (d : dialect) (b a : string) : bool :=
  match diff_of d (schema d b) (schema d a) with
  | DOk l => forallb (fun n => match dep_exec_all d (firstn n l) (catalogue d (schema d b)) with
                               | Some m => negb (lacks (reachable d (schema d b) (firstn n l)) m) | None => false end) (seq 0 (S (List.length l)))
  | _ => false
  end.
Example C85_index_in_time :
  keeps_all Pg ei_before "CREATE TABLE u (x INTEGER); CREATE UNIQUE INDEX iu ON u (x); CREATE TABLE t (a INTEGER, CONSTRAINT f FOREIGN KEY (a) REFERENCES u (x));" = true
  /\ keeps_all Pg nk_before "CREATE TABLE t (a INTEGER, CONSTRAINT f FOREIGN KEY (a) REFERENCES u (x)); CREATE TABLE u (x INTEGER); CREATE UNIQUE INDEX iu ON u (x);" = true
  /\ keeps_all Pg ei_before ei_after = false.
Proof. vm_compute. repeat split; reflexivity. Qed.
