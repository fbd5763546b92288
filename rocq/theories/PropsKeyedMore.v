(** C85, continued: foreign keys that refer to a unique index that is new. *)
From Verif Require Import GoStr Token Ast Parser Diff Db DbFacts AppendFacts DiffTable DiffPair DiffSound Tidy Reconcile ReconcileFacts DiffSpec Frame InterruptFacts
  DbDep DepFacts DbRefuse InPlaceFacts DbKeyed KeyedFacts DoomFacts PropsDiff PropsDep PropsKeyed PropsNewIndex.
Local Open Scope list_scope.

(** * SPECIFICATION *)
(** The foreign key [e] of [x] refers to a key that is the same in [y], or to a constraint of a
    table that is not in [y]: one conjunct of [covered] (DbKeyed.v). *)
Definition covered_entry (d : dialect) (x y : ddl) (e : key * value) : bool :=
  match snd e with
  | VCon (SForeign _ ref cols _) =>
      existsb (fun f => backs ref cols (fst f) (snd f)
               && (same (option_dec value_dec) (lookup_key (fst f) (objects d x)) (lookup_key (fst f) (objects d y))
                   || is_con (fst f) && negb (mem_key (KTab ref) (keys d y)))) (objects d x)
  | _ => true
  end.
(** The foreign key [e] of the new schema [a] belongs to a table that was there and refers to a
    unique index that was not. *)
Definition new_index_entry (d : dialect) (b a : ddl) (e : key * value) : bool :=
  match e with
  | (KCon t _, VCon (SForeign _ ref cols _)) =>
      mem_key (KTab t) (keys d b)
      && existsb (fun s => match s with
           | CreateIndex j => backs ref cols (KIdx (qname (cx_name j))) (VIdx (sem_index d j)) && negb (mem_key (KIdx (qname (cx_name j))) (keys d b))
           | _ => false
           end) a
  | _ => false
  end.
(** The foreign key [e] belongs to a new table and refers to a unique index that is new and declared
    before that table. *)
Definition creates_table (t : string) (s : stmt) : bool := match s with CreateTable c => String.eqb (qname (ct_name c)) t | _ => false end.
Fixpoint until_table (t : string) (l : ddl) : ddl :=
  match l with
  | [] => []
  | s :: r => if creates_table t s then [] else s :: until_table t r
  end.
Definition declared_entry (d : dialect) (b a : ddl) (e : key * value) : bool :=
  match e with
  | (KCon t _, VCon (SForeign _ ref cols _)) =>
      negb (mem_key (KTab t) (keys d b))
      && existsb (fun s => match s with
           | CreateIndex j => backs ref cols (KIdx (qname (cx_name j))) (VIdx (sem_index d j)) && negb (mem_key (KIdx (qname (cx_name j))) (keys d b))
           | _ => false
           end) (until_table t a)
  | _ => false
  end.
Definition keys_in_time (d : dialect) (b a : ddl) : bool :=
  covered d b a && forallb (fun e => covered_entry d a b e || new_index_entry d b a e || declared_entry d b a e) (objects d a).

(** * Proofs *)
Lemma covered_one : forall d l l' m0 m1 k cols ref refcols act, describes d l m0 -> describes d l' m1 ->
  covered_entry d l l' (k, VCon (SForeign cols ref refcols act)) = true ->
  exists q v, backs ref refcols q v = true /\ m0 q = Some v /\ (m1 q = Some v \/ (is_con q = true /\ ~ has_table ref l')).
Proof.
  intros d l l' m0 m1 k cols ref refcols act D D' C.
  pose proof (objects_entries d l (read_create d l m0 D) (read_named d l m0 D)) as Eo. pose proof (objects_entries d l' (read_create d l' m1 D') (read_named d l' m1 D')) as Eo'.
  unfold covered_entry in C. cbn [snd] in C. rewrite Eo, Eo' in C. apply existsb_exists in C. destruct C as [[q v] [I C]]. cbn [fst snd] in C.
  rewrite !andb_true_iff in C. destruct C as [C2 C3].
  pose proof (In_assoc _ _ _ (read_nodup d l m0 D) I) as A. exists q, v. split; [exact C2|]. split; [rewrite (read_assoc d l m0 D); exact A|].
  apply orb_true_iff in C3. destruct C3 as [C3|C3].
  - left. apply same_eq in C3. rewrite (lookup_assoc _ (entries d l)), (lookup_assoc _ (entries d l')) in C3. rewrite (read_assoc d l' m1 D'). congruence.
  - right. apply andb_true_iff in C3. destruct C3 as [C1 C3]. split; [exact C1|]. intro F. apply negb_true_iff in C3. pose proof (proj2 (keys_read d l' m1 (KTab ref) D')) as K. rewrite (present_table d l' m1 ref D' F) in K. specialize (K ltac:(discriminate)).
    apply mem_key_In in K. congruence.
Qed.
Lemma alter_or_not : forall l : ddl, (exists c n a, In (AlterTable c n a) l) \/ (forall c n a, ~ In (AlterTable c n a) l).
Proof.
  induction l as [|s l IH]; [right; intros c n a []|]. destruct IH as [[c [n [a H]]]|H]; [left; exists c, n, a; right; exact H|].
  destruct s as [t|i|c ie n|c ie n|c n a]; try (right; intros c' n' a' [F|F]; [discriminate F|exact (H _ _ _ F)]). left. exists c, n, a. left. reflexivity.
Qed.

Lemma until_split : forall t s l, In s (until_table t l) -> exists p q, l = p ++ s :: q /\ forallb (fun x => negb (creates_table t x)) (p ++ [s]) = true.
Proof.
  intros t s. induction l as [|x l IH]; intro I; [destruct I|]. cbn [until_table] in I. destruct (creates_table t x) eqn:C; [destruct I|]. destruct I as [->|I].
  - exists [], l. split; [reflexivity|]. cbn [List.app forallb]. rewrite C. reflexivity.
  - destruct (IH I) as [p [q [-> H]]]. exists (x :: p), q. split; [reflexivity|]. cbn [List.app forallb]. rewrite C. exact H.
Qed.
Lemma later_part : forall (f : stmt -> bool) (P C done todo : ddl), P ++ C = done ++ todo -> forallb (fun x => negb (f x)) P = true ->
  existsb f done = true -> exists x, C = x ++ todo.
Proof.
  intro f. induction P as [|p P IH]; intros C dn todo E N H; [exists dn; exact E|]. destruct dn as [|s dn]; [discriminate H|].
  cbn [List.app] in E. injection E as <- E. cbn [forallb] in N. apply andb_true_iff in N. destruct N as [N1 N2]. apply negb_true_iff in N1. cbn [existsb] in H. rewrite N1 in H. exact (IH C dn todo E N2 H).
Qed.
Lemma alter_silent : forall d t x c n a, qname n <> t -> InterruptFacts.no_rename (AlterTable c n a) -> silent d (KCon t x) (AlterTable c n a) = true.
Proof.
  intros d t x c n a N R. apply (about_silent_con d n t x (match a with AddConstraint y _ => [y] | _ => [] end)); [intros y _ G; contradiction|].
  split; [reflexivity|]. destruct a; try exact Logic.I; [destruct R|left; reflexivity].
Qed.
(** A new index is there once a table declared after it is created. *)
Lemma declared_first : forall d srt sdiff before after mb ma l r m t j, srt_ok srt -> describes d before mb -> describes d after ma ->
  reconcilable d before after = true -> text_ok d before after = true -> in_order d before after = true ->
  diff d srt sdiff (Some before) (Some after) = DOk (l ++ r) -> dep_exec_all d l mb = Some m ->
  In (CreateIndex j) (until_table t after) -> mb (KIdx (qname (cx_name j))) = None -> existsb (creates_table t) l = true ->
  m (KIdx (qname (cx_name j))) = Some (VIdx (sem_index d j)).
Proof.
  intros d srt sdiff before after mb ma l r m t j Hs DB DA Rc To Io E X U Nb Cr.
  pose proof (diff_respects d srt sdiff before after mb ma Hs DB DA Rc To Io) as R. rewrite E in R. destruct R as [mf [Xf Ef]].
  rewrite DoomFacts.dep_all_app, X in Xf.
  pose proof (read_create d before mb DB) as CB. pose proof (read_create d after ma DA) as CA. pose proof (read_nodup d after ma DA) as NA.
  destruct (diff_ddl_shape d srt sdiff before after _ CB CA E) as [changes [Ec Sh]].
  destruct (until_split t _ _ U) as [p [q [Ea Np]]].
  assert (Ij : In (CreateIndex j) after) by (rewrite Ea; apply in_or_app; right; left; reflexivity).
  assert (Nn : forall i, In (CreateIndex i) before -> qname (cx_name i) <> qname (cx_name j)) by (intros i Ii G; pose proof (index_value d before mb i DB Ii) as V; rewrite G in V; congruence).
  assert (Q : forallb (silent d (KIdx (qname (cx_name j)))) changes = true) by exact (new_index_silent d srt sdiff before after j changes Hs CB CA NA Nn Ij Ec).
  assert (Fj : find_stmt (CreateIndex j) before = None).
  { destruct (find_stmt (CreateIndex j) before) as [s|] eqn:F; [|reflexivity]. exfalso. destruct (found_index j before s F) as [i [-> [Ii Ei]]]. exact (Nn i Ii (eq_sym Ei)). }
  assert (Fl : only_left_stmts after before = (only_left_stmts p before ++ [CreateIndex j]) ++ only_left_stmts q before).
  { unfold only_left_stmts. rewrite Ea, filter_app. cbn [filter]. rewrite Fj, <- app_assoc. reflexivity. }
  assert (Qq : forallb (silent d (KIdx (qname (cx_name j)))) (only_left_stmts q before) = true).
  { apply forallb_forall. intros s I. apply Justified.only_left_in in I. destruct I as [I _]. assert (Ia : In s after) by (rewrite Ea; apply in_or_app; right; right; exact I).
    pose proof (proj1 (forallb_forall _ _) CA s Ia) as K. destruct s as [u|i0| | |]; try discriminate K.
    - apply create_silent_idx. apply (index_inner_free d after j u); assumption.
    - unfold silent. cbn [no_rename stmt_ops create_index_ops andb]. apply mute_add. intro G. injection G as G.
      rewrite Ea in NA. unfold entries in NA. rewrite flat_map_app in NA. cbn [flat_map] in NA. rewrite map_app in NA.
      cbn [stmt_entries map fst List.app] in NA. apply NoDup_remove_2 in NA. apply NA. apply in_or_app. right. apply in_map_iff.
      exists (KIdx (qname (cx_name i0)), VIdx (sem_index d i0)). split; [cbn [fst]; congruence|]. apply in_flat_map. exists (CreateIndex i0). split; [exact I|]. left. reflexivity. }
  assert (Z : exists x, only_left_stmts q before ++ changes = x ++ r).
  { apply (later_part (creates_table t) (map drop1 (only_left_stmts before after) ++ (only_left_stmts p before ++ [CreateIndex j])) _ l r); [|rewrite forallb_app; apply andb_true_iff; split|exact Cr].
    - rewrite Sh, Fl, <- !app_assoc. reflexivity.
    - apply forallb_forall. intros s I. apply in_map_iff in I. destruct I as [s0 [<- I]]. apply Justified.only_left_in in I. destruct I as [I _].
      pose proof (proj1 (forallb_forall _ _) CB s0 I) as K. destruct s0; try discriminate K; reflexivity.
    - rewrite forallb_app in Np |- *. apply andb_true_iff in Np. destruct Np as [Np _]. apply andb_true_iff. split; [|reflexivity].
      apply forallb_forall. intros s I. apply Justified.only_left_in in I. destruct I as [I _]. exact (proj1 (forallb_forall _ _) Np s I). }
  destruct Z as [x Z]. assert (Qr : forallb (silent d (KIdx (qname (cx_name j)))) (x ++ r) = true) by (rewrite <- Z, forallb_app, Qq, Q; reflexivity).
  rewrite forallb_app in Qr. apply andb_true_iff in Qr. destruct Qr as [_ Qr].
  apply (dep_silent_back d _ _ r m mf Qr Xf). rewrite (Ef _). exact (index_value d after ma j DA Ij).
Qed.

(** Under the conditions of C19, if every foreign key refers to a key that is the same in both
    schemas, to a constraint whose table comes or goes with it, or to a unique index that is new
    and, if the foreign key is that of a new table, declared before it: whatever part of the difference is executed, every foreign key
    has its key.  Missing for the full property: other pairs, for some of which it is false
    (PropsKeyed.v), and Spanner, which asks for no keys. *)
Theorem C85_keys_are_in_time_partial : forall d srt sdiff before after mb ma done todo,
  srt_ok srt -> describes d before mb -> describes d after ma -> d <> Sp ->
  reconcilable d before after = true -> text_ok d before after = true -> in_order d before after = true ->
  keys_in_time d before after = true ->
  diff d srt sdiff (Some before) (Some after) = DOk (done ++ todo) ->
  exists m, dep_exec_all d done mb = Some m /\ keyed m.
Proof.
  intros d srt sdiff before after mb ma l r Hs DB DA NS Rc To Or Ke E.
  pose proof (diff_respects d srt sdiff before after mb ma Hs DB DA Rc To Or) as R. rewrite E in R. destruct R as [mf [X _]].
  rewrite DoomFacts.dep_all_app in X. destruct (dep_exec_all d l mb) as [m|] eqn:Y; [|discriminate X]. exists m. split; [reflexivity|].
  destruct (reconcilable_tidy d before after Rc) as [TB TA]. destruct (order_closed d before after Or) as [CB CA].
  pose proof (reconcilable_style d before after Rc) as Sy. pose proof (dep_steps d l mb m Y) as H.
  intros k v V. assert (Hl : forall s, In s l -> In s (l ++ r)) by (intros s I; apply in_or_app; left; exact I).
  destruct v as [|?|s|?|?|?]; try exact I. destruct s as [|cols ref refcols act| |]; try exact I. cbn [backed]. intro P.
  unfold keys_in_time in Ke. apply andb_true_iff in Ke. destruct Ke as [C1 C2].
  destruct (entire_steps d srt sdiff before after mb ma (l ++ r) Hs DB DA TB TA E CB CA l mb m ref Hl H) as [Ef Eg].
  assert (St : forall q v, backs ref refcols q v = true -> mb q = Some v -> ma q = Some v -> m q = Some v).
  { intros q v B Vb Va. destruct (is_con q) eqn:Q.
    - destruct (backs_con _ _ _ _ B Q) as [x [-> Kv]]. apply (key_kept d srt sdiff before after mb ma (l ++ r) Hs DB DA TB TA E CB CA NS l mb m Hl H ref x v Kv Vb Va); [|exact Vb]. intros n Hn.
      apply (some_there d before mb n ref DB); [apply (needs_key _ _ _ _ Kv Hn)|exact (closed_read d before mb _ _ _ DB CB Vb Hn)].
    - destruct (backs_idx _ _ _ _ B Q) as [i [x [-> ->]]]. apply (index_kept d srt sdiff before after mb ma (l ++ r) Hs DB DA TB TA E CB CA NS Sy l mb m Hl H i x Vb Va); [|exact Vb]. intros n Hn.
      apply (some_there d before mb n (si_table x) DB); [apply (needs_index _ _ _ Hn)|exact (closed_read d before mb _ _ _ DB CB Vb Hn)]. }
  assert (Old : mb k = Some (VCon (SForeign cols ref refcols act)) -> exists q u, m q = Some u /\ backs ref refcols q u = true).
  { intro Z. destruct (covered_read d before after mb ma k cols ref refcols act DB DA C1 Z) as [q [v [Bk [V0 [V1|[Q N]]]]]]; exists q, v; (split; [|exact Bk]); [exact (St q v Bk V0 V1)|].
    destruct (backs_con _ _ _ _ Bk Q) as [x [-> Kv]].
    destruct (Eg N) as [F|F]; [right; reflexivity|rewrite F in P; discriminate P|]. rewrite <- V0. apply (F (KCon ref x) eq_refl). right. exists ref, x, v. auto. }
  destruct (origin d srt sdiff before after mb ma (l ++ r) Hs DB DA TB TA E CB CA l mb m Hl H k (VCon (SForeign cols ref refcols act)) Logic.I V) as [Z|Z]; [exact (Old Z)|].
  assert (Ie : In (k, VCon (SForeign cols ref refcols act)) (objects d after)).
  { rewrite (objects_entries d after (read_create d after ma DA) (read_named d after ma DA)). rewrite (read_assoc d after ma DA) in Z. apply assoc_In in Z. exact Z. }
  rewrite forallb_forall in C2. specialize (C2 _ Ie). apply orb_true_iff in C2. destruct C2 as [C2|C2]; [apply orb_true_iff in C2; destruct C2 as [C2|C2]|].
  - destruct (covered_one d after before ma mb k cols ref refcols act DA DB C2) as [q [v [Bk [V0 [V1|[Q N]]]]]]; exists q, v; (split; [|exact Bk]); [exact (St q v Bk V1 V0)|].
    destruct (backs_con _ _ _ _ Bk Q) as [x [-> Kv]].
    destruct (Ef N) as [F|F]; [left; exact (missing_table d before mb ref DB N)|rewrite F in P; discriminate P|]. rewrite <- V0. apply (F (KCon ref x) eq_refl). right. exists ref, x, v. auto.
  - cbn [new_index_entry] in C2. destruct k as [?|? ?|t x|? ?|?|?]; try discriminate C2. apply andb_true_iff in C2. destruct C2 as [Kt C2].
    apply existsb_exists in C2. destruct C2 as [s [Ij C2]]. destruct s as [?|j|? ? ?|? ? ?|? ? ?]; try discriminate C2. apply andb_true_iff in C2. destruct C2 as [Bk Nk].
    assert (HT : has_table t before).
    { apply (owned_has d before mb (KTab t) t DB eq_refl). apply mem_key_In in Kt. apply (keys_read d before mb (KTab t) DB) in Kt. destruct (mb (KTab t)); [reflexivity|contradiction]. }
    destruct (alter_or_not l) as [[c [n [a Al]]]|Na].
    + exists (KIdx (qname (cx_name j))), (VIdx (sem_index d j)). split; [|exact Bk].
      apply (C85_new_index_is_there_first d srt sdiff before after mb ma l r j m Hs DB DA Rc To Or E Y); [exists c, n, a; left; exact Al|exact Ij|].
      destruct (mb (KIdx (qname (cx_name j)))) as [w|] eqn:W; [|reflexivity]. exfalso. apply negb_true_iff in Nk.
      assert (In (KIdx (qname (cx_name j))) (keys d before)) as G by (apply (keys_read d before mb _ DB); congruence). apply mem_key_In in G. congruence.
    + apply Old. apply (dep_silent_back d (KCon t x) _ l mb m); [|exact Y|exact V]. apply forallb_forall. intros s Is.
      destruct s as [ct|i|c ie n|c ie n|c n a]; [|apply create_index_silent_con|reflexivity|unfold silent; cbn [no_rename stmt_ops andb]; unfold drop_index_ops; destruct d; reflexivity|exfalso; exact (Na c n a Is)].
      apply create_silent_con. intro G.
      assert (M : mentions_table t (CreateTable ct) = true) by (cbn [mentions_table]; apply String.eqb_eq; exact G).
      destruct (KeyedFacts.about d srt sdiff before after (l ++ r) Hs TB TA E _ t (Hl _ Is) M) as [_ [F|F]]; [exact (F HT)|exact (not_recreated_ d before after NS t F)].
  - cbn [declared_entry] in C2. destruct k as [?|? ?|t x|? ?|?|?]; try discriminate C2. apply andb_true_iff in C2. destruct C2 as [Kt C2].
    apply existsb_exists in C2. destruct C2 as [s [Ij C2]]. destruct s as [?|j|? ? ?|? ? ?|? ? ?]; try discriminate C2. apply andb_true_iff in C2. destruct C2 as [Bk Nk].
    assert (HT : ~ has_table t before).
    { intro F. apply negb_true_iff in Kt. pose proof (proj2 (keys_read d before mb (KTab t) DB)) as K. rewrite (present_table d before mb t DB F) in K. specialize (K ltac:(discriminate)). apply mem_key_In in K. congruence. }
    destruct (existsb (creates_table t) l) eqn:Cr.
    + exists (KIdx (qname (cx_name j))), (VIdx (sem_index d j)). split; [|exact Bk].
      apply (declared_first d srt sdiff before after mb ma l r m t j Hs DB DA Rc To Or E Y Ij); [|exact Cr].
      destruct (mb (KIdx (qname (cx_name j)))) as [w|] eqn:W; [|reflexivity]. exfalso. apply negb_true_iff in Nk.
      assert (In (KIdx (qname (cx_name j))) (keys d before)) as G by (apply (keys_read d before mb _ DB); congruence). apply mem_key_In in G. congruence.
    + apply Old. apply (dep_silent_back d (KCon t x) _ l mb m); [|exact Y|exact V]. apply forallb_forall. intros s Is.
      assert (Cs : creates_table t s = false) by (destruct (creates_table t s) eqn:G; [|reflexivity]; rewrite <- Cr; symmetry; apply existsb_exists; exists s; split; assumption).
      destruct s as [ct|i|c ie n|c ie n|c n a]; [|apply create_index_silent_con|reflexivity|unfold silent; cbn [no_rename stmt_ops andb]; unfold drop_index_ops; destruct d; reflexivity|].
      * apply create_silent_con. cbn [creates_table] in Cs. apply String.eqb_neq. exact Cs.
      * apply alter_silent; [|exact (diff_no_rename d srt sdiff before after (l ++ r) Hs TB TA E _ (Hl _ Is))]. intro G.
        assert (M : mentions_table t (AlterTable c n a) = true) by (cbn [mentions_table]; apply String.eqb_eq; exact G).
        destruct (KeyedFacts.about d srt sdiff before after (l ++ r) Hs TB TA E _ t (Hl _ Is) M) as [F _]. exact (HT F).
Qed.
Print Assumptions C85_keys_are_in_time_partial.
(** The condition is weaker than that of C85_keys_are_in_place_partial. *)
Lemma in_place_in_time : forall d b a, keys_in_place d b a = true -> keys_in_time d b a = true.
Proof.
  intros d b a H. unfold keys_in_place in H. apply andb_true_iff in H. destruct H as [H1 H2]. unfold keys_in_time. rewrite H1. cbn [andb].
  unfold covered in H2. rewrite forallb_forall in *. intros e I. apply orb_true_iff. left. apply orb_true_iff. left. exact (H2 e I).
Qed.
Example C85_in_time_example :
  ordered Pg nk_before ni_after && described Pg (schema Pg nk_before) && described Pg (schema Pg ni_after) && keys_in_time Pg (schema Pg nk_before) (schema Pg ni_after) = true
  /\ keys_in_place Pg (schema Pg nk_before) (schema Pg ni_after) = false
  /\ keys_in_time Pg (schema Pg ei_before) (schema Pg ei_after) = false /\ keys_in_time Pg (schema Pg nk_before) (schema Pg nk_after) = false.
Proof. repeat split; vm_compute; reflexivity. Qed.
Example C85_in_time_others : forallb (fun d => ordered d nk_before ni_after && keys_in_time d (schema d nk_before) (schema d ni_after)) [Pg; Crdb] = true.
Proof. vm_compute. reflexivity. Qed.
Definition di_after := "CREATE TABLE u (x INTEGER); CREATE UNIQUE INDEX iu ON u (x); CREATE TABLE t (a INTEGER, CONSTRAINT f FOREIGN KEY (a) REFERENCES u (x));"%string.
Example C85_declared_first : forallb (fun d => ordered d ei_before di_after && keys_in_time d (schema d ei_before) (schema d di_after)) [Pg; Crdb] = true
  /\ keys_in_place Pg (schema Pg ei_before) (schema Pg di_after) = false /\ described Pg (schema Pg ei_before) && described Pg (schema Pg di_after) = true.
Proof. repeat split; vm_compute; reflexivity. Qed.
(** The whole schema on an empty database *)
Example C85_from_nothing : forallb (fun d => ordered d "" di_after && keys_in_time d (schema d "") (schema d di_after)) [Pg; Crdb] = true
  /\ keys_in_time Pg (schema Pg "") (schema Pg ei_after) = false.
Proof. split; vm_compute; reflexivity. Qed.
