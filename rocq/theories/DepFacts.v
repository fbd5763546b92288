(** A diff of schemas that are in order (DbDep.v) never fails on a database that
    enforces dependencies. *)
From Coq Require Import Lia Permutation.
From Verif Require Import GoStr Token Ast Parser Diff Db DbFacts AppendFacts DiffTable DiffPair DiffSound Tidy TidyFacts Reconcile ReconcileFacts DbDep.

Local Open Scope list_scope.

Definition sound (m : db) : Prop := forall k v, m k = Some v -> intact m k v = true.

(** Tables and columns: the only keys that are needed *)
Definition tabcol (k : key) : Prop := match k with KTab _ | KCol _ _ => True | _ => False end.

Lemma columns_of_in : forall t cs n, In n (columns_of t cs) -> exists c, n = KCol t c /\ existsb (fun x => String.eqb (fst x) c) cs = true.
Proof.
  intros t cs n H. unfold columns_of in H. apply in_map_iff in H. destruct H as [c [E H]]. exists (fst c). split; [symmetry; exact E|].
  apply existsb_exists. exists c. split; [exact H|apply String.eqb_refl].
Qed.
Lemma refers_tabcol : forall v n, In n (refers v) -> tabcol n.
Proof.
  intros v n H. destruct v as [| |[]| | |]; try contradiction H. cbn [refers] in H. destruct H as [H|H]; [subst; exact I|].
  apply columns_of_in in H. destruct H as [c [H _]]. subst. exact I.
Qed.
Lemma needs_tabcol : forall k v n, In n (needs k v) -> tabcol n.
Proof.
  intros k v n H. destruct k as [| |t x| | |x], v as [| |[cs|cs r rc a|cs|e]| | |i]; try contradiction H; cbn [needs] in H.
  - apply columns_of_in in H. destruct H as [c [H _]]. subst. exact I.
  - apply in_app_or in H. destruct H as [H|H]; [|apply (refers_tabcol _ _ H)]. apply columns_of_in in H. destruct H as [c [H _]]. subst. exact I.
  - apply columns_of_in in H. destruct H as [c [H _]]. subst. exact I.
  - destruct H as [H|H]; [subst; exact I|]. apply columns_of_in in H. destruct H as [c [H _]]. subst. exact I.
Qed.
Lemma needs_conkey : forall k v n, In n (needs k v) -> conkey k.
Proof. intros k v n H. destruct k; try exact I; destruct v as [| |[]| | |]; contradiction H. Qed.
(** A needed column is a column of the object itself, or the object refers to it. *)
Lemma needs_col : forall k v t c, In (KCol t c) (needs k v) -> involves t c k v = true \/ In (KCol t c) (refers v).
Proof.
  intros k v t c H. destruct k as [| |u x| | |x], v as [| |[cs|cs r rc a|cs|e]| | |i]; try contradiction H; cbn [needs] in H.
  - apply columns_of_in in H. destruct H as [e [E H]]. inversion E; subst. left. cbn [involves con_involves]. rewrite String.eqb_refl, H. reflexivity.
  - apply in_app_or in H. destruct H as [H|H]; [|right; exact H]. apply columns_of_in in H. destruct H as [e [E H]]. inversion E; subst.
    left. cbn [involves con_involves]. rewrite String.eqb_refl, H. reflexivity.
  - apply columns_of_in in H. destruct H as [e [E H]]. inversion E; subst. left. cbn [involves con_involves]. rewrite String.eqb_refl, H. reflexivity.
  - destruct H as [H|H]; [discriminate H|]. apply columns_of_in in H. destruct H as [e [E H]]. inversion E; subst. left.
    cbn [involves]. rewrite String.eqb_refl, H. reflexivity.
Qed.
(** A needed key belongs to the table of the object, or the object refers to its table. *)
Lemma needs_owner : forall k v n t, In n (needs k v) -> owner n = Some t ->
  owner k = Some t \/ index_on t v = true \/ In (KTab t) (refers v).
Proof.
  intros k v n t H Ho. destruct k as [| |u x| | |x], v as [| |[cs|cs r rc a|cs|e]| | |i]; try contradiction H; cbn [needs] in H.
  - apply columns_of_in in H. destruct H as [e [E H]]. subst. left. exact Ho.
  - apply in_app_or in H. destruct H as [H|H].
    + apply columns_of_in in H. destruct H as [e [E H]]. subst. left. exact Ho.
    + right; right. destruct H as [H|H]; [subst; cbn in Ho; inversion Ho; subst; left; reflexivity|].
      apply columns_of_in in H. destruct H as [e [E H]]. subst. cbn in Ho. inversion Ho; subst. left; reflexivity.
  - apply columns_of_in in H. destruct H as [e [E H]]. subst. left. exact Ho.
  - right; left. cbn [index_on]. destruct H as [H|H]; [subst; cbn in Ho; inversion Ho; apply String.eqb_refl|].
    apply columns_of_in in H. destruct H as [e [E H]]. subst. cbn in Ho. inversion Ho. apply String.eqb_refl.
Qed.

Lemma intact_iff : forall m k v, intact m k v = true <-> forall n, In n (needs k v) -> present (m n) = true.
Proof. intros m k v. unfold intact. apply forallb_forall. Qed.
Lemma refers_needs : forall t x v n, In n (refers v) -> In n (needs (KCon t x) v).
Proof. intros t x v n H. destruct v as [| |[]| | |]; try contradiction H. cbn [needs]. apply in_or_app. right; exact H. Qed.

Lemma mem_key_In : forall k l, mem_key k l = true <-> In k l.
Proof.
  intros k l. unfold mem_key. rewrite existsb_exists. split.
  - intros [x [H E]]. apply key_eqb_eq in E. subst. exact H.
  - intro H. exists k. split; [exact H|apply key_eqb_refl].
Qed.
Lemma within_In : forall x y, within x y = true <-> forall k, In k x -> In k y.
Proof.
  intros x y. unfold within. rewrite forallb_forall. split; intros H k Hk; apply mem_key_In; apply H; exact Hk.
Qed.

Lemma db_eq_refl : forall m, db_eq m m. Proof. intros m k. reflexivity. Qed.
Lemma run_ext : forall os m n m', db_eq n m -> run os m = Some m' -> exists n', run os n = Some n' /\ db_eq n' m'.
Proof. intros os m n m' E H. apply run_by_key. intro k. rewrite E. apply run_at_key. exact H. Qed.
Lemma intact_ext : forall m n k v, db_eq m n -> intact m k v = intact n k v.
Proof. intros m n k v E. unfold intact. induction (needs k v) as [|x r IH]; [reflexivity|]. cbn [forallb]. rewrite E, IH. reflexivity. Qed.
Lemma sound_ext : forall m n, db_eq m n -> sound m -> sound n.
Proof. intros m n E H k v Hk. rewrite <- (intact_ext m n) by exact E. apply H. rewrite E. exact Hk. Qed.
Lemma sweep_sound : forall m, sound m -> db_eq (sweep m) m.
Proof. intros m H k. unfold sweep. destruct (m k) as [v|] eqn:E; [|reflexivity]. rewrite (H k v E). reflexivity. Qed.
Lemma new_intact_ext : forall d s m n m' n', db_eq m n -> db_eq m' n' -> new_intact d s m m' = new_intact d s n n'.
Proof.
  intros d s m n m' n' E E'. unfold new_intact. induction (objects d [s]) as [|x r IH]; [reflexivity|]. cbn [forallb].
  rewrite IH, E, E', (intact_ext m' n') by exact E'. reflexivity.
Qed.

Section Steps.
Variable d : dialect.

(** What one statement does in the enforcing database is what it does in the plain one. *)
Definition step_ok (s : stmt) (m m' : db) : Prop := sound m' /\ (removes s = false -> new_intact d s m m' = true).

Lemma dep_step : forall s m m' n, no_rename s = true -> run (stmt_ops d s) m = Some m' -> step_ok s m m' -> db_eq n m ->
  exists n', dep_exec d s n = Some n' /\ db_eq n' m'.
Proof.
  intros s m m' n Hn Hr [H1 H2] E. destruct (run_ext _ _ n _ E Hr) as [n' [Hr' E']]. unfold dep_exec.
  rewrite (exec_run d s n n' Hn Hr'). destruct (removes s) eqn:Er.
  - exists (sweep n'). split; [reflexivity|]. intro k. rewrite sweep_sound; [apply E'|]. apply (sound_ext m'); [|exact H1].
    intro x. symmetry. apply E'.
  - exists n'. split; [|exact E']. rewrite (new_intact_ext d s n m n' m' E E'), (H2 eq_refl). reflexivity.
Qed.

Lemma dep_all : forall l m m1, forallb no_rename l = true -> run (col_ops d l) m = Some m1 -> sound m ->
  (forall p s q mp mp', l = p ++ s :: q -> run (col_ops d p) m = Some mp -> run (stmt_ops d s) mp = Some mp' -> sound mp -> step_ok s mp mp') ->
  forall n, db_eq n m -> exists n1, dep_exec_all d l n = Some n1 /\ db_eq n1 m1 /\ sound m1.
Proof.
  induction l as [|s r IH]; intros m m1 Hn Hr Hs Hstep n En.
  - cbn in Hr. inversion Hr; subst. exists n. split; [reflexivity|]. split; assumption.
  - cbn [forallb] in Hn. apply andb_true_iff in Hn. destruct Hn as [Hn1 Hn2].
    change (col_ops d (s :: r)) with (stmt_ops d s ++ col_ops d r) in Hr. rewrite run_app in Hr.
    destruct (run (stmt_ops d s) m) as [m'|] eqn:E; [|discriminate Hr].
    pose proof (Hstep [] s r m m' eq_refl eq_refl E Hs) as Hok.
    destruct (dep_step s m m' n Hn1 E Hok En) as [n' [D En']].
    destruct (IH m' m1 Hn2 Hr (proj1 Hok)) with (n := n') as [n1 [D1 [E1 S1]]].
    + intros p x q mp mp' El Hp Hx Sp. apply (Hstep (s :: p) x q); [rewrite El; reflexivity| |exact Hx|exact Sp].
      change (col_ops d (s :: p)) with (stmt_ops d s ++ col_ops d p). rewrite run_app, E. exact Hp.
    + exact En'.
    + exists n1. split; [|split; assumption]. cbn [dep_exec_all]. rewrite D. exact D1.
Qed.

Lemma dep_all_app : forall a b n, dep_exec_all d (a ++ b) n = match dep_exec_all d a n with Some n' => dep_exec_all d b n' | None => None end.
Proof.
  induction a as [|s r IH]; intros b n; [reflexivity|]. cbn [app dep_exec_all]. destruct (dep_exec d s n); [apply IH|reflexivity].
Qed.
End Steps.

Section Order.
Variable d : dialect.
Variable srt : list constraint -> list constraint.
Variable sdiff : string -> string -> string.
Hypothesis Hsrt : srt_ok srt.
Variables B A : ddl.
Hypothesis CB : forallb is_create B = true.
Hypothesis CA : forallb is_create A = true.
Hypothesis NB : NoDup (map fst (entries d B)).
Hypothesis NA : NoDup (map fst (entries d A)).
Hypothesis KB : forall t, In (CreateTable t) B -> all_con_named t = true.
Hypothesis KA : forall t, In (CreateTable t) A -> all_con_named t = true.
Hypothesis OK : schemas_ok d B A.

(** ** The objects of the two schemas *)
Definition known_stmt (s : stmt) : Prop := In s B \/ In s A.
Lemma known_create : forall s, known_stmt s -> is_create s = true.
Proof. intros s [H|H]; [apply (crB B CB)|apply (crA A CA)]; exact H. Qed.
Lemma known_named : forall s t, known_stmt s -> s = CreateTable t -> all_con_named t = true.
Proof. intros s t [H|H] E; subst; [apply KB|apply KA]; exact H. Qed.
Lemma objects_stmt : forall s, known_stmt s -> objects d [s] = stmt_entries d s.
Proof.
  intros s H. unfold objects. cbn [flat_map]. rewrite app_nil_r. apply created_entries; [apply known_create; exact H|].
  intros t. apply known_named. exact H.
Qed.
Lemma objects_cons : forall s l, objects d (s :: l) = objects d [s] ++ objects d l.
Proof. intros s l. unfold objects. cbn [flat_map]. rewrite app_nil_r, flat_map_app. reflexivity. Qed.
Lemma keys_cons : forall s l, keys d (s :: l) = keys d [s] ++ keys d l.
Proof. intros s l. unfold keys. rewrite objects_cons, map_app. reflexivity. Qed.
Lemma keys_in : forall l k, In k (keys d l) <-> exists s, In s l /\ In k (keys d [s]).
Proof.
  induction l as [|s l IH]; intro k.
  - split; [intros []|intros [s [[] _]]].
  - rewrite keys_cons, in_app_iff, IH. split.
    + intros [H|[x [H1 H2]]]; [exists s; split; [left; reflexivity|exact H]|exists x; split; [right; exact H1|exact H2]].
    + intros [x [[E|H1] H2]]; [subst; left; exact H2|right; exists x; split; assumption].
Qed.
Lemma keys_stmt : forall s k, known_stmt s -> In k (keys d [s]) <-> declares d k s = true.
Proof. intros s k H. unfold keys. rewrite objects_stmt by exact H. symmetry. apply declares_In. Qed.
Lemma declares_assoc : forall s k, declares d k s = true <-> present (assoc_key k (stmt_entries d s)) = true.
Proof.
  intros s k. rewrite declares_In. destruct (assoc_key k (stmt_entries d s)) as [v|] eqn:E.
  - split; [reflexivity|]. intros _. apply assoc_In in E. apply in_map_iff. exists (k, v). split; [reflexivity|exact E].
  - apply assoc_None in E. split; [contradiction|discriminate].
Qed.
Lemma needed_in : forall l s k v n, In s l -> known_stmt s -> assoc_key k (stmt_entries d s) = Some v -> In n (needs k v) -> In n (needed d l).
Proof.
  intros l s k v n Hs Hk Ha Hn. unfold needed. apply in_flat_map. exists (k, v). split; [|exact Hn].
  unfold objects. apply assoc_In in Ha. rewrite <- objects_stmt in Ha by exact Hk. unfold objects in Ha. cbn [flat_map] in Ha. rewrite app_nil_r in Ha.
  apply in_flat_map in Ha. destruct Ha as [o [Ho Ha]]. apply in_flat_map. exists o. split; [|exact Ha]. apply in_flat_map. exists s. split; assumption.
Qed.
Lemma referred_in : forall s k v n, known_stmt s -> assoc_key k (stmt_entries d s) = Some v -> In n (refers v) -> In n (referred d [s]).
Proof.
  intros s k v n Hk Ha Hn. unfold referred. apply in_flat_map. exists (k, v). split; [|exact Hn].
  rewrite objects_stmt by exact Hk. apply assoc_In. exact Ha.
Qed.

Lemma same_thing_object : forall s x, is_create s = true -> is_create x = true -> same_thing s x = same_type s x && eqs (stmt_name s) (stmt_name x).
Proof.
  intros s x Hs Hx. destruct s, x; try discriminate Hs; try discriminate Hx; try reflexivity.
Qed.
Lemma partner_find : forall s l, is_create s = true -> (forall x, In x l -> is_create x = true) -> partner s l = find_stmt s l.
Proof. intros s l Hs Hl. unfold partner, find_stmt. apply find_ext. intros x Hx. apply same_thing_object; [exact Hs|apply Hl; exact Hx]. Qed.
Lemma partner_A : forall s, known_stmt s -> partner s A = find_stmt s A.
Proof. intros s H. apply partner_find; [apply known_create; exact H|apply crA; exact CA]. Qed.
Lemma partner_B : forall s, known_stmt s -> partner s B = find_stmt s B.
Proof. intros s H. apply partner_find; [apply known_create; exact H|apply crB; exact CB]. Qed.
Lemma stays_A : forall s, known_stmt s -> stays A s = present (find_stmt s A).
Proof. intros s H. unfold stays. rewrite partner_A by exact H. reflexivity. Qed.
Lemma fresh_eq : fresh B A = only_left_stmts A B.
Proof.
  unfold fresh, only_left_stmts. apply filter_ext_in. intros s Hs. unfold stays. rewrite partner_B by (right; exact Hs).
  destruct (find_stmt s B); reflexivity.
Qed.

Lemma assoc_in_stmt : forall l k v, forallb is_create l = true -> NoDup (map fst (entries d l)) -> assoc_key k (entries d l) = Some v ->
  exists s, In s l /\ hm d k l = Some s /\ assoc_key k (stmt_entries d s) = Some v.
Proof.
  intros l k v Hc Hn H. rewrite assoc_hm in H by assumption. destruct (hm d k l) as [s|] eqn:E; [|discriminate H].
  destruct (hm_some _ _ _ _ E) as [H1 _]. exists s. auto.
Qed.
Lemma keys_present : forall l k, forallb is_create l = true -> NoDup (map fst (entries d l)) -> (forall s, In s l -> known_stmt s) ->
  In k (keys d l) <-> present (assoc_key k (entries d l)) = true.
Proof.
  intros l k Hc Hn Hl. rewrite keys_in. split.
  - intros [s [Hs Hk]]. apply keys_stmt in Hk; [|apply Hl; exact Hs]. rewrite assoc_hm by assumption.
    rewrite (hm_in d k l s Hc Hn Hs (declares_belongs d k s Hk)). apply declares_assoc. exact Hk.
  - intro H. destruct (assoc_key k (entries d l)) as [v|] eqn:E; [|discriminate H].
    destruct (assoc_in_stmt l k v Hc Hn E) as [s [Hs [_ Ha]]]. exists s. split; [exact Hs|].
    apply keys_stmt; [apply Hl; exact Hs|]. apply declares_assoc. rewrite Ha. reflexivity.
Qed.
Lemma keys_A : forall k, In k (keys d A) <-> present (assoc_key k (entries d A)) = true.
Proof. intro k. apply keys_present; try assumption. intros s H; right; exact H. Qed.
Lemma keys_B : forall k, In k (keys d B) <-> present (assoc_key k (entries d B)) = true.
Proof. intro k. apply keys_present; try assumption. intros s H; left; exact H. Qed.

Hypothesis IO : in_order d B A = true.

Lemma io_split : closed d B = true /\ closed d A = true /\ gone_unreferred d B A = true
  /\ created_in_order d (keys d (filter (stays A) B)) (fresh B A) = true
  /\ changed_in_order d A (keys d B ++ keys d (fresh B A)) B = true.
Proof.
  pose proof IO as H. unfold in_order in H. rewrite !andb_true_iff in H. tauto.
Qed.
Lemma closed_B : forall k v n, assoc_key k (entries d B) = Some v -> In n (needs k v) -> present (assoc_key n (entries d B)) = true.
Proof.
  intros k v n Ha Hn. destruct io_split as [H _]. unfold closed in H. rewrite within_In in H. apply keys_B, H.
  destruct (assoc_in_stmt B k v CB NB Ha) as [s [Hs [_ Hv]]]. apply (needed_in B s k v); [exact Hs|left; exact Hs|exact Hv|exact Hn].
Qed.
Lemma closed_A : forall k v n, assoc_key k (entries d A) = Some v -> In n (needs k v) -> present (assoc_key n (entries d A)) = true.
Proof.
  intros k v n Ha Hn. destruct io_split as [_ [H _]]. unfold closed in H. rewrite within_In in H. apply keys_A, H.
  destruct (assoc_in_stmt A k v CA NA Ha) as [s [Hs [_ Hv]]]. apply (needed_in A s k v); [exact Hs|right; exact Hs|exact Hv|exact Hn].
Qed.

(** ** Phase 1: drops *)
Definition gk (k : key) : Prop := conkey k /\ exists t, In (CreateTable t) B /\ find_stmt (CreateTable t) A = None /\ owner k = Some (qname (ct_name t)).

Lemma gk_gone : forall k, gk k -> gone_value d B A k = None.
Proof.
  intros k [_ [t [Ht [F Ho]]]]. unfold gone_value.
  rewrite (hm_in d k B (CreateTable t) CB NB Ht); [rewrite F; reflexivity|]. unfold belongs. rewrite Ho. apply String.eqb_refl.
Qed.
Lemma not_gk_tabcol : forall k, tabcol k -> ~ gk k.
Proof. intros k H [G _]. destruct k; try contradiction H; contradiction G. Qed.
Lemma not_gk_idx : forall i, ~ gk (KIdx i).
Proof. intros i [_ [t [_ [_ H]]]]. discriminate H. Qed.

(** What refers to a table that is gone is gone, too. *)
Lemma refers_gone : forall k v t, assoc_key k (entries d B) = Some v -> In (CreateTable t) B -> find_stmt (CreateTable t) A = None ->
  owner k <> None -> conkey k -> In (KTab (qname (ct_name t))) (refers v) -> gk k.
Proof.
  intros k v t Ha Ht F Ho Hk Hr. destruct (owner k) as [u|] eqn:Eo; [|contradiction].
  destruct (assoc_in_stmt B k v CB NB Ha) as [s [Hs [Hh Hv]]]. destruct (hm_some _ _ _ _ Hh) as [_ Hb].
  destruct (belongs_owner d k u s Eo Hb) as [tu [E1 E2]]. subst s. split; [exact Hk|]. exists tu. split; [exact Hs|].
  split; [|rewrite Eo, E2; reflexivity]. destruct (find_stmt (CreateTable tu) A) as [p|] eqn:Fu; [|reflexivity]. exfalso.
  destruct io_split as [_ [_ [H _]]]. unfold gone_unreferred in H. rewrite forallb_forall in H. specialize (H _ Hs).
  rewrite stays_A in H by (left; exact Hs). rewrite Fu in H. cbn [present negb orb] in H. rewrite forallb_forall in H.
  specialize (H _ (referred_in _ _ _ _ (or_introl Hs) Hv Hr)). cbn beta iota in H. apply mem_key_In, keys_A in H.
  destruct (assoc_key (KTab (qname (ct_name t))) (entries d A)) as [w|] eqn:E; [|discriminate H].
  destruct (assoc_in_stmt A _ w CA NA E) as [s [Hs' [Hh' _]]]. destruct (hm_some _ _ _ _ Hh') as [_ Hb'].
  destruct (belongs_owner d (KTab (qname (ct_name t))) (qname (ct_name t)) s eq_refl Hb') as [ta [E3 E4]]. subst s.
  pose proof (find_stmt_none _ _ F _ Hs') as Hn. rewrite same_table in Hn by (symmetry; exact E4). discriminate Hn.
Qed.

Lemma tabcol_owner : forall k, tabcol k -> exists u, owner k = Some u.
Proof. intros [] H; try contradiction H; eexists; reflexivity. Qed.

Lemma drop_table_step : forall t (n V V' : db), In (CreateTable t) B -> find_stmt (CreateTable t) A = None ->
  sound n -> (forall k v, n k = Some v -> assoc_key k (entries d B) = Some v) ->
  (forall k, n k = V k \/ (n k = None /\ gk k)) ->
  (forall k, at_key k [Wipe (qname (ct_name t))] (V k) = Some (V' k)) ->
  exists n', dep_exec d (drop1 (CreateTable t)) n = Some n' /\ sound n' /\
    (forall k v, n' k = Some v -> assoc_key k (entries d B) = Some v) /\
    (forall k, n' k = V' k \/ (n' k = None /\ gk k)).
Proof.
  intros t n V V' Ht F Hs Hin Hrel Hv. set (T := qname (ct_name t)) in *.
  assert (Eff : forall k, eff (Wipe T) k (V k) = Some (V' k)).
  { intro k. specialize (Hv k). cbn [at_key] in Hv. destruct (eff (Wipe T) k (V k)) as [w|]; [exact Hv|discriminate Hv]. }
  assert (HT : present (n (KTab T)) = true).
  { destruct (Hrel (KTab T)) as [E|[_ G]]; [|exfalso; apply (not_gk_tabcol (KTab T) I G)]. rewrite E.
    pose proof (Eff (KTab T)) as H. cbn [eff] in H. rewrite key_eqb_refl in H. destruct (present (V (KTab T))); [reflexivity|discriminate H]. }
  set (n1 := op_db (Wipe T) n).
  assert (E1 : exec d (drop1 (CreateTable t)) n = Some n1).
  { apply exec_run; [reflexivity|]. cbn [drop1 drop_stmt stmt_ops run op_ok]. fold T. rewrite HT. reflexivity. }
  assert (V1 : forall k, n k = V k -> n1 k = V' k).
  { intros k E. pose proof (Eff k) as H. cbn [eff] in H. unfold n1. cbn [op_db]. rewrite E.
    destruct (key_eqb (KTab T) k) eqn:Ek.
    - apply key_eqb_eq in Ek. subst k. unfold owned_by. cbn [owner]. rewrite String.eqb_refl. destruct (present (V (KTab T))); inversion H; reflexivity.
    - destruct (owned_by T k); inversion H; reflexivity. }
  assert (In1 : forall k v, n1 k = Some v -> n k = Some v /\ owned_by T k = false /\ index_on T v = false).
  { intros k v H. unfold n1 in H. cbn [op_db] in H. destruct (owned_by T k); [discriminate H|]. destruct (n k) as [w|]; [|discriminate H].
    cbn [unless] in H. destruct (index_on T w) eqn:Ei; [discriminate H|]. inversion H; subst. auto. }
  assert (Keep : forall x, tabcol x -> owner x <> Some T -> present (n x) = true -> present (n1 x) = true).
  { intros x Hx Ho Hp. unfold n1. cbn [op_db]. replace (owned_by T x) with false.
    - destruct (n x) as [w|] eqn:E; [|discriminate Hp]. cbn [unless]. destruct (tabcol_owner x Hx) as [u Eu].
      rewrite (owned_value d B A NB NA OK x u B w T Eu (Hin _ _ E)). reflexivity.
    - symmetry. unfold owned_by. destruct (owner x) as [u|]; [|reflexivity]. apply String.eqb_neq. congruence. }
  assert (Swept : forall k v, n1 k = Some v -> intact n1 k v = false -> gk k).
  { intros k v Hk Hi. destruct (In1 k v Hk) as [Hn [Hown Hidx]].
    assert (Hex : exists x, In x (needs k v) /\ present (n1 x) = false).
    { unfold intact in Hi. destruct (forallb (fun x => present (n1 x)) (needs k v)) eqn:Ef; [discriminate Hi|].
      clear Hi. induction (needs k v) as [|x r IH]; [discriminate Ef|]. cbn [forallb] in Ef. destruct (present (n1 x)) eqn:Ex.
      - destruct IH as [y [Hy Ey]]; [exact Ef|]. exists y. split; [right; exact Hy|exact Ey].
      - exists x. split; [left; reflexivity|exact Ex]. }
    destruct Hex as [x [Hx Ex]]. pose proof (Hs k v Hn) as Hok. rewrite intact_iff in Hok. specialize (Hok x Hx).
    pose proof (needs_tabcol _ _ _ Hx) as Htc.
    assert (Hox : owner x = Some T).
    { destruct (tabcol_owner x Htc) as [u Eu]. destruct (String.string_dec u T) as [E|E]; [congruence|]. exfalso.
      rewrite Keep in Ex; [discriminate Ex|exact Htc|congruence|exact Hok]. }
    destruct (needs_owner k v x T Hx Hox) as [H|[H|H]].
    - exfalso. unfold owned_by in Hown. rewrite H, String.eqb_refl in Hown. discriminate Hown.
    - congruence.
    - apply (refers_gone k v t); try assumption; [apply Hin; exact Hn| |apply (needs_conkey _ _ _ Hx)].
      destruct k; try discriminate. destruct v as [| |[]| | |]; contradiction Hx || contradiction H. }
  exists (sweep n1). unfold dep_exec. rewrite E1. split; [reflexivity|]. split; [|split].
  - intros k v Hk. unfold sweep in Hk. destruct (n1 k) as [w|] eqn:E; [|discriminate Hk]. destruct (intact n1 k w) eqn:Ei; [|discriminate Hk].
    inversion Hk; subst w. rewrite intact_iff in Ei |- *. intros x Hx. specialize (Ei x Hx). unfold sweep.
    destruct (n1 x) as [w|] eqn:Ew; [|discriminate Ei].
    assert (Hnil : intact n1 x w = true).
    { apply intact_iff. intros y Hy. exfalso. apply needs_tabcol in Hx. apply needs_conkey in Hy. destruct x; contradiction Hx || contradiction Hy. }
    rewrite Hnil. reflexivity.
  - intros k v Hk. apply Hin. unfold sweep in Hk. destruct (n1 k) as [w|] eqn:E; [|discriminate Hk]. destruct (intact n1 k w); inversion Hk; subst.
    apply (In1 k v E).
  - intro k. unfold sweep. destruct (n1 k) as [w|] eqn:E.
    + destruct (intact n1 k w) eqn:Ei; [|right; split; [reflexivity|apply (Swept k w E Ei)]].
      destruct (Hrel k) as [Er|[Er G]]; [left; rewrite <- (V1 k Er); symmetry; exact E|].
      exfalso. destruct (In1 k w E) as [H _]. congruence.
    + destruct (Hrel k) as [Er|[Er G]]; [left; rewrite <- (V1 k Er); symmetry; exact E|right; auto].
Qed.

Lemma drop_index_step : forall i (n V V' : db), In (CreateIndex i) B -> find_stmt (CreateIndex i) A = None ->
  sound n -> (forall k v, n k = Some v -> assoc_key k (entries d B) = Some v) ->
  (forall k, n k = V k \/ (n k = None /\ gk k)) ->
  (forall k, at_key k (stmt_ops d (drop1 (CreateIndex i))) (V k) = Some (V' k)) ->
  exists n', dep_exec d (drop1 (CreateIndex i)) n = Some n' /\ sound n' /\
    (forall k v, n' k = Some v -> assoc_key k (entries d B) = Some v) /\
    (forall k, n' k = V' k \/ (n' k = None /\ gk k)).
Proof.
  intros i n V V' Hi F Hs Hin Hrel Hv. set (I := KIdx (qname (cx_name i))).
  assert (Hd : d <> My) by (intro Ed; apply (my_index_partner d B A OK i Ed Hi); exact F).
  assert (Eops : stmt_ops d (drop1 (CreateIndex i)) = [Del I]).
  { cbn [drop1 drop_stmt stmt_ops]. unfold drop_index_ops. destruct d; try contradiction; reflexivity. }
  assert (Eff : forall k, eff (Del I) k (V k) = Some (V' k)).
  { intro k. specialize (Hv k). rewrite Eops in Hv. cbn [at_key] in Hv. destruct (eff (Del I) k (V k)) as [w|]; [exact Hv|discriminate Hv]. }
  assert (HT : present (n I) = true).
  { destruct (Hrel I) as [E|[_ G]]; [|exfalso; apply (not_gk_idx _ G)]. rewrite E. pose proof (Eff I) as H. cbn [eff] in H.
    rewrite key_eqb_refl in H. destruct (present (V I)); [reflexivity|discriminate H]. }
  set (n1 := op_db (Del I) n).
  assert (E1 : exec d (drop1 (CreateIndex i)) n = Some n1).
  { apply exec_run; [reflexivity|]. rewrite Eops. cbn [run op_ok]. rewrite HT. reflexivity. }
  assert (Sub : forall k v, n1 k = Some v -> n k = Some v).
  { intros k v H. unfold n1 in H. cbn [op_db] in H. destruct (key_eqb I k); [discriminate H|exact H]. }
  exists n1. unfold dep_exec. rewrite E1. cbn [drop1 drop_stmt removes]. split; [|split; [|split]].
  - replace (new_intact d (DropIndex "" false (cx_name i)) n n1) with true; [reflexivity|]. symmetry. unfold new_intact, objects.
    cbn [flat_map]. cbn [drop1 drop_stmt] in Eops. rewrite Eops. reflexivity.
  - intros k v Hk. apply intact_iff. intros x Hx. pose proof (Hs k v (Sub k v Hk)) as H. rewrite intact_iff in H. specialize (H x Hx).
    unfold n1. cbn [op_db]. apply needs_tabcol in Hx. destruct x; try contradiction Hx; exact H.
  - intros k v Hk. apply Hin, Sub, Hk.
  - intro k. pose proof (Eff k) as H. unfold n1. cbn [op_db]. cbn [eff] in H. destruct (Hrel k) as [Er|[Er G]].
    + left. rewrite Er. destruct (key_eqb I k); [|inversion H; reflexivity]. destruct (present (V k)); inversion H; reflexivity.
    + right. split; [|exact G]. rewrite Er. destruct (key_eqb I k); reflexivity.
Qed.

Lemma dep_drops : forall r l n V, only_left_stmts B A = l ++ r ->
  (forall k, at_key k (col_ops d (map drop1 l)) (assoc_key k (entries d B)) = Some (V k)) ->
  sound n -> (forall k v, n k = Some v -> assoc_key k (entries d B) = Some v) ->
  (forall k, n k = V k \/ (n k = None /\ gk k)) ->
  exists n1, dep_exec_all d (map drop1 r) n = Some n1 /\ sound n1 /\ db_eq n1 (gone_value d B A).
Proof.
  induction r as [|s r IH]; intros l n V El Hl Hs Hin Hrel.
  - exists n. split; [reflexivity|]. split; [exact Hs|]. intro k. rewrite app_nil_r in El. subst l.
    specialize (Hl k). rewrite phase1 in Hl by assumption. inversion Hl as [E]. destruct (Hrel k) as [H|[H G]]; [congruence|].
    rewrite H. symmetry. apply gk_gone. exact G.
  - set (V' := fun k => match at_key k (stmt_ops d (drop1 s)) (V k) with Some w => w | None => None end).
    assert (HV' : forall k, at_key k (stmt_ops d (drop1 s)) (V k) = Some (V' k)).
    { intro k. pose proof (phase1 d B A CB CA NB NA OK k) as H. rewrite El, map_app in H. cbn [map] in H.
      rewrite at_col_app, Hl in H. change (col_ops d (drop1 s :: map drop1 r)) with (stmt_ops d (drop1 s) ++ col_ops d (map drop1 r)) in H.
      rewrite at_key_app in H. unfold V'. destruct (at_key k (stmt_ops d (drop1 s)) (V k)); [reflexivity|discriminate H]. }
    assert (Hs' : In s B /\ find_stmt s A = None) by (apply only_left_in; rewrite El; apply in_or_app; right; left; reflexivity).
    destruct Hs' as [Hs' F].
    assert (Hstep : exists n', dep_exec d (drop1 s) n = Some n' /\ sound n' /\
      (forall k v, n' k = Some v -> assoc_key k (entries d B) = Some v) /\ (forall k, n' k = V' k \/ (n' k = None /\ gk k))).
    { destruct (is_create_cases B s CB Hs') as [[t Et]|[i Ei]]; subst s.
      - apply (drop_table_step t n V V'); assumption.
      - apply (drop_index_step i n V V'); assumption. }
    destruct Hstep as [n' [D [S' [I' R']]]].
    destruct (IH (l ++ [s]) n' V') as [n1 [D1 [S1 E1]]]; try assumption.
    + rewrite <- app_assoc. exact El.
    + intro k. rewrite map_app, at_col_app, Hl. cbn [map]. change (col_ops d [drop1 s]) with (stmt_ops d (drop1 s) ++ []). rewrite app_nil_r. apply HV'.
    + exists n1. split; [|split; assumption]. cbn [map dep_exec_all]. rewrite D. exact D1.
Qed.

(** ** Phase 2: new objects *)
Definition made (p : ddl) (k : key) : option value :=
  match find (belongs d k) p with Some x => assoc_key k (stmt_entries d x) | None => gone_value d B A k end.

Lemma new_stmt : forall p q s, only_left_stmts A B = p ++ q -> In s p -> In s A /\ find_stmt s B = None.
Proof. intros p q s E H. apply only_left_in. rewrite E. apply in_or_app. left; exact H. Qed.
Lemma new_value : forall k s, In s A -> find_stmt s B = None -> belongs d k s = true -> gone_value d B A k = None.
Proof. intros k s Hs F Hb. apply (new_gone d B A CB CA NB NA OK k s); [apply hm_in; assumption|exact F]. Qed.
Lemma atmost1_app_l : forall X (sel : X -> bool) a b, atmost1 sel (a ++ b) -> atmost1 sel a.
Proof.
  induction a as [|x r IH]; intros b H; [exact I|]. cbn [app atmost1] in *. destruct H as [H1 H2]. split; [|apply (IH b); exact H2].
  intros Hx y Hy. apply H1; [exact Hx|apply in_or_app; left; exact Hy].
Qed.

Lemma phase2_prefix : forall p q k, only_left_stmts A B = p ++ q -> at_key k (col_ops d p) (gone_value d B A k) = Some (made p k).
Proof.
  intros p q k E. unfold col_ops, made. rewrite (at_flat_unique (fun _ => True) _ _ (belongs d k)).
  - destruct (find (belongs d k) p) as [s|] eqn:Ef; [|reflexivity]. apply find_some in Ef. destruct Ef as [Hs Hb].
    destruct (new_stmt p q s E Hs) as [Ha F]. rewrite (new_value k s Ha F Hb).
    apply create_sound; [apply (crA A CA); exact Ha| |apply (nodup_flat_stmt d A); assumption].
    intros t Et. subst s. apply KA. exact Ha.
  - intros s Hs Hb v _. destruct (new_stmt p q s E Hs) as [Ha F]. apply create_idle.
    + apply (crA A CA); exact Ha.
    + intros t Et. subst s. apply KA. exact Ha.
    + apply not_belongs. exact Hb.
    + intros u t Eo Et Eq. subst s. unfold belongs in Hb. rewrite Eo, Eq, String.eqb_refl in Hb. discriminate.
  - apply (atmost1_app_l _ _ p q). rewrite <- E. unfold only_left_stmts. apply atmost1_filter. apply belongs_unique; assumption.
  - exact I.
  - intros; exact I.
Qed.

Lemma created_in_order_at : forall p s q known, created_in_order d known (p ++ s :: q) = true ->
  forall n, In n (needed d [s]) -> In n known \/ In n (keys d p) \/ In n (keys d [s]).
Proof.
  induction p as [|x p IH]; intros s q known H n Hn; cbn [app created_in_order] in H; apply andb_true_iff in H; destruct H as [H1 H2].
  - rewrite within_In in H1. specialize (H1 n Hn). apply in_app_or in H1. tauto.
  - destruct (IH s q _ H2 n Hn) as [H|[H|H]]; [|right; left; rewrite keys_cons; apply in_or_app; auto|auto].
    apply in_app_or in H. destruct H as [H|H]; [left; exact H|]. right; left. rewrite keys_cons. apply in_or_app. left; exact H.
Qed.

Lemma find_belongs_last : forall p s k, find (belongs d k) (p ++ [s]) =
  match find (belongs d k) p with Some x => Some x | None => if belongs d k s then Some s else None end.
Proof. induction p as [|x p IH]; intros s k; [reflexivity|]. cbn [app find]. destruct (belongs d k x); [reflexivity|apply IH]. Qed.

(** A key of an old statement that stays *)
Lemma stays_value : forall s k, In s B -> stays A s = true -> declares d k s = true -> present (gone_value d B A k) = true.
Proof.
  intros s k Hs Hst Hd. rewrite stays_A in Hst by (left; exact Hs). unfold gone_value.
  rewrite (hm_in d k B s CB NB Hs (declares_belongs d k s Hd)). destruct (find_stmt s A); [|discriminate Hst].
  rewrite assoc_hm, (hm_in d k B s CB NB Hs (declares_belongs d k s Hd)) by assumption. apply declares_assoc. exact Hd.
Qed.
Lemma made_mono : forall p s q k, only_left_stmts A B = p ++ s :: q -> present (made p k) = true -> made (p ++ [s]) k = made p k.
Proof.
  intros p s q k E H. unfold made in *. rewrite find_belongs_last. destruct (find (belongs d k) p) as [x|]; [reflexivity|].
  destruct (belongs d k s) eqn:Hb; [|reflexivity]. exfalso.
  assert (Hs : In s A /\ find_stmt s B = None) by (apply only_left_in; rewrite E; apply in_or_app; right; left; reflexivity).
  rewrite (new_value k s (proj1 Hs) (proj2 Hs) Hb) in H. discriminate H.
Qed.
Lemma made_new : forall p q x k, only_left_stmts A B = p ++ q -> In x p -> declares d k x = true -> made p k = assoc_key k (stmt_entries d x).
Proof.
  intros p q x k E Hx Hd. unfold made. destruct (find (belongs d k) p) as [y|] eqn:Ef.
  - apply find_some in Ef. destruct Ef as [Hy Hb]. f_equal. f_equal.
    apply (belongs_eq d A k); try assumption; [apply (new_stmt p q y E Hy)|apply (new_stmt p q x E Hx)|apply declares_belongs; exact Hd].
  - apply find_none_iff with (x := x) in Ef; [|exact Hx]. rewrite declares_belongs in Ef by exact Hd. discriminate Ef.
Qed.
Lemma made_stays : forall p q k, only_left_stmts A B = p ++ q -> present (gone_value d B A k) = true -> made p k = gone_value d B A k.
Proof.
  intros p q k E H. unfold made. destruct (find (belongs d k) p) as [y|] eqn:Ef; [|reflexivity]. exfalso.
  apply find_some in Ef. destruct Ef as [Hy Hb]. destruct (new_stmt p q y E Hy) as [Ha F]. rewrite (new_value k y Ha F Hb) in H. discriminate H.
Qed.

Lemma create_step : forall p s q mp mp', only_left_stmts A B = p ++ s :: q ->
  (forall k, mp k = made p k) -> (forall k, mp' k = made (p ++ [s]) k) -> sound mp -> step_ok d s mp mp'.
Proof.
  intros p s q mp mp' E Hm Hm' Hs.
  assert (E' : only_left_stmts A B = (p ++ [s]) ++ q) by (rewrite <- app_assoc; exact E).
  destruct (new_stmt (p ++ [s]) q s E') as [Ha F]; [apply in_or_app; right; left; reflexivity|].
  assert (Hnew : forall k v, assoc_key k (stmt_entries d s) = Some v -> intact mp' k v = true).
  { intros k v Hv. apply intact_iff. intros n Hn. rewrite Hm'.
    pose proof (needed_in [s] s k v n (or_introl eq_refl) (or_intror Ha) Hv Hn) as Hne.
    destruct io_split as [_ [_ [_ [H _]]]]. rewrite fresh_eq, E in H.
    destruct (created_in_order_at p s q _ H n Hne) as [Hk|[Hk|Hk]].
    - apply keys_in in Hk. destruct Hk as [x [Hx Hk]]. apply filter_In in Hx. destruct Hx as [Hx Hst].
      apply keys_stmt in Hk; [|left; exact Hx]. pose proof (stays_value x n Hx Hst Hk) as Hp. rewrite (made_stays _ q n E' Hp). exact Hp.
    - apply keys_in in Hk. destruct Hk as [x [Hx Hk]].
      assert (Hx' : In x (p ++ [s])) by (apply in_or_app; left; exact Hx).
      apply keys_stmt in Hk; [|right; apply (new_stmt _ q x E' Hx')]. rewrite (made_new _ q x n E' Hx' Hk). apply declares_assoc. exact Hk.
    - assert (Hx' : In s (p ++ [s])) by (apply in_or_app; right; left; reflexivity).
      apply keys_stmt in Hk; [|right; exact Ha]. rewrite (made_new _ q s n E' Hx' Hk). apply declares_assoc. exact Hk. }
  split.
  - intros k v Hk. destruct (mp k) as [w|] eqn:Ew.
    + assert (Em : mp' k = mp k) by (rewrite Hm', Hm; apply (made_mono p s q k E); rewrite <- Hm, Ew; reflexivity).
      apply intact_iff. intros n Hn. assert (Hi : intact mp k v = true) by (apply Hs; congruence). rewrite intact_iff in Hi. specialize (Hi n Hn).
      rewrite Hm', (made_mono p s q n E), <- Hm; [exact Hi|rewrite <- Hm; exact Hi].
    + apply Hnew. rewrite Hm' in Hk. rewrite Hm in Ew. unfold made in Hk, Ew. rewrite find_belongs_last in Hk.
      destruct (find (belongs d k) p); [congruence|]. destruct (belongs d k s); [exact Hk|congruence].
  - intros _. unfold new_intact. apply forallb_forall. intros [k v] Hkv. rewrite objects_stmt in Hkv by (right; exact Ha).
    cbn [fst snd]. rewrite Hnew; [apply orb_true_r|]. apply In_assoc; [|exact Hkv]. apply (nodup_flat_stmt d A); assumption.
Qed.

Lemma dep_creates : forall n, sound n -> db_eq n (gone_value d B A) ->
  exists n1, dep_exec_all d (only_left_stmts A B) n = Some n1 /\ db_eq n1 (mid_value d B A) /\ sound n1.
Proof.
  intros n Hs Hn. set (m := gone_value d B A : db).
  destruct (run_by_key (col_ops d (only_left_stmts A B)) m (mid_value d B A)) as [m1 [Hr Em]].
  { intro k. apply phase2; assumption. }
  destruct (dep_all d (only_left_stmts A B) m m1) with (n := n) as [n1 [D [E1 S1]]].
  - rewrite forallb_forall. intros x Hx. apply only_left_in in Hx. destruct (is_create_cases A x CA (proj1 Hx)) as [[t E]|[i E]]; subst; reflexivity.
  - exact Hr.
  - apply (sound_ext n); assumption.
  - intros p s q mp mp' El Hp Hx Sp. apply (create_step p s q); try assumption.
    + intro k. pose proof (run_at_key _ _ _ Hp k) as H. unfold m in H. rewrite (phase2_prefix p (s :: q) k El) in H. congruence.
    + assert (E' : only_left_stmts A B = (p ++ [s]) ++ q) by (rewrite <- app_assoc; exact El).
      intro k. assert (Hr' : run (col_ops d (p ++ [s])) m = Some mp').
      { rewrite col_ops_app, run_app, Hp. unfold col_ops. cbn [flat_map]. rewrite app_nil_r. exact Hx. }
      pose proof (run_at_key _ _ _ Hr' k) as H. unfold m in H. rewrite (phase2_prefix _ q k E') in H. congruence.
  - exact Hn.
  - exists n1. split; [exact D|]. split; [intro k; rewrite E1; apply Em|]. apply (sound_ext m1); [intro k; symmetry; apply E1|exact S1].
Qed.

(** ** Phase 3: changes *)
Definition val (l : ddl) (k : key) : option value :=
  if existsb (sel3 d A k) l then assoc_key k (entries d A) else mid_value d B A k.
Notation change := (chg d srt sdiff A).

Lemma val_good : forall l k, good d B A k (val l k).
Proof. intros l k. unfold val. destruct (existsb _ _); [right; right; reflexivity|]. apply mid_good; assumption. Qed.

Lemma not_in_first : forall l s r k, B = l ++ s :: r -> sel3 d A k s = true -> existsb (sel3 d A k) l = false.
Proof.
  intros l s r k E Hs. destruct (existsb (sel3 d A k) l) eqn:Ex; [|reflexivity]. exfalso. apply existsb_exists in Ex. destruct Ex as [x [Hx Sx]].
  assert (Exs : x = s).
  { apply (sel3_eq d B A CB CA NB NA OK k); try assumption; rewrite E; apply in_or_app; [left; exact Hx|right; left; reflexivity]. }
  subst x. pose proof (nodup_stmts d B CB NB) as Hn. rewrite E in Hn.
  apply (nodup_app_disjoint _ _ _ s Hn Hx). left; reflexivity.
Qed.

Lemma change_value : forall l s r k, B = l ++ s :: r -> at_key k (col_ops d (change s)) (val l k) = Some (val (l ++ [s]) k).
Proof.
  intros l s r k E. assert (Hs : In s B) by (rewrite E; apply in_or_app; right; left; reflexivity).
  destruct (change_stmt d srt sdiff Hsrt B A CB CA NB NA KB KA OK s Hs) as [c [Ec [H1 [H2 H3]]]].
  unfold chg. rewrite Ec. unfold val at 2. rewrite existsb_app. cbn [existsb]. rewrite orb_false_r.
  destruct (sel3 d A k s) eqn:Es.
  - rewrite orb_true_r. unfold val. rewrite (not_in_first l s r k E Es).
    pose proof (mid_selected d B A CB CA NB NA OK k s Hs Es) as Hm. destruct (find_stmt s A) as [p|] eqn:F.
    + destruct Hm as [Hm1 Hm2]. rewrite Hm1, Hm2. apply H1; [reflexivity|]. unfold sel3 in Es. rewrite F in Es. apply orb_true_iff. exact Es.
    + destruct Hm as [Hm1 Hm2]. rewrite Hm1, Hm2, H2 by reflexivity. reflexivity.
  - rewrite orb_false_r. fold (val l k). destruct (find_stmt s A) as [p|] eqn:F; [|rewrite H2 by reflexivity; reflexivity].
    unfold sel3 in Es. rewrite F in Es. apply orb_false_iff in Es. apply (H3 p); [reflexivity|tauto|tauto|apply val_good].
Qed.

(** Operations that neither remove what the new schema has, nor add other objects than its own. *)
Definition calm (o : op) : Prop :=
  match o with
  | Has _ => True
  | Put k _ => ~ conkey k
  | Upd k _ => ~ conkey k
  | Add k v => conkey k -> assoc_key k (entries d A) = Some v
  | Del k => ~ tabcol k
  | DelCol t c => assoc_key (KCol t c) (entries d A) = None
  | _ => False
  end.

Lemma calm_keep1 : forall o n v w, calm o -> tabcol n -> eff o n v = Some w -> present v = true ->
  present w = true \/ exists t c, o = DelCol t c /\ n = KCol t c.
Proof.
  intros o n v w Hc Ht He Hp. destruct o; cbn [eff calm] in *; try contradiction.
  - left. destruct (key_eqb k n); [rewrite Hp in He|]; inversion He; subst; exact Hp.
  - left. destruct (key_eqb k n); [rewrite Hp in He; discriminate He|]. inversion He; subst; exact Hp.
  - left. destruct (key_eqb k n); [rewrite Hp in He|]; inversion He; subst; [|exact Hp]. destruct v; [reflexivity|discriminate Hp].
  - left. destruct (key_eqb k n) eqn:Ek; [apply key_eqb_eq in Ek; subst; contradiction|]. inversion He; subst; exact Hp.
  - left. destruct (key_eqb k n); inversion He; subst; [reflexivity|exact Hp].
  - destruct (key_eqb (KCol t c) n) eqn:Ek; [apply key_eqb_eq in Ek; right; eauto|]. left. inversion He; subst.
    destruct v as [x|]; [|discriminate Hp]. cbn [unless]. replace (involves t c n x) with false; [reflexivity|]. destruct n; try contradiction Ht; reflexivity.
Qed.
Lemma calm_keep : forall os n v w, (forall o, In o os -> calm o) -> tabcol n -> present (assoc_key n (entries d A)) = true ->
  at_key n os v = Some w -> present v = true -> present w = true.
Proof.
  induction os as [|o r IH]; intros n v w Hc Ht Ha He Hp; cbn [at_key] in He; [inversion He; subst; exact Hp|].
  destruct (eff o n v) as [u|] eqn:Eo; [|discriminate He].
  apply (IH n u w); try assumption; [intros x Hx; apply Hc; right; exact Hx|].
  pose proof (Hc o (or_introl eq_refl)) as Ho. destruct (calm_keep1 o n v u Ho Ht Eo Hp) as [H|[t [c [E1 E2]]]]; [exact H|]. exfalso.
  subst o n. cbn [calm] in Ho. rewrite Ho in Ha. discriminate Ha.
Qed.
Lemma calm_lost : forall os n v, (forall o, In o os -> calm o) -> tabcol n -> at_key n os v = Some None -> present v = true ->
  exists t c, In (DelCol t c) os /\ n = KCol t c.
Proof.
  induction os as [|o r IH]; intros n v Hc Ht He Hp; cbn [at_key] in He; [inversion He; subst; discriminate Hp|].
  destruct (eff o n v) as [u|] eqn:Eo; [|discriminate He].
  destruct (calm_keep1 o n v u (Hc o (or_introl eq_refl)) Ht Eo Hp) as [H|[t [c [E1 E2]]]].
  - destruct (IH n u) as [t [c [H1 H2]]]; try assumption; [intros x Hx; apply Hc; right; exact Hx|]. exists t, c. split; [right; exact H1|exact H2].
  - exists t, c. split; [left; exact E1|exact E2].
Qed.
Lemma calm_con1 : forall o k v w, calm o -> conkey k -> eff o k v = Some w -> w = v \/ w = None \/ exists x, o = Add k x /\ w = Some x.
Proof.
  intros o k v w Hc Hk He. destruct o as [k0|k0 x|k0 f|k0|k0 x|t|t|t c|]; cbn [eff calm] in *; try contradiction.
  - destruct (key_eqb k0 k); [destruct (present v)|]; inversion He; auto.
  - destruct (key_eqb k0 k) eqn:E; [|inversion He; auto]. apply key_eqb_eq in E. subst k0. destruct (present v); inversion He.
    right; right. exists x. auto.
  - destruct (key_eqb k0 k) eqn:E; [apply key_eqb_eq in E; subst; contradiction|]. inversion He; auto.
  - destruct (key_eqb k0 k); [destruct (present v)|]; inversion He; auto.
  - destruct (key_eqb k0 k) eqn:E; [apply key_eqb_eq in E; subst; contradiction|]. inversion He; auto.
  - destruct (key_eqb (KCol t c) k); [destruct (present v)|]; inversion He; auto. destruct v as [x|]; [|auto]. cbn [unless].
    destruct (involves t c k x); auto.
Qed.
Lemma calm_con : forall os k v x, (forall o, In o os -> calm o) -> conkey k -> at_key k os v = Some (Some x) -> v = Some x \/ In (Add k x) os.
Proof.
  induction os as [|o r IH]; intros k v x Hc Hk He; cbn [at_key] in He; [inversion He; auto|].
  destruct (eff o k v) as [u|] eqn:Eo; [|discriminate He].
  destruct (IH k u x) as [H|H]; try assumption; [intros y Hy; apply Hc; right; exact Hy| |right; right; exact H]. subst u.
  destruct (calm_con1 o k v _ (Hc o (or_introl eq_refl)) Hk Eo) as [H|[H|[y [E1 E2]]]]; [auto|discriminate H|].
  inversion E2; subst. right; left; reflexivity.
Qed.

(** A statement with DROP COLUMN consists of it. *)
Lemma delcol_stmt : forall x t c, In (DelCol t c) (stmt_ops d x) -> stmt_ops d x = [Has (KTab t); DelCol t c].
Proof.
  assert (Hcon : forall n c t e, ~ In (DelCol t e) (add_con_ops d n c)).
  { intros n c t e H. destruct c as [[]|[]|[]|[]|[]]; cbn in H; destruct H as [H|[]]; discriminate H. }
  intros x t c H. destruct x as [ct|ci|cm ie n|cm ie n|cm n a]; cbn [stmt_ops] in *.
  - exfalso. unfold create_table_ops in H. destruct H as [H|H]; [discriminate H|].
    repeat (apply in_app_or in H; destruct H as [H|H]).
    + apply in_flat_map in H. destruct H as [y [_ H]]. destruct H as [H|[]]. discriminate H.
    + apply in_flat_map in H. destruct H as [y [_ H]]. exact (Hcon _ _ _ _ H).
    + apply in_flat_map in H. destruct H as [y [_ H]]. unfold add_opt_ops in H. destruct d; try (destruct H as [H|[]]; discriminate H).
      destruct (counter_option y); [destruct H|]. destruct H as [H|[]]. discriminate H.
    + unfold add_row_ops in H. destruct (ct_rowdel ct); [|destruct H]. destruct H as [H|[]]. discriminate H.
  - destruct H as [H|[]]. discriminate H.
  - destruct H as [H|[]]. discriminate H.
  - unfold drop_index_ops in H. destruct d; destruct H as [H|[]]; discriminate H.
  - destruct H as [H|H]; [discriminate H|].
    destruct a; cbn [action_ops] in H |- *;
      try (match type of H with context [match ?v with _ => _ end] => destruct v as [[]|] || destruct v end);
      try (exfalso; exact (Hcon _ _ _ _ H));
      try (destruct H as [H|H]; [|destruct H]); try discriminate H; try contradiction H; inversion H; subst; reflexivity.
Qed.

Lemma in_col_ops : forall x l o, In x l -> In o (stmt_ops d x) -> In o (col_ops d l).
Proof. intros x l o Hx Ho. unfold col_ops. apply in_flat_map. exists x. split; assumption. Qed.

Record shape (s p : stmt) (cs1 cs2 : list stmt) : Prop := {
  sh_eq : change s = cs1 ++ cs2;
  sh_add : forall k v, In (Add k v) (col_ops d (cs1 ++ cs2)) -> conkey k -> assoc_key k (stmt_entries d p) = Some v;
  sh_calm : forall o, In o (col_ops d (cs1 ++ cs2)) -> (forall k v, o <> Add k v) -> calm o;
  sh_first : forall k v, In (Add k v) (col_ops d cs1) -> ~ conkey k;
  sh_cols : forall n, tabcol n -> declares d n p = true ->
    exists w, at_key n (col_ops d cs1) (assoc_key n (stmt_entries d s)) = Some w /\ present w = true;
  sh_drop : forall t c, In (DelCol t c) (col_ops d (cs1 ++ cs2)) ->
    exists tb ta, s = CreateTable tb /\ p = CreateTable ta /\ t = table_name tb /\ In c (gone_columns tb ta) }.

Lemma has_tab_ops : forall n c o, In o (has_tab n c) -> o = Has (KTab (qname n)).
Proof. intros n c o H. unfold has_tab in H. destruct (is_idx c); [destruct H|]. destruct H as [H|[]]. symmetry; exact H. Qed.
Lemma ckey_not_tabcol : forall t c, ~ tabcol (ckey d t c).
Proof. intros t c H. pose proof (ckey_conkey d t c) as G. destruct (ckey d t c); contradiction H || contradiction G. Qed.
Lemma assoc_con_in : forall t c, all_con_named t = true -> NoDup (map fst (table_entries d t)) -> In c (ct_constraints t) ->
  assoc_key (ckey d (ct_name t) c) (table_entries d t) = Some (cval d (ct_name t) c).
Proof.
  intros t c Hn Hd Hc. rewrite assoc_table_con by (exact Hn || apply ckey_conkey).
  rewrite (find_unique _ (fun x => key_eqb (ckey d (ct_name t) x) (ckey d (ct_name t) c)) _ c).
  - reflexivity.
  - apply (atmost1_key _ _ key_eqb (ckey d (ct_name t))); [exact key_eqb_eq|apply nodup_ckey; assumption].
  - exact Hc.
  - apply key_eqb_refl.
Qed.
Lemma gone_columns_in : forall tb ta b, In b (ct_columns tb) -> find_column (id_name (c_name b)) (ct_columns ta) = None ->
  In (id_name (c_name b)) (gone_columns tb ta).
Proof.
  intros tb ta b Hb F. unfold gone_columns. apply filter_In. split; [apply in_map_iff; exists b; split; [reflexivity|exact Hb]|].
  apply find_column_memb in F. rewrite F. reflexivity.
Qed.

Lemma phases_shape : forall tb ta added, In (CreateTable tb) B -> In (CreateTable ta) A -> qname (ct_name tb) = qname (ct_name ta) ->
  (forall c, In c added -> In c (ct_constraints ta)) ->
  change (CreateTable tb) = phases d sdiff false tb ta added -> exists cs1 cs2, shape (CreateTable tb) (CreateTable ta) cs1 cs2.
Proof.
  intros tb ta added Hb Ha Hq Hadd Hch.
  pose proof (so_pairs _ _ _ OK tb ta Hb Ha Hq) as PO. pose proof (KB tb Hb) as Nb. pose proof (KA ta Ha) as Na.
  pose proof (entriesB d B NB tb Hb) as Db. pose proof (entriesA d A NA ta Ha) as Da.
  set (drops := flat_map (drop_gone_constraint d sdiff (ct_name tb) (ct_name ta) (ct_constraints ta)) (ct_constraints tb)).
  set (cols := diff_columns d sdiff (ct_name ta) (ct_columns tb) (ct_columns ta)).
  set (chs := flat_map (change_constraint d sdiff false (ct_name tb) (ct_name ta) (ct_constraints ta)) (ct_constraints tb)).
  set (ads := map (add_constraint d sdiff false (ct_name ta)) added).
  set (opts := diff_table_options d sdiff (ct_name ta) (ct_options tb) (ct_options ta)).
  set (rows := diff_row_deletion d sdiff (ct_name ta) (ct_rowdel tb) (ct_rowdel ta)).
  assert (Odrops : forall o, In o (col_ops d drops) -> o = Has (KTab (qname (ct_name ta))) \/ exists c, o = Del (ckey d (ct_name tb) c)).
  { intros o Ho. unfold drops in Ho. rewrite col_ops_flat_map in Ho. apply in_flat_map in Ho. destruct Ho as [c [Hc Ho]].
    rewrite drop_gone_eq in Ho by assumption. destruct (find_constraint _ _); [destruct Ho|]. apply in_app_or in Ho. destruct Ho as [Ho|[Ho|[]]].
    - left. apply (has_tab_ops _ _ _ Ho).
    - right. exists c. symmetry; exact Ho. }
  assert (Ocols : forall o, In o (col_ops d cols) -> exists c, this_col_op (qname (ct_name ta)) c o /\
     (forall T e, o = DelCol T e -> exists b, In b (ct_columns tb) /\ id_name (c_name b) = c /\ find_column c (ct_columns ta) = None)).
  { intros o Ho. apply (diff_columns_ops d sdiff (ct_name ta) (ct_columns tb) (ct_columns ta) o); [apply (dflt_ok d tb ta PO)|exact Ho]. }
  assert (Ochs : forall o, In o (col_ops d chs) -> o = Has (KTab (qname (ct_name ta))) \/ (exists c, o = Del (ckey d (ct_name tb) c))
     \/ exists a, In a (ct_constraints ta) /\ o = Add (ckey d (ct_name ta) a) (cval d (ct_name ta) a)).
  { intros o Ho. unfold chs in Ho. rewrite col_ops_flat_map in Ho. apply in_flat_map in Ho. destruct Ho as [c [Hc Ho]].
    destruct (find_constraint (con_key c) (ct_constraints ta)) as [a|] eqn:Fc.
    - rewrite (change_eq d sdiff false tb ta PO Nb Na Db Da (KTab "") c a Hc Fc) in Ho. destruct (neqs _ _); [|destruct Ho].
      destruct (find_con_some _ _ _ Fc) as [Hina _].
      apply in_app_or in Ho. destruct Ho as [Ho|Ho]; apply in_app_or in Ho; destruct Ho as [Ho|Ho].
      + left. apply (has_tab_ops _ _ _ Ho).
      + destruct Ho as [Ho|[]]. right; left. exists c. symmetry; exact Ho.
      + left. apply (has_tab_ops _ _ _ Ho).
      + destruct Ho as [Ho|[]]. right; right. exists a. split; [exact Hina|symmetry; exact Ho].
    - rewrite change_none in Ho by exact Fc. destruct Ho. }
  assert (Oads : forall o, In o (col_ops d ads) -> o = Has (KTab (qname (ct_name ta)))
     \/ exists a, In a (ct_constraints ta) /\ o = Add (ckey d (ct_name ta) a) (cval d (ct_name ta) a)).
  { intros o Ho. unfold ads in Ho. rewrite col_ops_map in Ho. apply in_flat_map in Ho. destruct Ho as [c [Hc Ho]].
    rewrite (add_eq d sdiff false tb ta PO Na c (Hadd c Hc)) in Ho. apply in_app_or in Ho. destruct Ho as [Ho|[Ho|[]]].
    - left. apply (has_tab_ops _ _ _ Ho).
    - right. exists c. split; [apply Hadd; exact Hc|symmetry; exact Ho]. }
  assert (Oopts := fun o => option_ops d sdiff tb ta PO Db Da o). fold opts in Oopts.
  assert (Orows := fun o => row_ops d sdiff tb ta PO Db Da o). fold rows in Orows.
  assert (Hall : forall o, In o (col_ops d ((drops ++ cols) ++ (chs ++ ads ++ opts ++ rows))) ->
     In o (col_ops d drops) \/ In o (col_ops d cols) \/ In o (col_ops d chs) \/ In o (col_ops d ads) \/ In o (col_ops d opts) \/ In o (col_ops d rows)).
  { intros o Ho. rewrite !col_ops_app in Ho. rewrite !in_app_iff in Ho. tauto. }
  assert (Hdel : forall T e, In (DelCol T e) (col_ops d ((drops ++ cols) ++ (chs ++ ads ++ opts ++ rows))) ->
     T = qname (ct_name ta) /\ In e (gone_columns tb ta) /\ find_column e (ct_columns ta) = None).
  { intros T e Ho. destruct (Hall _ Ho) as [H|[H|[H|[H|[H|H]]]]].
    - destruct (Odrops _ H) as [E|[c E]]; discriminate E.
    - destruct (Ocols _ H) as [c [H1 H2]]. destruct (H2 T e eq_refl) as [b [Hb1 [Hb2 Hb3]]]. inversion H1; subst.
      split; [reflexivity|]. split; [apply gone_columns_in; assumption|exact Hb3].
    - destruct (Ochs _ H) as [E|[[c E]|[a [_ E]]]]; discriminate E.
    - destruct (Oads _ H) as [E|[a [_ E]]]; discriminate E.
    - destruct (Oopts _ H) as [E|[x [y E]]]; discriminate E.
    - destruct (Orows _ H) as [E|[E|[[x E]|[f E]]]]; discriminate E. }
  exists (drops ++ cols), (chs ++ ads ++ opts ++ rows). constructor.
  - rewrite Hch. unfold phases. fold drops cols chs ads opts rows. rewrite <- app_assoc. reflexivity.
  - intros k v Ho Hk. cbn [stmt_entries]. destruct (Hall _ Ho) as [H|[H|[H|[H|[H|H]]]]].
    + destruct (Odrops _ H) as [E|[c E]]; discriminate E.
    + destruct (Ocols _ H) as [c [H1 _]]. inversion H1; subst. contradiction Hk.
    + destruct (Ochs _ H) as [E|[[c E]|[a [Hina E]]]]; try discriminate E. inversion E; subst. apply assoc_con_in; assumption.
    + destruct (Oads _ H) as [E|[a [Hina E]]]; try discriminate E. inversion E; subst. apply assoc_con_in; assumption.
    + destruct (Oopts _ H) as [E|[x [y E]]]; discriminate E.
    + destruct (Orows _ H) as [E|[E|[[x E]|[f E]]]]; try discriminate E. inversion E; subst. contradiction Hk.
  - intros o Ho Hna. destruct o as [k0|k0 x|k0 f|k0|k0 x|t|t|t c|]; try exact I; try (exfalso; eapply Hna; reflexivity).
    + destruct (Hall _ Ho) as [H|[H|[H|[H|[H|H]]]]].
      * destruct (Odrops _ H) as [E|[c E]]; discriminate E.
      * destruct (Ocols _ H) as [c [H1 _]]. inversion H1; subst. exact (fun F => F).
      * destruct (Ochs _ H) as [E|[[c E]|[a [Hina E]]]]; discriminate E.
      * destruct (Oads _ H) as [E|[a [Hina E]]]; discriminate E.
      * destruct (Oopts _ H) as [E|[x [y E]]]; discriminate E.
      * destruct (Orows _ H) as [E|[E|[[x E]|[g E]]]]; try discriminate E. inversion E; subst. exact (fun F => F).
    + destruct (Hall _ Ho) as [H|[H|[H|[H|[H|H]]]]].
      * destruct (Odrops _ H) as [E|[c E]]; try discriminate E. inversion E; subst. apply ckey_not_tabcol.
      * destruct (Ocols _ H) as [c [H1 _]]. inversion H1.
      * destruct (Ochs _ H) as [E|[[c E]|[a [Hina E]]]]; try discriminate E. inversion E; subst. apply ckey_not_tabcol.
      * destruct (Oads _ H) as [E|[a [Hina E]]]; discriminate E.
      * destruct (Oopts _ H) as [E|[x [y E]]]; discriminate E.
      * destruct (Orows _ H) as [E|[E|[[x E]|[g E]]]]; try discriminate E. inversion E; subst. exact (fun F => F).
    + destruct (Hall _ Ho) as [H|[H|[H|[H|[H|H]]]]].
      * destruct (Odrops _ H) as [E|[c E]]; discriminate E.
      * destruct (Ocols _ H) as [c [H1 _]]. inversion H1.
      * destruct (Ochs _ H) as [E|[[c E]|[a [Hina E]]]]; discriminate E.
      * destruct (Oads _ H) as [E|[a [Hina E]]]; discriminate E.
      * destruct (Oopts _ H) as [E|[y [z E]]]; try discriminate E. inversion E; subst. exact (fun F => F).
      * destruct (Orows _ H) as [E|[E|[[y E]|[g E]]]]; discriminate E.
    + exfalso. destruct (Hall _ Ho) as [H|[H|[H|[H|[H|H]]]]].
      * destruct (Odrops _ H) as [E|[c E]]; discriminate E.
      * destruct (Ocols _ H) as [c [H1 _]]. inversion H1.
      * destruct (Ochs _ H) as [E|[[c E]|[a [Hina E]]]]; discriminate E.
      * destruct (Oads _ H) as [E|[a [Hina E]]]; discriminate E.
      * destruct (Oopts _ H) as [E|[y [z E]]]; discriminate E.
      * destruct (Orows _ H) as [E|[E|[[y E]|[g E]]]]; discriminate E.
    + exfalso. destruct (Hall _ Ho) as [H|[H|[H|[H|[H|H]]]]].
      * destruct (Odrops _ H) as [E|[c E]]; discriminate E.
      * destruct (Ocols _ H) as [c [H1 _]]. inversion H1.
      * destruct (Ochs _ H) as [E|[[c E]|[a [Hina E]]]]; discriminate E.
      * destruct (Oads _ H) as [E|[a [Hina E]]]; discriminate E.
      * destruct (Oopts _ H) as [E|[y [z E]]]; discriminate E.
      * destruct (Orows _ H) as [E|[E|[[y E]|[g E]]]]; discriminate E.
    + destruct (Hdel t c Ho) as [E1 [_ E3]]. subst t. cbn [calm]. rewrite assoc_hm by assumption.
      rewrite (hm_in d (KCol (qname (ct_name ta)) c) A (CreateTable ta) CA NA Ha) by (unfold belongs; cbn [owner]; apply String.eqb_refl).
      cbn [stmt_entries]. rewrite assoc_table_col by exact Na. rewrite E3. reflexivity.
    + exfalso. destruct (Hall _ Ho) as [H|[H|[H|[H|[H|H]]]]].
      * destruct (Odrops _ H) as [E|[c E]]; discriminate E.
      * destruct (Ocols _ H) as [c [H1 _]]. inversion H1.
      * destruct (Ochs _ H) as [E|[[c E]|[a [Hina E]]]]; discriminate E.
      * destruct (Oads _ H) as [E|[a [Hina E]]]; discriminate E.
      * destruct (Oopts _ H) as [E|[y [z E]]]; discriminate E.
      * destruct (Orows _ H) as [E|[E|[[y E]|[g E]]]]; discriminate E.
  - intros k v Ho. rewrite col_ops_app in Ho. apply in_app_or in Ho. destruct Ho as [H|H].
    + destruct (Odrops _ H) as [E|[c E]]; discriminate E.
    + destruct (Ocols _ H) as [c [H1 _]]. inversion H1; subst. exact (fun F => F).
  - intros n Hn Hd. cbn [stmt_entries]. destruct (tabcol_owner n Hn) as [u Eu].
    destruct (belongs_owner d n u _ Eu (declares_belongs d n _ Hd)) as [t' [E1 E2]]. inversion E1; subst t'.
    assert (Hnc : forall c t, ckey d t c <> n) by (intros c t E; apply (ckey_not_tabcol t c); rewrite E; exact Hn).
    destruct n as [t|t c| | | |]; try contradiction Hn; cbn [owner] in Eu; inversion Eu; subst t; subst u.
    + exists (Some VTab). split; [|reflexivity]. unfold table_entries. cbn [assoc_key]. rewrite Hq, key_eqb_refl.
      rewrite at_col_app. unfold drops. rewrite con_idle_drop; [|exact PO|exact Nb|reflexivity|intros; apply Hnc].
      apply cols_idle; [exact PO|split; reflexivity|discriminate|reflexivity].
    + exists (assoc_key (KCol (qname (ct_name ta)) c) (table_entries d ta)). split; [|apply (declares_assoc (CreateTable ta) _); exact Hd].
      rewrite (assoc_table_col d ta) by exact Na.
      assert (Eb : assoc_key (KCol (qname (ct_name ta)) c) (table_entries d tb) = option_map (fun x => VCol (sem_col d x)) (find_column c (ct_columns tb)))
        by (rewrite <- Hq; apply assoc_table_col; exact Nb).
      rewrite Eb, at_col_app. unfold drops.
      rewrite con_idle_drop; [|exact PO|exact Nb|discriminate|intros; apply Hnc]. apply (phase_columns d sdiff tb ta); assumption.
  - intros t c Ho. destruct (Hdel t c Ho) as [E1 [E2 _]]. exists tb, ta. unfold table_name. rewrite Hq. auto.
Qed.

Lemma chg_shape : forall s p, In s B -> find_stmt s A = Some p -> not_recreated d s p = true -> exists cs1 cs2, shape s p cs1 cs2.
Proof.
  intros s p Hs F Hnr. destruct (find_stmt_some _ _ _ F) as [Hp Es].
  destruct (is_create_cases B s CB Hs) as [[tb Et]|[ib Ei]]; subst s.
  - destruct (same_table_inv _ _ Es) as [ta [E1 Hq]]. subst p.
    assert (Hsp : match d with Sp => neqs (options_diff d (ct_options tb)) (options_diff d (ct_options ta)) | _ => false end = false).
    { destruct d eqn:Ed; try reflexivity. cbn [not_recreated] in Hnr. unfold neqs, eqs. rewrite Hnr. reflexivity. }
    destruct (eqs (create_table_string d tb) (create_table_string d ta)) eqn:Et.
    + assert (Ec : change (CreateTable tb) = []).
      { unfold chg, diff_stmt. rewrite F. unfold diff_create_table. rewrite Hsp, Et. reflexivity. }
      exists [], []. constructor; try (intros; contradiction); [exact Ec|].
      intros n Hn Hd. cbn [col_ops flat_map at_key stmt_entries]. eexists. split; [reflexivity|].
      rewrite (so_text _ _ _ OK tb ta Hs Hp Hq (proj1 (eqs_eq _ _) Et) n). apply declares_assoc in Hd. exact Hd.
    + pose proof (so_pairs _ _ _ OK tb ta Hs Hp Hq) as PO.
      destruct (diff_tables_phases d srt sdiff Hsrt false tb ta PO (KA ta Hp)) as [added [E P]].
      apply (phases_shape tb ta added); try assumption.
      * apply (added_subset sdiff tb ta added P).
      * unfold chg, diff_stmt. rewrite F. unfold diff_create_table. rewrite Hsp, Et.
        assert (Hn : all_named (ct_constraints tb) && all_named (ct_constraints ta) = true).
        { apply andb_true_iff. split; [apply (KB tb Hs)|apply (KA ta Hp)]. }
        rewrite Hn, E. destruct (phases d sdiff false tb ta added); reflexivity.
  - destruct (same_index_inv _ _ Es) as [ia [E1 Hq]]. subst p.
    assert (Hno : forall n, tabcol n -> declares d n (CreateIndex ia) = true -> False).
    { intros n Hn Hd. unfold declares in Hd. cbn [stmt_entries existsb fst] in Hd. rewrite orb_false_r in Hd. apply key_eqb_eq in Hd. subst n. exact Hn. }
    destruct (neqs (create_index_diff d ib) (create_index_diff d ia)) eqn:Ed.
    + assert (Hd : d <> My).
      { intro Hd. destruct (so_my _ _ _ OK Hd ib Hs) as [ia' [Ha' [Hq' Hdiff]]].
        assert (Es' : CreateIndex ia = CreateIndex ia').
        { apply (same_unique d A (CreateIndex ib) _ _ CA NA eq_refl Hp Ha'); [exact Es|cbn [same_object]; apply eqs_eq; exact Hq']. }
        inversion Es'; subst. apply neqs_false in Hdiff. congruence. }
      set (cs := [DropIndex (sdiff (create_index_diff d ib) (create_index_diff d ia)) false (cx_name ib); CreateIndex ia]).
      assert (Eops : col_ops d cs = [Del (KIdx (qname (cx_name ib))); Add (KIdx (qname (cx_name ia))) (VIdx (sem_index d ia))]).
      { unfold col_ops, cs. cbn [flat_map stmt_ops]. unfold drop_index_ops, create_index_ops. destruct d; try contradiction; reflexivity. }
      exists [], cs. constructor; cbn [app].
      * unfold chg, diff_stmt. rewrite F, Ed. reflexivity.
      * intros k v Ho _. rewrite Eops in Ho. destruct Ho as [Ho|[Ho|[]]]; [discriminate Ho|]. inversion Ho; subst.
        cbn [stmt_entries assoc_key]. rewrite key_eqb_refl. reflexivity.
      * intros o Ho Hna. rewrite Eops in Ho. destruct Ho as [Ho|[Ho|[]]]; subst o; [exact (fun F => F)|exfalso; eapply Hna; reflexivity].
      * intros k v [].
      * intros n Hn Hd'. exfalso. apply (Hno n Hn Hd').
      * intros t c Ho. rewrite Eops in Ho. destruct Ho as [Ho|[Ho|[]]]; discriminate Ho.
    + exists [], []. constructor; try (intros; contradiction).
      * unfold chg, diff_stmt. rewrite F, Ed. reflexivity.
      * intros n Hn Hd. exfalso. apply (Hno n Hn Hd).
Qed.

(** *** The conditions, at a statement that stays *)
Definition known_before (l : ddl) (n : key) : Prop :=
  exists x q, In x l /\ partner x A = Some q /\ In n (keys d [q]).

Lemma changed_at : forall l1 s r p known, changed_in_order d A known (l1 ++ s :: r) = true -> partner s A = Some p ->
  (forall n, In n (needed d [p]) -> In n known \/ known_before l1 n \/ In n (keys d [p]))
  /\ columns_unreferred d A s p (s :: r) = true /\ not_recreated d s p = true.
Proof.
  induction l1 as [|x l1 IH]; intros s r p known H F; cbn [app changed_in_order] in H.
  - rewrite F in H. rewrite !andb_true_iff in H. destruct H as [[[H1 H2] H3] _]. split; [|split; assumption].
    intros n Hn. rewrite within_In in H1. specialize (H1 n Hn). apply in_app_or in H1. tauto.
  - destruct (partner x A) as [q|] eqn:Fx.
    + rewrite !andb_true_iff in H. destruct H as [_ H]. destruct (IH s r p _ H F) as [H1 H2]. split; [|exact H2].
      intros n Hn. destruct (H1 n Hn) as [G|[G|G]]; [|right; left|right; right; exact G].
      * apply in_app_or in G. destruct G as [G|G]; [left; exact G|]. right; left. exists x, q. split; [left; reflexivity|]. split; assumption.
      * destruct G as [y [z [G1 G2]]]. exists y, z. split; [right; exact G1|exact G2].
    + destruct (IH s r p _ H F) as [H1 H2]. split; [|exact H2]. intros n Hn. destruct (H1 n Hn) as [G|[G|G]]; [left; exact G|right; left|right; right; exact G].
      destruct G as [y [z [G1 G2]]]. exists y, z. split; [right; exact G1|exact G2].
Qed.

Lemma sel3_val : forall l r k x, B = l ++ r -> In x l -> sel3 d A k x = true -> val l k = assoc_key k (entries d A).
Proof.
  intros l r k x E Hx Sx. unfold val. replace (existsb (sel3 d A k) l) with true; [reflexivity|]. symmetry. apply existsb_exists. exists x. auto.
Qed.

(** What the new schema has and is known is there. *)
Lemma known_val : forall l r n, B = l ++ r -> present (assoc_key n (entries d A)) = true ->
  In n (keys d B ++ keys d (fresh B A)) \/ known_before l n -> present (val l n) = true.
Proof.
  intros l r n E Ha H. destruct H as [H|[x [q [Hx [Fx Hq]]]]].
  - apply in_app_or in H. destruct H as [H|H]; apply keys_in in H; destruct H as [x [Hx Hk]].
    + apply keys_stmt in Hk; [|left; exact Hx]. unfold val. destruct (existsb _ _); [exact Ha|].
      assert (Sx : sel3 d A n x = true) by (unfold sel3; rewrite (declares_belongs d n x Hk); reflexivity).
      pose proof (mid_selected d B A CB CA NB NA OK n x Hx Sx) as Hm. destruct (find_stmt x A) as [p|].
      * destruct Hm as [Hm _]. rewrite Hm. apply declares_assoc. exact Hk.
      * destruct Hm as [_ Hm]. rewrite Hm in Ha. discriminate Ha.
    + rewrite fresh_eq in Hx. apply only_left_in in Hx. destruct Hx as [Hx Fx]. apply keys_stmt in Hk; [|right; exact Hx].
      unfold val. destruct (existsb _ _); [exact Ha|]. unfold mid_value.
      rewrite (hm_in d n A x CA NA Hx (declares_belongs d n x Hk)), Fx. apply declares_assoc. exact Hk.
  - assert (Hb : In x B) by (rewrite E; apply in_or_app; left; exact Hx). rewrite partner_A in Fx by (left; exact Hb).
    destruct (find_stmt_some _ _ _ Fx) as [Hqa _]. apply keys_stmt in Hq; [|right; exact Hqa].
    rewrite (sel3_val l r n x E Hx); [exact Ha|]. unfold sel3. rewrite Fx, (declares_belongs d n q Hq), orb_true_r. reflexivity.
Qed.

(** Where the value of a key comes from *)
Lemma val_origin : forall l r k v, B = l ++ r -> val l k = Some v ->
  assoc_key k (entries d A) = Some v \/
  exists x, In x r /\ stays A x = true /\ assoc_key k (stmt_entries d x) = Some v.
Proof.
  intros l r k v E H. unfold val in H. destruct (existsb (sel3 d A k) l) eqn:Ex; [left; exact H|].
  assert (Hg : gone_value d B A k = Some v -> exists x, In x r /\ stays A x = true /\ assoc_key k (stmt_entries d x) = Some v).
  { intro G. unfold gone_value in G. destruct (hm d k B) as [x|] eqn:Hh; [|discriminate G]. destruct (hm_some _ _ _ _ Hh) as [Hx Bx].
    destruct (find_stmt x A) as [p|] eqn:F; [|discriminate G]. exists x. split; [|split].
    - pose proof Hx as Hx'. rewrite E in Hx'. apply in_app_or in Hx'. destruct Hx' as [Hx'|Hx']; [|exact Hx']. exfalso.
      assert (T : existsb (sel3 d A k) l = true); [|congruence]. apply existsb_exists. exists x. split; [exact Hx'|]. unfold sel3. rewrite Bx. reflexivity.
    - rewrite stays_A by (left; exact Hx). rewrite F. reflexivity.
    - rewrite assoc_hm, Hh in G by assumption. exact G. }
  unfold mid_value in H. destruct (hm d k A) as [x|] eqn:Hh; [|right; apply Hg; exact H]. destruct (find_stmt x B) eqn:F; [right; apply Hg; exact H|].
  left. rewrite assoc_hm, Hh by assumption. exact H.
Qed.

Lemma calm_survive : forall os k v x, (forall o, In o os -> calm o) -> conkey k -> at_key k os v = Some (Some x) ->
  In (Add k x) os \/ (v = Some x /\ forall t c, In (DelCol t c) os -> involves t c k x = false).
Proof.
  induction os as [|o r IH]; intros k v x Hc Hk He; cbn [at_key] in He; [inversion He; right; split; [reflexivity|intros t c []]|].
  destruct (eff o k v) as [u|] eqn:Eo; [|discriminate He].
  destruct (IH k u x) as [H|[H1 H2]]; try assumption; [intros y Hy; apply Hc; right; exact Hy|left; right; exact H|]. subst u.
  destruct (calm_con1 o k v _ (Hc o (or_introl eq_refl)) Hk Eo) as [H|[H|[y [E1 E2]]]]; [|discriminate H|inversion E2; subst; left; left; reflexivity].
  right. split; [symmetry; exact H|]. intros t c [Ho|Ho]; [|apply (H2 t c Ho)]. subst o v. cbn [eff] in Eo.
  destruct (key_eqb (KCol t c) k) eqn:Ek; [apply key_eqb_eq in Ek; subst k; contradiction Hk|]. cbn [unless] in Eo.
  destruct (involves t c k x); [discriminate Eo|reflexivity].
Qed.

(** *** Inside the change of one statement *)
Section Change.
Variables (l r : ddl) (s p : stmt) (cs1 cs2 : list stmt).
Hypothesis EB : B = l ++ s :: r.
Hypothesis Fp : find_stmt s A = Some p.
Hypothesis Sh : shape s p cs1 cs2.
Hypothesis SV : sound (val l).

Lemma ch_in : In s B.
Proof. rewrite EB. apply in_or_app. right; left; reflexivity. Qed.
Lemma ch_partner : In p A.
Proof. apply (find_stmt_some _ _ _ Fp). Qed.
Lemma ch_io : (forall n, In n (needed d [p]) -> In n (keys d B ++ keys d (fresh B A)) \/ known_before l n \/ In n (keys d [p]))
  /\ columns_unreferred d A s p (s :: r) = true.
Proof.
  destruct io_split as [_ [_ [_ [_ H]]]]. rewrite EB in H at 3.
  destruct (changed_at l s r p _ H) as [H1 [H2 _]]; [rewrite partner_A by (left; apply ch_in); exact Fp|]. split; assumption.
Qed.
Lemma p_value : forall k v, assoc_key k (stmt_entries d p) = Some v -> assoc_key k (entries d A) = Some v.
Proof.
  intros k v H. assert (Hd : declares d k p = true) by (apply declares_assoc; rewrite H; reflexivity).
  rewrite assoc_hm, (hm_in d k A p CA NA ch_partner (declares_belongs d k p Hd)) by assumption. exact H.
Qed.
Lemma ch_calm : forall o, In o (col_ops d (cs1 ++ cs2)) -> calm o.
Proof.
  intros o Ho. assert (Hd : (exists k v, o = Add k v) \/ (forall k v, o <> Add k v)) by (destruct o; eauto; right; intros; discriminate).
  destruct Hd as [[k [v E]]|Hn]; [|apply (sh_calm _ _ _ _ Sh); assumption]. subst o. intro Hk. apply p_value. apply (sh_add _ _ _ _ Sh); assumption.
Qed.
Lemma ops_prefix : forall P Q o, change s = P ++ Q -> In o (col_ops d P) -> In o (col_ops d (cs1 ++ cs2)).
Proof. intros P Q o E Ho. rewrite <- (sh_eq _ _ _ _ Sh), E, col_ops_app. apply in_or_app. left; exact Ho. Qed.

Lemma prefix_split : forall X (a b c e : list X), (a ++ b = c ++ e)%list -> (exists z, a = c ++ z)%list \/ (exists z, c = a ++ z)%list.
Proof.
  intros X a. induction a as [|x a IH]; intros b c e H; [right; exists c; reflexivity|].
  destruct c as [|y c]; [left; exists (x :: a); reflexivity|]. cbn [app] in H. inversion H; subst.
  destruct (IH b c e H2) as [[z Hz]|[z Hz]]; [left|right]; exists z; subst; reflexivity.
Qed.

(** The needs of an added object are there. *)
Lemma prefix_add : forall P Q k v n m, change s = P ++ Q -> In (Add k v) (col_ops d P) -> In n (needs k v) ->
  at_key n (col_ops d P) (val l n) = Some m -> present m = true.
Proof.
  intros P Q k v n m E Ho Hn Hm. pose proof (needs_conkey k v n Hn) as Hk. pose proof (needs_tabcol k v n Hn) as Ht.
  assert (Hv : assoc_key k (stmt_entries d p) = Some v) by (apply (sh_add _ _ _ _ Sh); [apply (ops_prefix P Q); assumption|exact Hk]).
  assert (Ha : present (assoc_key n (entries d A)) = true) by (apply (closed_A k v); [apply p_value; exact Hv|exact Hn]).
  assert (Hc : forall o, In o (col_ops d P) -> calm o) by (intros o Hi; apply ch_calm, (ops_prefix P Q); assumption).
  assert (Hkept : present (val l n) = true -> present m = true) by (intro Hv0; apply (calm_keep (col_ops d P) n (val l n) m); assumption).
  destruct ch_io as [H _]. destruct (H n) as [G|[G|G]].
  - apply (needed_in [p] p k v); [left; reflexivity|right; apply ch_partner|exact Hv|exact Hn].
  - apply Hkept. apply (known_val l (s :: r)); [exact EB|exact Ha|left; exact G].
  - apply Hkept. apply (known_val l (s :: r)); [exact EB|exact Ha|right; exact G].
  - apply keys_stmt in G; [|right; apply ch_partner].
    assert (Hp : exists z, P = cs1 ++ z).
    { rewrite (sh_eq _ _ _ _ Sh) in E. symmetry in E. destruct (prefix_split _ _ _ _ _ E) as [H1|[z H1]]; [exact H1|]. exfalso.
      apply (sh_first _ _ _ _ Sh k v); [|exact Hk]. rewrite H1, col_ops_app. apply in_or_app. left; exact Ho. }
    destruct Hp as [z Ez]. subst P.
    assert (Sn : sel3 d A n s = true) by (unfold sel3; rewrite Fp, (declares_belongs d n p G), orb_true_r; reflexivity).
    pose proof (mid_selected d B A CB CA NB NA OK n s ch_in Sn) as Hmid. rewrite Fp in Hmid. destruct Hmid as [Hmid _].
    assert (Ev : val l n = assoc_key n (stmt_entries d s)) by (unfold val; rewrite (not_in_first l s r n EB Sn); exact Hmid).
    destruct (sh_cols _ _ _ _ Sh n Ht G) as [w [Hw Pw]]. rewrite at_col_app, Ev, Hw in Hm.
    apply (calm_keep (col_ops d z) n w m); try assumption. intros o Hi. apply Hc. rewrite col_ops_app. apply in_or_app. right; exact Hi.
Qed.

Lemma prefix_sound : forall P Q (m : db), change s = P ++ Q -> (forall k, at_key k (col_ops d P) (val l k) = Some (m k)) -> sound m.
Proof.
  intros P Q m E Hm k v Hkv. apply intact_iff. intros n Hn. pose proof (needs_conkey k v n Hn) as Hk. pose proof (needs_tabcol k v n Hn) as Ht.
  assert (Hc : forall o, In o (col_ops d P) -> calm o) by (intros o Hi; apply ch_calm, (ops_prefix P Q); assumption).
  pose proof (Hm k) as Hmk. rewrite Hkv in Hmk. destruct (calm_survive _ _ _ _ Hc Hk Hmk) as [Ho|[Hv Hi]].
  - apply (prefix_add P Q k v n (m n)); try assumption. apply Hm.
  - assert (Pn : present (val l n) = true) by (pose proof (SV k v Hv) as I0; rewrite intact_iff in I0; apply I0; exact Hn).
    destruct (val_origin l (s :: r) k v EB Hv) as [Ha|[x [Hx [Sx Vx]]]].
    + apply (calm_keep (col_ops d P) n (val l n) (m n)); try assumption; [apply (closed_A k v); assumption|apply Hm].
    + destruct (m n) as [w|] eqn:En; [reflexivity|]. exfalso.
      destruct (calm_lost (col_ops d P) n (val l n) Hc Ht) as [t [c [Hd En']]]; [rewrite Hm, En; reflexivity|exact Pn|]. subst n.
      destruct (needs_col k v t c Hn) as [F|F]; [rewrite (Hi t c Hd) in F; discriminate F|].
      destruct (sh_drop _ _ _ _ Sh t c (ops_prefix P Q _ E Hd)) as [tb [ta [E1 [E2 [E3 E4]]]]].
      destruct ch_io as [_ H]. rewrite E1, E2 in H. cbn [columns_unreferred] in H. rewrite forallb_forall in H. specialize (H c E4).
      rewrite forallb_forall in H. rewrite <- E1 in H. specialize (H x Hx). rewrite Sx in H. cbn [negb orb] in H. apply negb_true_iff in H.
      assert (Hbx : In x B) by (rewrite EB; apply in_or_app; right; exact Hx).
      assert (T : mem_key (KCol (table_name tb) c) (referred d [x]) = true); [|congruence].
      apply mem_key_In. rewrite <- E3. apply (referred_in x k v); [left; exact Hbx|exact Vx|exact F].
Qed.

Lemma prefix_new : forall P x Q (m m' : db), change s = P ++ x :: Q -> (forall k, at_key k (col_ops d (P ++ [x])) (val l k) = Some (m' k)) ->
  new_intact d x m m' = true.
Proof.
  intros P x Q m m' E Hm. unfold new_intact. rewrite forallb_forall. intros [k v] Hi. cbn [fst snd].
  apply orb_true_iff. right. apply intact_iff. intros n Hn. pose proof (needs_conkey k v n Hn) as Hk.
  assert (E' : change s = (P ++ [x]) ++ Q) by (rewrite <- app_assoc; exact E).
  apply (prefix_add (P ++ [x]) Q k v n (m' n)); try assumption; [|apply Hm].
  rewrite col_ops_app. apply in_or_app. right. unfold objects in Hi. cbn [flat_map] in Hi. rewrite app_nil_r in Hi.
  apply in_flat_map in Hi. destruct Hi as [o [Ho Hi]]. unfold col_ops. cbn [flat_map]. rewrite app_nil_r.
  destruct o; cbn [created] in Hi; try contradiction Hi; destruct Hi as [Hi|[]]; inversion Hi; subst; [exact Ho|contradiction Hn].
Qed.
End Change.

Lemma dep_change : forall l s r n, B = l ++ s :: r -> sound (val l) -> db_eq n (val l) ->
  exists n1, dep_exec_all d (change s) n = Some n1 /\ db_eq n1 (val (l ++ [s])) /\ sound (val (l ++ [s])).
Proof.
  intros l s r n E SV En. assert (Hs : In s B) by (rewrite E; apply in_or_app; right; left; reflexivity).
  destruct (run_by_key (col_ops d (change s)) (val l) (val (l ++ [s]))) as [m1 [Hr Em]].
  { intro k. apply (change_value l s r k E). }
  destruct (find_stmt s A) as [p|] eqn:F.
  - destruct io_split as [_ [_ [_ [_ H]]]]. rewrite E in H at 3.
    destruct (changed_at l s r p _ H) as [_ [_ H3]]; [rewrite partner_A by (left; exact Hs); exact F|].
    destruct (chg_shape s p Hs F H3) as [cs1 [cs2 Sh]].
    destruct (dep_all d (change s) (val l) m1) with (n := n) as [n1 [D [E1 S1]]].
    + apply (chg_no_rename d srt sdiff Hsrt B A CB NB NA KA OK s Hs).
    + exact Hr.
    + exact SV.
    + intros P x Q mp mp' El Hp Hx _.
      assert (Hr' : run (col_ops d (P ++ [x])) (val l) = Some mp').
      { rewrite col_ops_app, run_app, Hp. unfold col_ops. cbn [flat_map]. rewrite app_nil_r. exact Hx. }
      assert (E' : change s = (P ++ [x]) ++ Q) by (rewrite <- app_assoc; exact El).
      split; [|intros _].
      * apply (prefix_sound l r s p cs1 cs2 E F Sh SV (P ++ [x]) Q mp' E'). intro k. apply (run_at_key _ _ _ Hr' k).
      * apply (prefix_new l r s p cs1 cs2 E F Sh P x Q mp mp' El). intro k. apply (run_at_key _ _ _ Hr' k).
    + exact En.
    + exists n1. split; [exact D|]. split; [intro k; rewrite E1; apply Em|]. apply (sound_ext m1); [exact Em|exact S1].
  - assert (Ec : change s = []).
    { destruct (change_stmt d srt sdiff Hsrt B A CB CA NB NA KB KA OK s Hs) as [c [Ec [_ [H2 _]]]]. unfold chg. rewrite Ec. apply H2. exact F. }
    rewrite Ec in *. cbn in Hr. inversion Hr; subst m1. exists n. split; [reflexivity|]. split; [intro k; rewrite En; apply Em|].
    apply (sound_ext (val l)); assumption.
Qed.

Lemma dep_changes : forall r l n, B = l ++ r -> sound (val l) -> db_eq n (val l) ->
  exists n1, dep_exec_all d (flat_map change r) n = Some n1 /\ db_eq n1 (val B).
Proof.
  induction r as [|s r IH]; intros l n E SV En.
  - rewrite app_nil_r in E. subst l. exists n. split; [reflexivity|exact En].
  - destruct (dep_change l s r n E SV En) as [n1 [D [E1 S1]]]. cbn [flat_map]. rewrite dep_all_app, D.
    apply (IH (l ++ [s]) n1); try assumption. rewrite <- app_assoc. exact E.
Qed.

Lemma dep_result : forall n, db_eq n (fun k => assoc_key k (entries d B)) ->
  exists n1, dep_exec_all d (result d srt sdiff B A) n = Some n1 /\ db_eq n1 (fun k => assoc_key k (entries d A)).
Proof.
  intros n En.
  assert (Sn : sound n).
  { apply (sound_ext (fun k => assoc_key k (entries d B))); [intro k; symmetry; apply En|].
    intros k v Hv. apply intact_iff. intros x Hx. apply (closed_B k v); assumption. }
  destruct (dep_drops (only_left_stmts B A) [] n (fun k => assoc_key k (entries d B))) as [n1 [D1 [S1 E1]]]; try assumption.
  - reflexivity.
  - reflexivity.
  - intros k v Hv. rewrite <- En. exact Hv.
  - intro k. left. apply En.
  - destruct (dep_creates n1 S1 E1) as [n2 [D2 [E2 S2]]].
    destruct (dep_changes B [] n2) as [n3 [D3 E3]].
    + reflexivity.
    + apply (sound_ext n2); assumption.
    + exact E2.
    + exists n3. split.
      * unfold result. rewrite dep_all_app, D1, dep_all_app, D2. exact D3.
      * intro k. rewrite E3. pose proof (phase3 d srt sdiff Hsrt B A CB CA NB NA KB KA OK k) as H3.
        assert (Hall : forall l r, B = l ++ r -> at_key k (col_ops d (flat_map change l)) (mid_value d B A k) = Some (val l k)).
        { induction l as [|s l IH] using rev_ind; intros r E; [reflexivity|]. rewrite flat_map_app, at_col_app.
          rewrite (IH (s :: r)) by (rewrite E, <- app_assoc; reflexivity). cbn [flat_map]. rewrite app_nil_r.
          apply (change_value l s r). rewrite E, <- app_assoc. reflexivity. }
        rewrite (Hall B []) in H3 by (rewrite app_nil_r; reflexivity). inversion H3. reflexivity.
Qed.
End Order.

Theorem diff_respects : forall d srt sdiff before after db0 dba,
  srt_ok srt -> describes d before db0 -> describes d after dba ->
  reconcilable d before after = true -> text_ok d before after = true -> in_order d before after = true ->
  match diff d srt sdiff (Some before) (Some after) with
  | DOk stmts => exists m, dep_exec_all d stmts db0 = Some m /\ db_eq m dba
  | DNoDiff => db_eq db0 dba
  | _ => False
  end.
Proof.
  intros d srt sdiff B A db0 dba Hs HB HA R T IO.
  destruct (describes_entries d B db0 HB) as [NB [VB KB]]. destruct (describes_entries d A dba HA) as [NA [VA KA]].
  pose proof (diff_reconciles d srt sdiff B A db0 dba Hs HB HA R T) as Hd.
  destruct HB as [CB _]. destruct HA as [CA _].
  assert (OK : schemas_ok d B A) by (apply reconcilable_ok; assumption).
  destruct (dep_result d srt sdiff Hs B A CB CA NB NA KB KA OK IO db0) as [m [D E]].
  { intro k. apply VB. }
  cbn [diff] in *. rewrite (diff_ddl_result d srt sdiff Hs B A CB CA NB NA KB KA OK) in *.
  destruct (eqs (ddl_string d B) (ddl_string d A)); [exact Hd|].
  destruct (result d srt sdiff B A) as [|x rs]; [exact Hd|]. exists m. split; [exact D|]. intro k. rewrite E, VA. reflexivity.
Qed.
