(** Diff on whole schemas: executing its result on a database described by the
    first schema yields a database described by the second one. *)
From Coq Require Import Lia Permutation.
From Verif Require Import GoStr Token Ast Parser Diff Db DbFacts AppendFacts DiffTable DiffPair.

(** Same kind of object and same name *)
Definition same_object (s x : stmt) : bool := same_type s x && String.eqb (stmt_name s) (stmt_name x).

(** Does statement [s] declare the key? *)
Definition declares (d : dialect) (k : key) (s : stmt) : bool :=
  existsb (fun e => key_eqb (fst e) k) (stmt_entries d s).

(** When the comparison of two schemas is reliable. *)
Record schemas_ok (d : dialect) (B A : ddl) : Prop := {
  so_pairs : forall tb ta, In (CreateTable tb) B -> In (CreateTable ta) A ->
    qname (ct_name tb) = qname (ct_name ta) -> pair_ok d tb ta;
  so_text : forall tb ta, In (CreateTable tb) B -> In (CreateTable ta) A ->
    qname (ct_name tb) = qname (ct_name ta) -> create_table_string d tb = create_table_string d ta ->
    forall k, assoc_key k (table_entries d tb) = assoc_key k (table_entries d ta);
  so_ddl_text : ddl_string d B = ddl_string d A -> forall k, assoc_key k (entries d B) = assoc_key k (entries d A);
  (* an index does not change its way of declaration *)
  so_home : forall i sb sa, In sb B -> In sa A -> declares d (KIdx i) sb = true -> declares d (KIdx i) sa = true ->
    same_object sb sa = true;
  so_index : forall ib ia, In (CreateIndex ib) B -> In (CreateIndex ia) A -> qname (cx_name ib) = qname (cx_name ia) ->
    create_index_diff d ib = create_index_diff d ia -> sem_index d ib = sem_index d ia;
  so_my : d = My -> forall ib, In (CreateIndex ib) B ->
    exists ia, In (CreateIndex ia) A /\ qname (cx_name ib) = qname (cx_name ia) /\ create_index_diff d ib = create_index_diff d ia;
  (* no table is dropped or recreated that has separately declared indexes *)
  so_wiped : forall i tb, In (CreateIndex i) B \/ In (CreateIndex i) A -> In (CreateTable tb) B -> qname (cx_table i) = qname (ct_name tb) ->
    exists ta, In (CreateTable ta) A /\ qname (ct_name ta) = qname (ct_name tb) /\
               (d = Sp -> options_diff d (ct_options tb) = options_diff d (ct_options ta));
  (* no dropped column is used by a separately declared index that stays or comes *)
  so_cols : forall tb ta c i, In (CreateTable tb) B -> In (CreateTable ta) A -> qname (ct_name tb) = qname (ct_name ta) ->
    In c (ct_columns tb) -> find_column (id_name (c_name c)) (ct_columns ta) = None ->
    (In (CreateIndex i) A \/ (In (CreateIndex i) B /\ find_stmt (CreateIndex i) A <> None)) ->
    qname (cx_table i) = qname (ct_name tb) ->
    existsb (fun x => String.eqb (fst x) (id_name (c_name c))) (sem_keycols d (cx_columns i)) = false }.

Section Sound.
Variable d : dialect.
Variable srt : list constraint -> list constraint.
Variable sdiff : string -> string -> string.
Hypothesis Hsrt : srt_ok srt.
Variables B A : ddl.
Hypothesis CB : forallb is_create B = true.
Hypothesis CA : forallb is_create A = true.
Hypothesis NB : NoDup (map fst (entries d B)).
Hypothesis NA : NoDup (map fst (entries d A)).
Hypothesis KB : forall t, In (CreateTable t) B -> all_con_named t = true.
Hypothesis KA : forall t, In (CreateTable t) A -> all_con_named t = true.
Hypothesis OK : schemas_ok d B A.

Lemma is_create_cases : forall l s, forallb is_create l = true -> In s l ->
  (exists t, s = CreateTable t) \/ (exists i, s = CreateIndex i).
Proof.
  intros l s H Hs. rewrite forallb_forall in H. specialize (H s Hs). destruct s; try discriminate H; eauto.
Qed.

Lemma declares_In : forall k s, declares d k s = true <-> In k (map fst (stmt_entries d s)).
Proof.
  intros k s. unfold declares. rewrite existsb_exists. split.
  - intros [e [H1 H2]]. apply key_eqb_eq in H2. subst. apply in_map. exact H1.
  - intro H. apply in_map_iff in H. destruct H as [e [H1 H2]]. exists e. split; [exact H2|]. rewrite H1. apply key_eqb_refl.
Qed.

Lemma nodup_flat_stmt : forall l s, NoDup (map fst (entries d l)) -> In s l -> NoDup (map fst (stmt_entries d s)).
Proof.
  induction l as [|x r IH]; intros s H Hs; [destruct Hs|]. cbn [entries flat_map] in H. rewrite map_app in H. destruct Hs as [Hs|Hs].
  - subst. apply nodup_map_app_l in H. exact H.
  - apply nodup_map_app_r in H. apply IH; assumption.
Qed.

Lemma nodup_app_disjoint : forall X (l r : list X) x, NoDup (l ++ r)%list -> In x l -> In x r -> False.
Proof.
  intros X l r x. induction l as [|y l IH]; intros H Hl Hr; [destruct Hl|]. cbn [app] in H. inversion H as [|? ? H1 H2]; subst.
  destruct Hl as [Hl|Hl].
  - subst. apply H1. apply in_or_app. right; exact Hr.
  - apply IH; assumption.
Qed.

Lemma declares_unique : forall k l, NoDup (map fst (entries d l)) -> atmost1 (declares d k) l.
Proof.
  intros k l. induction l as [|x r IH]; intro H; cbn [atmost1]; [exact I|]. cbn [entries flat_map] in H. rewrite map_app in H.
  split; [|apply IH; apply nodup_map_app_r in H; exact H]. intros Hx y Hy. destruct (declares d k y) eqn:E; [|reflexivity].
  exfalso. apply declares_In in Hx. apply declares_In in E. apply (nodup_app_disjoint _ _ _ k H Hx).
  fold (entries d r). apply in_map_iff in E. destruct E as [e [E1 E2]]. apply in_map_iff. exists e. split; [exact E1|].
  unfold entries. apply in_flat_map. exists y. auto.
Qed.

Definition home (k : key) (l : ddl) : option stmt := find (declares d k) l.

Lemma declares_false : forall k s, declares d k s = false -> assoc_key k (stmt_entries d s) = None.
Proof.
  intros k s H. apply assoc_None. intro F. apply declares_In in F. congruence.
Qed.

Lemma assoc_home : forall k l, assoc_key k (entries d l) = match home k l with Some s => assoc_key k (stmt_entries d s) | None => None end.
Proof.
  intros k l. unfold home. induction l as [|x r IH]; [reflexivity|]. cbn [entries flat_map find]. fold (entries d r). rewrite assoc_app.
  destruct (declares d k x) eqn:E.
  - apply declares_In in E. destruct (assoc_key k (stmt_entries d x)) eqn:F; [reflexivity|]. exfalso. apply assoc_None in F. contradiction.
  - rewrite declares_false by exact E. exact IH.
Qed.

Lemma home_some : forall k l s, home k l = Some s -> In s l /\ declares d k s = true.
Proof. intros k l s H. apply find_some in H. exact H. Qed.

(** *** Statements of the same object *)
Lemma same_object_eqs : forall s x, same_type s x && eqs (stmt_name s) (stmt_name x) = same_object s x.
Proof. reflexivity. Qed.

(** The key that identifies a creating statement *)
Definition okey (s : stmt) : key := match s with CreateTable t => KTab (qname (ct_name t)) | _ => KIdx (stmt_name s) end.
Lemma okey_declared : forall s, is_create s = true -> declares d (okey s) s = true.
Proof.
  intros s H. unfold declares. destruct s; try discriminate H; cbn [okey stmt_entries].
  - unfold table_entries. cbn [existsb fst]. rewrite key_eqb_refl. reflexivity.
  - replace (stmt_name (CreateIndex i)) with (qname (cx_name i)) by (symmetry; apply objname_diff_qname).
    cbn [existsb fst]. rewrite key_eqb_refl. reflexivity.
Qed.
Lemma stmt_name_table : forall t, stmt_name (CreateTable t) = qname (ct_name t).
Proof. intro t. apply objname_diff_qname. Qed.
Lemma stmt_name_index : forall i, stmt_name (CreateIndex i) = qname (cx_name i).
Proof. intro i. apply objname_diff_qname. Qed.
Lemma same_object_okey : forall s x, is_create s = true -> is_create x = true -> same_object s x = true <-> okey s = okey x.
Proof.
  intros s x Hs Hx. unfold same_object. destruct s, x; try discriminate Hs; try discriminate Hx;
  unfold okey; rewrite ?stmt_name_table, ?stmt_name_index; unfold same_type; cbn [andb]; split; intro H; try discriminate H.
  - apply String.eqb_eq in H. congruence.
  - inversion H. apply String.eqb_refl.
  - apply String.eqb_eq in H. congruence.
  - inversion H. apply String.eqb_refl.
Qed.

Lemma same_unique : forall l s x y, forallb is_create l = true -> NoDup (map fst (entries d l)) -> is_create s = true ->
  In x l -> In y l -> same_object s x = true -> same_object s y = true -> x = y.
Proof.
  intros l s x y Hc Hn Hs Hx Hy Ex Ey. rewrite forallb_forall in Hc.
  apply same_object_okey in Ex; [|exact Hs|apply Hc; exact Hx]. apply same_object_okey in Ey; [|exact Hs|apply Hc; exact Hy].
  pose proof (okey_declared x (Hc x Hx)) as Dx. pose proof (okey_declared y (Hc y Hy)) as Dy. rewrite <- Ey, Ex in Dy.
  pose proof (declares_unique (okey x) l Hn) as U. pose proof (find_unique _ _ _ x U Hx Dx) as F1.
  pose proof (find_unique _ _ _ y U Hy Dy) as F2. congruence.
Qed.

Lemma find_stmt_some : forall s l p, find_stmt s l = Some p -> In p l /\ same_object s p = true.
Proof. intros s l p H. unfold find_stmt in H. apply find_some in H. exact H. Qed.
Lemma find_stmt_none : forall s l, find_stmt s l = None -> forall p, In p l -> same_object s p = false.
Proof. intros s l H p Hp. unfold find_stmt in H. apply (find_none _ _ H p Hp). Qed.
Lemma find_stmt_unique : forall l s p, forallb is_create l = true -> NoDup (map fst (entries d l)) -> is_create s = true ->
  In p l -> same_object s p = true -> find_stmt s l = Some p.
Proof.
  intros l s p Hc Hn Hs Hp E. destruct (find_stmt s l) as [q|] eqn:F.
  - destruct (find_stmt_some _ _ _ F) as [Hq Eq]. f_equal. apply (same_unique l s q p); assumption.
  - rewrite (find_stmt_none _ _ F p Hp) in E. discriminate.
Qed.

Lemma crB : forall s, In s B -> is_create s = true.
Proof. intros s H. rewrite forallb_forall in CB. apply CB. exact H. Qed.
Lemma crA : forall s, In s A -> is_create s = true.
Proof. intros s H. rewrite forallb_forall in CA. apply CA. exact H. Qed.

Lemma same_object_sym : forall s x, same_object s x = same_object x s.
Proof.
  intros s x. unfold same_object. rewrite String.eqb_sym. f_equal. destruct s, x; reflexivity.
Qed.

(** Keys owned by a table are declared by its CREATE TABLE only. *)
Lemma owner_declares : forall k u s, owner k = Some u -> declares d k s = true ->
  exists t, s = CreateTable t /\ qname (ct_name t) = u.
Proof.
  intros k u s Ho Hd. destruct s as [t|i|c e nm|c e nm|c nm a]; try discriminate Hd.
  - exists t. split; [reflexivity|]. apply declares_In in Hd. cbn [stmt_entries] in Hd.
    destruct (string_dec u (qname (ct_name t))) as [E|E]; [congruence|]. exfalso.
    pose proof (assoc_table_other d t k u Ho E) as F. apply assoc_None in F. contradiction.
  - exfalso. apply declares_In in Hd. destruct Hd as [Hd|[]]. subst k. discriminate Ho.
Qed.

(** Both sides of a key belong to the same object. *)
Lemma homes_same : forall k sb sa, In sb B -> In sa A -> declares d k sb = true -> declares d k sa = true -> same_object sb sa = true.
Proof.
  intros k sb sa Hb Ha Db Da. destruct (owner k) as [u|] eqn:Eo.
  - destruct (owner_declares k u sb Eo Db) as [tb [E1 Q1]]. destruct (owner_declares k u sa Eo Da) as [ta [E2 Q2]]. subst sb sa.
    unfold same_object. rewrite !stmt_name_table, Q1, Q2, String.eqb_refl. reflexivity.
  - destruct k; try discriminate Eo. apply (so_home _ _ _ OK n sb sa); assumption.
Qed.

(** *** Values under a key *)
Lemma owned_value : forall k u l v t, owner k = Some u -> assoc_key k (entries d l) = Some v -> index_on t v = false.
Proof.
  intros k u l v t Ho H. rewrite assoc_home in H. destruct (home k l) as [s|] eqn:E; [|discriminate H].
  destruct (home_some _ _ _ E) as [_ Hd]. destruct (owner_declares k u s Ho Hd) as [x [E1 _]]. subst s. cbn [stmt_entries] in H.
  apply assoc_In in H. unfold table_entries in H. destruct H as [H|H]; [inversion H; reflexivity|].
  repeat (apply in_app_or in H; destruct H as [H|H]).
  - apply in_map_iff in H. destruct H as [c [E2 _]]. inversion E2; reflexivity.
  - apply in_flat_map in H. destruct H as [c [_ H]]. unfold con_entries in H.
    destruct c; destruct name; cbn in H; try contradiction; destruct H as [H|[]]; inversion H; subst; try reflexivity.
    cbn in Ho. unfold intable_key in Ho. discriminate Ho.
  - apply in_flat_map in H. destruct H as [c [_ H]]. unfold opt_entries in H.
    destruct d; try destruct (counter_option c); cbn in H; try contradiction; destruct H as [H|[]]; inversion H; reflexivity.
  - destruct (ct_rowdel x); cbn in H; [|contradiction]. destruct H as [H|[]]; inversion H; reflexivity.
Qed.

Lemma intable_value : forall i t v, assoc_key (KIdx i) (table_entries d t) = Some v -> exists x, v = VIdx x /\ si_table x = qname (ct_name t).
Proof.
  intros i t v H. apply assoc_In in H. unfold table_entries in H. destruct H as [H|H]; [inversion H|].
  repeat (apply in_app_or in H; destruct H as [H|H]).
  - apply in_map_iff in H. destruct H as [c [E2 _]]. inversion E2.
  - apply in_flat_map in H. destruct H as [c [_ H]]. unfold con_entries in H.
    destruct c; destruct name; cbn in H; try contradiction; destruct H as [H|[]]; inversion H; subst.
    eexists. split; [reflexivity|]. reflexivity.
  - apply in_flat_map in H. destruct H as [c [_ H]]. unfold opt_entries in H.
    destruct d; try destruct (counter_option c); cbn in H; try contradiction; destruct H as [H|[]]; inversion H; reflexivity.
  - destruct (ct_rowdel t); cbn in H; [|contradiction]. destruct H as [H|[]]; inversion H; reflexivity.
Qed.

(** [quiet t v]: wiping table t does not touch the value under a foreign key. *)
Definition quiet (t : string) (v : option value) : Prop := forall x, v = Some x -> index_on t x = false.

Lemma wipe_idle : forall k t v, owner k <> Some t -> quiet t v -> eff (Wipe t) k v = Some v.
Proof.
  intros k t v Ho Hq. cbn [eff]. replace (key_eqb (KTab t) k) with false by (symmetry; apply key_eqb_neq; intro F; subst k; apply Ho; reflexivity).
  replace (owned_by t k) with false.
  - destruct v as [x|]; [|reflexivity]. cbn [unless]. rewrite (Hq x eq_refl). reflexivity.
  - symmetry. unfold owned_by. destruct (owner k) as [u|]; [|reflexivity]. apply String.eqb_neq. intro F. apply Ho. congruence.
Qed.

(** *** Creating statements by key *)
Lemma adds_idle : forall k l v, ~ In k (map fst l) -> at_key k (adds l) v = Some v.
Proof.
  intros k l v H. apply (idle_of_ops (fun _ => True)); [|exact I]. intros o Ho w _. unfold adds in Ho. apply in_map_iff in Ho.
  destruct Ho as [e [E He]]. subst o. cbn [eff]. replace (key_eqb (fst e) k) with false; [reflexivity|].
  symmetry. apply key_eqb_neq. intro F. apply H. rewrite <- F. apply in_map. exact He.
Qed.
Lemma adds_sound : forall k l, NoDup (map fst l) -> at_key k (adds l) None = Some (assoc_key k l).
Proof.
  intros k l. induction l as [|[k' v'] r IH]; intro H; [reflexivity|]. cbn [map fst] in H. inversion H as [|? ? H1 H2]; subst.
  cbn [adds map at_key eff fst snd assoc_key]. destruct (key_eqb k' k) eqn:E.
  - apply key_eqb_eq in E. subst. cbn [present]. fold (adds r). apply adds_idle. exact H1.
  - fold (adds r). apply IH. exact H2.
Qed.

Lemma create_sound : forall s k, is_create s = true -> (forall t, s = CreateTable t -> all_con_named t = true) ->
  NoDup (map fst (stmt_entries d s)) ->
  at_key k (stmt_ops d s) None = Some (assoc_key k (stmt_entries d s)).
Proof.
  intros s k Hc Hn Hd. destruct s; try discriminate Hc; cbn [stmt_ops stmt_entries] in *.
  - rewrite create_table_ops_adds by (apply Hn; reflexivity).
    change (table_entries d t) with ((KTab (qname (ct_name t)), VTab) :: table_adds d t) in *. cbn [map fst] in Hd.
    inversion Hd as [|? ? H1 H2]; subst. cbn [at_key eff assoc_key]. destruct (key_eqb (KTab (qname (ct_name t))) k) eqn:E.
    + apply key_eqb_eq in E. subst. cbn [present]. apply adds_idle. exact H1.
    + destruct (owned_by (qname (ct_name t)) k); apply adds_sound; exact H2.
  - change (create_index_ops d i) with (adds [(KIdx (qname (cx_name i)), VIdx (sem_index d i))]). apply adds_sound. exact Hd.
Qed.

Lemma create_idle : forall s k v, is_create s = true -> (forall t, s = CreateTable t -> all_con_named t = true) ->
  declares d k s = false -> (forall u t, owner k = Some u -> s = CreateTable t -> qname (ct_name t) <> u) ->
  at_key k (stmt_ops d s) v = Some v.
Proof.
  intros s k v Hc Hn Hd Ho. assert (Hd' : ~ In k (map fst (stmt_entries d s))) by (intro F; apply declares_In in F; congruence).
  destruct s; try discriminate Hc; cbn [stmt_ops stmt_entries] in *.
  - rewrite create_table_ops_adds by (apply Hn; reflexivity).
    change (table_entries d t) with ((KTab (qname (ct_name t)), VTab) :: table_adds d t) in *. cbn [map fst] in Hd'. cbn [at_key eff].
    replace (key_eqb (KTab (qname (ct_name t))) k) with false by (symmetry; apply key_eqb_neq; intro F; apply Hd'; left; exact F).
    replace (owned_by (qname (ct_name t)) k) with false.
    + apply adds_idle. intro F. apply Hd'. right; exact F.
    + symmetry. unfold owned_by. destruct (owner k) as [u|] eqn:E; [|reflexivity]. apply String.eqb_neq. apply (Ho u t eq_refl eq_refl).
  - change (create_index_ops d i) with (adds [(KIdx (qname (cx_name i)), VIdx (sem_index d i))]). apply adds_idle. exact Hd'.
Qed.

(** *** The statement a key belongs to *)
Definition belongs (k : key) (s : stmt) : bool :=
  match owner k with
  | Some u => match s with CreateTable t => String.eqb (qname (ct_name t)) u | _ => false end
  | None => declares d k s
  end.

Lemma declares_belongs : forall k s, declares d k s = true -> belongs k s = true.
Proof.
  intros k s H. unfold belongs. destruct (owner k) as [u|] eqn:E; [|exact H].
  destruct (owner_declares k u s E H) as [t [E1 E2]]. subst s. apply String.eqb_eq. exact E2.
Qed.
Lemma not_belongs : forall k s, belongs k s = false -> declares d k s = false.
Proof. intros k s H. destruct (declares d k s) eqn:E; [|reflexivity]. apply declares_belongs in E. congruence. Qed.

Lemma belongs_owner : forall k u s, owner k = Some u -> belongs k s = true -> exists t, s = CreateTable t /\ qname (ct_name t) = u.
Proof.
  intros k u s Ho H. unfold belongs in H. rewrite Ho in H. destruct s; try discriminate H. exists t. split; [reflexivity|].
  apply String.eqb_eq. exact H.
Qed.

Lemma same_table : forall t t', qname (ct_name t) = qname (ct_name t') -> same_object (CreateTable t) (CreateTable t') = true.
Proof. intros t t' H. unfold same_object. rewrite !stmt_name_table, H, String.eqb_refl. reflexivity. Qed.

Lemma same_table_inv : forall t s, same_object (CreateTable t) s = true -> exists t', s = CreateTable t' /\ qname (ct_name t) = qname (ct_name t').
Proof.
  intros t s H. unfold same_object in H. destruct s; try discriminate H. exists t0. split; [reflexivity|].
  rewrite !stmt_name_table in H. apply String.eqb_eq in H. exact H.
Qed.
Lemma same_index_inv : forall t s, same_object (CreateIndex t) s = true -> exists t', s = CreateIndex t' /\ qname (cx_name t) = qname (cx_name t').
Proof.
  intros t s H. unfold same_object in H. destruct s; try discriminate H. exists i. split; [reflexivity|].
  rewrite !stmt_name_index in H. apply String.eqb_eq in H. exact H.
Qed.
Lemma same_index : forall t t', qname (cx_name t) = qname (cx_name t') -> same_object (CreateIndex t) (CreateIndex t') = true.
Proof. intros t t' H. unfold same_object. rewrite !stmt_name_index, H, String.eqb_refl. reflexivity. Qed.

Lemma belongs_eq : forall l k x y, forallb is_create l = true -> NoDup (map fst (entries d l)) ->
  In x l -> In y l -> belongs k x = true -> belongs k y = true -> x = y.
Proof.
  intros l k x y Hc Hn Hx Hy Bx By. destruct (owner k) as [u|] eqn:E.
  - destruct (belongs_owner k u x E Bx) as [tx [E1 Q1]]. destruct (belongs_owner k u y E By) as [ty [E2 Q2]]. subst x y.
    apply (same_unique l (CreateTable tx)); try assumption; try reflexivity; apply same_table; congruence.
  - unfold belongs in Bx, By. rewrite E in Bx, By. pose proof (declares_unique k l Hn) as U.
    pose proof (find_unique _ _ _ x U Hx Bx). pose proof (find_unique _ _ _ y U Hy By). congruence.
Qed.

Lemma nodup_stmts : forall l, forallb is_create l = true -> NoDup (map fst (entries d l)) -> NoDup l.
Proof.
  induction l as [|x r IH]; intros Hc Hn; constructor.
  - intro F. cbn [forallb] in Hc. apply andb_true_iff in Hc. destruct Hc as [Hx _].
    pose proof (okey_declared x Hx) as Dx. pose proof (declares_unique (okey x) (x :: r) Hn) as [U _].
    rewrite (U Dx x F) in Dx. discriminate.
  - cbn [forallb] in Hc. apply andb_true_iff in Hc. apply IH; [tauto|]. cbn [entries flat_map] in Hn. rewrite map_app in Hn.
    apply nodup_map_app_r in Hn. exact Hn.
Qed.

Lemma atmost1_of_eq : forall X (sel : X -> bool) l, NoDup l ->
  (forall x y, In x l -> In y l -> sel x = true -> sel y = true -> x = y) -> atmost1 sel l.
Proof.
  intros X sel l. induction l as [|x r IH]; intros Hd H; cbn [atmost1]; [exact I|]. inversion Hd as [|? ? H1 H2]; subst. split.
  - intros Hx y Hy. destruct (sel y) eqn:E; [|reflexivity]. exfalso. apply H1.
    rewrite (H x y (or_introl eq_refl) (or_intror Hy) Hx E). exact Hy.
  - apply IH; [exact H2|]. intros a b Ha Hb. apply H; right; assumption.
Qed.

Lemma belongs_unique : forall l k, forallb is_create l = true -> NoDup (map fst (entries d l)) -> atmost1 (belongs k) l.
Proof.
  intros l k Hc Hn. apply atmost1_of_eq; [apply nodup_stmts; assumption|]. intros x y. apply belongs_eq; assumption.
Qed.

Definition hm (k : key) (l : ddl) : option stmt := find (belongs k) l.
Lemma hm_some : forall k l s, hm k l = Some s -> In s l /\ belongs k s = true.
Proof. intros k l s H. apply find_some in H. exact H. Qed.
Lemma hm_none : forall k l s, hm k l = None -> In s l -> belongs k s = false.
Proof. intros k l s H Hs. apply (find_none _ _ H s Hs). Qed.
Lemma hm_in : forall k l s, forallb is_create l = true -> NoDup (map fst (entries d l)) -> In s l -> belongs k s = true -> hm k l = Some s.
Proof. intros k l s Hc Hn Hs Hb. apply find_unique; [apply belongs_unique; assumption|exact Hs|exact Hb]. Qed.

Lemma assoc_hm : forall k l, forallb is_create l = true -> NoDup (map fst (entries d l)) ->
  assoc_key k (entries d l) = match hm k l with Some s => assoc_key k (stmt_entries d s) | None => None end.
Proof.
  intros k l Hc Hn. rewrite assoc_home. destruct (home k l) as [s|] eqn:E.
  - destruct (home_some _ _ _ E) as [Hs Hd]. rewrite (hm_in k l s Hc Hn Hs (declares_belongs _ _ Hd)). reflexivity.
  - destruct (hm k l) as [s|] eqn:F; [|reflexivity]. symmetry. apply declares_false. destruct (hm_some _ _ _ F) as [Hs _].
    apply (find_none _ _ E s Hs).
Qed.

(** Both homes of a key are the same object. *)
Lemma homes_partner : forall k sb sa, In sb B -> In sa A -> belongs k sb = true -> belongs k sa = true -> find_stmt sb A = Some sa /\ find_stmt sa B = Some sb.
Proof.
  intros k sb sa Hb Ha Bb Ba.
  assert (E : same_object sb sa = true).
  { destruct (owner k) as [u|] eqn:Eo.
    - destruct (belongs_owner k u sb Eo Bb) as [tb [E1 Q1]]. destruct (belongs_owner k u sa Eo Ba) as [ta [E2 Q2]]. subst sb sa.
      apply same_table. congruence.
    - unfold belongs in Bb, Ba. rewrite Eo in Bb, Ba. apply (homes_same k); assumption. }
  split.
  - apply find_stmt_unique; try assumption. apply crB. exact Hb.
  - apply find_stmt_unique; try assumption. apply crA. exact Ha. rewrite same_object_sym. exact E.
Qed.

(** Value of a key that does not belong to a table, seen from that table. *)
Lemma quiet_value : forall l k t tl x, forallb is_create l = true -> NoDup (map fst (entries d l)) ->
  In (CreateTable tl) l \/ (forall s, In s l -> same_object (CreateTable tl) s = false) -> qname (ct_name tl) = t ->
  belongs k (CreateTable tl) = false -> assoc_key k (entries d l) = Some x -> index_on t x = true ->
  exists i, In (CreateIndex i) l /\ hm k l = Some (CreateIndex i) /\ qname (cx_table i) = t /\ x = VIdx (sem_index d i).
Proof.
  intros l k t tl x Hc Hn Hin Hq Hb Hx Hi. destruct (owner k) as [u|] eqn:Eo.
  { rewrite (owned_value k u l x t Eo Hx) in Hi. discriminate. }
  rewrite (assoc_hm k l Hc Hn) in Hx. destruct (hm k l) as [s|] eqn:E; [|discriminate Hx]. destruct (hm_some _ _ _ E) as [Hs Hbs].
  destruct (is_create_cases l s Hc Hs) as [[t' E']|[i E']]; subst s; cbn [stmt_entries] in Hx.
  - exfalso. destruct k; try discriminate Eo. destruct (intable_value _ _ _ Hx) as [y [Ey Et]]. subst x. cbn in Hi. apply String.eqb_eq in Hi.
    assert (Hsame : same_object (CreateTable tl) (CreateTable t') = true) by (apply same_table; congruence).
    destruct Hin as [Hin|Hin]; [|rewrite (Hin _ Hs) in Hsame; discriminate].
    assert (CreateTable tl = CreateTable t').
    { apply (same_unique l (CreateTable tl)); try assumption; [reflexivity|]. apply same_table. reflexivity. }
    congruence.
  - exists i. cbn [assoc_key] in Hx. destruct (key_eqb (KIdx (qname (cx_name i))) k) eqn:Ek; [|discriminate Hx].
    inversion Hx; subst x. cbn in Hi. apply String.eqb_eq in Hi. auto.
Qed.

(** *** Phase 1: DROP of the objects that are gone *)
Definition drop1 (s : stmt) : stmt := match drop_stmt s with Some x => x | None => s end.
Lemma map_opt_drop : forall l, forallb is_create l = true -> map_opt drop_stmt l = Some (map drop1 l).
Proof.
  induction l as [|s r IH]; intro H; [reflexivity|]. cbn [forallb] in H. apply andb_true_iff in H. destruct H as [Hs Hr].
  cbn [map_opt map]. rewrite (IH Hr). destruct s; try discriminate Hs; reflexivity.
Qed.
Lemma map_opt_create : forall l, forallb is_create l = true -> map_opt create_stmt l = Some l.
Proof.
  induction l as [|s r IH]; intro H; [reflexivity|]. cbn [forallb] in H. apply andb_true_iff in H. destruct H as [Hs Hr].
  cbn [map_opt]. rewrite (IH Hr). destruct s; try discriminate Hs; reflexivity.
Qed.
Lemma only_left_create : forall l r, forallb is_create l = true -> forallb is_create (only_left_stmts l r) = true.
Proof.
  intros l r H. rewrite forallb_forall in *. intros x Hx. apply filter_In in Hx. apply H. tauto.
Qed.
Lemma only_left_in : forall l r s, In s (only_left_stmts l r) <-> In s l /\ find_stmt s r = None.
Proof.
  intros l r s. unfold only_left_stmts. rewrite filter_In. split; intros [H1 H2]; (split; [exact H1|]).
  - destruct (find_stmt s r); [discriminate|reflexivity].
  - rewrite H2. reflexivity.
Qed.

Lemma atmost1_filter : forall X (sel g : X -> bool) l, atmost1 sel l -> atmost1 sel (filter g l).
Proof.
  intros X sel g l. induction l as [|x r IH]; intros H; [exact I|]. destruct H as [H1 H2]. cbn [filter]. destruct (g x); [|apply IH; exact H2].
  split; [|apply IH; exact H2]. intros Hx y Hy. apply filter_In in Hy. apply H1; tauto.
Qed.
Lemma find_filter : forall X (sel g : X -> bool) l, atmost1 sel l ->
  find sel (filter g l) = match find sel l with Some x => if g x then Some x else None | None => None end.
Proof.
  intros X sel g l. induction l as [|x r IH]; intros H; [reflexivity|]. destruct H as [H1 H2]. cbn [filter find].
  destruct (sel x) eqn:Es.
  - destruct (g x); [cbn [find]; rewrite Es; reflexivity|]. rewrite IH by exact H2.
    replace (find sel r) with (@None X); [reflexivity|]. symmetry. apply find_none_iff. apply H1. reflexivity.
  - destruct (g x); [cbn [find]; rewrite Es|]; apply IH; exact H2.
Qed.

Definition gone_value (k : key) : option value :=
  match hm k B with
  | Some s => match find_stmt s A with None => None | Some _ => assoc_key k (entries d B) end
  | None => None
  end.

Lemma my_index_partner : forall i, d = My -> In (CreateIndex i) B -> find_stmt (CreateIndex i) A <> None.
Proof.
  intros i Hd Hi F. destruct (so_my _ _ _ OK Hd i Hi) as [ia [H1 [H2 _]]].
  pose proof (same_index i ia H2) as E. rewrite (find_stmt_none _ _ F _ H1) in E. discriminate.
Qed.

Lemma phase1 : forall k, at_key k (col_ops d (map drop1 (only_left_stmts B A))) (assoc_key k (entries d B)) = Some (gone_value k).
Proof.
  intros k. set (v0 := assoc_key k (entries d B)). rewrite col_ops_map.
  assert (Hv0 : hm k B = None -> v0 = None).
  { intro H. unfold v0. rewrite assoc_hm, H by assumption. reflexivity. }
  rewrite (at_flat_unique (fun v => v = v0 \/ v = None) _ _ (belongs k)).
  - unfold only_left_stmts. rewrite find_filter by (apply belongs_unique; assumption). fold (hm k B). unfold gone_value. fold v0.
    destruct (hm k B) as [s|] eqn:E; [|rewrite Hv0 by reflexivity; reflexivity].
    destruct (find_stmt s A) as [p|] eqn:F; [reflexivity|]. destruct (hm_some _ _ _ E) as [Hs Hb].
    assert (Ev : v0 = assoc_key k (stmt_entries d s)) by (unfold v0; rewrite assoc_hm, E by assumption; reflexivity).
    destruct (is_create_cases B s CB Hs) as [[t Et]|[i Ei]]; subst s.
    + cbn [col_ops flat_map drop1 drop_stmt stmt_ops app at_key]. cbn [stmt_entries] in Ev.
      destruct (owner k) as [u|] eqn:Eo.
      * destruct (belongs_owner k u _ Eo Hb) as [t' [E1 E2]]. inversion E1; subst t'. cbn [eff].
        destruct (key_eqb (KTab (qname (ct_name t))) k) eqn:Ek.
        -- apply key_eqb_eq in Ek. subst k. rewrite Ev. unfold table_entries. cbn [assoc_key]. rewrite key_eqb_refl. reflexivity.
        -- unfold owned_by. rewrite Eo, E2, String.eqb_refl. reflexivity.
      * destruct k; try discriminate Eo. cbn [eff key_eqb owned_by owner].
        destruct v0 as [x|]; [|reflexivity]. symmetry in Ev. destruct (intable_value _ _ _ Ev) as [y [E1 E2]]. subst x.
        cbn [unless index_on]. rewrite E2, String.eqb_refl. reflexivity.
    + destruct (owner k) as [u|] eqn:Eo; [destruct (belongs_owner k u _ Eo Hb) as [t' [E1 _]]; discriminate E1|].
      unfold belongs in Hb. rewrite Eo in Hb. apply declares_In in Hb. destruct Hb as [Hb|[]]. cbn [fst] in Hb. subst k.
      cbn [stmt_entries assoc_key] in Ev. rewrite key_eqb_refl in Ev. rewrite Ev.
      cbn [col_ops flat_map drop1 drop_stmt stmt_ops app]. unfold drop_index_ops.
      destruct d eqn:Ed; cbn [app at_key eff]; rewrite ?key_eqb_refl; try reflexivity.
      exfalso. rewrite <- Ed in *. apply (my_index_partner i Ed Hs). exact F.
  - intros s Hs Hb v Hv. apply only_left_in in Hs. destruct Hs as [Hs F].
    destruct (is_create_cases B s CB Hs) as [[t Et]|[i Ei]]; subst s.
    + cbn [col_ops flat_map drop1 drop_stmt stmt_ops app at_key]. rewrite wipe_idle; [reflexivity| |].
      * intro Eo. unfold belongs in Hb. rewrite Eo, String.eqb_refl in Hb. discriminate.
      * intros x Hx. destruct Hv as [Hv|Hv]; [|congruence]. destruct (index_on (qname (ct_name t)) x) eqn:Ei; [|reflexivity]. exfalso.
        destruct (quiet_value B k _ t x CB NB (or_introl Hs) eq_refl Hb (eq_trans (eq_sym Hv) Hx) Ei) as [i [Hi [_ [Hq _]]]].
        destruct (so_wiped _ _ _ OK i t (or_introl Hi) Hs Hq) as [ta [Ha [Hqa _]]].
        pose proof (same_table t ta (eq_sym Hqa)) as Es. rewrite (find_stmt_none _ _ F _ Ha) in Es. discriminate.
    + assert (Hne : KIdx (qname (cx_name i)) <> k).
      { intro E. subst k. unfold belongs, declares in Hb. cbn [owner stmt_entries existsb fst] in Hb. rewrite key_eqb_refl in Hb. discriminate. }
      cbn [col_ops flat_map drop1 drop_stmt stmt_ops app]. unfold drop_index_ops.
      assert (Hd : d <> My) by (intro Ed; apply (my_index_partner i Ed Hs); exact F).
      apply key_eqb_neq in Hne. destruct d; try contradiction; cbn [app at_key eff]; rewrite Hne; reflexivity.
  - unfold only_left_stmts. apply atmost1_filter. apply belongs_unique; assumption.
  - left; reflexivity.
  - intros s Hs Hb w Hw. apply only_left_in in Hs. destruct Hs as [Hs F].
    destruct (is_create_cases B s CB Hs) as [[t Et]|[i Ei]]; subst s; cbn [col_ops flat_map drop1 drop_stmt stmt_ops app] in Hw.
    + cbn [at_key eff] in Hw. destruct (key_eqb (KTab (qname (ct_name t))) k).
      { destruct (present v0); inversion Hw; auto. }
      destruct (owned_by (qname (ct_name t)) k); [inversion Hw; auto|]. destruct v0 as [x|]; cbn [unless] in Hw; [|inversion Hw; auto].
      destruct (index_on _ x); inversion Hw; auto.
    + unfold drop_index_ops in Hw. destruct d; cbn [app at_key eff] in Hw;
      try (destruct (key_eqb _ k); [destruct (present v0); inversion Hw; auto|inversion Hw; auto]). discriminate Hw.
Qed.

(** *** Phase 2: CREATE of the new objects *)
Definition mid_value (k : key) : option value :=
  match hm k A with
  | Some s => match find_stmt s B with None => assoc_key k (stmt_entries d s) | Some _ => gone_value k end
  | None => gone_value k
  end.

Lemma new_gone : forall k s, hm k A = Some s -> find_stmt s B = None -> gone_value k = None /\ hm k B = None.
Proof.
  intros k s E F. destruct (hm_some _ _ _ E) as [Hs Hb]. unfold gone_value. destruct (hm k B) as [sb|] eqn:E2; [|auto].
  exfalso. destruct (hm_some _ _ _ E2) as [Hsb Hbb]. destruct (homes_partner k sb s Hsb Hs Hbb Hb) as [_ H]. congruence.
Qed.

Lemma phase2 : forall k, at_key k (col_ops d (only_left_stmts A B)) (gone_value k) = Some (mid_value k).
Proof.
  intros k. unfold col_ops. rewrite (at_flat_unique (fun _ => True) _ _ (belongs k)).
  - unfold only_left_stmts. rewrite find_filter by (apply belongs_unique; assumption). fold (hm k A). unfold mid_value.
    destruct (hm k A) as [s|] eqn:E; [|reflexivity]. destruct (find_stmt s B) as [p|] eqn:F; [reflexivity|].
    destruct (new_gone k s E F) as [G _]. rewrite G. destruct (hm_some _ _ _ E) as [Hs Hb].
    apply create_sound; [apply crA; exact Hs| |apply (nodup_flat_stmt A); assumption].
    intros t Et. subst s. apply KA. exact Hs.
  - intros s Hs Hb v _. apply only_left_in in Hs. destruct Hs as [Hs F]. apply create_idle.
    + apply crA; exact Hs.
    + intros t Et. subst s. apply KA. exact Hs.
    + apply not_belongs. exact Hb.
    + intros u t Eo Et Eq. subst s. unfold belongs in Hb. rewrite Eo, Eq, String.eqb_refl in Hb. discriminate.
  - unfold only_left_stmts. apply atmost1_filter. apply belongs_unique; assumption.
  - exact I.
  - intros; exact I.
Qed.

(** *** Phase 3: changes *)
Lemma entriesB : forall t, In (CreateTable t) B -> NoDup (map fst (table_entries d t)).
Proof. intros t H. apply (nodup_flat_stmt B (CreateTable t) NB H). Qed.
Lemma entriesA : forall t, In (CreateTable t) A -> NoDup (map fst (table_entries d t)).
Proof. intros t H. apply (nodup_flat_stmt A (CreateTable t) NA H). Qed.

Lemma belongs_table : forall k t, all_con_named t = true -> belongs k (CreateTable t) = true ->
  owner k = Some (qname (ct_name t)) \/ exists c, In c (ct_constraints t) /\ ckey d (ct_name t) c = k.
Proof.
  intros k t Hn Hb. destruct (owner k) as [u|] eqn:E.
  - left. destruct (belongs_owner k u _ E Hb) as [t' [E1 E2]]. inversion E1; subst. reflexivity.
  - right. unfold belongs in Hb. rewrite E in Hb. apply declares_In in Hb. cbn [stmt_entries] in Hb.
    destruct (assoc_key k (table_entries d t)) as [v|] eqn:F.
    + destruct k; try discriminate E. rewrite (assoc_table_con d t (KIdx n) Hn I) in F.
      destruct (find _ (ct_constraints t)) as [c|] eqn:G; [|discriminate F]. apply find_some in G. destruct G as [G1 G2].
      apply key_eqb_eq in G2. eauto.
    + exfalso. apply assoc_None in F. contradiction.
Qed.
Lemma not_belongs_table : forall k t, all_con_named t = true -> belongs k (CreateTable t) = false ->
  owner k <> Some (qname (ct_name t)) /\ forall c, In c (ct_constraints t) -> ckey d (ct_name t) c <> k.
Proof.
  intros k t Hn Hb. split.
  - intro E. unfold belongs in Hb. rewrite E, String.eqb_refl in Hb. discriminate.
  - intros c Hc E. assert (declares d k (CreateTable t) = true).
    { apply declares_In. cbn [stmt_entries]. unfold table_entries. right. rewrite !map_app. apply in_or_app. right. apply in_or_app. left.
      rewrite con_entries_map by exact Hn. rewrite map_map. cbn [fst]. apply in_map_iff. exists c. auto. }
    apply declares_belongs in H. congruence.
Qed.

Lemma table_pair : forall tb ta, In (CreateTable tb) B -> In (CreateTable ta) A -> qname (ct_name tb) = qname (ct_name ta) ->
  exists l, (diff_create_table d srt sdiff false tb ta = DOk l \/ (diff_create_table d srt sdiff false tb ta = DNoDiff /\ l = [])) /\
    (forall k, belongs k (CreateTable tb) = true \/ belongs k (CreateTable ta) = true ->
       at_key k (col_ops d l) (assoc_key k (table_entries d tb)) = Some (assoc_key k (table_entries d ta))) /\
    (forall k v, belongs k (CreateTable tb) = false -> belongs k (CreateTable ta) = false ->
       (forall c x, In c (ct_columns tb) -> find_column (id_name (c_name c)) (ct_columns ta) = None ->
          v = Some x -> involves (qname (ct_name tb)) (id_name (c_name c)) k x = false) ->
       (d = Sp -> options_diff d (ct_options tb) <> options_diff d (ct_options ta) -> quiet (qname (ct_name tb)) v) ->
       at_key k (col_ops d l) v = Some v).
Proof.
  intros tb ta Hb Ha Hq. pose proof (so_pairs _ _ _ OK tb ta Hb Ha Hq) as PO.
  pose proof (KB tb Hb) as Nb. pose proof (KA ta Ha) as Na. pose proof (entriesB tb Hb) as Eb. pose proof (entriesA ta Ha) as Ea.
  unfold diff_create_table.
  destruct (match d with Sp => neqs (options_diff d (ct_options tb)) (options_diff d (ct_options ta)) | _ => false end) eqn:Eo.
  { (* spanner: DROP TABLE, CREATE TABLE *)
    assert (Hsp : d = Sp) by (destruct d; try discriminate Eo; reflexivity).
    assert (Hne : options_diff d (ct_options tb) <> options_diff d (ct_options ta)).
    { intro F. rewrite Hsp in *. apply neqs_false in F. congruence. }
    eexists. split; [left; reflexivity|]. split.
    - intros k Hk. unfold col_ops. cbn [flat_map]. rewrite app_nil_r, at_key_app.
      assert (Hw : at_key k (stmt_ops d (DropTable (sdiff (options_string d (ct_options tb)) (options_string d (ct_options ta))) false (ct_name tb)))
                     (assoc_key k (table_entries d tb)) = Some None).
      { cbn [stmt_ops at_key eff]. destruct (owner k) as [u|] eqn:Ew.
        - assert (Eu : u = qname (ct_name tb)).
          { destruct Hk as [Hk|Hk]; destruct (belongs_owner k u _ Ew Hk) as [t' [E1 E2]]; inversion E1; subst; congruence. }
          destruct (key_eqb (KTab (qname (ct_name tb))) k) eqn:Ek.
          + apply key_eqb_eq in Ek. subst k. unfold table_entries. cbn [assoc_key]. rewrite key_eqb_refl. reflexivity.
          + unfold owned_by. rewrite Ew, Eu, String.eqb_refl. reflexivity.
        - destruct k; try discriminate Ew. cbn [key_eqb owned_by owner].
          destruct (assoc_key (KIdx n) (table_entries d tb)) as [x|] eqn:Ex; [|reflexivity].
          destruct (intable_value _ _ _ Ex) as [y [E1 E2]]. subst x. cbn [unless index_on]. rewrite E2, String.eqb_refl. reflexivity. }
      rewrite Hw. rewrite (create_sound (CreateTable ta) k); [reflexivity|reflexivity| |exact Ea].
      intros t Et. inversion Et; subst. exact Na.
    - intros k v Hkb Hka _ Hquiet. unfold col_ops. cbn [flat_map]. rewrite app_nil_r, at_key_app. cbn [stmt_ops at_key].
      rewrite wipe_idle; [|apply (not_belongs_table k tb Nb Hkb)|apply Hquiet; assumption].
      apply (create_idle (CreateTable ta) k v); [reflexivity| |apply not_belongs; exact Hka|].
      + intros t Et. inversion Et; subst. exact Na.
      + intros u t Ew Et Eq. inversion Et; subst. apply (not_belongs_table k t Na Hka). exact Ew. }
  assert (Hopt : d = Sp -> options_diff d (ct_options tb) = options_diff d (ct_options ta)).
  { intro Hd. rewrite Hd in Eo |- *. apply neqs_false. exact Eo. }
  destruct (eqs (create_table_string d tb) (create_table_string d ta)) eqn:Et.
  { exists []. split; [right; split; reflexivity|]. split; [|reflexivity]. intros k _. cbn [col_ops flat_map at_key]. f_equal.
    apply (so_text _ _ _ OK tb ta Hb Ha Hq). apply eqs_eq. exact Et. }
  replace (all_named (ct_constraints tb)) with true by (symmetry; exact Nb).
  replace (all_named (ct_constraints ta)) with true by (symmetry; exact Na). cbn [andb].
  destruct (diff_tables_phases d srt sdiff Hsrt false tb ta PO Na) as [added [E P]]. rewrite E.
  exists (phases d sdiff false tb ta added). split; [|split].
  - destruct (phases d sdiff false tb ta added); [right; split; reflexivity|left; reflexivity].
  - intros k Hk. apply phases_sound; try assumption. destruct Hk as [Hk|Hk]; apply belongs_table in Hk; try assumption.
    + destruct Hk as [Hk|Hk]; [left; rewrite <- Hq; exact Hk|right; left; exact Hk].
    + destruct Hk as [Hk|Hk]; [left; exact Hk|right; right; exact Hk].
  - intros k v Hkb Hka Hi _. destruct (not_belongs_table k tb Nb Hkb) as [_ H2]. destruct (not_belongs_table k ta Na Hka) as [H3 H4].
    apply phases_frame; try assumption.
    + intros c Hc; apply (Permutation_in _ P) in Hc; apply filter_In in Hc; tauto.
    + rewrite <- Hq. exact Hi.
Qed.

Definition chg (s : stmt) : list stmt := match diff_stmt d srt sdiff s A with Ok l => l | _ => [] end.

Lemma index_pair : forall ib ia, In (CreateIndex ib) B -> In (CreateIndex ia) A -> qname (cx_name ib) = qname (cx_name ia) ->
  exists l, diff_stmt d srt sdiff (CreateIndex ib) A = Ok l /\
    at_key (KIdx (qname (cx_name ib))) (col_ops d l) (Some (VIdx (sem_index d ib))) = Some (Some (VIdx (sem_index d ia))) /\
    (forall k v, k <> KIdx (qname (cx_name ib)) -> at_key k (col_ops d l) v = Some v).
Proof.
  intros ib ia Hb Ha Hq. unfold diff_stmt.
  rewrite (find_stmt_unique A (CreateIndex ib) (CreateIndex ia) CA NA eq_refl Ha (same_index ib ia Hq)).
  destruct (neqs (create_index_diff d ib) (create_index_diff d ia)) eqn:E.
  - assert (Hd : d <> My).
    { intro Hd. destruct (so_my _ _ _ OK Hd ib Hb) as [ia' [Ha' [Hq' Hdiff]]].
      assert (Es : CreateIndex ia = CreateIndex ia').
      { apply (same_unique A (CreateIndex ib)); try assumption; [reflexivity|apply same_index; exact Hq|apply same_index; exact Hq']. }
      inversion Es; subst. apply neqs_false in Hdiff. congruence. }
    eexists. split; [reflexivity|].
    assert (Eops : forall cm, col_ops d [DropIndex cm false (cx_name ib); CreateIndex ia] =
       [Del (KIdx (qname (cx_name ib))); Add (KIdx (qname (cx_name ib))) (VIdx (sem_index d ia))]).
    { intro cm. unfold col_ops. cbn [flat_map stmt_ops]. unfold drop_index_ops, create_index_ops. rewrite Hq.
      destruct d; try contradiction; reflexivity. }
    rewrite Eops. split.
    + unfold at_key, eff. rewrite key_eqb_refl. reflexivity.
    + intros k v Hk. cbn [at_key eff]. replace (key_eqb (KIdx (qname (cx_name ib))) k) with false; [reflexivity|].
      symmetry. apply key_eqb_neq. congruence.
  - exists []. split; [reflexivity|]. split; [|reflexivity]. cbn [col_ops flat_map at_key]. do 3 f_equal.
    apply (so_index _ _ _ OK ib ia Hb Ha Hq). apply neqs_false. exact E.
Qed.

(** What the change of one statement does. *)
Definition good (k : key) (v : option value) : Prop :=
  v = None \/ (v = assoc_key k (entries d B) /\ exists s, hm k B = Some s /\ find_stmt s A <> None) \/ v = assoc_key k (entries d A).

Lemma involves_owner : forall T c k x u, owner k = Some u -> u <> T -> involves T c k x = false.
Proof.
  intros T c k x u Ho Hu. destruct k, x; try reflexivity; try discriminate Ho. cbn [involves]. cbn in Ho. inversion Ho; subst.
  apply String.eqb_neq in Hu. rewrite Hu. reflexivity.
Qed.
Lemma involves_index_on : forall T c n x, involves T c (KIdx n) x = true -> index_on T x = true.
Proof. intros T c n x H. destruct x; try discriminate H. cbn in *. apply andb_true_iff in H. tauto. Qed.

Lemma good_index : forall k v t tb ta x, good k v -> In (CreateTable tb) B -> In (CreateTable ta) A ->
  qname (ct_name tb) = t -> qname (ct_name ta) = t ->
  belongs k (CreateTable tb) = false -> belongs k (CreateTable ta) = false -> v = Some x -> index_on t x = true ->
  exists i, x = VIdx (sem_index d i) /\ qname (cx_table i) = t /\
    ((In (CreateIndex i) A) \/ (In (CreateIndex i) B /\ find_stmt (CreateIndex i) A <> None)).
Proof.
  intros k v t tb ta x G Hb Ha Qb Qa Bb Ba Hv Hi. destruct G as [G|[[G [s [G1 G2]]]|G]].
  - congruence.
  - destruct (quiet_value B k t tb x CB NB (or_introl Hb) Qb Bb (eq_trans (eq_sym G) Hv) Hi) as [i [H1 [H2 [H3 H4]]]].
    exists i. split; [exact H4|]. split; [exact H3|]. right. split; [exact H1|]. rewrite H2 in G1. inversion G1; subst. exact G2.
  - destruct (quiet_value A k t ta x CA NA (or_introl Ha) Qa Ba (eq_trans (eq_sym G) Hv) Hi) as [i [H1 [H2 [H3 H4]]]].
    exists i. auto.
Qed.

Lemma change_stmt : forall s, In s B -> exists l, diff_stmt d srt sdiff s A = Ok l /\
  (forall p k, find_stmt s A = Some p -> belongs k s = true \/ belongs k p = true ->
     at_key k (col_ops d l) (assoc_key k (stmt_entries d s)) = Some (assoc_key k (stmt_entries d p))) /\
  (find_stmt s A = None -> l = []) /\
  (forall p k v, find_stmt s A = Some p -> belongs k s = false -> belongs k p = false -> good k v ->
     at_key k (col_ops d l) v = Some v).
Proof.
  intros s Hs. destruct (find_stmt s A) as [p|] eqn:F.
  2:{ exists []. split; [destruct s; try reflexivity; unfold diff_stmt; rewrite F; reflexivity|]. split; [intros p k E; discriminate E|]. split; [reflexivity|].
      intros p k v E; discriminate E. }
  destruct (find_stmt_some _ _ _ F) as [Hp Es].
  destruct (is_create_cases B s CB Hs) as [[tb Et]|[ib Ei]]; subst s.
  - destruct (same_table_inv _ _ Es) as [ta [E1 Hq]]. subst p.
    destruct (table_pair tb ta Hs Hp Hq) as [l [El [Hsound Hframe]]]. exists l. split; [|split; [|split]].
    + unfold diff_stmt. rewrite F. destruct El as [El|[El El2]]; rewrite El; [reflexivity|subst; reflexivity].
    + intros p k Ep Hk. inversion Ep; subst p. cbn [stmt_entries]. apply Hsound. exact Hk.
    + discriminate.
    + intros p k v Ep Bb Ba G. inversion Ep; subst p. apply Hframe; try assumption.
      * intros c x Hc Hcn Hv. destruct (involves (qname (ct_name tb)) (id_name (c_name c)) k x) eqn:Ei; [|reflexivity]. exfalso.
        destruct (owner k) as [u|] eqn:Eo.
        -- rewrite (involves_owner _ _ _ _ u Eo) in Ei; [discriminate|]. intro Fu. apply (not_belongs_table k tb (KB tb Hs) Bb). congruence.
        -- destruct k; try discriminate Eo. pose proof (involves_index_on _ _ _ _ Ei) as Eon.
           destruct (good_index (KIdx n) v _ tb ta x G Hs Hp eq_refl (eq_sym Hq) Bb Ba Hv Eon) as [i [Ex [Et Hi]]].
           pose proof (so_cols _ _ _ OK tb ta c i Hs Hp Hq Hc Hcn Hi Et) as Hn. subst x. cbn in Ei. rewrite Et, String.eqb_refl in Ei.
           cbn [andb] in Ei. rewrite Hn in Ei. discriminate.
      * intros Hd Hne x Hx. destruct (index_on (qname (ct_name tb)) x) eqn:Eon; [|reflexivity]. exfalso.
        destruct (good_index k v _ tb ta x G Hs Hp eq_refl (eq_sym Hq) Bb Ba Hx Eon) as [i [Ex [Et Hi]]].
        assert (Hi' : In (CreateIndex i) B \/ In (CreateIndex i) A) by tauto.
        destruct (so_wiped _ _ _ OK i tb Hi' Hs Et) as [ta' [Ha' [Hqa' Ho]]].
        assert (Ets : CreateTable ta = CreateTable ta').
        { apply (same_unique A (CreateTable tb)); try assumption; [reflexivity|]. apply same_table. congruence. }
        inversion Ets; subst. apply Hne. apply Ho. exact Hd.
  - destruct (same_index_inv _ _ Es) as [ia [E1 Hq]]. subst p.
    destruct (index_pair ib ia Hs Hp Hq) as [l [El [Hsound Hframe]]]. exists l. split; [exact El|]. split; [|split].
    + intros p k Ep Hk. inversion Ep; subst p.
      assert (Ek : k = KIdx (qname (cx_name ib))).
      { destruct (owner k) as [u|] eqn:Eo.
        - destruct Hk as [Hk|Hk]; destruct (belongs_owner k u _ Eo Hk) as [t [E2 _]]; discriminate E2.
        - unfold belongs in Hk. rewrite Eo in Hk. destruct Hk as [Hk|Hk]; apply declares_In in Hk; destruct Hk as [Hk|[]]; cbn [fst] in Hk; congruence. }
      subst k. cbn [stmt_entries assoc_key]. rewrite <- Hq, key_eqb_refl. exact Hsound.
    + discriminate.
    + intros p k v Ep Bb Ba _. apply Hframe. intro Ek. subst k. unfold belongs, declares in Bb.
      cbn [owner stmt_entries existsb fst] in Bb. rewrite key_eqb_refl in Bb. discriminate.
Qed.

Lemma diff_stmts_flat : forall l, (forall s, In s l -> In s B) -> diff_stmts d srt sdiff l A = Ok (flat_map chg l).
Proof.
  induction l as [|s r IH]; intro H; [reflexivity|]. cbn [diff_stmts flat_map].
  destruct (change_stmt s (H s (or_introl eq_refl))) as [ls [E _]]. unfold chg at 1. rewrite E. cbn [bind].
  rewrite IH by (intros x Hx; apply H; right; exact Hx). reflexivity.
Qed.

Definition sel3 (k : key) (s : stmt) : bool :=
  belongs k s || match find_stmt s A with Some p => belongs k p | None => false end.

Lemma back : forall s p, In s B -> find_stmt s A = Some p -> find_stmt p B = Some s.
Proof.
  intros s p Hs F. destruct (find_stmt_some _ _ _ F) as [Hp E]. apply find_stmt_unique; try assumption; [apply crA; exact Hp|].
  rewrite same_object_sym. exact E.
Qed.

Lemma sel3_eq : forall k x y, In x B -> In y B -> sel3 k x = true -> sel3 k y = true -> x = y.
Proof.
  intros k x y Hx Hy Sx Sy. unfold sel3 in Sx, Sy. apply orb_true_iff in Sx, Sy.
  assert (Hpart : forall s p, In s B -> find_stmt s A = Some p -> belongs k p = true ->
    forall z, In z B -> belongs k z = true -> z = s).
  { intros s p Hs F Hb z Hz Bz. destruct (find_stmt_some _ _ _ F) as [Hp _].
    destruct (homes_partner k z p Hz Hp Bz Hb) as [_ H2]. rewrite (back s p Hs F) in H2. congruence. }
  destruct Sx as [Sx|Sx], Sy as [Sy|Sy].
  - apply (belongs_eq B k); assumption.
  - destruct (find_stmt y A) as [p|] eqn:F; [|discriminate Sy]. apply (Hpart y p); assumption.
  - destruct (find_stmt x A) as [p|] eqn:F; [|discriminate Sx]. symmetry. apply (Hpart x p); assumption.
  - destruct (find_stmt x A) as [p|] eqn:F; [|discriminate Sx]. destruct (find_stmt y A) as [q|] eqn:G; [|discriminate Sy].
    destruct (find_stmt_some _ _ _ F) as [Hp _]. destruct (find_stmt_some _ _ _ G) as [Hq _].
    assert (p = q) by (apply (belongs_eq A k); assumption). subst q.
    pose proof (back x p Hx F). pose proof (back y p Hy G). congruence.
Qed.

Lemma gone_good : forall k, good k (gone_value k).
Proof.
  intro k. unfold good, gone_value. destruct (hm k B) as [s|] eqn:E; [|auto]. destruct (find_stmt s A) as [p|] eqn:F; [|auto].
  right; left. split; [reflexivity|]. exists s. split; [reflexivity|]. rewrite F. discriminate.
Qed.
Lemma mid_good : forall k, good k (mid_value k).
Proof.
  intro k. unfold mid_value. destruct (hm k A) as [s|] eqn:E; [|apply gone_good]. destruct (find_stmt s B); [apply gone_good|].
  right; right. rewrite (assoc_hm k A CA NA), E. reflexivity.
Qed.

(** The value of a selected statement before its change *)
Lemma mid_selected : forall k s, In s B -> sel3 k s = true ->
  match find_stmt s A with
  | Some p => mid_value k = assoc_key k (stmt_entries d s) /\ assoc_key k (entries d A) = assoc_key k (stmt_entries d p)
  | None => mid_value k = None /\ assoc_key k (entries d A) = None
  end.
Proof.
  intros k s Hs Ss. assert (HA : assoc_key k (entries d A) = match hm k A with Some x => assoc_key k (stmt_entries d x) | None => None end)
    by (apply assoc_hm; assumption).
  assert (HB : assoc_key k (entries d B) = match hm k B with Some x => assoc_key k (stmt_entries d x) | None => None end)
    by (apply assoc_hm; assumption).
  assert (Hvs : match hm k B with Some x => assoc_key k (stmt_entries d x) | None => None end = assoc_key k (stmt_entries d s)).
  { destruct (hm k B) as [x|] eqn:E.
    - destruct (hm_some _ _ _ E) as [Hx Bx]. f_equal. f_equal. apply (sel3_eq k); try assumption. unfold sel3. rewrite Bx. reflexivity.
    - symmetry. apply declares_false, not_belongs. apply (hm_none k B s E Hs). }
  destruct (find_stmt s A) as [p|] eqn:F.
  - assert (Hgone : gone_value k = assoc_key k (stmt_entries d s)).
    { unfold gone_value. rewrite HB, Hvs. destruct (hm k B) as [x|] eqn:E; [|exact Hvs].
      destruct (hm_some _ _ _ E) as [Hx Bx]. assert (x = s) by (apply (sel3_eq k); try assumption; unfold sel3; rewrite Bx; reflexivity).
      subst x. rewrite F. reflexivity. }
    destruct (find_stmt_some _ _ _ F) as [Hp _].
    assert (Hha : hm k A = Some p \/ (hm k A = None /\ belongs k p = false)).
    { destruct (belongs k p) eqn:Bp; [left; apply hm_in; assumption|]. right. split; [|reflexivity].
      destruct (hm k A) as [y|] eqn:E; [|reflexivity]. exfalso. destruct (hm_some _ _ _ E) as [Hy By].
      unfold sel3 in Ss. rewrite F, Bp, orb_false_r in Ss. destruct (homes_partner k s y Hs Hy Ss By) as [H1 _]. congruence. }
    destruct Hha as [Hha|[Hha Bp]].
    + split; [|rewrite HA, Hha; reflexivity]. unfold mid_value. rewrite Hha, (back s p Hs F). exact Hgone.
    + split; [unfold mid_value; rewrite Hha; exact Hgone|]. rewrite HA, Hha. symmetry. apply declares_false, not_belongs. exact Bp.
  - unfold sel3 in Ss. rewrite F, orb_false_r in Ss. pose proof (hm_in k B s CB NB Hs Ss) as Hh.
    assert (Hha : hm k A = None).
    { destruct (hm k A) as [y|] eqn:E; [|reflexivity]. exfalso. destruct (hm_some _ _ _ E) as [Hy By].
      destruct (homes_partner k s y Hs Hy Ss By) as [H1 _]. congruence. }
    split; [|rewrite HA, Hha; reflexivity]. unfold mid_value, gone_value. rewrite Hha, Hh, F. reflexivity.
Qed.

Lemma phase3 : forall k, at_key k (col_ops d (flat_map chg B)) (mid_value k) = Some (assoc_key k (entries d A)).
Proof.
  intro k. rewrite col_ops_flat_map.
  assert (Hchg : forall s, In s B -> exists l, chg s = l /\
     (forall p k, find_stmt s A = Some p -> belongs k s = true \/ belongs k p = true ->
        at_key k (col_ops d l) (assoc_key k (stmt_entries d s)) = Some (assoc_key k (stmt_entries d p))) /\
     (find_stmt s A = None -> l = []) /\
     (forall p k v, find_stmt s A = Some p -> belongs k s = false -> belongs k p = false -> good k v ->
        at_key k (col_ops d l) v = Some v)).
  { intros s Hs. destruct (change_stmt s Hs) as [l [E H]]. exists l. split; [unfold chg; rewrite E; reflexivity|exact H]. }
  assert (Hsel : forall s, In s B -> sel3 k s = true -> at_key k (col_ops d (chg s)) (mid_value k) = Some (assoc_key k (entries d A))).
  { intros s Hs Ss. pose proof (mid_selected k s Hs Ss) as Hm. destruct (Hchg s Hs) as [l [El [H1 [H2 _]]]]. rewrite El.
    destruct (find_stmt s A) as [p|] eqn:F.
    - destruct Hm as [Hm1 Hm2]. rewrite Hm1, Hm2. apply H1; [reflexivity|]. unfold sel3 in Ss. rewrite F in Ss. apply orb_true_iff. exact Ss.
    - destruct Hm as [Hm1 Hm2]. rewrite Hm1, Hm2, H2 by reflexivity. reflexivity. }
  rewrite (at_flat_unique (good k) _ _ (sel3 k)).
  - destruct (find (sel3 k) B) as [s|] eqn:E.
    + apply find_some in E. apply Hsel; tauto.
    + f_equal. assert (Hno : forall s, In s B -> sel3 k s = false) by (apply find_none_iff; exact E).
      assert (Hhb : hm k B = None).
      { apply find_none_iff. intros s Hs. specialize (Hno s Hs). unfold sel3 in Hno. apply orb_false_iff in Hno. tauto. }
      rewrite (assoc_hm k A CA NA). unfold mid_value, gone_value. rewrite Hhb. destruct (hm k A) as [p|] eqn:Ep; [|reflexivity].
      destruct (find_stmt p B) as [s|] eqn:F; [|reflexivity]. exfalso. destruct (hm_some _ _ _ Ep) as [Hp Bp].
      destruct (find_stmt_some _ _ _ F) as [Hs Es]. specialize (Hno s Hs). unfold sel3 in Hno.
      rewrite (find_stmt_unique A s p CA NA (crB s Hs) Hp) in Hno by (rewrite same_object_sym; exact Es).
      rewrite Bp, orb_true_r in Hno. discriminate.
  - intros s Hs Ss v G. destruct (Hchg s Hs) as [l [El [_ [H2 H3]]]]. rewrite El. unfold sel3 in Ss. apply orb_false_iff in Ss. destruct Ss as [Ss1 Ss2].
    destruct (find_stmt s A) as [p|] eqn:F.
    + apply (H3 p); [reflexivity|assumption|assumption|assumption].
    + rewrite H2 by reflexivity. reflexivity.
  - apply atmost1_of_eq; [apply nodup_stmts; assumption|]. intros x y. apply sel3_eq.
  - apply mid_good.
  - intros s Hs Ss w Hw. rewrite (Hsel s Hs Ss) in Hw. inversion Hw. right; right. reflexivity.
Qed.

(** *** All together *)
Definition result : list stmt := (map drop1 (only_left_stmts B A) ++ only_left_stmts A B ++ flat_map chg B)%list.

Lemma diff_ddl_result : diff_ddl d srt sdiff B A =
  if eqs (ddl_string d B) (ddl_string d A) then DNoDiff else match result with [] => DNoDiff | l => DOk l end.
Proof.
  unfold diff_ddl. destruct (eqs _ _); [reflexivity|]. rewrite map_opt_drop by (apply only_left_create; exact CB).
  rewrite map_opt_create by (apply only_left_create; exact CA). rewrite diff_stmts_flat by (intros s Hs; exact Hs). reflexivity.
Qed.

Lemma result_sound : forall k, at_key k (col_ops d result) (assoc_key k (entries d B)) = Some (assoc_key k (entries d A)).
Proof. intro k. unfold result. rewrite at_col_app, phase1, at_col_app, phase2. apply phase3. Qed.

(** No RENAME is ever emitted. *)
Lemma forallb_flat : forall X Y (p : Y -> bool) (f : X -> list Y) l, (forall x, forallb p (f x) = true) -> forallb p (flat_map f l) = true.
Proof. induction l as [|x r IH]; intro H; [reflexivity|]. cbn [flat_map]. rewrite forallb_app, H, IH by exact H. reflexivity. Qed.
Lemma forallb_map_all : forall X Y (p : Y -> bool) (f : X -> Y) l, (forall x, p (f x) = true) -> forallb p (map f l) = true.
Proof. induction l as [|x r IH]; intro H; [reflexivity|]. cbn [map forallb]. rewrite H, IH by exact H. reflexivity. Qed.
Lemma common_no_rename : forall n b a, forallb no_rename (diff_common_column d sdiff n b a) = true.
Proof.
  intros n b a. unfold diff_common_column, diff_default, diff_notnull, diff_options.
  destruct d; cbv zeta; rewrite ?forallb_app;
  repeat match goal with |- context [if ?c then _ else _] => destruct c end; reflexivity.
Qed.
Lemma index_no_rename : forall cm n c, no_rename (index_of_constraint d cm n c) = true.
Proof. intros cm n c. destruct c; reflexivity. Qed.
Lemma phases_no_rename : forall tb ta added, forallb no_rename (phases d sdiff false tb ta added) = true.
Proof.
  intros tb ta added. unfold phases. rewrite !forallb_app. repeat (apply andb_true_iff; split).
  - apply forallb_flat. intro c. unfold drop_gone_constraint. destruct (find_constraint _ _); [reflexivity|]. destruct (is_index d c); reflexivity.
  - unfold diff_columns. rewrite forallb_app. apply andb_true_iff; split.
    + apply forallb_flat. intro c. unfold diff_before_column. destruct (find_column _ _) as [a|]; [apply common_no_rename|].
      destruct (keep_hidden d c); reflexivity.
    + apply forallb_map_all. reflexivity.
  - apply forallb_flat. intro c. unfold change_constraint. destruct (find_constraint _ _) as [a|]; [|reflexivity].
    destruct (neqs _ _); [|reflexivity]. destruct (is_index d a); [|reflexivity]. cbn [forallb]. rewrite index_no_rename. reflexivity.
  - apply forallb_map_all. intro c. unfold add_constraint. destruct (is_index d c); [apply index_no_rename|reflexivity].
  - unfold diff_table_options. destruct d; try reflexivity. rewrite forallb_app. apply andb_true_iff; split; [|apply forallb_map_all; reflexivity].
    apply forallb_flat. intro o. destruct (is_auto_increment o); [reflexivity|]. destruct (find_option _ _); [|reflexivity].
    destruct (neqs _ _); reflexivity.
  - unfold diff_row_deletion. destruct d; try reflexivity. destruct (neqs _ _); [|reflexivity]. destruct (ct_rowdel tb), (ct_rowdel ta); reflexivity.
Qed.
Lemma chg_no_rename : forall s, In s B -> forallb no_rename (chg s) = true.
Proof.
  intros s Hs. unfold chg, diff_stmt. destruct (find_stmt s A) as [p|] eqn:F; [|destruct s; try reflexivity; rewrite F; reflexivity].
  destruct (find_stmt_some _ _ _ F) as [Hp Es]. destruct (is_create_cases B s CB Hs) as [[tb Et]|[ib Ei]]; subst s.
  - destruct (same_table_inv _ _ Es) as [ta [E1 Hq]]. subst p. pose proof (so_pairs _ _ _ OK tb ta Hs Hp Hq) as PO. rewrite F.
    unfold diff_create_table. destruct (match d with Sp => _ | _ => false end); [reflexivity|]. destruct (eqs _ _); [reflexivity|].
    destruct (all_named _ && all_named _); [|reflexivity].
    destruct (diff_tables_phases d srt sdiff Hsrt false tb ta PO (KA ta Hp)) as [added [E P]]. rewrite E.
    assert (Hph : forallb no_rename (phases d sdiff false tb ta added) = true).
    { apply phases_no_rename. }
    destruct (phases d sdiff false tb ta added); [reflexivity|exact Hph].
  - destruct (same_index_inv _ _ Es) as [ia [E1 Hq]]. subst p. rewrite F. destruct (neqs _ _); reflexivity.
Qed.

Lemma result_no_rename : forallb no_rename result = true.
Proof.
  unfold result. rewrite !forallb_app. apply andb_true_iff. split; [|apply andb_true_iff; split].
  - rewrite forallb_forall. intros x Hx. apply in_map_iff in Hx. destruct Hx as [s [Hx Hs]]. subst. apply only_left_in in Hs.
    destruct (is_create_cases B s CB (proj1 Hs)) as [[t E]|[i E]]; subst; reflexivity.
  - rewrite forallb_forall. intros x Hx. apply only_left_in in Hx.
    destruct (is_create_cases A x CA (proj1 Hx)) as [[t E]|[i E]]; subst; reflexivity.
  - rewrite forallb_forall. intros x Hx. apply in_flat_map in Hx. destruct Hx as [s [Hs Hx]].
    pose proof (chg_no_rename s Hs) as H. rewrite forallb_forall in H. apply H. exact Hx.
Qed.

End Sound.

(** * The theorem *)
Theorem diff_sound : forall d srt sdiff before after db0 dba,
  srt_ok srt -> describes d before db0 -> describes d after dba -> schemas_ok d before after ->
  match diff d srt sdiff (Some before) (Some after) with
  | DOk stmts => exists m, exec_all d stmts db0 = Some m /\ db_eq m dba
  | DNoDiff => db_eq db0 dba
  | _ => False
  end.
Proof.
  intros d srt sdiff B A db0 dba Hs HB HA OK.
  destruct (describes_entries d B db0 HB) as [NB [VB KB]]. destruct (describes_entries d A dba HA) as [NA [VA KA]].
  destruct HB as [CB _]. destruct HA as [CA _]. cbn [diff].
  rewrite (diff_ddl_result d srt sdiff Hs B A CB CA NB NA KB KA OK).
  destruct (eqs (ddl_string d B) (ddl_string d A)) eqn:Et.
  { intro k. rewrite VB, VA. apply (so_ddl_text _ _ _ OK). apply eqs_eq. exact Et. }
  pose proof (result_sound d srt sdiff Hs B A CB CA NB NA KB KA OK) as Hr.
  assert (Hn : forallb no_rename (result d srt sdiff B A) = true) by (eapply result_no_rename; eassumption).
  destruct (run_by_key (col_ops d (result d srt sdiff B A)) db0 dba) as [m [Hm Hme]].
  { intro k. rewrite VB, VA. apply Hr. }
  destruct (result d srt sdiff B A) as [|s l] eqn:E.
  - cbn in Hm. inversion Hm; subst. exact Hme.
  - exists m. split; [|exact Hme]. apply exec_all_run; [exact Hn|exact Hm].
Qed.
