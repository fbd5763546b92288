(** Facts about the catalogue semantics of Db.v: executing operations key by key. *)
From Coq Require Import Lia.
From Verif Require Import GoStr Token Ast Db.

Lemma key_eqb_eq : forall a b, key_eqb a b = true <-> a = b.
Proof.
  intros a b; destruct a, b; cbn [key_eqb]; split; intro H; try discriminate; try (inversion H; fail);
    try (apply String.eqb_eq in H; subst; reflexivity);
    try (inversion H; subst; apply String.eqb_eq; reflexivity);
    try (apply andb_true_iff in H; destruct H as [H1 H2]; apply String.eqb_eq in H1, H2; subst; reflexivity);
    try (inversion H; subst; apply andb_true_iff; split; apply String.eqb_eq; reflexivity).
Qed.
Lemma key_eqb_refl : forall a, key_eqb a a = true.
Proof. intro a. apply key_eqb_eq. reflexivity. Qed.
Lemma key_eqb_neq : forall a b, key_eqb a b = false <-> a <> b.
Proof.
  intros a b. split; intro H.
  - intro E. apply key_eqb_eq in E. congruence.
  - destruct (key_eqb a b) eqn:E; [|reflexivity]. apply key_eqb_eq in E. contradiction.
Qed.
Lemma key_dec : forall a b : key, {a = b} + {a <> b}.
Proof. intros a b. destruct (key_eqb a b) eqn:E; [left; apply key_eqb_eq; exact E | right; apply key_eqb_neq; exact E]. Qed.

(** ** Effect of an operation on one key *)
Definition eff (o : op) (k : key) (v : option value) : option (option value) :=
  match o with
  | Has k' => if key_eqb k' k then (if present v then Some v else None) else Some v
  | Add k' x => if key_eqb k' k then (if present v then None else Some (Some x)) else Some v
  | Upd k' f => if key_eqb k' k then (if present v then Some (option_map f v) else None) else Some v
  | Del k' => if key_eqb k' k then (if present v then Some None else None) else Some v
  | Put k' x => if key_eqb k' k then Some (Some x) else Some v
  | Fresh t => if key_eqb (KTab t) k then (if present v then None else Some (Some VTab))
               else if owned_by t k then Some None else Some v
  | Wipe t => if key_eqb (KTab t) k then (if present v then Some None else None)
              else if owned_by t k then Some None else Some (unless (index_on t) v)
  | DelCol t c => if key_eqb (KCol t c) k then (if present v then Some None else None)
                  else Some (unless (involves t c k) v)
  | Fail => None
  end.

Fixpoint at_key (k : key) (os : list op) (v : option value) : option (option value) :=
  match os with
  | [] => Some v
  | o :: r => match eff o k v with Some v' => at_key k r v' | None => None end
  end.

Lemma op_ok_eff : forall o m, op_ok o m = true -> forall k, eff o k (m k) = Some (op_db o m k).
Proof.
  intros o m H k. destruct o; cbn [op_ok eff op_db] in *; try discriminate.
  - destruct (key_eqb k0 k) eqn:E; [|reflexivity]. apply key_eqb_eq in E; subst. rewrite H. reflexivity.
  - destruct (key_eqb k0 k) eqn:E; [|reflexivity]. apply key_eqb_eq in E; subst.
    destruct (present (m k)); [discriminate|reflexivity].
  - destruct (key_eqb k0 k) eqn:E; [|reflexivity]. apply key_eqb_eq in E; subst. rewrite H. reflexivity.
  - destruct (key_eqb k0 k) eqn:E; [|reflexivity]. apply key_eqb_eq in E; subst. rewrite H. reflexivity.
  - destruct (key_eqb k0 k); reflexivity.
  - destruct (key_eqb (KTab t) k) eqn:E.
    + apply key_eqb_eq in E; subst. destruct (present (m (KTab t))); [discriminate|reflexivity].
    + destruct (owned_by t k); reflexivity.
  - destruct (key_eqb (KTab t) k) eqn:E.
    + apply key_eqb_eq in E; subst. rewrite H. unfold owned_by; cbn [owner]. rewrite String.eqb_refl. reflexivity.
    + destruct (owned_by t k); reflexivity.
  - destruct (key_eqb (KCol t c) k) eqn:E; [|reflexivity]. apply key_eqb_eq in E; subst. rewrite H. reflexivity.
Qed.

Lemma eff_op_ok : forall o m, (forall k, eff o k (m k) <> None) -> op_ok o m = true.
Proof.
  intros o m H. destruct o; cbn [op_ok eff] in *.
  - specialize (H k). rewrite key_eqb_refl in H. destruct (present (m k)); congruence.
  - specialize (H k). rewrite key_eqb_refl in H. destruct (present (m k)); [congruence|reflexivity].
  - specialize (H k). rewrite key_eqb_refl in H. destruct (present (m k)); congruence.
  - specialize (H k). rewrite key_eqb_refl in H. destruct (present (m k)); congruence.
  - reflexivity.
  - specialize (H (KTab t)). rewrite key_eqb_refl in H. destruct (present (m (KTab t))); [congruence|reflexivity].
  - specialize (H (KTab t)). rewrite key_eqb_refl in H. destruct (present (m (KTab t))); congruence.
  - specialize (H (KCol t c)). rewrite key_eqb_refl in H. destruct (present (m (KCol t c))); congruence.
  - exfalso. apply (H (KTab "")). reflexivity.
Qed.

Lemma run_at_key : forall os m m', run os m = Some m' -> forall k, at_key k os (m k) = Some (m' k).
Proof.
  induction os as [|o r IH]; intros m m' H k; cbn [run at_key] in *.
  - inversion H; reflexivity.
  - destruct (op_ok o m) eqn:E; [|discriminate]. rewrite (op_ok_eff _ _ E k). apply IH. exact H.
Qed.

Lemma at_key_run : forall os m, (forall k, at_key k os (m k) <> None) -> exists m', run os m = Some m'.
Proof.
  induction os as [|o r IH]; intros m H; cbn [run at_key] in *.
  - exists m; reflexivity.
  - assert (E : op_ok o m = true).
    { apply eff_op_ok. intros k Hk. specialize (H k). rewrite Hk in H. congruence. }
    rewrite E. apply IH. intros k. specialize (H k). rewrite (op_ok_eff _ _ E k) in H. exact H.
Qed.

(** The form used for the main theorems. *)
Lemma run_by_key : forall os m (f : db),
  (forall k, at_key k os (m k) = Some (f k)) -> exists m', run os m = Some m' /\ db_eq m' f.
Proof.
  intros os m f H. destruct (at_key_run os m) as [m' Hm'].
  - intros k. rewrite H. discriminate.
  - exists m'. split; [exact Hm'|]. intro k. pose proof (run_at_key _ _ _ Hm' k) as E. rewrite H in E.
    inversion E. reflexivity.
Qed.

Lemma at_key_app : forall k a b v, at_key k (a ++ b)%list v =
  match at_key k a v with Some v' => at_key k b v' | None => None end.
Proof.
  intros k a. induction a as [|o r IH]; intros b v; cbn [app at_key].
  - reflexivity.
  - destruct (eff o k v); [apply IH|reflexivity].
Qed.

Lemma run_app : forall a b m, run (a ++ b)%list m = match run a m with Some m' => run b m' | None => None end.
Proof.
  induction a as [|o r IH]; intros b m; cbn [app run].
  - reflexivity.
  - destruct (op_ok o m); [apply IH|reflexivity].
Qed.

(** ** Operations that do not concern a key

    [idle P k os]: the operations leave every value satisfying P under key k alone. *)
Definition idle (P : option value -> Prop) (k : key) (os : list op) : Prop :=
  forall v, P v -> at_key k os v = Some v.

Lemma idle_nil : forall (P : option value -> Prop) k, idle P k [].
Proof. intros P k v _. reflexivity. Qed.
Lemma idle_app : forall (P : option value -> Prop) k a b, idle P k a -> idle P k b -> idle P k (a ++ b)%list.
Proof. intros P k a b Ha Hb v Hv. rewrite at_key_app, (Ha v Hv). apply Hb. exact Hv. Qed.
Lemma idle_cons : forall (P : option value -> Prop) k o r, (forall v, P v -> eff o k v = Some v) -> idle P k r -> idle P k (o :: r).
Proof. intros P k o r Ho Hr v Hv. cbn [at_key]. rewrite (Ho v Hv). apply Hr. exact Hv. Qed.
Lemma idle_flat_map : forall (P : option value -> Prop) A k (f : A -> list op) l,
  (forall x, In x l -> idle P k (f x)) -> idle P k (flat_map f l).
Proof.
  intros P A k f l. induction l as [|x r IH]; intros H; cbn [flat_map]; [apply idle_nil|].
  apply idle_app; [apply H; left; reflexivity|apply IH; intros y Hy; apply H; right; exact Hy].
Qed.
Lemma idle_weaken : forall (P Q : option value -> Prop) k os, (forall v, P v -> Q v) -> idle Q k os -> idle P k os.
Proof. intros P Q k os H HQ v Hv. apply HQ. apply H. exact Hv. Qed.

(** At most one element of the list is selected. *)
Fixpoint atmost1 {A} (sel : A -> bool) (l : list A) : Prop :=
  match l with
  | [] => True
  | x :: r => (sel x = true -> forall y, In y r -> sel y = false) /\ atmost1 sel r
  end.

Lemma atmost1_key : forall A K (eqb : K -> K -> bool) (f : A -> K) k l,
  (forall a b, eqb a b = true <-> a = b) -> NoDup (map f l) -> atmost1 (fun x => eqb (f x) k) l.
Proof.
  intros A K eqb f k l He. induction l as [|x r IH]; intros H; cbn [atmost1]; [exact I|].
  cbn [map] in H. inversion H as [|? ? Hn Hd]; subst. split; [|apply IH; exact Hd].
  intros Hx y Hy. apply He in Hx. destruct (eqb (f y) k) eqn:E; [|reflexivity]. apply He in E.
  exfalso. apply Hn. rewrite Hx, <- E. apply in_map. exact Hy.
Qed.

Lemma find_unique : forall A (sel : A -> bool) l x, atmost1 sel l -> In x l -> sel x = true -> find sel l = Some x.
Proof.
  intros A sel l x. induction l as [|y r IH]; intros Ho Hi Hs; [destruct Hi|]. cbn [atmost1] in Ho. destruct Ho as [H1 H2].
  cbn [find]. destruct Hi as [Hi|Hi].
  - subst. rewrite Hs. reflexivity.
  - destruct (sel y) eqn:Ey; [rewrite (H1 eq_refl x Hi) in Hs; discriminate|]. apply IH; assumption.
Qed.

Lemma find_none_iff : forall A (sel : A -> bool) l, find sel l = None <-> forall x, In x l -> sel x = false.
Proof.
  intros A sel l. split.
  - intros H x Hx. apply (find_none _ _ H). exact Hx.
  - induction l as [|y r IH]; intros H; cbn [find]; [reflexivity|]. rewrite (H y (or_introl eq_refl)).
    apply IH. intros x Hx. apply H. right; exact Hx.
Qed.

(** Only one element of the list concerns the key. *)
Lemma at_flat_unique : forall (P : option value -> Prop) A (f : A -> list op) (sel : A -> bool) k l v,
  (forall x, In x l -> sel x = false -> idle P k (f x)) -> atmost1 sel l -> P v ->
  (forall x, In x l -> sel x = true -> forall w, at_key k (f x) v = Some w -> P w) ->
  at_key k (flat_map f l) v =
  match find sel l with Some x => at_key k (f x) v | None => Some v end.
Proof.
  intros P A f sel k l. induction l as [|x r IH]; intros v Hu Hd Hv Hw; cbn [flat_map find].
  - reflexivity.
  - cbn [atmost1] in Hd. destruct Hd as [Hn Hd]. rewrite at_key_app. destruct (sel x) eqn:E.
    + assert (Hr : idle P k (flat_map f r)).
      { apply idle_flat_map. intros y Hy. apply Hu; [right; exact Hy|]. apply Hn; [reflexivity|exact Hy]. }
      destruct (at_key k (f x) v) eqn:Ea; [|reflexivity]. apply Hr. apply (Hw x (or_introl eq_refl) E). exact Ea.
    + rewrite (Hu x (or_introl eq_refl) E v Hv).
      apply IH; [intros y Hy; apply Hu; right; exact Hy|exact Hd|exact Hv|].
      intros y Hy. apply Hw. right; exact Hy.
Qed.

(** ** The entries of a schema *)
Fixpoint assoc_key (k : key) (l : list (key * value)) : option value :=
  match l with
  | [] => None
  | (k', v) :: r => if key_eqb k' k then Some v else assoc_key k r
  end.

Lemma assoc_In : forall l k v, assoc_key k l = Some v -> In (k, v) l.
Proof.
  induction l as [|[k' v'] r IH]; intros k v H; cbn [assoc_key] in H; [discriminate|].
  destruct (key_eqb k' k) eqn:E.
  - apply key_eqb_eq in E. inversion H; subst. left; reflexivity.
  - right. apply IH. exact H.
Qed.
Lemma In_assoc : forall l k v, NoDup (map fst l) -> In (k, v) l -> assoc_key k l = Some v.
Proof.
  induction l as [|[k' v'] r IH]; intros k v Hd H; cbn [assoc_key map fst] in *; [destruct H|].
  inversion Hd as [|? ? Hn Hd']; subst. destruct H as [H|H].
  - inversion H; subst. rewrite key_eqb_refl. reflexivity.
  - destruct (key_eqb k' k) eqn:E.
    + apply key_eqb_eq in E; subst. exfalso. apply Hn. apply (in_map fst) in H. exact H.
    + apply IH; assumption.
Qed.
Lemma assoc_None : forall l k, assoc_key k l = None <-> ~ In k (map fst l).
Proof.
  induction l as [|[k' v'] r IH]; intros k; cbn [assoc_key map fst].
  - split; [intros _ []|reflexivity].
  - destruct (key_eqb k' k) eqn:E.
    + apply key_eqb_eq in E; subst. split; [discriminate|]. intro H. exfalso. apply H. left; reflexivity.
    + apply key_eqb_neq in E. rewrite IH. split; intros H; [intros [F|F]; [contradiction|apply H; exact F]|].
      intro F. apply H. right. exact F.
Qed.
Lemma assoc_app : forall a b k, assoc_key k (a ++ b)%list =
  match assoc_key k a with Some v => Some v | None => assoc_key k b end.
Proof.
  induction a as [|[k' v'] r IH]; intros b k; cbn [app assoc_key]; [reflexivity|].
  destruct (key_eqb k' k); [reflexivity|apply IH].
Qed.

Section Entries.
Variable d : dialect.

Definition con_entries (t : objname) (c : constraint) : list (key * value) :=
  match c with
  | CIndex (Some n) unique pre cols post => [(intable_key d t n, VIdx (sem_intable d t unique pre cols post))]
  | _ => match con_name c, sem_con d c with
         | Some n, Some s => [(KCon (qname t) (id_name n), VCon s)]
         | _, _ => []
         end
  end.
Definition col_entry (t : objname) (c : column) : key * value :=
  (KCol (qname t) (id_name (c_name c)), VCol (sem_col d c)).
Definition opt_entries (t : objname) (o : option_) : list (key * value) :=
  match d with
  | My => if counter_option o then [] else [(KOpt (qname t) (o_name o), VOpt (etoks (o_value o)))]
  | _ => [(KOpt (qname t) (o_name o), VOpt (etoks (o_value o)))]
  end.
Definition row_entries (t : objname) (o : option option_) : list (key * value) :=
  match o with Some o => [(KRow (qname t), VRow (etoks (o_value o)))] | None => [] end.
Definition table_entries (t : create_table) : list (key * value) :=
  ((KTab (qname (ct_name t)), VTab)
   :: map (col_entry (ct_name t)) (ct_columns t)
   ++ flat_map (con_entries (ct_name t)) (ct_constraints t)
   ++ flat_map (opt_entries (ct_name t)) (ct_options t)
   ++ row_entries (ct_name t) (ct_rowdel t))%list.
Definition stmt_entries (s : stmt) : list (key * value) :=
  match s with
  | CreateTable t => table_entries t
  | CreateIndex i => [(KIdx (qname (cx_name i)), VIdx (sem_index d i))]
  | _ => []
  end.
Definition entries (l : ddl) : list (key * value) := flat_map stmt_entries l.

Definition adds (l : list (key * value)) : list op := map (fun e => Add (fst e) (snd e)) l.

Lemma run_adds : forall l m m', run (adds l) m = Some m' ->
  NoDup (map fst l) /\ (forall k, In k (map fst l) -> m k = None) /\
  (forall k, m' k = match assoc_key k l with Some v => Some v | None => m k end).
Proof.
  induction l as [|[k0 v0] r IH]; intros m m' H; cbn [adds map run fst snd] in *.
  - inversion H; subst. split; [constructor|]. split; [intros k []|]. intro k. reflexivity.
  - destruct (op_ok (Add k0 v0) m) eqn:E; [|discriminate]. cbn [op_ok] in E.
    destruct (IH _ _ H) as [Hd [Hn Hm]]. cbn [op_db] in *.
    assert (Hk0 : ~ In k0 (map fst r)).
    { intro Hin. specialize (Hn _ Hin). cbn beta in Hn. rewrite key_eqb_refl in Hn. discriminate. }
    split; [constructor; assumption|]. split.
    + intros k [Hk|Hk].
      * subst. destruct (m k); [discriminate|reflexivity].
      * specialize (Hn _ Hk). cbn beta in Hn. destruct (key_eqb k0 k); [discriminate|exact Hn].
    + intro k. rewrite Hm. cbn [assoc_key]. destruct (key_eqb k0 k) eqn:Ek.
      * apply key_eqb_eq in Ek; subst. apply assoc_None in Hk0. rewrite Hk0. reflexivity.
      * reflexivity.
Qed.

Definition con_named (c : constraint) : bool := present (con_name c).

Lemma con_ops_adds : forall t c, con_named c = true -> add_con_ops d t c = adds (con_entries t c).
Proof.
  intros t c H. destruct c; destruct name; cbn in *; try discriminate; reflexivity.
Qed.
Lemma con_ops_fail : forall t c, con_named c = false -> add_con_ops d t c = [Fail].
Proof.
  intros t c H. destruct c; destruct name; cbn in *; try discriminate; reflexivity.
Qed.

Lemma flat_map_adds : forall A (f : A -> list op) (g : A -> list (key * value)) l,
  (forall x, In x l -> f x = adds (g x)) -> flat_map f l = adds (flat_map g l).
Proof.
  intros A f g l. induction l as [|x r IH]; intro H; cbn [flat_map]; [reflexivity|].
  rewrite (H x (or_introl eq_refl)), IH by (intros y Hy; apply H; right; exact Hy).
  unfold adds. rewrite map_app. reflexivity.
Qed.

Lemma run_Fail : forall os m, In Fail os -> run os m = None.
Proof.
  induction os as [|o r IH]; intros m H; [destruct H|]. cbn [run].
  destruct H as [H|H]; [subst; reflexivity|]. destruct (op_ok o m); [apply IH; exact H|reflexivity].
Qed.

Definition all_con_named (t : create_table) : bool := forallb con_named (ct_constraints t).

Definition table_adds (t : create_table) : list (key * value) :=
  (map (col_entry (ct_name t)) (ct_columns t)
   ++ flat_map (con_entries (ct_name t)) (ct_constraints t)
   ++ flat_map (opt_entries (ct_name t)) (ct_options t)
   ++ row_entries (ct_name t) (ct_rowdel t))%list.

Lemma create_table_ops_adds : forall t, all_con_named t = true ->
  create_table_ops d t = Fresh (qname (ct_name t)) :: adds (table_adds t).
Proof.
  intros t H. unfold create_table_ops, table_adds. f_equal. unfold adds at 1. rewrite !map_app. f_equal; [|f_equal; [|f_equal]].
  - rewrite map_map. unfold add_col_ops. induction (ct_columns t) as [|c r IH]; cbn [flat_map map]; [reflexivity|].
    rewrite IH. reflexivity.
  - apply flat_map_adds. intros c Hc. apply con_ops_adds. unfold all_con_named in H. rewrite forallb_forall in H.
    apply H. exact Hc.
  - apply flat_map_adds. intros o Ho. unfold add_opt_ops, opt_entries. destruct d; try reflexivity.
    destruct (counter_option o); reflexivity.
  - destruct (ct_rowdel t); reflexivity.
Qed.

Lemma create_table_ops_named : forall t m m', run (create_table_ops d t) m = Some m' -> all_con_named t = true.
Proof.
  intros t m m' H. destruct (all_con_named t) eqn:E; [reflexivity|]. exfalso.
  assert (In Fail (create_table_ops d t)).
  { unfold create_table_ops. right. apply in_or_app. right. apply in_or_app. left.
    unfold all_con_named in E. apply in_flat_map.
    assert (exists c, In c (ct_constraints t) /\ con_named c = false) as [c [Hc Hn]].
    { clear H. induction (ct_constraints t) as [|c r IH]; cbn [forallb] in E; [discriminate|].
      destruct (con_named c) eqn:Ec.
      - cbn [andb] in E. destruct (IH E) as [c' [H1 H2]]. exists c'. split; [right; exact H1|exact H2].
      - exists c. split; [left; reflexivity|exact Ec]. }
    exists c. split; [exact Hc|]. rewrite con_ops_fail by exact Hn. left; reflexivity. }
  rewrite run_Fail in H by exact H0. discriminate.
Qed.

(** Nothing belongs to a table that does not exist. *)
Definition clean (m : db) : Prop := forall k t, owner k = Some t -> m (KTab t) = None -> m k = None.

Lemma table_adds_owner : forall t k, In k (map fst (table_adds t)) ->
  (owner k = Some (qname (ct_name t)) /\ k <> KTab (qname (ct_name t))) \/ owner k = None.
Proof.
  intros t k H. unfold table_adds in H. rewrite !map_app in H. repeat (apply in_app_or in H; destruct H as [H|H]).
  - rewrite map_map in H. apply in_map_iff in H. destruct H as [c [E _]]. subst. left. split; [reflexivity|discriminate].
  - apply in_map_iff in H. destruct H as [[k' v'] [E H]]. cbn [fst] in E; subst k'.
    apply in_flat_map in H. destruct H as [c [_ H]]. unfold con_entries in H.
    destruct c; destruct name; cbn in H; try contradiction; destruct H as [H|[]]; inversion H; subst;
      first [left; split; [reflexivity|discriminate] | right; unfold intable_key; reflexivity].
  - apply in_map_iff in H. destruct H as [[k' v'] [E H]]. cbn [fst] in E; subst k'.
    apply in_flat_map in H. destruct H as [c [_ H]]. unfold opt_entries in H.
    destruct d; try (destruct (counter_option c)); cbn in H; try contradiction; destruct H as [H|[]]; inversion H; subst;
      left; (split; [reflexivity|discriminate]).
  - destruct (ct_rowdel t); cbn in H; [|contradiction]. destruct H as [H|[]]. subst. left. split; [reflexivity|discriminate].
Qed.

(** Executing creating statements in a clean catalogue. *)
Lemma run_creates : forall l m m', forallb is_create l = true -> clean m ->
  run (flat_map (stmt_ops d) l) m = Some m' ->
  NoDup (map fst (entries l)) /\ (forall k, In k (map fst (entries l)) -> m k = None) /\
  (forall k, m' k = match assoc_key k (entries l) with Some v => Some v | None => m k end) /\
  (forall t, In (CreateTable t) l -> all_con_named t = true) /\ clean m'.
Proof.
  induction l as [|s r IH]; intros m m' Hc Hm H.
  - cbn in H. inversion H; subst. cbn. split; [constructor|]. split; [intros k []|]. split; [reflexivity|].
    split; [intros t []|exact Hm].
  - cbn [forallb] in Hc. apply andb_true_iff in Hc. destruct Hc as [Hs Hc].
    cbn [flat_map] in H. rewrite run_app in H. destruct (run (stmt_ops d s) m) as [m1|] eqn:E1; [|discriminate].
    assert (Hstep : NoDup (map fst (stmt_entries s)) /\ (forall k, In k (map fst (stmt_entries s)) -> m k = None) /\
      (forall k, m1 k = match assoc_key k (stmt_entries s) with Some v => Some v | None => m k end) /\
      (forall t, s = CreateTable t -> all_con_named t = true) /\ clean m1).
    { destruct s; try discriminate Hs; cbn [stmt_ops stmt_entries] in *.
      - pose proof (create_table_ops_named _ _ _ E1) as Hn. rewrite create_table_ops_adds in E1 by exact Hn.
        cbn [run] in E1. set (T := qname (ct_name t)) in *.
        destruct (op_ok (Fresh T) m) eqn:Ek; [|discriminate]. cbn [op_ok] in Ek.
        assert (HT : m (KTab T) = None) by (destruct (m (KTab T)); [discriminate|reflexivity]).
        destruct (run_adds _ _ _ E1) as [Hd [Hx Hv]].
        change (table_entries t) with ((KTab T, VTab) :: table_adds t). cbn [map fst].
        assert (HnT : ~ In (KTab T) (map fst (table_adds t))).
        { intro Hin. apply table_adds_owner in Hin. destruct Hin as [[_ Hne]|Hno]; [apply Hne; reflexivity|discriminate Hno]. }
        assert (Hfresh : forall k, op_db (Fresh T) m k = if key_eqb (KTab T) k then Some VTab else m k).
        { intro k. cbn [op_db]. destruct (key_eqb (KTab T) k) eqn:Ekk; [reflexivity|].
          destruct (owned_by T k) eqn:Eo; [|reflexivity]. unfold owned_by in Eo. destruct (owner k) eqn:Ew; [|discriminate].
          apply String.eqb_eq in Eo. symmetry. apply (Hm k T); [rewrite Eo; exact Ew|exact HT]. }
        assert (Hv1 : forall k, m1 k = match assoc_key k ((KTab T, VTab) :: table_adds t) with Some v => Some v | None => m k end).
        { intro k. rewrite Hv. cbn [assoc_key]. rewrite Hfresh.
          destruct (key_eqb (KTab T) k) eqn:Ekk.
          - apply key_eqb_eq in Ekk. subst k. apply assoc_None in HnT. rewrite HnT. reflexivity.
          - reflexivity. }
        split; [constructor; assumption|]. split; [|split; [exact Hv1|split]].
        + intros k [Hk|Hk]; [subst; exact HT|]. specialize (Hx _ Hk). rewrite Hfresh in Hx.
          destruct (key_eqb (KTab T) k); [discriminate|exact Hx].
        + intros t' Et. inversion Et; subst. exact Hn.
        + intros k t' Hw Hp. rewrite Hv1 in Hp. rewrite Hv1. cbn [assoc_key] in *.
          destruct (key_eqb (KTab T) (KTab t')) eqn:Ett; [discriminate|].
          assert (T <> t') by (intro; subst; rewrite key_eqb_refl in Ett; discriminate).
          assert (Hmk : m k = None).
          { apply (Hm k t'); [exact Hw|]. destruct (assoc_key (KTab t') (table_adds t)); [discriminate|exact Hp]. }
          destruct (key_eqb (KTab T) k) eqn:Ek1.
          { apply key_eqb_eq in Ek1; subst. cbn in Hw. inversion Hw. contradiction. }
          destruct (assoc_key k (table_adds t)) eqn:Ea; [|exact Hmk].
          apply assoc_In in Ea. apply (in_map fst) in Ea. cbn [fst] in Ea. apply table_adds_owner in Ea. fold T in Ea.
          destruct Ea as [[Ea _]|Ea]; rewrite Hw in Ea; [inversion Ea; congruence|discriminate].
      - change (create_index_ops d i) with (adds [(KIdx (qname (cx_name i)), VIdx (sem_index d i))]) in E1.
        destruct (run_adds _ _ _ E1) as [Hd [Hx Hv]].
        split; [exact Hd|]. split; [exact Hx|]. split; [exact Hv|]. split; [intros t Et; discriminate Et|].
        intros k t Hw Hp. rewrite Hv in *. cbn [assoc_key] in *. cbn [key_eqb] in Hp.
        destruct (key_eqb (KIdx (qname (cx_name i))) k) eqn:Ek.
        + apply key_eqb_eq in Ek; subst. discriminate Hw.
        + apply (Hm k t); assumption. }
    destruct Hstep as [Hd1 [Hx1 [Hv1 [Hn1 Hc1]]]].
    destruct (IH m1 m' Hc Hc1 H) as [Hd2 [Hx2 [Hv2 [Hn2 Hc2]]]].
    assert (Hsep : forall k, In k (map fst (entries r)) -> ~ In k (map fst (stmt_entries s)) /\ m k = None).
    { intros k Hk. specialize (Hx2 k Hk). rewrite Hv1 in Hx2. destruct (assoc_key k (stmt_entries s)) eqn:Ea; [discriminate|].
      split; [apply assoc_None; exact Ea|exact Hx2]. }
    cbn [entries flat_map] in *. fold (entries r) in *. rewrite map_app.
    split; [|split; [|split; [|split]]].
    + clear - Hd1 Hd2 Hsep. revert Hd1 Hsep. generalize (map fst (stmt_entries s)). intros a Ha Hs.
      induction a as [|x a IHa]; cbn [app]; [exact Hd2|]. inversion Ha; subst. constructor.
      * intro Hin. apply in_app_or in Hin. destruct Hin as [Hin|Hin]; [contradiction|].
        destruct (Hs _ Hin) as [Hno _]. apply Hno. left; reflexivity.
      * apply IHa; [assumption|]. intros k Hk. destruct (Hs k Hk) as [Hno Hmk]. split; [|exact Hmk].
        intro Hin. apply Hno. right; exact Hin.
    + intros k Hk. apply in_app_or in Hk. destruct Hk as [Hk|Hk]; [apply Hx1; exact Hk|apply Hsep; exact Hk].
    + intro k. rewrite Hv2, assoc_app. rewrite Hv1. destruct (assoc_key k (stmt_entries s)) eqn:Ea.
      * destruct (assoc_key k (entries r)) eqn:Eb; [|reflexivity].
        exfalso. apply assoc_In in Eb. apply (in_map fst) in Eb. cbn [fst] in Eb. destruct (Hsep _ Eb) as [Hno _].
        apply Hno. apply assoc_In in Ea. apply (in_map fst) in Ea. exact Ea.
      * reflexivity.
    + intros t [Ht|Ht]; [apply Hn1; exact Ht|apply Hn2; exact Ht].
    + exact Hc2.
Qed.

Lemma forget_ine_ops : forall s, stmt_ops d (forget_ine s) = stmt_ops d s.
Proof. intros [] ; reflexivity. Qed.

Lemma exec_forget : forall l m, forallb is_create l = true ->
  exec_all d (map forget_ine l) m = run (flat_map (stmt_ops d) l) m.
Proof.
  induction l as [|s r IH]; intros m H; [reflexivity|]. cbn [forallb] in H. apply andb_true_iff in H. destruct H as [Hs Hr].
  cbn [map exec_all flat_map]. rewrite run_app.
  assert (E : exec d (forget_ine s) m = run (stmt_ops d s) m).
  { destruct s; try discriminate Hs; reflexivity. }
  rewrite E. destruct (run (stmt_ops d s) m); [apply IH; exact Hr|reflexivity].
Qed.

(** What it means for a schema to describe a catalogue. *)
Lemma describes_entries : forall l m, describes d l m ->
  NoDup (map fst (entries l)) /\ (forall k, m k = assoc_key k (entries l)) /\
  (forall t, In (CreateTable t) l -> all_con_named t = true).
Proof.
  intros l m [Hc H]. rewrite exec_forget in H by exact Hc.
  destruct (run_creates l empty_db m Hc) as [Hd [_ [Hv [Hn _]]]]; [intros k t _ _; reflexivity|exact H|].
  split; [exact Hd|]. split; [|exact Hn]. intro k. rewrite Hv. destruct (assoc_key k (entries l)); reflexivity.
Qed.

(** Executing statements whose operations succeed: IF NOT EXISTS never interferes. *)
Definition no_rename (s : stmt) : bool := match s with AlterTable _ _ (RenameTable _) => false | _ => true end.
Lemma exec_run : forall s m m', no_rename s = true -> run (stmt_ops d s) m = Some m' -> exec d s m = Some m'.
Proof.
  intros s m m' Hr H. destruct s; cbn [exec].
  - destruct (ct_ifnotexists t && present (m (KTab (qname (ct_name t))))) eqn:E; [|exact H].
    apply andb_true_iff in E. destruct E as [_ E]. cbn [stmt_ops create_table_ops run op_ok] in H. rewrite E in H. discriminate.
  - destruct (cx_ifnotexists i && present (m (KIdx (qname (cx_name i))))) eqn:E; [|exact H].
    apply andb_true_iff in E. destruct E as [_ E]. cbn [stmt_ops create_index_ops run op_ok] in H. rewrite E in H. discriminate.
  - destruct (ifexists && negb (present (m (KTab (qname name))))) eqn:E; [|exact H].
    apply andb_true_iff in E. destruct E as [_ E]. cbn [stmt_ops run op_ok] in H.
    destruct (present (m (KTab (qname name)))); discriminate.
  - destruct (ifexists && negb (present (m (KIdx (qname name))))) eqn:E; [|exact H].
    apply andb_true_iff in E. destruct E as [_ E]. cbn [stmt_ops] in H. unfold drop_index_ops in H.
    destruct d; cbn [run op_ok] in H; try discriminate H; destruct (present (m (KIdx (qname name)))); discriminate.
  - destruct a; try exact H. discriminate Hr.
Qed.
Lemma exec_all_run : forall l m m', forallb no_rename l = true ->
  run (flat_map (stmt_ops d) l) m = Some m' -> exec_all d l m = Some m'.
Proof.
  induction l as [|s r IH]; intros m m' Hr H; [exact H|]. cbn [forallb] in Hr. apply andb_true_iff in Hr. destruct Hr as [Hs Hr].
  cbn [flat_map] in H. rewrite run_app in H. destruct (run (stmt_ops d s) m) as [m1|] eqn:E; [|discriminate].
  cbn [exec_all]. rewrite (exec_run _ _ _ Hs E). apply IH; assumption.
Qed.
End Entries.
