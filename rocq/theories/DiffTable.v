(** Effect of the statements of DiffCreateTable on the catalogue, key by key. *)
From Coq Require Import Lia Permutation.
From Verif Require Import GoStr Token Ast Parser Diff Db DbFacts.

Lemma objname_diff_qname : forall n, objname_diff n = qname n.
Proof. intros [s i]. destruct s; reflexivity. Qed.

Lemma eqs_eq : forall a b, eqs a b = true <-> a = b.
Proof. intros a b. unfold eqs. apply String.eqb_eq. Qed.
Lemma eqs_refl : forall a, eqs a a = true.
Proof. intro a. apply eqs_eq. reflexivity. Qed.
Lemma neqs_false : forall a b, neqs a b = false <-> a = b.
Proof.
  intros a b. unfold neqs. destruct (eqs a b) eqn:E; cbn [negb].
  - apply eqs_eq in E. split; [intros _; exact E|reflexivity].
  - split; [discriminate|]. intro H. apply eqs_eq in H. congruence.
Qed.

Section Columns.
Variable d : dialect.

(** * Columns present on both sides *)

(** The comparison of the printed forms notices every difference the catalogue
    sees.  The last part are conditions without which the code is wrong (see the
    _refuted theorems). *)
Definition col_agree (b a : column) : Prop :=
  (datatype_diff (c_type b) = datatype_diff (c_type a) ->
     dt_type (c_type b) = dt_type (c_type a) /\ etoks (dt_expr (c_type b)) = etoks (dt_expr (c_type a)))
  /\ (default_diff d (c_default b) = default_diff d (c_default a) ->
      sem_default (c_default b) = sem_default (c_default a))
  /\ c_default b <> Some None /\ c_default a <> Some None
  /\ match d with
     | Pg => True
     | Crdb => c_notvisible b = c_notvisible a /\ sem_as (c_as b) = sem_as (c_as a)
     | My => c_charset b = None /\ c_charset a = None /\
             (oident_diff (c_collate b) = oident_diff (c_collate a) ->
              option_map id_name (c_collate b) = option_map id_name (c_collate a))
     | Sp => is_some (c_options a) = true ->
             expr_diff (c_options b) = expr_diff (c_options a) ->
             option_map toks (c_options b) = option_map toks (c_options a)
     end.

Lemma scol_eq : forall a b : scol,
  sc_type a = sc_type b -> sc_args a = sc_args b -> sc_default a = sc_default b -> sc_notnull a = sc_notnull b ->
  sc_hidden a = sc_hidden b -> sc_as a = sc_as b -> sc_charset a = sc_charset b -> sc_collate a = sc_collate b ->
  sc_autoinc a = sc_autoinc b -> sc_onaction a = sc_onaction b -> sc_comment a = sc_comment b ->
  sc_options a = sc_options b -> a = b.
Proof. intros [] []; cbn; intros; subst; reflexivity. Qed.

Definition col_ops (l : list stmt) : list op := flat_map (stmt_ops d) l.

Lemma at_alter_col : forall cm n a k v, at_key k (stmt_ops d (AlterTable cm n a)) v =
  match eff (Has (KTab (qname n))) k v with Some v' => at_key k (action_ops d n a) v' | None => None end.
Proof. reflexivity. Qed.

Lemma at_upd_col : forall T c f x, at_key (KCol T c) [Upd (KCol T c) (on_col f)] (Some (VCol x)) = Some (Some (VCol (f x))).
Proof. intros. cbn. rewrite !String.eqb_refl. reflexivity. Qed.
Lemma at_has_col : forall T U c v, eff (Has (KTab T)) (KCol U c) v = Some v.
Proof. reflexivity. Qed.

(** a column statement: the action applied to the column value *)
Lemma at_col_action : forall cm n a c f x,
  action_ops d n a = [Upd (KCol (qname n) c) (on_col f)] ->
  at_key (KCol (qname n) c) (col_ops [AlterTable cm n a]) (Some (VCol x)) = Some (Some (VCol (f x))).
Proof.
  intros cm n a c f x H. unfold col_ops. cbn [flat_map]. rewrite app_nil_r, at_alter_col, at_has_col, H. apply at_upd_col.
Qed.

Lemma col_ops_app : forall a b, col_ops (a ++ b)%list = (col_ops a ++ col_ops b)%list.
Proof. intros. apply flat_map_app. Qed.

Lemma at_col_app : forall k a b v, at_key k (col_ops (a ++ b)%list) v =
  match at_key k (col_ops a) v with Some v' => at_key k (col_ops b) v' | None => None end.
Proof. intros. rewrite col_ops_app. apply at_key_app. Qed.

Lemma at_default : forall cm n b a x,
  c_default a <> Some None ->
  at_key (KCol (qname n) (id_name (c_name a))) (col_ops (diff_default d cm n b a)) (Some (VCol x)) =
  Some (Some (VCol
    (if is_some (c_default b) && negb (is_some (c_default a)) then set_dflt None x
     else if is_some (c_default a) && neqs (default_diff d (c_default b)) (default_diff d (c_default a))
     then set_dflt (sem_default (c_default a)) x else x))).
Proof.
  intros cm n b a x Ha. unfold diff_default.
  destruct (is_some (c_default b) && negb (is_some (c_default a))).
  - rewrite (at_col_action _ _ _ _ (set_dflt None)) by reflexivity. reflexivity.
  - destruct (is_some (c_default a) && neqs (default_diff d (c_default b)) (default_diff d (c_default a))) eqn:E.
    + destruct (c_default a) as [[l|]|] eqn:Ed.
      * rewrite (at_col_action _ _ _ _ (set_dflt (Some (toks l)))) by reflexivity. reflexivity.
      * exfalso. apply Ha. reflexivity.
      * discriminate E.
    + reflexivity.
Qed.

Lemma at_notnull : forall cm n b a x,
  at_key (KCol (qname n) (id_name (c_name a))) (col_ops (diff_notnull cm n b a)) (Some (VCol x)) =
  Some (Some (VCol (if Bool.eqb (c_notnull b) (c_notnull a) then x else set_nn (c_notnull a) x))).
Proof.
  intros cm n b a x. unfold diff_notnull. destruct (c_notnull b), (c_notnull a); cbn [andb negb Bool.eqb]; try reflexivity.
  - rewrite (at_col_action _ _ _ _ (set_nn false)) by reflexivity. reflexivity.
  - rewrite (at_col_action _ _ _ _ (set_nn true)) by reflexivity. reflexivity.
Qed.

Lemma at_options : forall cm n b a x,
  at_key (KCol (qname n) (id_name (c_name a))) (col_ops (diff_options cm n b a)) (Some (VCol x)) =
  Some (Some (VCol
    (if is_some (c_options b) && negb (is_some (c_options a)) then set_opts None x
     else if is_some (c_options a) && neqs (expr_diff (c_options b)) (expr_diff (c_options a))
     then set_opts (option_map toks (c_options a)) x else x))).
Proof.
  intros cm n b a x. unfold diff_options.
  destruct (is_some (c_options b) && negb (is_some (c_options a))).
  - rewrite (at_col_action _ _ _ _ (set_opts None)) by reflexivity. reflexivity.
  - destruct (is_some (c_options a) && neqs (expr_diff (c_options b)) (expr_diff (c_options a))) eqn:E.
    + rewrite (at_col_action _ _ _ _ (set_opts (option_map toks (c_options a)))) by reflexivity. reflexivity.
    + reflexivity.
Qed.

(** The default of the result. *)
Lemma default_result : forall b a x,
  (default_diff d (c_default b) = default_diff d (c_default a) -> sem_default (c_default b) = sem_default (c_default a)) ->
  sc_default x = sem_default (c_default b) ->
  sc_default (if is_some (c_default b) && negb (is_some (c_default a)) then set_dflt None x
     else if is_some (c_default a) && neqs (default_diff d (c_default b)) (default_diff d (c_default a))
     then set_dflt (sem_default (c_default a)) x else x) = sem_default (c_default a).
Proof.
  intros b a x H Hx. destruct (c_default b) as [vb|] eqn:Eb, (c_default a) as [va|] eqn:Ea; cbn [is_some negb andb].
  - destruct (neqs _ _) eqn:E; [reflexivity|]. rewrite Hx. apply H. apply neqs_false. exact E.
  - reflexivity.
  - destruct (neqs _ _) eqn:E; [reflexivity|]. rewrite Hx. apply H. apply neqs_false. exact E.
  - exact Hx.
Qed.

End Columns.

Ltac norm_cmp :=
  repeat match goal with
  | H : _ || _ = false |- _ => apply orb_false_iff in H; destruct H
  | H : neqs _ _ = false |- _ => apply neqs_false in H
  | H : negb (Bool.eqb _ _) = false |- _ => apply negb_false_iff in H; apply Bool.eqb_prop in H
  end.

Lemma common_pgcrdb : forall d sdiff n b a, (match d with Pg | Crdb => True | _ => False end) ->
  col_agree d b a ->
  at_key (KCol (qname n) (id_name (c_name a))) (col_ops d (diff_common_column d sdiff n b a)) (Some (VCol (sem_col d b)))
  = Some (Some (VCol (sem_col d a))).
Proof.
  intros d sdiff n b a Hd [Hty [Hdf [Hnb [Hna Hx]]]].
  set (cm := sdiff (column_string d b) (column_string d a)).
  assert (E0 : diff_common_column d sdiff n b a =
     ((if neqs (datatype_diff (c_type b)) (datatype_diff (c_type a))
       then [AlterTable cm n (SetDataType (c_name a) (c_type a))] else [])
      ++ diff_default d cm n b a ++ diff_notnull cm n b a)%list).
  { unfold diff_common_column. fold cm. destruct d; try contradiction; reflexivity. }
  rewrite E0, at_col_app.
  assert (E1 : at_key (KCol (qname n) (id_name (c_name a)))
      (col_ops d (if neqs (datatype_diff (c_type b)) (datatype_diff (c_type a))
       then [AlterTable cm n (SetDataType (c_name a) (c_type a))] else [])) (Some (VCol (sem_col d b)))
      = Some (Some (VCol (set_type (c_type a) (sem_col d b))))).
  { destruct (neqs _ _) eqn:E.
    - rewrite (at_col_action _ _ _ _ _ (set_type (c_type a))) by reflexivity. reflexivity.
    - apply neqs_false in E. destruct (Hty E) as [H1 H2]. cbn. unfold set_type, sem_col; cbn.
      rewrite H1, H2. reflexivity. }
  rewrite E1, at_col_app, at_default by exact Hna. rewrite at_notnull. do 3 f_equal.
  match goal with |- (if ?e then ?x else set_nn _ ?x) = _ => set (Y := x) end.
  assert (HY : sc_default Y = sem_default (c_default a)).
  { apply default_result; [exact Hdf|]. reflexivity. }
  assert (HYr : sc_type Y = dt_type (c_type a) /\ sc_args Y = etoks (dt_expr (c_type a)) /\ sc_notnull Y = c_notnull b /\
      sc_hidden Y = sc_hidden (sem_col d b) /\ sc_as Y = sc_as (sem_col d b) /\ sc_charset Y = sc_charset (sem_col d b) /\
      sc_collate Y = sc_collate (sem_col d b) /\ sc_autoinc Y = sc_autoinc (sem_col d b) /\
      sc_onaction Y = sc_onaction (sem_col d b) /\ sc_comment Y = sc_comment (sem_col d b) /\
      sc_options Y = sc_options (sem_col d b)).
  { subst Y. destruct (is_some (c_default b) && negb (is_some (c_default a))); [cbn; tauto|].
    destruct (is_some (c_default a) && neqs (default_diff d (c_default b)) (default_diff d (c_default a))); cbn; tauto. }
  clearbody Y. destruct HYr as [A1 [A2 [A3 [A4 [A5 [A6 [A7 [A8 [A9 [A10 A11]]]]]]]]]].
  assert (HXr : sc_hidden Y = sc_hidden (sem_col d a) /\ sc_as Y = sc_as (sem_col d a) /\ sc_charset Y = sc_charset (sem_col d a) /\
      sc_collate Y = sc_collate (sem_col d a) /\ sc_autoinc Y = sc_autoinc (sem_col d a) /\
      sc_onaction Y = sc_onaction (sem_col d a) /\ sc_comment Y = sc_comment (sem_col d a) /\
      sc_options Y = sc_options (sem_col d a)).
  { rewrite A4, A5, A6, A7, A8, A9, A10, A11. destruct d; try contradiction; cbn.
    - tauto.
    - destruct Hx as [X1 X2]. rewrite X1, X2. tauto. }
  destruct HXr as [B4 [B5 [B6 [B7 [B8 [B9 [B10 B11]]]]]]].
  destruct (Bool.eqb (c_notnull b) (c_notnull a)) eqn:En.
  - apply Bool.eqb_prop in En. apply scol_eq; try assumption. rewrite A3. exact En.
  - apply scol_eq; try assumption. reflexivity.
Qed.

Lemma common_my : forall sdiff n b a, col_agree My b a ->
  at_key (KCol (qname n) (id_name (c_name a))) (col_ops My (diff_common_column My sdiff n b a)) (Some (VCol (sem_col My b)))
  = Some (Some (VCol (sem_col My a))).
Proof.
  intros sdiff n b a [Hty [Hdf [Hnb [Hna [Hc1 [Hc2 Hco]]]]]]. unfold diff_common_column.
  set (cm := sdiff (column_string My b) (column_string My a)). rewrite at_col_app.
  set (drop := is_some (c_default b) && negb (is_some (c_default a))).
  assert (Hdrop : forall X, set_dflt None X = set_dflt None (sem_col My a) ->
    (drop = false -> X = sem_col My a) ->
    at_key (KCol (qname n) (id_name (c_name a))) (col_ops My (if drop then [AlterTable cm n (DropDefault (c_name a))] else []))
      (Some (VCol X)) = Some (Some (VCol (sem_col My a)))).
  { intros X HX HX'. destruct drop eqn:Edr.
    - rewrite (at_col_action _ _ _ _ _ (set_dflt None)) by reflexivity. do 3 f_equal. rewrite HX.
      unfold drop in Edr. apply andb_true_iff in Edr. destruct Edr as [_ Edr].
      destruct (c_default a) eqn:Ea; [discriminate|]. unfold set_dflt, sem_col; cbn. rewrite Ea. reflexivity.
    - rewrite HX' by reflexivity. reflexivity. }
  match goal with |- context [if ?e then [AlterTable cm n (ModifyColumn _)] else []] => destruct e eqn:Em end.
  - assert (Es : sem_col My (modified_column a) = sem_col My a).
    { unfold sem_col, modified_column; cbn. rewrite Hc2. reflexivity. }
    unfold col_ops at 1. cbn [flat_map]. rewrite app_nil_r. cbn [stmt_ops action_ops at_key eff key_eqb].
    cbn [modified_column c_name]. rewrite !String.eqb_refl. cbn [andb present option_map].
    rewrite Es. apply Hdrop; reflexivity.
  - cbn [col_ops flat_map at_key]. norm_cmp.
    match goal with H : datatype_diff _ = _ |- _ => destruct (Hty H) as [T1 T2] end.
    match goal with H : oident_diff (c_collate _) = _ |- _ => specialize (Hco H) end.
    apply Hdrop.
    + apply scol_eq; cbn; try congruence; try reflexivity.
    + intro Edr. rewrite Edr in *. cbn [negb andb] in *. norm_cmp.
      match goal with H : default_diff _ _ = _ |- _ => specialize (Hdf H) end.
      apply scol_eq; cbn; try congruence; try reflexivity.
Qed.

Lemma common_sp : forall sdiff n b a, col_agree Sp b a ->
  at_key (KCol (qname n) (id_name (c_name a))) (col_ops Sp (diff_common_column Sp sdiff n b a)) (Some (VCol (sem_col Sp b)))
  = Some (Some (VCol (sem_col Sp a))).
Proof.
  intros sdiff n b a [Hty [Hdf [Hnb [Hna Ho]]]]. unfold diff_common_column.
  set (cm := sdiff (column_string Sp b) (column_string Sp a)). rewrite at_col_app.
  assert (E1 : at_key (KCol (qname n) (id_name (c_name a)))
      (col_ops Sp (if neqs (datatype_diff (c_type b)) (datatype_diff (c_type a)) || negb (Bool.eqb (c_notnull b) (c_notnull a))
       then [AlterTable cm n (AlterDataType (c_name a) (c_type a) (c_notnull a))] else [])) (Some (VCol (sem_col Sp b)))
      = Some (Some (VCol (set_nn (c_notnull a) (set_type (c_type a) (sem_col Sp b)))))).
  { destruct (neqs _ _ || negb _) eqn:E.
    - rewrite (at_col_action _ _ _ _ _ (fun x => set_nn (c_notnull a) (set_type (c_type a) x))) by reflexivity. reflexivity.
    - norm_cmp. destruct (Hty H) as [H1 H2]. cbn. unfold set_type, set_nn, sem_col; cbn.
      rewrite H1, H2, H0. reflexivity. }
  rewrite E1, at_col_app, at_default by exact Hna. rewrite at_options. do 3 f_equal.
  match goal with |- (if _ then set_opts None ?x else _) = _ => set (Y := x) end.
  assert (HY : sc_default Y = sem_default (c_default a)).
  { apply default_result; [exact Hdf|]. reflexivity. }
  assert (HYr : sc_type Y = dt_type (c_type a) /\ sc_args Y = etoks (dt_expr (c_type a)) /\ sc_notnull Y = c_notnull a /\
      sc_hidden Y = false /\ sc_as Y = None /\ sc_charset Y = None /\
      sc_collate Y = None /\ sc_autoinc Y = false /\ sc_onaction Y = "" /\ sc_comment Y = "" /\
      sc_options Y = option_map toks (c_options b)).
  { subst Y. destruct (is_some (c_default b) && negb (is_some (c_default a))); [cbn; tauto|].
    destruct (is_some (c_default a) && neqs (default_diff Sp (c_default b)) (default_diff Sp (c_default a))); cbn; tauto. }
  clearbody Y. destruct HYr as [A1 [A2 [A3 [A4 [A5 [A6 [A7 [A8 [A9 [A10 A11]]]]]]]]]].
  destruct (c_options a) as [oa|] eqn:Ea.
  - replace (is_some (c_options b) && negb (is_some (Some oa))) with false by (destruct (c_options b); reflexivity).
    clear E1. cbn [is_some andb]. destruct (neqs _ _) eqn:E.
    + apply scol_eq; cbn; rewrite ?Ea; try assumption; reflexivity.
    + apply neqs_false in E. specialize (Ho eq_refl E). apply scol_eq; cbn; rewrite ?Ea; try assumption. rewrite A11. exact Ho.
  - cbn [is_some negb andb]. rewrite andb_true_r. destruct (c_options b) as [ob|] eqn:Eb; cbn [is_some].
    + apply scol_eq; cbn; rewrite ?Ea; try assumption; reflexivity.
    + apply scol_eq; cbn; rewrite ?Ea; try assumption; reflexivity.
Qed.

Lemma common_column_sound : forall d sdiff n b a c,
  col_agree d b a -> id_name (c_name b) = c -> id_name (c_name a) = c ->
  at_key (KCol (qname n) c) (col_ops d (diff_common_column d sdiff n b a)) (Some (VCol (sem_col d b)))
  = Some (Some (VCol (sem_col d a))).
Proof.
  intros d sdiff n b a c H _ Ha. subst c. destruct d.
  - apply common_pgcrdb; [exact I|exact H].
  - apply common_pgcrdb; [exact I|exact H].
  - apply common_my; exact H.
  - apply common_sp; exact H.
Qed.

(** * Table entries by key *)

Definition is_idx (c : constraint) : bool := match c with CIndex _ _ _ _ _ => true | _ => false end.

(** Key and description of a named constraint. *)
Definition ckey (d : dialect) (t : objname) (c : constraint) : key :=
  if is_idx c then intable_key d t (con_ident c) else KCon (qname t) (con_key c).
Definition cval (d : dialect) (t : objname) (c : constraint) : value :=
  match c with
  | CIndex _ u pre cols post => VIdx (sem_intable d t u pre cols post)
  | _ => match sem_con d c with Some s => VCon s | None => VTab end
  end.

Lemma con_entries_named : forall d t c, con_named c = true -> con_entries d t c = [(ckey d t c, cval d t c)].
Proof. intros d t c H. destruct c; destruct name; cbn in H; try discriminate; reflexivity. Qed.

Lemma assoc_map : forall A (f : A -> key * value) l k,
  assoc_key k (map f l) = option_map (fun x => snd (f x)) (find (fun x => key_eqb (fst (f x)) k) l).
Proof.
  intros A f l k. induction l as [|x r IH]; [reflexivity|]. cbn [map assoc_key find].
  destruct (f x) as [k' v] eqn:E. cbn [fst]. destruct (key_eqb k' k); [cbn [option_map]; rewrite E; reflexivity|exact IH].
Qed.

Lemma con_entries_map : forall d t cs, forallb con_named cs = true ->
  flat_map (con_entries d t) cs = map (fun c => (ckey d t c, cval d t c)) cs.
Proof.
  intros d t cs H. induction cs as [|c r IH]; [reflexivity|]. cbn [forallb] in H. apply andb_true_iff in H. destruct H as [H1 H2].
  cbn [flat_map map]. rewrite con_entries_named by exact H1. rewrite IH by exact H2. reflexivity.
Qed.

Definition conkey (k : key) : Prop := match k with KCon _ _ | KIdx _ => True | _ => False end.

Lemma assoc_none_if : forall l k, (forall e, In e l -> key_eqb (fst e) k = false) -> assoc_key k l = None.
Proof.
  induction l as [|[k' v] r IH]; intros k H; [reflexivity|]. cbn [assoc_key].
  pose proof (H (k', v) (or_introl eq_refl)) as E. cbn [fst] in E. rewrite E. apply IH. intros e He. apply H. right; exact He.
Qed.

Lemma ckey_conkey : forall d t c, conkey (ckey d t c).
Proof. intros d t c. unfold ckey. destruct (is_idx c); exact I. Qed.

Lemma opt_entries_key : forall d t o e, In e (opt_entries d t o) -> fst e = KOpt (qname t) (o_name o).
Proof.
  intros d t o e H. unfold opt_entries in H. destruct d; try destruct (counter_option o); cbn in H;
    try contradiction; destruct H as [H|[]]; subst; reflexivity.
Qed.

Lemma assoc_table_con : forall d t k, all_con_named t = true -> conkey k ->
  assoc_key k (table_entries d t) =
  option_map (cval d (ct_name t)) (find (fun c => key_eqb (ckey d (ct_name t) c) k) (ct_constraints t)).
Proof.
  intros d t k Hn Hk. unfold table_entries. cbn [assoc_key].
  replace (key_eqb (KTab (qname (ct_name t))) k) with false by (destruct k; try contradiction Hk; reflexivity).
  rewrite !assoc_app. rewrite (assoc_none_if (map _ _)).
  2:{ intros e He. apply in_map_iff in He. destruct He as [c [E _]]. subst. destruct k; try contradiction Hk; reflexivity. }
  rewrite con_entries_map by exact Hn. rewrite assoc_map. cbn [fst snd].
  destruct (find _ (ct_constraints t)) as [c|] eqn:E; [reflexivity|]. cbn [option_map].
  rewrite assoc_none_if.
  2:{ intros e He. apply in_flat_map in He. destruct He as [o [_ He]]. rewrite (opt_entries_key _ _ _ _ He).
      destruct k; try contradiction Hk; reflexivity. }
  destruct (ct_rowdel t); [|reflexivity]. cbn [row_entries assoc_key].
  destruct k; try contradiction Hk; reflexivity.
Qed.

Lemma find_ext : forall A (f g : A -> bool) l, (forall x, In x l -> f x = g x) -> find f l = find g l.
Proof.
  intros A f g l H. induction l as [|x r IH]; [reflexivity|]. cbn [find]. rewrite (H x (or_introl eq_refl)).
  destruct (g x); [reflexivity|]. apply IH. intros y Hy. apply H. right; exact Hy.
Qed.

Lemma assoc_table_col : forall d t c, all_con_named t = true ->
  assoc_key (KCol (qname (ct_name t)) c) (table_entries d t) =
  option_map (fun x => VCol (sem_col d x)) (find_column c (ct_columns t)).
Proof.
  intros d t c Hn. unfold table_entries. cbn [assoc_key key_eqb]. rewrite assoc_app, assoc_map.
  unfold col_entry at 1 2. cbn [fst snd]. unfold find_column.
  rewrite (find_ext _ _ (fun x => eqs (id_name (c_name x)) c)).
  2:{ intros x _. cbn [key_eqb]. rewrite String.eqb_refl. reflexivity. }
  destruct (find _ (ct_columns t)); [reflexivity|]. cbn [option_map].
  rewrite con_entries_map by exact Hn. apply assoc_none_if. intros e He.
  apply in_app_or in He. destruct He as [He|He]; [|apply in_app_or in He; destruct He as [He|He]].
  - apply in_map_iff in He. destruct He as [x [E _]]. subst e. cbn [fst]. unfold ckey. destruct (is_idx x); reflexivity.
  - apply in_flat_map in He. destruct He as [o [_ He]]. rewrite (opt_entries_key _ _ _ _ He). reflexivity.
  - destruct (ct_rowdel t); cbn in He; [|contradiction]. destruct He as [He|[]]. subst. reflexivity.
Qed.

Lemma assoc_table_opt : forall d t o, all_con_named t = true ->
  assoc_key (KOpt (qname (ct_name t)) o) (table_entries d t) =
  option_map (fun x => VOpt (etoks (o_value x)))
    (find (fun x => eqs (o_name x) o && negb (match d with My => counter_option x | _ => false end)) (ct_options t)).
Proof.
  intros d t o Hn. unfold table_entries. cbn [assoc_key key_eqb]. rewrite !assoc_app.
  rewrite (assoc_none_if (map _ _)) by (intros e He; apply in_map_iff in He; destruct He as [c [E _]]; subst; reflexivity).
  rewrite con_entries_map by exact Hn.
  rewrite (assoc_none_if (map _ _)).
  2:{ intros e He. apply in_map_iff in He. destruct He as [x [E _]]. subst e. cbn [fst]. unfold ckey. destruct (is_idx x); reflexivity. }
  assert (E : assoc_key (KOpt (qname (ct_name t)) o) (flat_map (opt_entries d (ct_name t)) (ct_options t)) =
    option_map (fun x => VOpt (etoks (o_value x)))
    (find (fun x => eqs (o_name x) o && negb (match d with My => counter_option x | _ => false end)) (ct_options t))).
  { induction (ct_options t) as [|x r IH]; [reflexivity|]. cbn [flat_map find]. rewrite assoc_app.
    unfold opt_entries at 1. destruct d; try destruct (counter_option x) eqn:Ec; cbn [assoc_key key_eqb negb andb];
    rewrite ?String.eqb_refl; cbn [andb]; unfold eqs; try destruct (String.eqb (o_name x) o); cbn [andb option_map]; try reflexivity; exact IH. }
  rewrite E. destruct (option_map _ (find _ _)); [reflexivity|]. destruct (ct_rowdel t); reflexivity.
Qed.

Lemma assoc_table_row : forall d t, all_con_named t = true ->
  assoc_key (KRow (qname (ct_name t))) (table_entries d t) =
  option_map (fun x => VRow (etoks (o_value x))) (ct_rowdel t).
Proof.
  intros d t Hn. unfold table_entries. cbn [assoc_key key_eqb]. rewrite !assoc_app.
  rewrite (assoc_none_if (map _ _)) by (intros e He; apply in_map_iff in He; destruct He as [c [E _]]; subst; reflexivity).
  rewrite con_entries_map by exact Hn.
  rewrite (assoc_none_if (map _ _)).
  2:{ intros e He. apply in_map_iff in He. destruct He as [x [E _]]. subst e. cbn [fst]. unfold ckey. destruct (is_idx x); reflexivity. }
  rewrite assoc_none_if.
  2:{ intros e He. apply in_flat_map in He. destruct He as [o [_ He]]. rewrite (opt_entries_key _ _ _ _ He). reflexivity. }
  destruct (ct_rowdel t); [|reflexivity]. cbn [row_entries assoc_key key_eqb option_map]. rewrite String.eqb_refl. reflexivity.
Qed.

(** Keys of other tables are not among the entries. *)
Lemma assoc_table_other : forall d t k u, owner k = Some u -> u <> qname (ct_name t) -> assoc_key k (table_entries d t) = None.
Proof.
  intros d t k u Ho Hu. apply assoc_None. intro Hin. change (table_entries d t) with ((KTab (qname (ct_name t)), VTab) :: table_adds d t) in Hin.
  cbn [map fst] in Hin. destruct Hin as [Hin|Hin].
  - subst. cbn in Ho. inversion Ho. congruence.
  - apply table_adds_owner in Hin. destruct Hin as [[Hin _]|Hin]; rewrite Ho in Hin; [inversion Hin; congruence|discriminate].
Qed.
