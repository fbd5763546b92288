(** Facts about the shown indexes. *)
From Coq Require Import Permutation Lia.
From Verif Require Import GoStr Show.

Lemma put_perm : forall A (le : A -> A -> bool) x l, Permutation (put le x l) (x :: l).
Proof.
  induction l as [|y l IH]; [constructor; constructor|]. cbn [put]. destruct (le x y); [apply Permutation_refl|].
  eapply Permutation_trans; [apply perm_skip; exact IH|apply perm_swap].
Qed.
Lemma order_by_perm : forall A (le : A -> A -> bool) l, Permutation (order_by le l) l.
Proof.
  induction l as [|x l IH]; [constructor|]. unfold order_by in *. cbn [fold_right]. eapply Permutation_trans; [apply put_perm|]. constructor. exact IH.
Qed.
(** A list already in order is left as it is. *)
Fixpoint in_order {A} (le : A -> A -> bool) (l : list A) : bool :=
  match l with
  | x :: ((y :: _) as r) => le x y && in_order le r
  | _ => true
  end.
Lemma order_by_id : forall A (le : A -> A -> bool) l, in_order le l = true -> order_by le l = l.
Proof.
  induction l as [|x l IH]; intro H; [reflexivity|]. unfold order_by in *. cbn [fold_right]. destruct l as [|y l]; [reflexivity|].
  cbn [in_order] in H. apply andb_true_iff in H. destruct H as [H1 H2]. rewrite IH by exact H2. cbn [put]. rewrite H1. reflexivity.
Qed.

Lemma compare_refl : forall s, String.compare s s = Eq.
Proof. intro s. pose proof (String.compare_antisym s s) as H. destruct (String.compare s s); [reflexivity|discriminate|discriminate]. Qed.
Lemma column_rows_order : forall name type key, in_order le_name_position (column_rows name type key []) = true.
Proof.
  intros name type key. unfold column_rows. cbn [map]. rewrite app_nil_r. generalize 1. induction key as [|c key IH]; intro n; [reflexivity|].
  cbn [List.length seq combine map]. specialize (IH (S n)). destruct key as [|c' key]; [reflexivity|].
  cbn [List.length seq combine map] in *. cbn [in_order]. cbn [in_order] in IH. rewrite IH, andb_true_r.
  unfold le_name_position, le_position. cbn [icr_name icr_position fst]. rewrite compare_refl. apply Nat.leb_le. lia.
Qed.
Lemma column_rows_columns : forall name type key, map icr_column (column_rows name type key []) = map pt_column key.
Proof.
  intros name type key. unfold column_rows. cbn [map]. rewrite app_nil_r. generalize 1. induction key as [|c key IH]; intro n; [reflexivity|].
  cbn [List.length seq combine map icr_column snd]. f_equal. exact (IH (S n)). Qed.
Lemma column_rows_names : forall name type key stored r, In r (column_rows name type key stored) -> icr_name r = name.
Proof.
  intros name type key stored r I. unfold column_rows in I. apply in_app_or in I. destruct I as [I|I]; apply in_map_iff in I; destruct I as (x & <- & _); reflexivity.
Qed.
Lemma filter_all : forall A (f : A -> bool) l, (forall x, In x l -> f x = true) -> filter f l = l.
Proof.
  induction l as [|x l IH]; intro H; [reflexivity|]. cbn [filter]. rewrite (H x (or_introl eq_refl)), IH; [reflexivity|]. intros y I. apply H. right. exact I.
Qed.
Lemma filter_none : forall A (f : A -> bool) l, (forall x, In x l -> f x = false) -> filter f l = [].
Proof.
  induction l as [|x l IH]; intro H; [reflexivity|]. cbn [filter]. rewrite (H x (or_introl eq_refl)). apply IH. intros y I. apply H. right. exact I.
Qed.

Lemma query_indexes_all : forall t, query_indexes t = map (fun i => mkIR (si_name i) "INDEX" (si_unique i)) (st_indexes t).
Proof.
  intro t. unfold query_indexes, indexes_rows. rewrite filter_app. rewrite filter_none.
  - cbn [app]. apply filter_all. intros x I. apply in_map_iff in I. destruct I as (i & <- & _). reflexivity.
  - intros x I. destruct (st_key t); [contradiction|]. destruct I as [<-|[]]. reflexivity.
Qed.
Lemma secondary_columns : forall t, (forall i, In i (st_indexes t) -> si_name i <> "PRIMARY_KEY") ->
  filter (fun r => negb (String.eqb (icr_name r) "PRIMARY_KEY")) (index_columns_rows t)
  = flat_map (fun i => column_rows (si_name i) "INDEX" (si_columns i) (si_stored i)) (st_indexes t).
Proof.
  intros t H. unfold index_columns_rows. rewrite filter_app, filter_none.
  - cbn [app]. apply filter_all. intros r I. apply in_flat_map in I. destruct I as (i & Ii & I). apply column_rows_names in I. rewrite I.
    apply negb_true_iff, String.eqb_neq, H, Ii.
  - intros r I. apply column_rows_names in I. rewrite I. reflexivity.
Qed.
Lemma one_index_columns : forall t i, st_indexes t = [i] -> si_stored i = [] -> si_name i <> "PRIMARY_KEY" ->
  map icr_column (query_index_columns t) = map pt_column (si_columns i).
Proof.
  intros t i E S N. unfold query_index_columns. fold (query_indexes t). rewrite query_indexes_all, secondary_columns, E.
  - cbn [map flat_map join_rows]. unfold join_rows. cbn [flat_map]. rewrite S, !app_nil_r, order_by_id by apply column_rows_order. apply column_rows_columns.
  - rewrite E. intros j [<-|[]]. exact N.
Qed.
(** In general every index is shown with the columns of all, once per index. *)
Lemma all_index_columns : forall t, (forall i, In i (st_indexes t) -> si_name i <> "PRIMARY_KEY") ->
  Permutation (map icr_column (query_index_columns t))
    (List.concat (repeat (flat_map (fun i => map pt_column (si_columns i) ++ si_stored i)%list (st_indexes t)) (List.length (st_indexes t)))).
Proof.
  intros t H. unfold query_index_columns. fold (query_indexes t). rewrite query_indexes_all, secondary_columns by exact H.
  eapply Permutation_trans; [apply Permutation_map, order_by_perm|].
  assert (map icr_column (flat_map (fun i => column_rows (si_name i) "INDEX" (si_columns i) (si_stored i)) (st_indexes t))
    = flat_map (fun i => map pt_column (si_columns i) ++ si_stored i)%list (st_indexes t)) as E.
  { clear H. induction (st_indexes t) as [|i l IH]; [reflexivity|]. cbn [flat_map]. rewrite map_app, IH. f_equal.
    pose proof (column_rows_columns (si_name i) "INDEX" (si_columns i)) as C. unfold column_rows in *. cbn [map] in C. rewrite app_nil_r in C.
    rewrite map_app, C. f_equal. rewrite map_map. cbn [icr_column]. apply map_id. }
  rewrite <- E. generalize (flat_map (fun i => column_rows (si_name i) "INDEX" (si_columns i) (si_stored i)) (st_indexes t)). intro rows.
  clear H E. unfold join_rows. induction (st_indexes t) as [|i l IH]; [constructor|]. cbn [map flat_map List.length repeat List.concat]. rewrite map_app. apply Permutation_app_head. apply IH.
Qed.
