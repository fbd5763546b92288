(** Quotation marks and order do not create differences. *)
From Coq Require Import Lia Sorting.Permutation.
From Verif Require Import GoStr Token Ast Db DbFacts Diff Tidy TidyFacts DiffSame Variants.

Lemma assoc_perm : forall x y, NoDup (map fst x) -> Permutation x y -> forall k, assoc_key k x = assoc_key k y.
Proof.
  intros x y N P k.
  assert (N' : NoDup (map fst y)) by (apply (Permutation_NoDup (l := map fst x)); [apply Permutation_map; exact P|exact N]).
  destruct (assoc_key k x) as [v|] eqn:E.
  - symmetry. apply In_assoc; [exact N'|]. apply (Permutation_in _ P). apply assoc_In. exact E.
  - symmetry. apply assoc_None in E. apply assoc_None. intro Hin. apply E.
    apply (Permutation_in (l := map fst y)); [apply Permutation_map, Permutation_sym; exact P|exact Hin].
Qed.

(** An index is declared by one statement. *)
Lemma inner_key : forall d l x, In x (inner_indexes d l) ->
  exists t, In (CreateTable t) l /\ In (KIdx x) (map fst (table_entries d t)).
Proof.
  intros d l x H. unfold inner_indexes in H. apply in_flat_map in H. destruct H as [s [Hs H]].
  destruct s as [t|i| | |]; try contradiction. exists t. split; [exact Hs|].
  apply in_flat_map in H. destruct H as [c [Hc H]]. unfold inner_index in H.
  unfold table_entries. cbn [map]. right. rewrite !map_app. apply in_or_app. right. apply in_or_app. left.
  destruct c; try contradiction. destruct name as [n|]; [|contradiction]. destruct H as [H|[]].
  apply in_map_iff. exists (intable_key d (ct_name t) n, VIdx (sem_intable d (ct_name t) unique pre cols post)).
  split; [cbn [fst]; unfold intable_key; rewrite H; reflexivity|]. apply in_flat_map. exists (CIndex (Some n) unique pre cols post).
  split; [exact Hc|]. left. reflexivity.
Qed.
Lemma outer_key : forall l x, In x (outer_indexes l) -> exists i, In (CreateIndex i) l /\ qname (cx_name i) = x.
Proof.
  intros l x H. unfold outer_indexes in H. apply in_flat_map in H. destruct H as [s [Hs H]].
  destruct s as [t|i| | |]; try contradiction. destruct H as [H|[]]. eauto.
Qed.
Lemma nodup_sep : forall A B (f : A -> list B) l x y k, NoDup (flat_map f l) -> In x l -> In y l -> In k (f x) -> In k (f y) -> x = y.
Proof.
  intros A B f l x y k. induction l as [|z r IH]; intros N Hx Hy Kx Ky; [destruct Hx|].
  cbn [flat_map] in N.
  assert (D : forall w, In w r -> In k (f w) -> ~ In k (f z)).
  { intros w Hw Kw Kz. clear - N Hw Kw Kz. induction (f z) as [|q fz IHz]; [destruct Kz|]. cbn [app] in N. inversion N; subst.
    destruct Kz as [Kz|Kz]; [|apply IHz; assumption]. subst q. apply H1. apply in_or_app. right. apply in_flat_map. eauto. }
  assert (N' : NoDup (flat_map f r)).
  { clear - N. induction (f z) as [|q fz IHz]; [exact N|]. cbn [app] in N. inversion N; subst. apply IHz. assumption. }
  destruct Hx as [Hx|Hx]; destruct Hy as [Hy|Hy].
  - congruence.
  - subst. exfalso. apply (D y Hy Ky Kx).
  - subst. exfalso. apply (D x Hx Kx Ky).
  - apply IH; assumption.
Qed.
Lemma map_flat_map : forall A B C (f : A -> list B) (g : B -> C) l, map g (flat_map f l) = flat_map (fun x => map g (f x)) l.
Proof. intros A B C f g l. induction l as [|x r IH]; [reflexivity|]. cbn [flat_map]. rewrite map_app, IH. reflexivity. Qed.

Lemma inner_outer : forall d l x, NoDup (map fst (entries d l)) -> In x (inner_indexes d l) -> In x (outer_indexes l) -> False.
Proof.
  intros d l x N Hi Ho. destruct (inner_key d l x Hi) as [t [Ht Kt]]. destruct (outer_key l x Ho) as [i [Hx Ki]].
  unfold entries in N. rewrite map_flat_map in N.
  assert (E : CreateTable t = CreateIndex i).
  { apply (nodup_sep _ _ _ l _ _ (KIdx x) N Ht Hx); [exact Kt|]. cbn. left. rewrite Ki. reflexivity. }
  discriminate E.
Qed.
Lemma disjoint_intro : forall a b, (forall x, In x a -> In x b -> False) -> disjoint a b = true.
Proof.
  intros a b H. unfold disjoint. apply forallb_forall. intros x Hx. destruct (memb x b) eqn:E; [|reflexivity].
  apply memb_In in E. exfalso. apply (H x); assumption.
Qed.
Lemma nodupb_intro : forall l, NoDup l -> nodupb l = true.
Proof.
  induction l as [|x r IH]; intro N; [reflexivity|]. inversion N; subst. cbn [nodupb]. rewrite (IH H2), andb_true_r.
  apply memb_false in H1. rewrite H1. reflexivity.
Qed.
Lemma eq_strings_refl : forall l, eq_strings l l = true.
Proof. induction l as [|x r IH]; [reflexivity|]. cbn. rewrite String.eqb_refl, IH. reflexivity. Qed.

(** Two schemas with the same objects. *)
Lemma variant_no_difference : forall d srt sdiff l l' m,
  describes d l m -> tidy d l = true -> tidy d l' = true ->
  forallb is_create l' = true -> (forall t, In (CreateTable t) l' -> all_con_named t = true) ->
  Permutation (entries d l) (entries d l') ->
  incl (inner_indexes d l') (inner_indexes d l) -> incl (outer_indexes l') (outer_indexes l) ->
  (d = Sp -> same_option_order l l' = true) ->
  diff d srt sdiff (Some l) (Some l') = DNoDiff.
Proof.
  intros d srt sdiff l l' m D T T' C' K' P Ii Io So. destruct (describes_entries d l m D) as [N [_ K]]. destruct D as [C _].
  apply same_nodiff; try assumption.
  - apply (Permutation_NoDup (l := map fst (entries d l))); [apply Permutation_map; exact P|exact N].
  - unfold same_style. apply andb_true_iff. split; apply disjoint_intro; intros x H1 H2.
    + apply (inner_outer d l x N); [exact H1|apply Io; exact H2].
    + apply (inner_outer d l x N); [apply Ii; exact H2|exact H1].
  - apply assoc_perm; assumption.
Qed.

(** * Quotation marks *)
Lemma bare_name_id : forall i, id_name (bare i) = id_name i.
Proof. reflexivity. Qed.
Lemma bare_tok : forall i, tok_of (bare i) = tok_of i.
Proof.
  intro i. unfold tok_of, bare. cbn [id_name]. f_equal. unfold literal. cbn [id_raw].
  destruct (has_prefix_byte ch_quote (id_raw i)); reflexivity.
Qed.
Lemma bare_toks : forall l, toks (map bare l) = toks l.
Proof. intro l. unfold toks. rewrite map_map. apply map_ext. exact bare_tok. Qed.
Lemma bare_etoks : forall e, etoks (bare_expr e) = etoks e.
Proof. intros [l|]; [apply bare_toks|reflexivity]. Qed.
Lemma bare_qname : forall n, qname (bare_name n) = qname n.
Proof. intros [[s|] n]; reflexivity. Qed.
Lemma bare_keycols : forall d l, sem_keycols d (map bare_ci l) = sem_keycols d l.
Proof. intros d l. unfold sem_keycols. rewrite map_map. apply map_ext. intros [i o]. reflexivity. Qed.
Lemma bare_sem_col : forall d c, sem_col d (bare_col c) = sem_col d c.
Proof.
  intros d c. unfold sem_col, bare_col. cbn [c_type c_default c_notnull c_notvisible c_as c_charset c_collate c_autoinc c_onaction c_comment c_options bare_type dt_type dt_expr].
  rewrite bare_etoks. f_equal.
  - destruct (c_default c) as [[l|]|]; cbn; [|reflexivity|reflexivity]. rewrite bare_toks. reflexivity.
  - destruct d; try reflexivity. destruct (c_as c) as [a|]; cbn; [|reflexivity]. rewrite bare_etoks. reflexivity.
  - destruct d; try reflexivity. destruct (c_charset c); reflexivity.
  - destruct d; try reflexivity. destruct (c_collate c); reflexivity.
  - destruct d; try reflexivity. destruct (c_options c) as [l|]; cbn; [|reflexivity]. rewrite bare_toks. reflexivity.
Qed.
Lemma bare_con_entries : forall d n c, con_entries d (bare_name n) (bare_con c) = con_entries d n c.
Proof.
  intros d n c. unfold con_entries. destruct c; destruct name as [x|]; cbn [bare_con option_map con_name]; try reflexivity;
    unfold intable_key, sem_intable; cbn [sem_con bare_name on_schema on_name]; rewrite ?bare_keycols, ?bare_qname, ?bare_etoks; try reflexivity.
  destruct n as [[s|] n]; reflexivity.
Qed.
Lemma bare_opt_entries : forall d n o, opt_entries d (bare_name n) (bare_opt o) = opt_entries d n o.
Proof. intros d n o. unfold opt_entries. rewrite bare_qname. cbn [bare_opt o_name o_value]. rewrite bare_etoks. reflexivity. Qed.
Lemma bare_entries_stmt : forall d s, stmt_entries d (bare_stmt s) = stmt_entries d s.
Proof.
  intros d s. destruct s as [t|i| | |]; try reflexivity; cbn [bare_stmt stmt_entries].
  - unfold table_entries. cbn [ct_name ct_columns ct_constraints ct_options ct_rowdel]. rewrite bare_qname. f_equal. f_equal.
    { rewrite map_map. apply map_ext. intro c. unfold col_entry. rewrite bare_qname, bare_sem_col. reflexivity. }
    f_equal.
    { rewrite flat_map_concat_map, map_map, <- flat_map_concat_map. apply flat_map_ext. intro c. apply bare_con_entries. }
    f_equal.
    { rewrite flat_map_concat_map, map_map, <- flat_map_concat_map. apply flat_map_ext. intro c. apply bare_opt_entries. }
    unfold row_entries. destruct (ct_rowdel t); cbn; [|reflexivity]. rewrite bare_qname, bare_etoks. reflexivity.
  - cbn [cx_name cx_table]. rewrite bare_qname. unfold sem_index. cbn [cx_table cx_unique cx_columns cx_using cx_pre cx_post].
    rewrite bare_qname, bare_keycols, bare_toks. reflexivity.
Qed.
Lemma bare_entries : forall d l, entries d (map bare_stmt l) = entries d l.
Proof.
  intros d l. unfold entries. rewrite flat_map_concat_map, map_map, <- flat_map_concat_map. apply flat_map_ext. intro s. apply bare_entries_stmt.
Qed.
Lemma forallb_map_ext : forall A B (f : A -> bool) (g : B -> bool) (h : A -> B) l, (forall x, g (h x) = f x) -> forallb g (map h l) = forallb f l.
Proof. intros A B f g h l H. induction l as [|x r IH]; [reflexivity|]. cbn [map forallb]. rewrite H, IH. reflexivity. Qed.
Lemma bare_create : forall l, forallb is_create (map bare_stmt l) = forallb is_create l.
Proof. intro l. apply forallb_map_ext. intros []; reflexivity. Qed.
Lemma bare_named : forall t, all_con_named (mkCT (ct_comment t) (ct_ifnotexists t) (bare_name (ct_name t)) (map bare_col (ct_columns t))
      (map bare_con (ct_constraints t)) (map bare_opt (ct_options t)) (option_map bare_opt (ct_rowdel t))) = all_con_named t.
Proof.
  intro t. unfold all_con_named. cbn [ct_constraints]. apply forallb_map_ext. intro c. unfold con_named.
  destruct c; destruct name; reflexivity.
Qed.
Lemma bare_tidy_name : forall n, tidy_name (bare_name n) = tidy_name n.
Proof. intros [[s|] n]; reflexivity. Qed.
Lemma bare_con_label : forall c, con_label (bare_con c) = con_label c.
Proof. intro c. destruct c; destruct name; reflexivity. Qed.
Lemma bare_tidy : forall d l, tidy d (map bare_stmt l) = tidy d l.
Proof.
  intros d l. unfold tidy. apply forallb_map_ext. intro s. destruct s as [t|i| | |]; try reflexivity; cbn [bare_stmt tidy_stmt].
  - unfold tidy_table. cbn [ct_name ct_columns ct_constraints ct_options ct_rowdel]. rewrite bare_tidy_name, map_map.
    f_equal; [f_equal; [f_equal; [f_equal; [f_equal|]|]|]|].
    + apply forallb_map_ext. intro c. unfold tidy_col, bare_col. cbn [c_default]. destruct (c_default c) as [[|]|]; reflexivity.
    + apply forallb_map_ext. intro c. unfold tidy_con. destruct c; destruct name; reflexivity.
    + f_equal. apply map_ext. exact bare_con_label.
    + apply forallb_map_ext. intro o. unfold tidy_opt, bare_opt. cbn [o_value]. destruct (o_value o); destruct d; reflexivity.
    + destruct (ct_rowdel t) as [o|]; [|reflexivity]. cbn [option_map tidy_row]. destruct d; try reflexivity.
      cbn [bare_opt o_name o_value]. destruct (o_value o); reflexivity.
  - cbn [cx_name cx_table]. rewrite !bare_tidy_name. reflexivity.
Qed.
Lemma bare_inner : forall d l, inner_indexes d (map bare_stmt l) = inner_indexes d l.
Proof.
  intros d l. unfold inner_indexes. rewrite flat_map_concat_map, map_map, <- flat_map_concat_map. apply flat_map_ext.
  intro s. destruct s as [t|i| | |]; try reflexivity. cbn [bare_stmt ct_constraints ct_name].
  rewrite flat_map_concat_map, map_map, <- flat_map_concat_map. apply flat_map_ext. intro c.
  destruct c; destruct name; cbn [bare_con inner_index option_map]; try reflexivity.
  destruct d; try reflexivity. unfold qname. cbn. destruct (on_schema (ct_name t)); reflexivity.
Qed.
Lemma bare_outer : forall l, outer_indexes (map bare_stmt l) = outer_indexes l.
Proof.
  intros l. unfold outer_indexes. rewrite flat_map_concat_map, map_map, <- flat_map_concat_map. apply flat_map_ext.
  intro s. destruct s as [t|i| | |]; try reflexivity. cbn [bare_stmt cx_name]. rewrite bare_qname. reflexivity.
Qed.
Lemma bare_order_l : forall b a, same_option_order (map bare_stmt b) a = same_option_order b a.
Proof.
  intros b a. unfold same_option_order. apply forallb_map_ext. intro s. destruct s as [t|i| | |]; try reflexivity.
  cbn [bare_stmt ct_name ct_options]. rewrite bare_qname, map_map. reflexivity.
Qed.
Lemma bare_order_r : forall b a, same_option_order b (map bare_stmt a) = same_option_order b a.
Proof.
  intros b a. unfold same_option_order.
  assert (E : forall f g : stmt -> bool, (forall s, f s = g s) -> forall l, forallb f l = forallb g l).
  { intros f g H. induction l as [|x r IH]; [reflexivity|]. cbn [forallb]. rewrite H, IH. reflexivity. }
  apply E. intro s. destruct s as [tb|i| | |]; try reflexivity. apply forallb_map_ext. intro s'. destruct s' as [ta|i| | |]; try reflexivity.
  cbn [bare_stmt ct_name ct_options]. rewrite bare_qname, map_map. reflexivity.
Qed.

(** The tables of a described schema have different names. *)
Lemma nodup_tables : forall d l t t', NoDup (map fst (entries d l)) -> In (CreateTable t) l -> In (CreateTable t') l ->
  qname (ct_name t) = qname (ct_name t') -> t = t'.
Proof.
  intros d l t t' N H H' E. unfold entries in N. rewrite map_flat_map in N.
  assert (X : CreateTable t = CreateTable t').
  { apply (nodup_sep _ _ _ l _ _ (KTab (qname (ct_name t))) N H H'); [left; reflexivity|left; rewrite E; reflexivity]. }
  inversion X. reflexivity.
Qed.
Lemma same_order_self : forall d l, NoDup (map fst (entries d l)) -> same_option_order l l = true.
Proof.
  intros d l N. unfold same_option_order. apply forallb_forall. intros s Hs. destruct s as [t|i| | |]; try reflexivity.
  apply forallb_forall. intros s' Hs'. destruct s' as [t'|i| | |]; try reflexivity.
  destruct (String.eqb (qname (ct_name t)) (qname (ct_name t'))) eqn:E; [|reflexivity]. apply String.eqb_eq in E.
  rewrite (nodup_tables d l t t' N Hs Hs' E). apply eq_strings_refl.
Qed.

Theorem quotes_no_difference : forall d srt sdiff l l' m,
  describes d l m -> tidy d l = true -> same_but_quotes l l' ->
  diff d srt sdiff (Some l) (Some l') = DNoDiff.
Proof.
  intros d srt sdiff l l' m D T Q. unfold same_but_quotes in Q. destruct (describes_entries d l m D) as [N [_ K]].
  apply (variant_no_difference d srt sdiff l l' m D T).
  - rewrite <- (bare_tidy d l'), <- Q, bare_tidy. exact T.
  - rewrite <- (bare_create l'), <- Q, bare_create. exact (proj1 D).
  - intros t Ht. rewrite <- bare_named. apply (in_map bare_stmt) in Ht. cbn [bare_stmt] in Ht. rewrite <- Q in Ht.
    apply in_map_iff in Ht. destruct Ht as [s [Es Hs]]. destruct s as [t0|i| | |]; try discriminate Es.
    apply (f_equal (fun s => match s with CreateTable x => ct_constraints x | _ => [] end)) in Es. cbn in Es.
    specialize (K t0 Hs). rewrite <- bare_named in K. unfold all_con_named in K |- *. cbn [ct_constraints] in K |- *.
    rewrite <- Es. exact K.
  - rewrite <- (bare_entries d l'), <- Q, bare_entries. apply Permutation_refl.
  - rewrite <- (bare_inner d l'), <- Q, bare_inner. apply incl_refl.
  - rewrite <- (bare_outer l'), <- Q, bare_outer. apply incl_refl.
  - intros _. rewrite <- bare_order_r, <- Q, bare_order_r. apply (same_order_self d). exact N.
Qed.

(** * Order *)
Lemma forallb_perm : forall A (f : A -> bool) l l', Permutation l l' -> forallb f l = true -> forallb f l' = true.
Proof.
  intros A f l l' P H. rewrite forallb_forall in *. intros x Hx. apply H. apply (Permutation_in _ (Permutation_sym P)). exact Hx.
Qed.
Lemma nodupb_perm : forall l l', Permutation l l' -> nodupb l = true -> nodupb l' = true.
Proof. intros l l' P H. apply nodupb_intro. apply (Permutation_NoDup P). apply nodupb_NoDup. exact H. Qed.

Section Stmt.
Variable d : dialect.
Lemma reordered_options : forall t t', reordered_table d t t' -> Permutation (ct_options t) (ct_options t').
Proof. intros t t' R. destruct R as [_ [_ [_ [R _]]]]. destruct d; try exact R; rewrite R; apply Permutation_refl. Qed.
Lemma reordered_entries : forall s s', reordered_stmt d s s' -> Permutation (stmt_entries d s) (stmt_entries d s').
Proof.
  intros s s' R. destruct s as [t|i| | |], s' as [t'|i'| | |]; try contradiction; cbn [reordered_stmt] in R.
  - pose proof (reordered_options t t' R) as Po. destruct R as [Rn [Rc [Rk [_ Rr]]]]. cbn [stmt_entries]. unfold table_entries. rewrite Rn, Rr.
    apply perm_skip. apply Permutation_app; [apply Permutation_map; exact Rc|].
    apply Permutation_app; [apply Permutation_flat_map; exact Rk|].
    apply Permutation_app; [apply Permutation_flat_map; exact Po|]. apply Permutation_refl.
  - subst. apply Permutation_refl.
Qed.
Lemma reordered_tidy : forall s s', reordered_stmt d s s' -> tidy_stmt d s = true -> tidy_stmt d s' = true.
Proof.
  intros s s' R T. destruct s as [t|i| | |], s' as [t'|i'| | |]; try contradiction; cbn [reordered_stmt] in R; [|subst; exact T].
  pose proof (reordered_options t t' R) as Po. destruct R as [Rn [Rc [Rk [_ Rr]]]]. cbn [tidy_stmt] in *. unfold tidy_table in *.
  rewrite !andb_true_iff in *. destruct T as [[[[[T1 T2] T3] T4] T5] T6]. rewrite <- Rn, <- Rr.
  repeat split; try assumption.
  - apply (forallb_perm _ _ _ _ Rc T2).
  - apply (forallb_perm _ _ _ _ Rk T3).
  - apply (nodupb_perm _ _ (Permutation_map _ Rk) T4).
  - apply (forallb_perm _ _ _ _ Po T5).
Qed.
Lemma Forall2_in_r : forall A B (R : A -> B -> Prop) l l' y, Forall2 R l l' -> In y l' -> exists x, In x l /\ R x y.
Proof.
  intros A B R l l' y F. induction F as [|a b l l' Hab F IH]; intro H; [destruct H|]. destruct H as [H|H].
  - subst. exists a. split; [left; reflexivity|exact Hab].
  - destruct (IH H) as [x [Hx HR]]. exists x. split; [right; exact Hx|exact HR].
Qed.
End Stmt.

Theorem order_no_difference : forall d srt sdiff l l' m,
  describes d l m -> tidy d l = true -> reordered d l l' ->
  diff d srt sdiff (Some l) (Some l') = DNoDiff.
Proof.
  intros d srt sdiff l l' m D T [l0 [P F]]. destruct (describes_entries d l m D) as [N [_ K]].
  assert (S : forall s', In s' l' -> exists s, In s l /\ reordered_stmt d s s').
  { intros s' H. destruct (Forall2_in_r _ _ _ _ _ _ F H) as [s [Hs R]]. exists s. split; [|exact R].
    apply (Permutation_in _ (Permutation_sym P)). exact Hs. }
  apply (variant_no_difference d srt sdiff l l' m D T).
  - unfold tidy in *. apply forallb_forall. intros s' H'. destruct (S s' H') as [s [Hs R]].
    apply (reordered_tidy d s s' R). rewrite forallb_forall in T. apply T. exact Hs.
  - apply forallb_forall. intros s' H'. destruct (S s' H') as [s [Hs R]].
    destruct s as [t|i| | |], s' as [t'|i'| | |]; try contradiction; reflexivity.
  - intros t' H'. destruct (S _ H') as [s [Hs R]]. destruct s as [t|i| | |]; try contradiction. specialize (K t Hs).
    destruct R as [_ [_ [Rk _]]]. unfold all_con_named in *. apply (forallb_perm _ _ _ _ Rk K).
  - unfold entries. transitivity (flat_map (stmt_entries d) l0); [apply Permutation_flat_map; exact P|].
    clear - F. induction F as [|a b l l' Hab F IH]; [apply Permutation_refl|]. cbn [flat_map].
    apply Permutation_app; [apply reordered_entries; exact Hab|exact IH].
  - intros x H. unfold inner_indexes in *. apply in_flat_map in H. destruct H as [s' [H' Hx]]. destruct (S s' H') as [s [Hs R]].
    apply in_flat_map. exists s. split; [exact Hs|].
    destruct s as [t|i| | |], s' as [t'|i'| | |]; try contradiction. cbn [reordered_stmt] in R. destruct R as [Rn [_ [Rk _]]].
    rewrite Rn. apply (Permutation_in (l := flat_map (inner_index d (ct_name t')) (ct_constraints t'))); [|exact Hx].
    apply Permutation_flat_map, Permutation_sym. exact Rk.
  - intros x H. unfold outer_indexes in *. apply in_flat_map in H. destruct H as [s' [H' Hx]]. destruct (S s' H') as [s [Hs R]].
    apply in_flat_map. exists s. split; [exact Hs|].
    destruct s as [t|i| | |], s' as [t'|i'| | |]; try contradiction. cbn [reordered_stmt] in R. subst. exact Hx.
  - intro Ed. unfold same_option_order. apply forallb_forall. intros s Hs. destruct s as [t|i| | |]; try reflexivity.
    apply forallb_forall. intros s' H'. destruct s' as [t'|i| | |]; try reflexivity.
    destruct (String.eqb (qname (ct_name t)) (qname (ct_name t'))) eqn:E; [|reflexivity]. apply String.eqb_eq in E.
    destruct (S _ H') as [s [Hs2 R]]. destruct s as [t2|i| | |]; try contradiction. cbn [reordered_stmt] in R.
    destruct R as [Rn [_ [_ [Ro _]]]]. subst d. rewrite <- Rn in E. rewrite (nodup_tables Sp l t t2 N Hs Hs2 E), Ro. apply eq_strings_refl.
Qed.
