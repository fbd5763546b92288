(** The conditions under which a difference reaches its target are needed (for C72),
    third part: the conditions put together. *)
From Coq Require Import Lia Permutation.
From Verif Require Import GoStr Token Ast Parser Diff Db DbFacts AppendFacts DiffTable DiffPair DiffSound
  Tidy TidyFacts DiffSame Reconcile ReconcileFacts Honest DiffSpec Justified Frame Shape InterruptFacts Needed Needed2 Placed.
Local Open Scope list_scope.

Lemma placed_seen : forall d l seen, placed_behind d seen l = true -> forall l1 i l2, l = l1 ++ CreateIndex i :: l2 ->
  exists t, (In t seen \/ In (CreateTable t) l1) /\ carries d i t = true.
Proof.
  intros d l. induction l as [|s r IH]; intros seen P l1 i l2 E; [destruct l1; discriminate E|].
  destruct l1 as [|x l1]; cbn [app] in E; inversion E; subst; cbn [placed_behind] in P.
  - apply andb_true_iff in P. destruct P as [P _]. apply existsb_exists in P. destruct P as [t [P1 P2]]. exists t. auto.
  - destruct x as [t|j|c ie n|c ie n|c n a].
    + destruct (IH _ P l1 i l2 eq_refl) as [u [[[U|U]|U] V]]; exists u; (split; [|exact V]); [right; left; congruence|left; exact U|right; right; exact U].
    + apply andb_true_iff in P. destruct (IH _ (proj2 P) l1 i l2 eq_refl) as [u [[U|U] V]]; exists u; (split; [|exact V]); [left; exact U|right; right; exact U].
    + destruct (IH _ P l1 i l2 eq_refl) as [u [[U|U] V]]; exists u; (split; [|exact V]); [left; exact U|right; right; exact U].
    + destruct (IH _ P l1 i l2 eq_refl) as [u [[U|U] V]]; exists u; (split; [|exact V]); [left; exact U|right; right; exact U].
    + destruct (IH _ P l1 i l2 eq_refl) as [u [[U|U] V]]; exists u; (split; [|exact V]); [left; exact U|right; right; exact U].
Qed.
Lemma placed_is_behind : forall d l, placed d l = true -> behind d l.
Proof.
  intros d l P l1 i l2 E. destruct (placed_seen d l [] P l1 i l2 E) as [t [[[]|T] C]]. exists t. split; [exact T|].
  unfold carries in C. apply andb_true_iff in C. destruct C as [C1 C2]. split; [apply String.eqb_eq; exact C1|].
  intros k Hk. rewrite forallb_forall in C2. apply memb_In. apply C2. exact Hk.
Qed.

Lemma same_refl : forall A (dec : forall a b : A, {a = b} + {a <> b}) x y, x = y -> same dec x y = true.
Proof. intros A dec x y E. unfold same. destruct (dec x y); [reflexivity|contradiction]. Qed.
Lemma told_intro : forall A (dec : forall a b : A, {a = b} + {a <> b}) tb ta vb va, (tb = ta -> vb = va) -> told dec tb ta vb va = true.
Proof. intros A dec tb ta vb va H. unfold told. destruct (String.eqb tb ta) eqn:E; [|reflexivity]. apply same_refl. apply H. apply String.eqb_eq. exact E. Qed.
Lemma all_pairs_intro : forall A (name : A -> string) f b a, (forall x y, In x b -> In y a -> name x = name y -> f x y = true) -> all_pairs name f b a = true.
Proof.
  intros A name f b a H. unfold all_pairs. apply forallb_forall. intros x Hx. apply forallb_forall. intros y Hy.
  destruct (String.eqb (name x) (name y)) eqn:E; [|reflexivity]. apply H; [exact Hx|exact Hy|apply String.eqb_eq; exact E].
Qed.

Lemma table_keys : forall d t k, declares d k (CreateTable t) = true ->
  owner k = Some (qname (ct_name t)) \/ exists n, k = KIdx n /\ In n (inner_indexes d [CreateTable t]).
Proof.
  intros d t k D. apply declares_In in D. apply in_map_iff in D. destruct D as [[q v] [E D]]. cbn [fst] in E. subst q. cbn [stmt_entries] in D. unfold table_entries in D.
  destruct D as [D|D]; [inversion D; left; reflexivity|]. repeat rewrite in_app_iff in D. destruct D as [D|[D|[D|D]]].
  - apply in_map_iff in D. destruct D as [z [D _]]. inversion D. left. reflexivity.
  - apply in_flat_map in D. destruct D as [c [D1 D2]].
    destruct c as [[m|]|[m|]|[m|]|[m|] u pre cs post|[m|]]; cbn in D2; try (destruct D2 as [D2|[]]); try contradiction; inversion D2; subst; try (left; reflexivity).
    right. eexists. split; [unfold intable_key; reflexivity|]. unfold inner_indexes. cbn [flat_map]. rewrite app_nil_r. apply in_flat_map. eexists. split; [exact D1|].
    cbn [inner_index]. left. destruct d; reflexivity.
  - apply in_flat_map in D. destruct D as [z [_ D]]. unfold opt_entries in D. destruct d; [| |destruct (counter_option z); [destruct D|]|];
      (destruct D as [D|[]]; inversion D; left; reflexivity).
  - unfold row_entries in D. destruct (ct_rowdel t); [|destruct D]. destruct D as [D|[]]. inversion D. left. reflexivity.
Qed.
Lemma inner_of : forall d l t n, In (CreateTable t) l -> In n (inner_indexes d [CreateTable t]) -> In n (inner_indexes d l).
Proof.
  intros d l t n Ht Hn. unfold inner_indexes in *. cbn [flat_map] in Hn. rewrite app_nil_r in Hn. apply in_flat_map. exists (CreateTable t). auto.
Qed.


Section Together.
Variable d : dialect.
Hypothesis Hd : d = Pg \/ d = Crdb.
Variables B A : ddl.
Variables mb ma : db.
Hypothesis DB : describes d B mb.
Hypothesis DA : describes d A ma.
Hypothesis TB : tidy d B = true.
Hypothesis TA : tidy d A = true.
Hypothesis St : same_style d B A = true.
Hypothesis Sy : inner_stay d B A = true.
Hypothesis PA : placed d A = true.

Record facts : Prop := {
  f_type : forall tb ta b a, table_pair B A tb ta -> In b (ct_columns tb) -> In a (ct_columns ta) -> id_name (c_name b) = id_name (c_name a) ->
    datatype_diff (c_type b) = datatype_diff (c_type a) -> type_of b = type_of a;
  f_default : forall tb ta b a, table_pair B A tb ta -> In b (ct_columns tb) -> In a (ct_columns ta) -> id_name (c_name b) = id_name (c_name a) ->
    default_diff d (c_default b) = default_diff d (c_default a) -> sem_default (c_default b) = sem_default (c_default a);
  f_hidden : d = Crdb -> forall tb ta b a, table_pair B A tb ta -> In b (ct_columns tb) -> In a (ct_columns ta) -> id_name (c_name b) = id_name (c_name a) ->
    c_notvisible b = c_notvisible a /\ sem_as (c_as b) = sem_as (c_as a);
  f_sticky : forall tb ta c, table_pair B A tb ta -> In c (ct_columns tb) -> find_column (id_name (c_name c)) (ct_columns ta) = None -> keep_hidden d c = false;
  f_kind : forall tb ta b a, table_pair B A tb ta -> In b (ct_constraints tb) -> In a (ct_constraints ta) -> con_key b = con_key a -> is_idx b = is_idx a;
  f_con : forall tb ta b a, table_pair B A tb ta -> In b (ct_constraints tb) -> In a (ct_constraints ta) -> con_key b = con_key a ->
    constraint_diff d b = constraint_diff d a -> cval d (ct_name tb) b = cval d (ct_name ta) a;
  f_unused : forall tb ta b a c, table_pair B A tb ta -> In b (ct_constraints tb) -> In a (ct_constraints ta) -> con_key b = con_key a ->
    In c (ct_columns tb) -> find_column (id_name (c_name c)) (ct_columns ta) = None ->
    involves (qname (ct_name tb)) (id_name (c_name c)) (ckey d (ct_name tb) b) (cval d (ct_name tb) b) = false;
  f_index : forall ib ia, In (CreateIndex ib) B -> In (CreateIndex ia) A -> qname (cx_name ib) = qname (cx_name ia) ->
    create_index_diff d ib = create_index_diff d ia -> sem_index d ib = sem_index d ia;
  f_table : forall i tb, In (CreateIndex i) B -> In (CreateTable tb) B -> qname (cx_table i) = table_name tb -> find_stmt (CreateTable tb) A <> None;
  f_used : forall i tb ta c, table_pair B A tb ta -> In c (ct_columns tb) -> find_column (id_name (c_name c)) (ct_columns ta) = None ->
    (In (CreateIndex i) B /\ In (qname (cx_name i)) (index_names A)) \/ In (CreateIndex i) A -> qname (cx_table i) = table_name tb ->
    existsb (fun x => String.eqb (fst x) (id_name (c_name c))) (sem_keycols d (cx_columns i)) = false;
  f_text : forall tb ta k, table_pair B A tb ta -> create_table_string d tb = create_table_string d ta ->
    declares d k (CreateTable tb) = true \/ declares d k (CreateTable ta) = true -> mb k = ma k;
  f_ddl : ddl_string d B = ddl_string d A -> forall k, mb k = ma k }.

Lemma gone_in : forall tb ta c, In c (gone_columns tb ta) -> exists x, In x (ct_columns tb) /\ id_name (c_name x) = c /\ find_column (id_name (c_name x)) (ct_columns ta) = None.
Proof.
  intros tb ta c H. unfold gone_columns in H. apply filter_In in H. destruct H as [H1 H2]. apply in_map_iff in H1. destruct H1 as [x [E H1]]. exists x.
  split; [exact H1|]. split; [exact E|]. apply find_column_memb. rewrite E. apply negb_true_iff. exact H2.
Qed.

Theorem together : facts -> reconcilable d B A = true.
Proof.
  intro F. unfold reconcilable. rewrite TB, TA, St, Sy. cbn [andb].
  assert (My' : match d with My => forallb (fun i => memb (qname (cx_name i)) (index_names A)) (indexes B) | _ => true end = true) by (destruct Hd as [Z|Z]; rewrite Z; reflexivity).
  rewrite My'. repeat (apply andb_true_iff; split); try reflexivity.
  - apply all_pairs_intro. intros tb ta Hb Ha E. assert (P : table_pair B A tb ta) by (repeat split; assumption).
    unfold pair_ok_b. repeat (apply andb_true_iff; split).
    + apply all_pairs_intro. intros b a Hb' Ha' E'. unfold col_ok. repeat (apply andb_true_iff; split).
      * apply told_intro. exact (f_type F tb ta b a P Hb' Ha' E').
      * apply told_intro. exact (f_default F tb ta b a P Hb' Ha' E').
      * pose proof (f_hidden F) as Fh. destruct Hd as [Z|Z]; [rewrite Z; reflexivity|]. destruct (Fh Z tb ta b a P Hb' Ha' E') as [F1 F2]. rewrite Z, F1.
        apply andb_true_iff. split; [apply Bool.eqb_reflx|apply same_refl; exact F2].
    + apply forallb_forall. intros c Hc. destruct (memb (id_name (c_name c)) (col_names ta)) eqn:M; [reflexivity|]. apply find_column_memb in M.
      pose proof (f_sticky F tb ta c P Hc M) as K. change (sticky d c) with (keep_hidden d c). rewrite K. reflexivity.
    + apply all_pairs_intro. intros b a Hb' Ha' E'. assert (K : con_key b = con_key a) by (rewrite !con_label_key in E'; exact E').
      pose proof (f_kind F tb ta b a P Hb' Ha' K) as Ki. unfold con_pair_ok. rewrite !is_inner_idx, Ki, Bool.eqb_reflx. cbn [andb].
      apply andb_true_iff. split; [|destruct Hd as [Z|Z]; rewrite Z; reflexivity]. apply told_intro. intro T. rewrite !con_value_cval. f_equal. exact (f_con F tb ta b a P Hb' Ha' K T).
    + apply forallb_forall. intros c Hc. apply forallb_forall. intros b Hb'. destruct (memb (con_label b) (con_labels ta)) eqn:M; [|reflexivity]. cbn [negb orb].
      apply memb_In in M. apply in_map_iff in M. destruct M as [a [M Ha']]. assert (K : con_key b = con_key a) by (rewrite !con_label_key in M; congruence).
      destruct (gone_in tb ta c Hc) as [x [X1 [X2 X3]]]. pose proof (f_unused F tb ta b a x P Hb' Ha' K X1 X3) as U. apply negb_true_iff.
      rewrite con_uses_involves; [rewrite <- X2; exact U|]. apply in_tables in Hb. pose proof (tidy_in _ _ _ TB Hb) as Tb. cbn [tidy_stmt] in Tb. exact (named_b d tb Tb b Hb').
    + destruct Hd as [Z|Z]; rewrite Z; reflexivity.
    + destruct Hd as [Z|Z]; rewrite Z; reflexivity.
    + destruct Hd as [Z|Z]; rewrite Z; reflexivity.
  - apply all_pairs_intro. intros ib ia Hb Ha E. apply in_indexes in Hb. apply in_indexes in Ha. unfold index_pair_ok. apply andb_true_iff. split.
    + apply told_intro. exact (f_index F ib ia Hb Ha E).
    + destruct Hd as [Z|Z]; rewrite Z; reflexivity.
  - unfold no_wipe. apply forallb_forall. intros i Hi. apply forallb_forall. intros tb Hb. destruct (String.eqb (qname (cx_table i)) (table_name tb)) eqn:E; [|reflexivity].
    apply String.eqb_eq in E. cbn [negb orb]. pose proof Hb as Hb'. apply in_tables in Hb'.
    assert (exists ta, In (CreateTable ta) A /\ table_name ta = table_name tb) as [ta [Ha Et]].
    { apply in_app_or in Hi. destruct Hi as [Hi|Hi]; apply in_indexes in Hi.
      - pose proof (f_table F i tb Hi Hb' E) as N. destruct (find_stmt (CreateTable tb) A) as [h|] eqn:Fh; [|contradiction].
        apply find_some in Fh. destruct Fh as [F1 F2]. destruct h as [ta| | | |]; try discriminate F2. cbn [same_type andb] in F2. apply eqs_eq in F2. rewrite !stmt_name_table in F2.
        exists ta. split; [exact F1|]. unfold table_name. symmetry. exact F2.
      - destruct (in_split _ _ Hi) as [l1 [l2 EA]]. destruct (placed_is_behind d A PA l1 i l2 EA) as [t [T1 [T2 _]]]. exists t. split; [rewrite EA; apply in_or_app; left; exact T1|congruence]. }
    apply existsb_exists. exists ta. split; [apply in_tables; exact Ha|]. rewrite Et, String.eqb_refl. destruct Hd as [Z|Z]; rewrite Z; reflexivity.
  - unfold dropped_unused. apply all_pairs_intro. intros tb ta Hb Ha E. assert (P : table_pair B A tb ta) by (repeat split; assumption).
    apply forallb_forall. intros c Hc. apply forallb_forall. intros i Hi. destruct (gone_in tb ta c Hc) as [x [X1 [X2 X3]]].
    destruct (String.eqb (qname (cx_table i)) (table_name tb)) eqn:Et; [|reflexivity]. apply String.eqb_eq in Et.
    destruct (memb (qname (cx_name i)) (index_names A)) eqn:M; [|reflexivity]. cbn [negb orb]. apply memb_In in M. apply negb_true_iff. rewrite <- X2.
    apply (f_used F i tb ta x P X1 X3); [|exact Et]. apply in_app_or in Hi. destruct Hi as [Hi|Hi]; apply in_indexes in Hi; [left; auto|right; exact Hi].
Qed.

Lemma same_objects_intro : forall x y, (forall k, In k (map fst x) \/ In k (map fst y) -> assoc_key k x = assoc_key k y) -> same_objects x y = true.
Proof.
  intros x y H. unfold same_objects. apply forallb_forall. intros e He. apply same_refl. rewrite !lookup_assoc. apply H.
  apply in_app_or in He. destruct He as [He|He]; [left|right]; apply in_map; exact He.
Qed.

(** What both schemas have, in a table of the one and of the other, is in the same table. *)
Lemma one_table : forall tb ta h k, table_pair B A tb ta -> declares d k (CreateTable tb) = true -> In h A -> declares d k h = true -> h = CreateTable ta.
Proof.
  intros tb ta h k P Db Hh Dh. assert (Htb : In (CreateTable tb) B) by (apply in_tables; apply P). assert (Hta : In (CreateTable ta) A) by (apply in_tables; apply P).
  assert (Et : qname (ct_name tb) = qname (ct_name ta)) by apply P.
  destruct h as [t|i| | |]; try discriminate Dh.
  - f_equal. destruct (string_dec (qname (ct_name t)) (qname (ct_name ta))) as [Z|Z]; [exact (same_ta d A ma DA t ta Hh Hta Z)|exfalso].
    destruct (table_keys d tb k Db) as [O|[n [O N]]]; destruct (table_keys d t k Dh) as [O'|[n' [O' N']]].
    + rewrite O in O'. inversion O'. congruence.
    + subst k. discriminate O.
    + subst k. discriminate O'.
    + subst k. inversion O'; subst n'. unfold inner_stay in Sy. rewrite forallb_forall in Sy. specialize (Sy tb (proj2 (in_tables B tb) Htb)). rewrite forallb_forall in Sy.
      specialize (Sy t (proj2 (in_tables A t) Hh)). rewrite <- Et in Z. unfold table_name in Sy. destruct (String.eqb (qname (ct_name tb)) (qname (ct_name t))) eqn:Q.
      * apply String.eqb_eq in Q. congruence.
      * cbn [orb] in Sy. exact (disjoint_spec _ _ Sy n N N').
  - exfalso. unfold declares in Dh. cbn [stmt_entries existsb fst] in Dh. rewrite orb_false_r in Dh. apply key_eqb_eq in Dh. subst k.
    destruct (table_keys d tb _ Db) as [O|[n [O N]]]; [discriminate O|]. inversion O; subst n.
    unfold same_style in St. apply andb_true_iff in St. destruct St as [St' _]. apply (disjoint_spec _ _ St' (qname (cx_name i))).
    + exact (inner_of d B tb _ Htb N).
    + unfold outer_indexes. apply in_flat_map. exists (CreateIndex i). split; [exact Hh|left; reflexivity].
Qed.
Lemma one_table' : forall tb ta h k, table_pair B A tb ta -> declares d k (CreateTable ta) = true -> In h B -> declares d k h = true -> h = CreateTable tb.
Proof.
  intros tb ta h k P Da Hh Dh. assert (Htb : In (CreateTable tb) B) by (apply in_tables; apply P). assert (Hta : In (CreateTable ta) A) by (apply in_tables; apply P).
  assert (Et : qname (ct_name tb) = qname (ct_name ta)) by apply P.
  destruct h as [t|i| | |]; try discriminate Dh.
  - f_equal. destruct (string_dec (qname (ct_name t)) (qname (ct_name tb))) as [Z|Z]; [exact (same_tb d B mb DB t tb Hh Htb Z)|exfalso].
    destruct (table_keys d ta k Da) as [O|[n [O N]]]; destruct (table_keys d t k Dh) as [O'|[n' [O' N']]].
    + rewrite O in O'. inversion O'. congruence.
    + subst k. discriminate O.
    + subst k. discriminate O'.
    + subst k. inversion O'; subst n'. unfold inner_stay in Sy. rewrite forallb_forall in Sy. specialize (Sy t (proj2 (in_tables B t) Hh)). rewrite forallb_forall in Sy.
      specialize (Sy ta (proj2 (in_tables A ta) Hta)). rewrite Et in Z. unfold table_name in Sy. destruct (String.eqb (qname (ct_name t)) (qname (ct_name ta))) eqn:Q.
      * apply String.eqb_eq in Q. congruence.
      * cbn [orb] in Sy. exact (disjoint_spec _ _ Sy n N' N).
  - exfalso. unfold declares in Dh. cbn [stmt_entries existsb fst] in Dh. rewrite orb_false_r in Dh. apply key_eqb_eq in Dh. subst k.
    destruct (table_keys d ta _ Da) as [O|[n [O N]]]; [discriminate O|]. inversion O; subst n.
    unfold same_style in St. apply andb_true_iff in St. destruct St as [_ St']. apply (disjoint_spec _ _ St' (qname (cx_name i))).
    + unfold outer_indexes. apply in_flat_map. exists (CreateIndex i). split; [exact Hh|left; reflexivity].
    + exact (inner_of d A ta _ Hta N).
Qed.
Lemma declared_some : forall l m s k, describes d l m -> In s l -> declares d k s = true -> exists v, m k = Some v.
Proof.
  intros l m s k D Hs Ds. apply declares_In in Ds. apply in_map_iff in Ds. destruct Ds as [[q v] [E Ds]]. cbn [fst] in E. subst q.
  exists v. exact (in_entries d l m s k v D Hs Ds).
Qed.
Lemma some_declared : forall l m k v, describes d l m -> m k = Some v -> exists s, In s l /\ declares d k s = true.
Proof.
  intros l m k v D V. destruct (describes_entries d l m D) as [_ [M _]]. rewrite M in V. apply assoc_In in V. unfold entries in V. apply in_flat_map in V.
  destruct V as [s [Hs V]]. exists s. split; [exact Hs|]. apply declares_In. exact (in_map fst _ _ V).
Qed.

(** The object [k] of a pair of tables, when it is the same in both catalogues. *)
Lemma declared_both : forall tb ta k, table_pair B A tb ta -> declares d k (CreateTable tb) = true \/ declares d k (CreateTable ta) = true -> mb k = ma k ->
  assoc_key k (entries d [CreateTable tb]) = assoc_key k (entries d [CreateTable ta]).
Proof.
  intros tb ta k P Dk E. assert (Htb : In (CreateTable tb) B) by (apply in_tables; apply P). assert (Hta : In (CreateTable ta) A) by (apply in_tables; apply P).
  assert (Both : declares d k (CreateTable tb) = true /\ declares d k (CreateTable ta) = true).
  { destruct Dk as [Dk|Dk].
    - split; [exact Dk|]. destruct (declared_some B mb _ k DB Htb Dk) as [v V]. rewrite E in V. destruct (some_declared A ma k v DA V) as [h [Hh Dh]].
      rewrite (one_table tb ta h k P Dk Hh Dh) in Dh. exact Dh.
    - split; [|exact Dk]. destruct (declared_some A ma _ k DA Hta Dk) as [v V]. rewrite <- E in V. destruct (some_declared B mb k v DB V) as [h [Hh Dh]].
      rewrite (one_table' tb ta h k P Dk Hh Dh) in Dh. exact Dh. }
  destruct Both as [D1 D2]. destruct (describes_entries d B mb DB) as [NB [MB _]]. destruct (describes_entries d A ma DA) as [NA [MA _]].
  unfold entries. cbn [flat_map]. rewrite !app_nil_r. rewrite <- (entry_value d B _ k NB Htb D1), <- (entry_value d A _ k NA Hta D2), <- MB, <- MA. exact E.
Qed.

Theorem together_text : facts -> text_ok d B A = true.
Proof.
  intro F. unfold text_ok. destruct (describes_entries d B mb DB) as [NB [MB AB]]. destruct (describes_entries d A ma DA) as [NA [MA AA]].
  pose proof (read_create d B mb DB) as CB. pose proof (read_create d A ma DA) as CA.
  apply andb_true_iff. split.
  - destruct (String.eqb (ddl_string d B) (ddl_string d A)) eqn:E; [|reflexivity]. apply String.eqb_eq in E.
    apply same_objects_intro. intros k _. rewrite !objects_entries by assumption. rewrite <- MB, <- MA. exact (f_ddl F E k).
  - apply all_pairs_intro. intros tb ta Hb Ha En. destruct (String.eqb _ _) eqn:E; [|reflexivity]. apply String.eqb_eq in E.
    assert (P : table_pair B A tb ta) by (repeat split; assumption). apply in_tables in Hb. apply in_tables in Ha.
    assert (Ob : objects d [CreateTable tb] = entries d [CreateTable tb]).
    { apply objects_entries; [reflexivity|]. intros t [T|[]]. inversion T; subst. exact (AB t Hb). }
    assert (Oa : objects d [CreateTable ta] = entries d [CreateTable ta]).
    { apply objects_entries; [reflexivity|]. intros t [T|[]]. inversion T; subst. exact (AA t Ha). }
    rewrite Ob, Oa. apply same_objects_intro. intros k K.
    assert (Dk : declares d k (CreateTable tb) = true \/ declares d k (CreateTable ta) = true).
    { unfold entries in K. cbn [flat_map] in K. rewrite !app_nil_r in K. destruct K as [K|K]; [left|right]; apply declares_In; exact K. }
    apply declared_both; [exact P|exact Dk|]. exact (f_text F tb ta k P E Dk).
Qed.

(** ** Nothing to do *)
Theorem facts_same : (forall k, mb k = ma k) -> facts.
Proof.
  intro EQ.
  assert (Cols : forall tb ta b a, table_pair B A tb ta -> In b (ct_columns tb) -> In a (ct_columns ta) -> id_name (c_name b) = id_name (c_name a) -> sem_col d b = sem_col d a).
  { intros tb ta b a [P1 [P2 P3]] Hb Ha E. apply in_tables in P1. apply in_tables in P2. unfold table_name in P3.
    pose proof (read_col d B mb DB tb (id_name (c_name b)) P1) as R1. pose proof (read_col d A ma DA ta (id_name (c_name a)) P2) as R2.
    rewrite (find_column_unique d B mb tb b DB P1 Hb) in R1. rewrite (find_column_unique d A ma ta a DA P2 Ha) in R2. rewrite <- EQ, <- P3, <- E, R1 in R2.
    cbn [option_map] in R2. congruence. }
  assert (Gone : forall tb ta c, table_pair B A tb ta -> In c (ct_columns tb) -> find_column (id_name (c_name c)) (ct_columns ta) = None -> False).
  { intros tb ta c [P1 [P2 P3]] Hc Fc. apply in_tables in P1. apply in_tables in P2. unfold table_name in P3.
    pose proof (read_col d B mb DB tb (id_name (c_name c)) P1) as R1. pose proof (read_col d A ma DA ta (id_name (c_name c)) P2) as R2.
    rewrite (find_column_unique d B mb tb c DB P1 Hc) in R1. rewrite Fc, <- EQ, <- P3, R1 in R2. discriminate R2. }
  assert (Kind : forall tb ta b a, table_pair B A tb ta -> In b (ct_constraints tb) -> In a (ct_constraints ta) -> con_key b = con_key a -> is_idx b = is_idx a).
  { intros tb ta b a P Hb Ha K. destruct (Bool.bool_dec (is_idx b) (is_idx a)) as [Y|Y]; [exact Y|exfalso].
    pose proof (other_kind_none d B A mb ma DB DA TB TA tb ta b a P Hb Ha K Y St Sy) as N. assert (Hta : In (CreateTable ta) A) by (apply in_tables; apply P).
    rewrite EQ, (read_ckey d A ma ta a DA TA Hta Ha) in N. discriminate N. }
  constructor.
  - intros tb ta b a P Hb Ha E _. pose proof (Cols tb ta b a P Hb Ha E) as Z. exact (f_equal2 pair (f_equal sc_type Z) (f_equal sc_args Z)).
  - intros tb ta b a P Hb Ha E _. pose proof (Cols tb ta b a P Hb Ha E) as Z. exact (f_equal sc_default Z).
  - intros Hc tb ta b a P Hb Ha E. pose proof (Cols tb ta b a P Hb Ha E) as Z. rewrite Hc in Z. exact (conj (f_equal sc_hidden Z) (f_equal sc_as Z)).
  - intros tb ta c P Hc Fc. destruct (Gone tb ta c P Hc Fc).
  - exact Kind.
  - intros tb ta b a P Hb Ha K _. assert (Htb : In (CreateTable tb) B) by (apply in_tables; apply P). assert (Hta : In (CreateTable ta) A) by (apply in_tables; apply P).
    pose proof (read_ckey d B mb tb b DB TB Htb Hb) as R1. pose proof (read_ckey d A ma ta a DA TA Hta Ha) as R2.
    assert (Kk : ckey d (ct_name tb) b = ckey d (ct_name ta) a).
    { pose proof (tidy_in _ _ _ TB Htb) as Tb. pose proof (tidy_in _ _ _ TA Hta) as Ta. cbn [tidy_stmt] in Tb, Ta.
      rewrite !ckey_label, K, (Kind tb ta b a P Hb Ha K). apply label_key_same; [apply (ti_name _ _ (tidy_table_spec _ _ Tb))|apply (ti_name _ _ (tidy_table_spec _ _ Ta))|apply P]. }
    rewrite Kk, EQ, R2 in R1. congruence.
  - intros tb ta b a c P _ _ _ Hc Fc. destruct (Gone tb ta c P Hc Fc).
  - intros ib ia Hb Ha E _. pose proof (read_index d B mb DB ib Hb) as R1. pose proof (read_index d A ma DA ia Ha) as R2. rewrite <- EQ, <- E, R1 in R2. congruence.
  - intros i tb _ Ht _ F. pose proof (no_table_stmt A tb F) as N.
    destruct (describes_entries d B mb DB) as [_ [MB _]]. assert (V : mb (KTab (table_name tb)) = Some VTab) by (apply (in_entries d B mb (CreateTable tb)); [exact DB|exact Ht|left; reflexivity]).
    rewrite EQ, (missing_table d A ma _ DA N) in V. discriminate V.
  - intros i tb ta c P Hc Fc. destruct (Gone tb ta c P Hc Fc).
  - intros tb ta k _ _ _. apply EQ.
  - intros _. exact EQ.
Qed.
End Together.
