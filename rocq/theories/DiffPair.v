(** DiffCreateTable: executing its statements turns the catalogue entries of the
    first table into those of the second one. *)
From Coq Require Import Lia Permutation.
From Verif Require Import GoStr Token Ast Parser Diff Db DbFacts AppendFacts DiffTable.

(** When the comparison of two tables of the same name is reliable.  Each field is
    a condition without which the code goes wrong. *)
Record pair_ok (d : dialect) (tb ta : create_table) : Prop := {
  po_name : qname (ct_name tb) = qname (ct_name ta);
  po_schema : d = My -> option_map id_name (on_schema (ct_name tb)) = option_map id_name (on_schema (ct_name ta));
  po_cols : forall b a, In b (ct_columns tb) -> In a (ct_columns ta) ->
    id_name (c_name b) = id_name (c_name a) -> col_agree d b a;
  po_hidden : forall b, In b (ct_columns tb) -> find_column (id_name (c_name b)) (ct_columns ta) = None ->
    keep_hidden d b = false;
  po_cons : forall b a, In b (ct_constraints tb) -> In a (ct_constraints ta) -> con_key b = con_key a ->
    is_idx b = is_idx a /\
    (constraint_diff d b = constraint_diff d a -> cval d (ct_name tb) b = cval d (ct_name ta) a);
  po_keep : forall c b, In c (ct_columns tb) -> find_column (id_name (c_name c)) (ct_columns ta) = None ->
    In b (ct_constraints tb) -> find_constraint (con_key b) (ct_constraints ta) <> None ->
    involves (qname (ct_name tb)) (id_name (c_name c)) (ckey d (ct_name tb) b) (cval d (ct_name tb) b) = false;
  po_noidx : d = Pg \/ d = Sp -> forall c, In c (ct_constraints tb) \/ In c (ct_constraints ta) -> is_idx c = false;
  po_mydrop : d = My -> forall b, In b (ct_constraints tb) -> is_idx b = true ->
    exists a, find_constraint (con_key b) (ct_constraints ta) = Some a /\ constraint_diff d b = constraint_diff d a;
  po_nodup_b : NoDup (map con_key (ct_constraints tb));
  po_nodup_a : NoDup (map con_key (ct_constraints ta));
  po_opts : match d with
    | Pg | Crdb => ct_options tb = [] /\ ct_options ta = []
    | My => NoDup (map o_name (ct_options tb)) /\ NoDup (map o_name (ct_options ta)) /\
            (forall o, In o (ct_options tb) \/ In o (ct_options ta) -> is_auto_increment o = counter_option o) /\
            (forall b, In b (ct_options tb) -> counter_option b = false -> find_option (o_name b) (ct_options ta) <> None) /\
            (forall b a, In b (ct_options tb) -> In a (ct_options ta) -> o_name b = o_name a ->
               option_diff d b = option_diff d a -> etoks (o_value b) = etoks (o_value a))
    | Sp => options_diff d (ct_options tb) = options_diff d (ct_options ta) ->
            forall o, option_map (fun x => VOpt (etoks (o_value x))) (find_option o (ct_options tb)) =
                      option_map (fun x => VOpt (etoks (o_value x))) (find_option o (ct_options ta))
    end;
  po_row : match d with
    | Sp => ooption_diff d (ct_rowdel tb) = ooption_diff d (ct_rowdel ta) ->
            option_map (fun x => etoks (o_value x)) (ct_rowdel tb) = option_map (fun x => etoks (o_value x)) (ct_rowdel ta)
    | _ => ct_rowdel tb = None /\ ct_rowdel ta = None
    end }.

(** * What the statements consist of *)

Inductive col_op (T : string) (gone : string -> Prop) : op -> Prop :=
| co_has : col_op T gone (Has (KTab T))
| co_upd : forall c f, col_op T gone (Upd (KCol T c) f)
| co_add : forall c v, col_op T gone (Add (KCol T c) v)
| co_del : forall c, gone c -> col_op T gone (DelCol T c).

(** The same, concerning one column only. *)
Inductive this_col_op (T c : string) : op -> Prop :=
| tc_has : this_col_op T c (Has (KTab T))
| tc_upd : forall f, this_col_op T c (Upd (KCol T c) f)
| tc_add : forall v, this_col_op T c (Add (KCol T c) v)
| tc_del : this_col_op T c (DelCol T c).

Lemma idle_of_ops : forall (P : option value -> Prop) k os,
  (forall o, In o os -> forall v, P v -> eff o k v = Some v) -> idle P k os.
Proof.
  intros P k os. induction os as [|o r IH]; intro H; [apply idle_nil|].
  apply idle_cons; [apply H; left; reflexivity|]. apply IH. intros x Hx. apply H. right; exact Hx.
Qed.

Section Pair.
Variable d : dialect.
Variable sdiff : string -> string -> string.

Lemma common_ops : forall n b a o, c_default a <> Some None -> id_name (c_name b) = id_name (c_name a) ->
  In o (col_ops d (diff_common_column d sdiff n b a)) ->
  o = Has (KTab (qname n)) \/ exists f, o = Upd (KCol (qname n) (id_name (c_name b))) f.
Proof.
  intros n b a o Hna Hn Ho. unfold col_ops in Ho. apply in_flat_map in Ho. destruct Ho as [s [Hs Ho]].
  assert (Hs' : exists cm act f, s = AlterTable cm n act /\ action_ops d n act = [Upd (KCol (qname n) (id_name (c_name a))) f]).
  { assert (Hd : forall cm, In s (diff_default d cm n b a) ->
       exists act f, s = AlterTable cm n act /\ action_ops d n act = [Upd (KCol (qname n) (id_name (c_name a))) f]).
    { intros cm H. unfold diff_default in H. destruct (is_some (c_default b) && negb (is_some (c_default a))).
      - destruct H as [H|[]]. subst. do 2 eexists. split; reflexivity.
      - destruct (is_some (c_default a) && _) eqn:E; [|destruct H]. destruct H as [H|[]]. subst.
        destruct (c_default a) as [[l|]|]; [|exfalso; apply Hna; reflexivity|discriminate E].
        do 2 eexists. split; reflexivity. }
    assert (Hnn : forall cm, In s (diff_notnull cm n b a) ->
       exists act f, s = AlterTable cm n act /\ action_ops d n act = [Upd (KCol (qname n) (id_name (c_name a))) f]).
    { intros cm H. unfold diff_notnull in H. destruct (c_notnull b), (c_notnull a); cbn in H; try contradiction;
      destruct H as [H|[]]; subst; do 2 eexists; split; reflexivity. }
    assert (Hop : forall cm, In s (diff_options cm n b a) ->
       exists act f, s = AlterTable cm n act /\ action_ops d n act = [Upd (KCol (qname n) (id_name (c_name a))) f]).
    { intros cm H. unfold diff_options in H. destruct (is_some (c_options b) && negb (is_some (c_options a))).
      - destruct H as [H|[]]. subst. do 2 eexists. split; reflexivity.
      - destruct (is_some (c_options a) && _) eqn:E; [|destruct H]. destruct H as [H|[]]. subst.
        do 2 eexists. split; reflexivity. }
    unfold diff_common_column in Hs. set (cm := sdiff (column_string d b) (column_string d a)) in *. exists cm.
    assert (E : forall (A : list stmt) (B : bool) x, In x (if B then A else []) -> In x A) by (intros A [] x; cbn; tauto).
    destruct d; repeat (apply in_app_or in Hs; destruct Hs as [Hs|Hs]);
    try (apply Hd; exact Hs); try (apply Hnn; exact Hs); try (apply Hop; exact Hs);
    apply E in Hs; destruct Hs as [Hs|[]]; subst s; do 2 eexists; split; reflexivity. }
  destruct Hs' as [cm [act [f [E1 E2]]]]. subst s. cbn [stmt_ops] in Ho. rewrite E2 in Ho. destruct Ho as [Ho|[Ho|[]]].
  - left. symmetry; exact Ho.
  - right. exists f. rewrite Hn. symmetry. exact Ho.
Qed.

Lemma before_col_ops : forall n acols b o,
  (forall a, In a acols -> id_name (c_name b) = id_name (c_name a) -> c_default a <> Some None) ->
  In o (col_ops d (diff_before_column d sdiff n acols b)) ->
  this_col_op (qname n) (id_name (c_name b)) o /\
  (forall T c, o = DelCol T c -> find_column (id_name (c_name b)) acols = None).
Proof.
  intros n acols b o Hd Ho. unfold diff_before_column in Ho.
  destruct (find_column (id_name (c_name b)) acols) as [a|] eqn:E.
  - unfold find_column in E. apply find_some in E. destruct E as [Ha En]. apply eqs_eq in En.
    destruct (common_ops n b a o (Hd a Ha (eq_sym En)) (eq_sym En) Ho) as [H|[f H]]; subst; (split; [constructor|]); intros T c F; discriminate F.
  - split; [|reflexivity]. destruct (keep_hidden d b); [destruct Ho|]. cbn in Ho. destruct Ho as [Ho|[Ho|[]]]; subst; constructor.
Qed.

Lemma add_col_ops_this : forall n a o, In o (col_ops d [add_column d sdiff n a]) ->
  this_col_op (qname n) (id_name (c_name a)) o /\ (forall T c, o <> DelCol T c).
Proof.
  intros n a o Ho. cbn in Ho. destruct Ho as [Ho|[Ho|[]]]; subst; (split; [constructor|intros T c F; discriminate F]).
Qed.

Lemma col_ops_flat_map : forall A (f : A -> list stmt) l, col_ops d (flat_map f l) = flat_map (fun x => col_ops d (f x)) l.
Proof.
  intros A f l. induction l as [|x r IH]; [reflexivity|]. cbn [flat_map]. rewrite col_ops_app, IH. reflexivity.
Qed.
Lemma col_ops_map : forall A (f : A -> stmt) l, col_ops d (map f l) = flat_map (fun x => col_ops d [f x]) l.
Proof.
  intros A f l. induction l as [|x r IH]; [reflexivity|]. cbn [flat_map map].
  change (f x :: map f r) with ([f x] ++ map f r)%list. rewrite col_ops_app, IH. reflexivity.
Qed.

Lemma diff_columns_ops : forall n bcols acols o,
  (forall b a, In b bcols -> In a acols -> id_name (c_name b) = id_name (c_name a) -> c_default a <> Some None) ->
  In o (col_ops d (diff_columns d sdiff n bcols acols)) ->
  (exists c, this_col_op (qname n) c o /\
     (forall T e, o = DelCol T e -> exists b, In b bcols /\ id_name (c_name b) = c /\ find_column c acols = None)).
Proof.
  intros n bcols acols o Hd Ho. unfold diff_columns in Ho. rewrite col_ops_app in Ho. apply in_app_or in Ho.
  destruct Ho as [Ho|Ho].
  - rewrite col_ops_flat_map in Ho. apply in_flat_map in Ho. destruct Ho as [b [Hb Ho]].
    destruct (before_col_ops n acols b o (fun a Ha => Hd b a Hb Ha) Ho) as [H1 H2].
    exists (id_name (c_name b)). split; [exact H1|]. intros T e E. exists b. split; [exact Hb|]. split; [reflexivity|]. apply (H2 T e E).
  - rewrite col_ops_map in Ho. apply in_flat_map in Ho. destruct Ho as [a [Ha Ho]].
    destruct (add_col_ops_this n a o Ho) as [H1 H2]. exists (id_name (c_name a)). split; [exact H1|].
    intros T e E. exfalso. apply (H2 T e E).
Qed.

(** An operation on one column does nothing to other columns. *)
Lemma this_col_other : forall T c o k, this_col_op T c o -> k <> KTab T -> k <> KCol T c -> ~ conkey k ->
  forall v, eff o k v = Some v.
Proof.
  intros T c o k Ho Ht Hc Hk v.
  assert (E1 : key_eqb (KTab T) k = false) by (apply key_eqb_neq; congruence).
  assert (E2 : key_eqb (KCol T c) k = false) by (apply key_eqb_neq; congruence).
  destruct Ho; cbn [eff]; rewrite ?E1, ?E2; try reflexivity.
  f_equal. destruct v as [v|]; [|reflexivity]. cbn [unless]. destruct k; cbn [involves]; try reflexivity; exfalso; apply Hk; exact I.
Qed.
Lemma this_col_con : forall T c o k v, this_col_op T c o -> conkey k ->
  (forall e, o = DelCol T e -> match v with Some x => involves T e k x = false | None => True end) ->
  eff o k v = Some v.
Proof.
  intros T c o k v Ho Hk Hi. destruct Ho; cbn [eff]; try (destruct k; try contradiction Hk; reflexivity).
  specialize (Hi c eq_refl). replace (key_eqb (KCol T c) k) with false by (destruct k; try contradiction Hk; reflexivity).
  destruct v as [x|]; [|reflexivity]. cbn [unless]. rewrite Hi. reflexivity.
Qed.
Lemma this_col_tab : forall T c o v, this_col_op T c o -> present v = true -> (forall x, v = Some x -> x = VTab) ->
  eff o (KTab T) v = Some v.
Proof.
  intros T c o v Ho Hp Hv. destruct v as [x|]; [|discriminate]. rewrite (Hv x eq_refl) in *.
  destruct Ho; cbn [eff key_eqb]; rewrite ?String.eqb_refl; reflexivity.
Qed.

(** ** Constraint statements *)

Lemma index_ops : forall cmt n c, is_idx c = true -> con_named c = true -> (d = Crdb \/ d = My) ->
  stmt_ops d (index_of_constraint d cmt n c) = [Add (ckey d n c) (cval d n c)].
Proof.
  intros cmt n c Hi Hn Hd. destruct c; try discriminate Hi. destruct name as [i|]; [|discriminate Hn].
  unfold index_of_constraint, con_ident, ckey, cval. cbn [con_name is_idx stmt_ops]. unfold create_index_ops.
  cbn [cx_name cx_table cx_unique cx_columns cx_using cx_pre cx_post]. unfold sem_index, sem_intable, intable_key, con_ident.
  cbn [con_name cx_name cx_table cx_unique cx_columns cx_using cx_pre cx_post].
  destruct Hd as [Hd|Hd]; subst d; cbn [index_objname]; reflexivity.
Qed.

Lemma con_ops_add : forall n c, con_named c = true -> add_con_ops d n c = [Add (ckey d n c) (cval d n c)].
Proof. intros n c H. destruct c; destruct name; cbn in H; try discriminate; reflexivity. Qed.

Lemma is_index_idx : forall c, (d = Pg \/ d = Sp -> is_idx c = false) -> is_index d c = is_idx c.
Proof.
  intros c H. unfold is_index, is_idx. destruct d; try reflexivity; cbn; symmetry; apply H; auto.
Qed.
Lemma is_index_dialect : forall c, is_index d c = true -> d = Crdb \/ d = My.
Proof. intros c H. unfold is_index in H. destruct d; try discriminate; auto. Qed.

Definition has_tab (n : objname) (c : constraint) : list op := if is_idx c then [] else [Has (KTab (qname n))].

Lemma add_constraint_ops : forall nv n c, con_named c = true -> (d = Pg \/ d = Sp -> is_idx c = false) ->
  col_ops d [add_constraint d sdiff nv n c] = (has_tab n c ++ [Add (ckey d n c) (cval d n c)])%list.
Proof.
  intros nv n c Hn Hp. unfold col_ops, add_constraint, has_tab. cbn [flat_map]. rewrite app_nil_r.
  pose proof (is_index_idx c Hp) as E. destruct (is_index d c) eqn:Ei.
  - rewrite <- E. cbn [app]. apply index_ops; [symmetry; exact E|exact Hn|apply (is_index_dialect c Ei)].
  - rewrite <- E. cbn [stmt_ops action_ops app]. rewrite con_ops_add by exact Hn. reflexivity.
Qed.

Lemma drop_gone_ops : forall bn n acs c, con_named c = true -> (d = Pg \/ d = Sp -> is_idx c = false) ->
  (d = My -> is_idx c = true -> find_constraint (con_key c) acs <> None) -> qname bn = qname n ->
  col_ops d (drop_gone_constraint d sdiff bn n acs c) =
  match find_constraint (con_key c) acs with
  | Some _ => []
  | None => (has_tab n c ++ [Del (ckey d bn c)])%list
  end.
Proof.
  intros bn n acs c Hn Hp Hm Hq. unfold drop_gone_constraint. destruct (find_constraint (con_key c) acs) as [x|] eqn:F; [reflexivity|].
  pose proof (is_index_idx c Hp) as E. unfold col_ops, has_tab. destruct (is_index d c) eqn:Ei.
  - rewrite <- E. cbn [flat_map app stmt_ops]. destruct (is_index_dialect c Ei) as [Hd|Hd].
    + subst d. cbn [drop_index_ops app]. unfold ckey. rewrite <- E. reflexivity.
    + exfalso. apply (Hm Hd); [symmetry; exact E|]. reflexivity.
  - rewrite <- E. cbn [flat_map app stmt_ops action_ops]. unfold con_named in Hn. unfold ckey. rewrite <- E.
    unfold con_key, con_ident. destruct (con_name c) as [i|]; [|discriminate Hn]. cbn [app]. rewrite Hq. reflexivity.
Qed.

Lemma change_ops : forall nv bn n acs c a, con_named c = true -> con_named a = true ->
  (d = Pg \/ d = Sp -> is_idx a = false) -> is_idx c = is_idx a ->
  find_constraint (con_key c) acs = Some a ->
  (d = My -> is_idx c = true -> constraint_diff d c = constraint_diff d a) -> qname bn = qname n ->
  col_ops d (change_constraint d sdiff nv bn n acs c) =
  (if neqs (constraint_diff d c) (constraint_diff d a)
   then (has_tab n c ++ [Del (ckey d bn c)]) ++ (has_tab n a ++ [Add (ckey d n a) (cval d n a)]) else [])%list.
Proof.
  intros nv bn n acs c a Hn Ha Hp Hi F Hm Hq. unfold change_constraint. rewrite F.
  destruct (neqs _ _) eqn:En; [|reflexivity].
  pose proof (is_index_idx a Hp) as E. unfold col_ops, has_tab. destruct (is_index d a) eqn:Ei.
  - rewrite Hi, <- E. cbn [flat_map app]. rewrite app_nil_r. rewrite index_ops; [|symmetry; exact E|exact Ha|apply (is_index_dialect a Ei)].
    cbn [stmt_ops]. destruct (is_index_dialect a Ei) as [Hd|Hd].
    + subst d. cbn [drop_index_ops app]. unfold ckey at 2. rewrite Hi, <- E. reflexivity.
    + exfalso. rewrite <- E in Hi. specialize (Hm Hd Hi). apply neqs_false in Hm. rewrite Hm in En. discriminate.
  - rewrite Hi, <- E. cbn [flat_map app stmt_ops action_ops]. rewrite con_ops_add by exact Ha.
    unfold ckey at 2. rewrite Hi, <- E. unfold con_named in Hn.
    unfold con_key, con_ident. destruct (con_name c) as [i|]; [|discriminate Hn]. cbn [app]. rewrite Hq. reflexivity.
Qed.

Lemma has_tab_con : forall n c k v, conkey k -> at_key k (has_tab n c) v = Some v.
Proof. intros n c k v Hk. unfold has_tab. destruct (is_idx c); [reflexivity|]. cbn. destruct k; try contradiction Hk; reflexivity. Qed.

Lemma has_tab_idle : forall n c k (P : option value -> Prop), (k = KTab (qname n) -> forall v, P v -> present v = true) ->
  idle P k (has_tab n c).
Proof.
  intros n c k P H. unfold has_tab. destruct (is_idx c); [apply idle_nil|]. apply idle_cons; [|apply idle_nil].
  intros v Hv. cbn [eff]. destruct (key_eqb (KTab (qname n)) k) eqn:E; [|reflexivity].
  apply key_eqb_eq in E. rewrite (H (eq_sym E) v Hv). reflexivity.
Qed.
Lemma del_idle : forall k k' (P : option value -> Prop), k <> k' -> idle P k [Del k'].
Proof.
  intros k k' P H. apply idle_cons; [|apply idle_nil]. intros v _. cbn [eff]. replace (key_eqb k' k) with false; [reflexivity|].
  symmetry. apply key_eqb_neq. congruence.
Qed.
Lemma add_idle : forall k k' x (P : option value -> Prop), k <> k' -> idle P k [Add k' x].
Proof.
  intros k k' x P H. apply idle_cons; [|apply idle_nil]. intros v _. cbn [eff]. replace (key_eqb k' k) with false; [reflexivity|].
  symmetry. apply key_eqb_neq. congruence.
Qed.
End Pair.

(** * Two tables *)
Section Tables.
Variable d : dialect.
Variable srt : list constraint -> list constraint.
Variable sdiff : string -> string -> string.
Hypothesis Hsrt : srt_ok srt.
Variable nv : bool.
Variables tb ta : create_table.
Hypothesis OK : pair_ok d tb ta.
Hypothesis Nb : all_con_named tb = true.
Hypothesis Na : all_con_named ta = true.
Hypothesis Db : NoDup (map fst (table_entries d tb)).
Hypothesis Da : NoDup (map fst (table_entries d ta)).

Let bn := ct_name tb.
Let n := ct_name ta.
Let T := qname n.

Lemma nodup_map_app_l : forall A (l r : list A), NoDup (l ++ r)%list -> NoDup l.
Proof.
  intros A l r. induction l as [|x l IH]; intro H; [constructor|]. cbn [app] in H. inversion H as [|? ? H1 H2]; subst. constructor.
  - intro F. apply H1. apply in_or_app. left; exact F.
  - apply IH. exact H2.
Qed.
Lemma nodup_map_app_r : forall A (l r : list A), NoDup (l ++ r)%list -> NoDup r.
Proof. intros A l r. induction l as [|x l IH]; intro H; [exact H|]. cbn [app] in H. inversion H; subst. apply IH; assumption. Qed.

Lemma nodup_cols : forall t, NoDup (map fst (table_entries d t)) -> NoDup (map (fun c => id_name (c_name c)) (ct_columns t)).
Proof.
  intros t H. unfold table_entries in H. cbn [map] in H. inversion H as [|? ? _ H1]; subst. rewrite map_app in H1.
  apply nodup_map_app_l in H1. rewrite map_map in H1. unfold col_entry in H1. cbn [fst] in H1.
  clear H. induction (ct_columns t) as [|c r IH]; [constructor|]. cbn [map] in *. inversion H1 as [|? ? H2 H3]; subst. constructor.
  - intro F. apply H2. apply in_map_iff in F. destruct F as [x [E F]]. apply in_map_iff. exists x. split; [rewrite E; reflexivity|exact F].
  - apply IH. exact H3.
Qed.
Lemma nodup_ckey : forall t, all_con_named t = true -> NoDup (map fst (table_entries d t)) ->
  NoDup (map (ckey d (ct_name t)) (ct_constraints t)).
Proof.
  intros t Hn H. unfold table_entries in H. cbn [map] in H. inversion H as [|? ? _ H1]; subst. rewrite !map_app in H1.
  apply nodup_map_app_r in H1. apply nodup_map_app_l in H1. rewrite con_entries_map in H1 by exact Hn.
  rewrite map_map in H1. exact H1.
Qed.

Lemma named_in : forall t c, all_con_named t = true -> In c (ct_constraints t) -> con_named c = true.
Proof. intros t c H Hc. unfold all_con_named in H. rewrite forallb_forall in H. apply H. exact Hc. Qed.

Lemma names_eq : qname bn = qname n.
Proof. exact (po_name _ _ _ OK). Qed.

Lemma not_renamed : renamed bn n = false.
Proof. unfold renamed. apply neqs_false. rewrite !objname_diff_qname. exact names_eq. Qed.
Lemma final_is_after : final_name bn n = n.
Proof. unfold final_name. rewrite not_renamed. reflexivity. Qed.
Lemma no_rename_stmt : diff_rename sdiff bn n = [].
Proof. unfold diff_rename. rewrite not_renamed. reflexivity. Qed.

Lemma append_inj_l : forall a b c, (a ++ b)%string = (a ++ c)%string -> b = c.
Proof. induction a as [|x a IH]; intros b c H; [exact H|]. cbn in H. inversion H. apply IH. assumption. Qed.

(** Equal constraint keys: equal catalogue keys, and conversely. *)
Lemma ckey_eq : forall b a, is_idx b = is_idx a -> con_key b = con_key a -> ckey d bn b = ckey d n a.
Proof.
  intros b a Hi Hk. unfold ckey. rewrite Hi. destruct (is_idx a).
  - unfold intable_key. unfold con_key in Hk. destruct d eqn:Ed; try (rewrite Hk; reflexivity).
    pose proof (po_schema _ _ _ OK eq_refl) as Hs. fold bn n in Hs. unfold qname. cbn [on_schema on_name].
    destruct (on_schema bn) as [sb|], (on_schema n) as [sa|]; cbn in Hs; inversion Hs as [Hs']; rewrite Hk; try rewrite Hs'; reflexivity.
  - rewrite names_eq, Hk. reflexivity.
Qed.
Lemma ckey_inj : forall b a, ckey d bn b = ckey d n a -> con_key b = con_key a.
Proof.
  intros b a H. unfold ckey in H. destruct (is_idx b), (is_idx a); try discriminate H.
  - unfold intable_key in H. unfold con_key. destruct d eqn:Ed; try (inversion H; reflexivity).
    pose proof (po_schema _ _ _ OK eq_refl) as Hs. fold bn n in Hs. unfold qname in H. cbn [on_schema on_name] in H.
    inversion H as [H1]. destruct (on_schema bn) as [sb|], (on_schema n) as [sa|]; cbn in Hs; inversion Hs as [Hs'].
    + rewrite Hs' in H1. apply append_inj_l in H1. cbn in H1. inversion H1. reflexivity.
    + exact H1.
  - injection H as _ H2. exact H2.
Qed.

(** cval depends on the table only through its name. *)
Lemma cval_name : forall c, cval d bn c = cval d n c.
Proof. intros c. unfold cval. destruct c; try reflexivity. unfold sem_intable. rewrite names_eq. reflexivity. Qed.

Lemma find_con_some : forall k cs c, find_constraint k cs = Some c -> In c cs /\ con_key c = k.
Proof. intros k cs c H. unfold find_constraint in H. apply find_some in H. destruct H as [H1 H2]. apply eqs_eq in H2. auto. Qed.
Lemma find_con_none : forall k cs, find_constraint k cs = None -> forall c, In c cs -> con_key c <> k.
Proof. intros k cs H c Hc F. unfold find_constraint in H. pose proof (find_none _ _ H c Hc) as E. cbn beta in E. apply eqs_eq in F. congruence. Qed.

(** Which constraints concern the key k. *)
Section ConKey.
Variable k : key.
Hypothesis Hk : conkey k.
Let selb := fun c => key_eqb (ckey d bn c) k.
Let sela := fun c => key_eqb (ckey d n c) k.
Let ob := find selb (ct_constraints tb).
Let oa := find sela (ct_constraints ta).

Lemma uniq_b : atmost1 selb (ct_constraints tb).
Proof. apply atmost1_key; [apply key_eqb_eq|]. apply nodup_ckey; assumption. Qed.
Lemma uniq_a : atmost1 sela (ct_constraints ta).
Proof. apply atmost1_key; [apply key_eqb_eq|]. apply nodup_ckey; assumption. Qed.

Lemma ob_some : forall b, ob = Some b -> In b (ct_constraints tb) /\ ckey d bn b = k.
Proof. intros b H. apply find_some in H. destruct H as [H1 H2]. apply key_eqb_eq in H2. auto. Qed.
Lemma oa_some : forall a, oa = Some a -> In a (ct_constraints ta) /\ ckey d n a = k.
Proof. intros a H. apply find_some in H. destruct H as [H1 H2]. apply key_eqb_eq in H2. auto. Qed.

(** The partner of the constraint of before is the constraint of after with the
    same catalogue key. *)
Lemma partner : forall b, ob = Some b -> find_constraint (con_key b) (ct_constraints ta) = oa.
Proof.
  intros b Hb. destruct (ob_some b Hb) as [Hin Hkey]. destruct (find_constraint (con_key b) (ct_constraints ta)) as [a|] eqn:F.
  - destruct (find_con_some _ _ _ F) as [Ha Hc]. destruct (po_cons _ _ _ OK b a Hin Ha (eq_sym Hc)) as [Hi _].
    symmetry. apply find_unique; [exact uniq_a|exact Ha|]. unfold sela. apply key_eqb_eq. rewrite <- Hkey.
    symmetry. apply ckey_eq; [exact Hi|symmetry; exact Hc].
  - destruct oa as [a|] eqn:Ea; [|reflexivity]. exfalso. destruct (oa_some a Ea) as [Ha Hka].
    apply (find_con_none _ _ F a Ha). symmetry. apply ckey_inj. congruence.
Qed.

Lemma noidx_b : forall c, In c (ct_constraints tb) -> d = Pg \/ d = Sp -> is_idx c = false.
Proof. intros c Hc H. apply (po_noidx _ _ _ OK H). left; exact Hc. Qed.
Lemma noidx_a : forall c, In c (ct_constraints ta) -> d = Pg \/ d = Sp -> is_idx c = false.
Proof. intros c Hc H. apply (po_noidx _ _ _ OK H). right; exact Hc. Qed.

Lemma mydrop_find : forall c, In c (ct_constraints tb) -> d = My -> is_idx c = true -> find_constraint (con_key c) (ct_constraints ta) <> None.
Proof. intros c Hc Hd Hi. destruct (po_mydrop _ _ _ OK Hd c Hc Hi) as [a [E _]]. rewrite E. discriminate. Qed.

Lemma drop_gone_eq : forall c, In c (ct_constraints tb) ->
  col_ops d (drop_gone_constraint d sdiff bn n (ct_constraints ta) c) =
  match find_constraint (con_key c) (ct_constraints ta) with Some _ => [] | None => (has_tab n c ++ [Del (ckey d bn c)])%list end.
Proof.
  intros c Hc. apply drop_gone_ops.
  - apply (named_in tb); assumption.
  - apply noidx_b; exact Hc.
  - apply mydrop_find; exact Hc.
  - exact names_eq.
Qed.

Lemma phase_drop : forall v, v = option_map (cval d n) ob ->
  at_key k (col_ops d (flat_map (drop_gone_constraint d sdiff bn n (ct_constraints ta)) (ct_constraints tb))) v
  = Some (match oa with None => None | Some _ => v end).
Proof.
  intros v Hv. rewrite col_ops_flat_map.
  rewrite (at_flat_unique (fun _ => True) _ _ selb).
  - fold ob. destruct ob as [b|] eqn:Eb.
    + destruct (ob_some b Eb) as [Hin Hkey]. rewrite drop_gone_eq by exact Hin. rewrite (partner b Eb).
      destruct oa as [a|]; [reflexivity|]. rewrite at_key_app, has_tab_con by exact Hk. rewrite Hkey. subst v.
      cbn [at_key eff option_map]. rewrite key_eqb_refl. reflexivity.
    + subst v. destruct oa; reflexivity.
  - intros c Hc Hs. rewrite drop_gone_eq by exact Hc. destruct (find_constraint (con_key c) (ct_constraints ta)); [apply idle_nil|].
    apply idle_app; [intros w _; apply has_tab_con; exact Hk|]. apply del_idle. unfold selb in Hs. apply key_eqb_neq in Hs. congruence.
  - exact uniq_b.
  - exact I.
  - intros; exact I.
Qed.

Lemma dflt_ok : forall b a, In b (ct_columns tb) -> In a (ct_columns ta) -> id_name (c_name b) = id_name (c_name a) -> c_default a <> Some None.
Proof. intros b a Hb Ha E. destruct (po_cols _ _ _ OK b a Hb Ha E) as [_ [_ [_ [H _]]]]. exact H. Qed.

Lemma phase_cols_con : forall v, v = (match oa with None => None | Some _ => option_map (cval d n) ob end) ->
  at_key k (col_ops d (diff_columns d sdiff n (ct_columns tb) (ct_columns ta))) v = Some v.
Proof.
  intros v Hv. apply (idle_of_ops (fun w => w = v)); [|reflexivity]. intros o Ho w Hw. subst w.
  destruct (diff_columns_ops d sdiff n _ _ o dflt_ok Ho) as [c [Hc Hdel]].
  apply (this_col_con T c o k v Hc Hk). intros e He. destruct v as [x|]; [|exact I].
  destruct oa as [a|] eqn:Ea; [|discriminate Hv]. destruct ob as [b|] eqn:Eb; [|discriminate Hv]. cbn in Hv. inversion Hv; subst x.
  destruct (ob_some b Eb) as [Hin Hkey]. rewrite <- Hkey, <- cval_name.
  destruct (Hdel T e He) as [cb [Hcb [Hn Hf]]]. assert (Ece : id_name (c_name cb) = e) by (rewrite He in Hc; inversion Hc; congruence).
  rewrite <- Ece. rewrite <- Hn in Hf. unfold T. rewrite <- names_eq. apply (po_keep _ _ _ OK cb b Hcb Hf Hin). rewrite (partner b Eb), Ea. discriminate.
Qed.

Lemma change_eq : forall c a, In c (ct_constraints tb) -> find_constraint (con_key c) (ct_constraints ta) = Some a ->
  col_ops d (change_constraint d sdiff nv bn n (ct_constraints ta) c) =
  (if neqs (constraint_diff d c) (constraint_diff d a)
   then (has_tab n c ++ [Del (ckey d bn c)]) ++ (has_tab n a ++ [Add (ckey d n a) (cval d n a)]) else [])%list.
Proof.
  intros c a Hc F. destruct (find_con_some _ _ _ F) as [Ha Hca]. apply change_ops.
  - apply (named_in tb); assumption.
  - apply (named_in ta); assumption.
  - apply noidx_a; exact Ha.
  - apply (po_cons _ _ _ OK c a Hc Ha (eq_sym Hca)).
  - exact F.
  - intros Hd Hi. destruct (po_mydrop _ _ _ OK Hd c Hc Hi) as [a' [E1 E2]]. rewrite E1 in F. inversion F; subst. exact E2.
  - exact names_eq.
Qed.

Lemma change_none : forall c, find_constraint (con_key c) (ct_constraints ta) = None ->
  col_ops d (change_constraint d sdiff nv bn n (ct_constraints ta) c) = [].
Proof. intros c H. unfold change_constraint. rewrite H. reflexivity. Qed.

Lemma phase_change : forall v, v = (match oa with None => None | Some _ => option_map (cval d n) ob end) ->
  at_key k (col_ops d (flat_map (change_constraint d sdiff nv bn n (ct_constraints ta)) (ct_constraints tb))) v
  = Some (match ob, oa with Some _, Some a => Some (cval d n a) | _, _ => None end).
Proof.
  intros v Hv. rewrite col_ops_flat_map.
  rewrite (at_flat_unique (fun _ => True) _ _ selb).
  - fold ob. destruct ob as [b|] eqn:Eb.
    + destruct (ob_some b Eb) as [Hin Hkey]. pose proof (partner b Eb) as Hp. destruct oa as [a|] eqn:Ea.
      * rewrite (change_eq b a Hin Hp). destruct (oa_some a Ea) as [Ha Hka]. cbn [option_map] in Hv. subst v.
        destruct (find_con_some _ _ _ Hp) as [_ Hca].
        destruct (neqs _ _) eqn:En.
        -- rewrite !at_key_app, !has_tab_con by exact Hk. rewrite Hkey, Hka. cbn [at_key eff]. rewrite key_eqb_refl. cbn [present].
           rewrite at_key_app, has_tab_con by exact Hk. cbn [at_key eff]. rewrite key_eqb_refl. reflexivity.
        -- apply neqs_false in En. destruct (po_cons _ _ _ OK b a Hin Ha (eq_sym Hca)) as [_ Hv]. specialize (Hv En).
           fold bn n in Hv. rewrite <- Hv, cval_name. reflexivity.
      * rewrite change_none by exact Hp. subst v. reflexivity.
    + subst v. destruct oa; reflexivity.
  - intros c Hc Hs. destruct (find_constraint (con_key c) (ct_constraints ta)) as [a|] eqn:F.
    + rewrite (change_eq c a Hc F). destruct (neqs _ _); [|apply idle_nil].
      destruct (find_con_some _ _ _ F) as [Ha Hca]. destruct (po_cons _ _ _ OK c a Hc Ha (eq_sym Hca)) as [Hi _].
      pose proof (ckey_eq c a Hi (eq_sym Hca)) as Hke. unfold selb in Hs. apply key_eqb_neq in Hs.
      apply idle_app; (apply idle_app; [intros w _; apply has_tab_con; exact Hk|]).
      * apply del_idle; congruence.
      * apply add_idle; congruence.
    + rewrite change_none by exact F. apply idle_nil.
  - exact uniq_b.
  - exact I.
  - intros; exact I.
Qed.

Variable added : list constraint.
Hypothesis Hadded : Permutation added
  (filter (fun c => match find_constraint (con_key c) (ct_constraints tb) with None => true | Some _ => false end) (ct_constraints ta)).

Lemma added_in : forall c, In c added <-> In c (ct_constraints ta) /\ find_constraint (con_key c) (ct_constraints tb) = None.
Proof.
  intros c. split; intro H.
  - apply (Permutation_in _ Hadded) in H. apply filter_In in H. destruct H as [H1 H2]. split; [exact H1|].
    destruct (find_constraint (con_key c) (ct_constraints tb)); [discriminate|reflexivity].
  - apply (Permutation_in _ (Permutation_sym Hadded)). apply filter_In. destruct H as [H1 H2]. rewrite H2. auto.
Qed.

Lemma nodup_filter_map : forall A B (f : A -> B) (g : A -> bool) l, NoDup (map f l) -> NoDup (map f (filter g l)).
Proof.
  intros A B f g l. induction l as [|x r IH]; intro H; [constructor|]. cbn [map] in H. inversion H as [|? ? H1 H2]; subst.
  cbn [filter]. destruct (g x); [|apply IH; exact H2]. cbn [map]. constructor; [|apply IH; exact H2].
  intro F. apply H1. apply in_map_iff in F. destruct F as [y [E F]]. apply filter_In in F. apply in_map_iff. exists y. tauto.
Qed.

Lemma uniq_added : atmost1 sela added.
Proof.
  apply atmost1_key; [apply key_eqb_eq|].
  apply (Permutation_NoDup (Permutation_map (ckey d n) (Permutation_sym Hadded))). apply nodup_filter_map. apply nodup_ckey; assumption.
Qed.

Lemma find_added : find sela added = match ob, oa with None, Some a => Some a | _, _ => None end.
Proof.
  destruct oa as [a|] eqn:Ea.
  - destruct (oa_some a Ea) as [Ha Hka]. destruct ob as [b|] eqn:Eb.
    + apply find_none_iff. intros c Hc. apply added_in in Hc. destruct Hc as [Hc1 Hc2].
      destruct (sela c) eqn:Es; [|reflexivity]. exfalso.
      assert (c = a).
      { pose proof (find_unique _ sela _ c uniq_a Hc1 Es) as H1. unfold oa in Ea. congruence. }
      subst c. destruct (ob_some b Eb) as [Hin Hkey]. pose proof (partner b Eb) as Hp. rewrite Ea in Hp. destruct (find_con_some _ _ _ Hp) as [_ Hca].
      apply (find_con_none _ _ Hc2 b Hin). symmetry. exact Hca.
    + apply find_unique; [exact uniq_added| |unfold sela; apply key_eqb_eq; exact Hka].
      apply added_in. split; [exact Ha|]. destruct (find_constraint (con_key a) (ct_constraints tb)) as [b|] eqn:F; [|reflexivity].
      exfalso. destruct (find_con_some _ _ _ F) as [Hb Hcb]. destruct (po_cons _ _ _ OK b a Hb Ha Hcb) as [Hi _].
      unfold ob in Eb. pose proof (proj1 (find_none_iff _ _ _) Eb b Hb) as E. unfold selb in E. apply key_eqb_neq in E.
      apply E. rewrite <- Hka. apply ckey_eq; assumption.
  - replace (match ob with Some _ => None | None => @None constraint end) with (@None constraint) by (destruct ob; reflexivity).
    apply find_none_iff. intros c Hc. apply added_in in Hc. apply (proj1 (find_none_iff _ _ _) Ea). tauto.
Qed.

Lemma add_eq : forall c, In c (ct_constraints ta) ->
  col_ops d [add_constraint d sdiff nv n c] = (has_tab n c ++ [Add (ckey d n c) (cval d n c)])%list.
Proof. intros c Hc. apply add_constraint_ops; [apply (named_in ta); assumption|apply noidx_a; exact Hc]. Qed.

Lemma phase_add : forall v, v = (match ob, oa with Some _, Some a => Some (cval d n a) | _, _ => None end) ->
  at_key k (col_ops d (map (add_constraint d sdiff nv n) added)) v = Some (option_map (cval d n) oa).
Proof.
  intros v Hv. rewrite col_ops_map. rewrite (at_flat_unique (fun _ => True) _ _ sela).
  - rewrite find_added. destruct ob as [b|] eqn:Eb, oa as [a|] eqn:Ea; subst v; cbn [option_map]; try reflexivity.
    destruct (oa_some a Ea) as [Ha Hka]. rewrite add_eq by exact Ha. rewrite at_key_app, has_tab_con by exact Hk.
    rewrite Hka. cbn [at_key eff]. rewrite key_eqb_refl. reflexivity.
  - intros c Hc Hs. apply added_in in Hc. rewrite add_eq by tauto. apply idle_app; [intros w _; apply has_tab_con; exact Hk|].
    apply add_idle. unfold sela in Hs. apply key_eqb_neq in Hs. congruence.
  - exact uniq_added.
  - exact I.
  - intros; exact I.
Qed.

End ConKey.

(** ** Columns *)
Lemma find_col_some : forall c cols x, find_column c cols = Some x -> In x cols /\ id_name (c_name x) = c.
Proof. intros c cols x H. unfold find_column in H. apply find_some in H. destruct H as [H1 H2]. apply eqs_eq in H2. auto. Qed.

Lemma uniq_col : forall c cols, NoDup (map (fun x => id_name (c_name x)) cols) ->
  atmost1 (fun x => eqs (id_name (c_name x)) c) cols.
Proof.
  intros c cols H. apply (atmost1_key _ _ eqs (fun x => id_name (c_name x)) c cols); [|exact H]. intros. apply eqs_eq.
Qed.

Lemma phase_columns : forall c,
  at_key (KCol T c) (col_ops d (diff_columns d sdiff n (ct_columns tb) (ct_columns ta)))
    (option_map (fun x => VCol (sem_col d x)) (find_column c (ct_columns tb)))
  = Some (option_map (fun x => VCol (sem_col d x)) (find_column c (ct_columns ta))).
Proof.
  intros c. unfold diff_columns. rewrite at_col_app, col_ops_flat_map.
  rewrite (at_flat_unique (fun _ => True) _ _ (fun x => eqs (id_name (c_name x)) c)).
  - fold (find_column c (ct_columns tb)). destruct (find_column c (ct_columns tb)) as [b|] eqn:Eb.
    + destruct (find_col_some _ _ _ Eb) as [Hb Hbc]. unfold diff_before_column. rewrite Hbc.
      assert (Hidle : forall v, at_key (KCol T c) (col_ops d (map (add_column d sdiff n) (only_left_columns (ct_columns ta) (ct_columns tb)))) v = Some v).
      { intro v. rewrite col_ops_map. apply (idle_flat_map (fun _ => True)); [|exact I]. intros a Ha.
        unfold only_left_columns in Ha. apply filter_In in Ha. destruct Ha as [Ha Hf].
        apply idle_of_ops. intros o Ho w _. destruct (add_col_ops_this d sdiff n a o Ho) as [H1 _].
        apply (this_col_other T (id_name (c_name a)) o); [exact H1|discriminate| |intro F; exact F].
        intro F. inversion F as [F1]. rewrite <- F1, Eb in Hf. discriminate Hf. }
      destruct (find_column c (ct_columns ta)) as [a|] eqn:Ea.
      * destruct (find_col_some _ _ _ Ea) as [Ha Hac].
        pose proof (po_cols _ _ _ OK b a Hb Ha (eq_trans Hbc (eq_sym Hac))) as Hagree.
        pose proof (common_column_sound d sdiff n b a c Hagree Hbc Hac) as Hcom. fold T in Hcom.
        cbn [option_map]. rewrite Hcom. apply Hidle.
      * rewrite <- Hbc in Ea. rewrite (po_hidden _ _ _ OK b Hb Ea). cbn [option_map].
        replace (at_key (KCol T c) (col_ops d [AlterTable (sdiff (column_string d b) "") n (DropColumn (c_name b))]) (Some (VCol (sem_col d b))))
          with (Some (@None value)).
        -- apply Hidle.
        -- cbn. rewrite Hbc. unfold T. rewrite !String.eqb_refl. reflexivity.
    + cbn [option_map]. rewrite col_ops_map.
      rewrite (at_flat_unique (fun _ => True) _ _ (fun x => eqs (id_name (c_name x)) c)).
      * assert (Ef : find (fun x => eqs (id_name (c_name x)) c) (only_left_columns (ct_columns ta) (ct_columns tb)) = find_column c (ct_columns ta)).
        { unfold only_left_columns, find_column at 2. clear - Eb. induction (ct_columns ta) as [|x r IH]; [reflexivity|].
          cbn [filter find]. destruct (eqs (id_name (c_name x)) c) eqn:Ex.
          - apply eqs_eq in Ex. rewrite Ex, Eb. cbn [find]. rewrite Ex, eqs_refl. reflexivity.
          - destruct (find_column (id_name (c_name x)) (ct_columns tb)); [exact IH|]. cbn [find]. rewrite Ex. exact IH. }
        rewrite Ef. destruct (find_column c (ct_columns ta)) as [a|] eqn:Ea; [|reflexivity].
        destruct (find_col_some _ _ _ Ea) as [Ha Hac]. cbn. rewrite Hac. unfold T. rewrite !String.eqb_refl. reflexivity.
      * intros a Ha Hs. apply idle_of_ops. intros o Ho w _. destruct (add_col_ops_this d sdiff n a o Ho) as [H1 _].
        apply (this_col_other T (id_name (c_name a)) o); [exact H1|discriminate| |intro F; exact F].
        intro F. inversion F as [F1]. rewrite F1, eqs_refl in Hs. discriminate.
      * apply uniq_col. apply nodup_filter_map. apply nodup_cols. exact Da.
      * exact I.
      * intros; exact I.
  - intros b Hb Hs. apply idle_of_ops. intros o Ho w _.
    destruct (before_col_ops d sdiff n (ct_columns ta) b o (fun a Ha => dflt_ok b a Hb Ha) Ho) as [H1 _].
    apply (this_col_other T (id_name (c_name b)) o); [exact H1|discriminate| |intro F; exact F].
    intro F. inversion F as [F1]. rewrite F1, eqs_refl in Hs. discriminate.
  - apply uniq_col. apply nodup_cols. exact Db.
  - exact I.
  - intros; exact I.
Qed.

(** ** Table options and row deletion policy *)
Lemma option_ops : forall o, In o (col_ops d (diff_table_options d sdiff n (ct_options tb) (ct_options ta))) ->
  o = Has (KTab T) \/ exists x v, o = Put (KOpt T x) v.
Proof.
  intros o Ho. unfold diff_table_options in Ho. destruct d eqn:Ed; try contradiction Ho.
  unfold col_ops in Ho. apply in_flat_map in Ho. destruct Ho as [s [Hs Ho]]. apply in_app_or in Hs. destruct Hs as [Hs|Hs].
  - apply in_flat_map in Hs. destruct Hs as [b [Hb Hs]]. destruct (is_auto_increment b); [destruct Hs|].
    destruct (find_option (o_name b) (ct_options ta)) as [a|]; [|destruct Hs]. destruct (neqs _ _); [|destruct Hs].
    destruct Hs as [Hs|[]]. subst s. cbn in Ho. destruct Ho as [Ho|[Ho|[]]]; [left; symmetry; exact Ho|right; do 2 eexists; symmetry; exact Ho].
  - apply in_map_iff in Hs. destruct Hs as [a [Hs _]]. subst s. cbn in Ho.
    destruct Ho as [Ho|[Ho|[]]]; [left; symmetry; exact Ho|right; do 2 eexists; symmetry; exact Ho].
Qed.

Lemma row_ops : forall o, In o (col_ops d (diff_row_deletion d sdiff n (ct_rowdel tb) (ct_rowdel ta))) ->
  o = Has (KTab T) \/ o = Del (KRow T) \/ (exists v, o = Add (KRow T) v) \/ (exists f, o = Upd (KRow T) f).
Proof.
  intros o Ho. unfold diff_row_deletion in Ho. destruct d eqn:Ed; try contradiction Ho.
  destruct (neqs _ _); [|destruct Ho]. destruct (ct_rowdel tb), (ct_rowdel ta); cbn in Ho; try contradiction Ho;
  destruct Ho as [Ho|[Ho|[]]]; subst o; eauto 6.
Qed.

Lemma find_opt_some : forall c os x, find_option c os = Some x -> In x os /\ o_name x = c.
Proof. intros c cols x H. unfold find_option in H. apply find_some in H. destruct H as [H1 H2]. apply eqs_eq in H2. auto. Qed.

Lemma uniq_opt : forall c os, NoDup (map o_name os) -> atmost1 (fun x => eqs (o_name x) c) os.
Proof. intros c os H. apply (atmost1_key _ _ eqs o_name c os); [|exact H]. intros. apply eqs_eq. Qed.

Lemma counter_find : forall o os, (forall x, In x os -> is_auto_increment x = counter_option x) ->
  find (fun x => eqs (o_name x) o && negb (counter_option x)) os =
  if String.eqb o "AUTO_INCREMENT" then None else find_option o os.
Proof.
  intros o os _. unfold find_option, counter_option. induction os as [|x r IH]; cbn [find].
  - destruct (String.eqb o "AUTO_INCREMENT"); reflexivity.
  - destruct (eqs (o_name x) o) eqn:E; [|exact IH]. apply eqs_eq in E. rewrite E. cbn [andb].
    destruct (String.eqb o "AUTO_INCREMENT"); [exact IH|reflexivity].
Qed.

Lemma put_opt : forall cm x v o w, at_key (KOpt T o) (col_ops d [AlterTable cm n (TableOption x v)]) w =
  Some (if eqs x o then Some (VOpt (etoks v)) else w).
Proof.
  intros cm x v o w. cbn. fold T. rewrite String.eqb_refl. cbn [andb]. unfold eqs. destruct (String.eqb x o); reflexivity.
Qed.

Lemma phase_options_my : d = My -> forall o,
  at_key (KOpt T o) (col_ops d (diff_table_options d sdiff n (ct_options tb) (ct_options ta)))
    (option_map (fun x => VOpt (etoks (o_value x))) (find (fun x => eqs (o_name x) o && negb (counter_option x)) (ct_options tb)))
  = Some (option_map (fun x => VOpt (etoks (o_value x))) (find (fun x => eqs (o_name x) o && negb (counter_option x)) (ct_options ta))).
Proof.
  intros Hd o. pose proof (po_opts _ _ _ OK) as H. rewrite Hd in H. destruct H as [Hnb [Hna [Hci [Hgone Heq]]]].
  rewrite !counter_find by (intros x Hx; apply Hci; auto).
  set (g1 := fun b => if is_auto_increment b then [] else match find_option (o_name b) (ct_options ta) with
     | Some a => if neqs (option_diff d b) (option_diff d a) then [AlterTable (sdiff (option_string d b) (option_string d a)) n (TableOption (o_name a) (o_value a))] else []
     | None => [] end).
  set (g2 := fun a => AlterTable (sdiff "" (option_string d a)) n (TableOption (o_name a) (o_value a))).
  set (f1 := fun b => col_ops d (g1 b)). set (f2 := fun a => col_ops d [g2 a]).
  assert (Eo : diff_table_options d sdiff n (ct_options tb) (ct_options ta) =
    (flat_map g1 (ct_options tb) ++ map g2 (filter (fun a => negb (is_auto_increment a)) (only_left_options (ct_options ta) (ct_options tb))))%list).
  { unfold diff_table_options, g1, g2. rewrite Hd. reflexivity. }
  rewrite Eo, at_col_app, col_ops_flat_map, col_ops_map. fold f1 f2.
  set (L := filter (fun a => negb (is_auto_increment a)) (only_left_options (ct_options ta) (ct_options tb))).
  assert (Hf1 : forall b, In b (ct_options tb) -> eqs (o_name b) o = false -> idle (fun _ => True) (KOpt T o) (f1 b)).
  { intros b Hb Hs v _. unfold f1, g1. destruct (is_auto_increment b); [reflexivity|].
    destruct (find_option (o_name b) (ct_options ta)) as [a|] eqn:F; [|reflexivity]. destruct (neqs _ _); [|reflexivity].
    destruct (find_opt_some _ _ _ F) as [_ Hn]. rewrite put_opt, Hn, Hs. reflexivity. }
  assert (Hf2 : forall a, In a L -> eqs (o_name a) o = false -> idle (fun _ => True) (KOpt T o) (f2 a)).
  { intros a Ha Hs v _. unfold f2, g2. rewrite put_opt, Hs. reflexivity. }
  assert (HL : NoDup (map o_name L)).
  { unfold L, only_left_options. apply nodup_filter_map, nodup_filter_map. exact Hna. }
  rewrite (at_flat_unique (fun _ => True) _ f1 (fun x => eqs (o_name x) o)); [|exact Hf1|apply uniq_opt; exact Hnb|exact I|intros; exact I].
  fold (find_option o (ct_options tb)).
  assert (E2 : forall v, at_key (KOpt T o) (flat_map f2 L) v =
     match find (fun x => eqs (o_name x) o) L with Some a => Some (Some (VOpt (etoks (o_value a)))) | None => Some v end).
  { intro v. rewrite (at_flat_unique (fun _ => True) _ f2 (fun x => eqs (o_name x) o)); [|exact Hf2|apply uniq_opt; exact HL|exact I|intros; exact I].
    destruct (find _ L) as [a|] eqn:F; [|reflexivity]. apply find_some in F. destruct F as [_ F]. unfold f2, g2. rewrite put_opt, F. reflexivity. }
  assert (HLf : find (fun x => eqs (o_name x) o) L =
     if String.eqb o "AUTO_INCREMENT" then None else match find_option o (ct_options tb) with Some _ => None | None => find_option o (ct_options ta) end).
  { unfold L, only_left_options. assert (Hci' : forall x, In x (ct_options ta) -> is_auto_increment x = counter_option x) by (intros; apply Hci; auto).
    clear - Hci'. unfold find_option at 3. induction (ct_options ta) as [|x r IH].
    - cbn. destruct (String.eqb o "AUTO_INCREMENT"), (find_option o (ct_options tb)); reflexivity.
    - specialize (IH (fun y Hy => Hci' y (or_intror Hy))). pose proof (Hci' x (or_introl eq_refl)) as Hx. cbn [filter find].
      destruct (eqs (o_name x) o) eqn:E.
      + apply eqs_eq in E. unfold counter_option in Hx. rewrite E in Hx |- *. destruct (find_option o (ct_options tb)) eqn:F.
        * rewrite IH. reflexivity.
        * cbn [filter]. rewrite Hx. destruct (String.eqb o "AUTO_INCREMENT"); cbn [negb]; [exact IH|].
          cbn [find]. rewrite E, eqs_refl. reflexivity.
      + destruct (find_option (o_name x) (ct_options tb)); [exact IH|]. cbn [filter]. destruct (negb (is_auto_increment x)); [|exact IH].
        cbn [find]. rewrite E. exact IH. }
  destruct (find_option o (ct_options tb)) as [b|] eqn:Eb.
  - destruct (find_opt_some _ _ _ Eb) as [Hb Hbo]. unfold f1, g1. rewrite (Hci b (or_introl Hb)). unfold counter_option. rewrite Hbo.
    destruct (String.eqb o "AUTO_INCREMENT") eqn:Ec.
    + cbn [col_ops flat_map at_key option_map]. rewrite E2, HLf. reflexivity.
    + destruct (find_option o (ct_options ta)) as [a|] eqn:Ea.
      * destruct (find_opt_some _ _ _ Ea) as [Ha Hao]. destruct (neqs _ _) eqn:En.
        -- rewrite put_opt, Hao, eqs_refl, E2, HLf. reflexivity.
        -- cbn [col_ops flat_map at_key option_map]. rewrite E2, HLf. apply neqs_false in En. rewrite Hd in En. do 3 f_equal.
           apply (Heq b a Hb Ha); [congruence|exact En].
      * exfalso. apply (Hgone b Hb); [unfold counter_option; rewrite Hbo; exact Ec|]. rewrite Hbo. exact Ea.
  - rewrite E2, HLf. destruct (String.eqb o "AUTO_INCREMENT"); [reflexivity|]. cbn [option_map].
    destruct (find_option o (ct_options ta)); reflexivity.
Qed.

Lemma phase_row_sp : d = Sp ->
  at_key (KRow T) (col_ops d (diff_row_deletion d sdiff n (ct_rowdel tb) (ct_rowdel ta)))
    (option_map (fun x => VRow (etoks (o_value x))) (ct_rowdel tb))
  = Some (option_map (fun x => VRow (etoks (o_value x))) (ct_rowdel ta)).
Proof.
  intros Hd. pose proof (po_row _ _ _ OK) as H. rewrite Hd in *. unfold diff_row_deletion. destruct (neqs _ _) eqn:E.
  - clear H. destruct (ct_rowdel tb) as [b|], (ct_rowdel ta) as [a|]; cbn; fold T; rewrite ?String.eqb_refl; reflexivity.
  - apply neqs_false in E. specialize (H E). destruct (ct_rowdel tb) as [b|], (ct_rowdel ta) as [a|]; cbn in *; inversion H; reflexivity.
Qed.

(** ** All phases *)
Lemma forallb_named : forall t, all_con_named t = true -> forallb named (ct_constraints t) = true.
Proof. intros t H. exact H. Qed.

Definition phases (added : list constraint) : list stmt :=
  (flat_map (drop_gone_constraint d sdiff bn n (ct_constraints ta)) (ct_constraints tb)
   ++ diff_columns d sdiff n (ct_columns tb) (ct_columns ta)
   ++ flat_map (change_constraint d sdiff nv bn n (ct_constraints ta)) (ct_constraints tb)
   ++ map (add_constraint d sdiff nv n) added
   ++ diff_table_options d sdiff n (ct_options tb) (ct_options ta)
   ++ diff_row_deletion d sdiff n (ct_rowdel tb) (ct_rowdel ta))%list.

Lemma diff_tables_phases : exists added,
  diff_tables d srt sdiff nv tb ta = Ok (phases added) /\
  Permutation added (filter (fun c => match find_constraint (con_key c) (ct_constraints tb) with None => true | Some _ => false end)
                            (ct_constraints ta)).
Proof.
  unfold diff_tables, only_left_constraints.
  set (L := filter _ (ct_constraints ta)).
  destruct (append_all d srt Hsrt L []) as [added [E P]].
  - cbn [app]. unfold L. rewrite forallb_forall. intros c Hc. apply filter_In in Hc. destruct Hc as [Hc _].
    pose proof (forallb_named ta Na) as H. rewrite forallb_forall in H. apply H. exact Hc.
  - cbn [app]. unfold L. apply nodup_filter_map. exact (po_nodup_a _ _ _ OK).
  - exists added. rewrite E. cbn [bind]. fold bn n. rewrite final_is_after, no_rename_stmt. split; [reflexivity|exact P].
Qed.

Lemma options_idle : forall k v, (k = KTab T -> present v = true) -> (forall o, k <> KOpt T o) ->
  at_key k (col_ops d (diff_table_options d sdiff n (ct_options tb) (ct_options ta))) v = Some v.
Proof.
  intros k v Hk Ho. apply (idle_of_ops (fun w => w = v)); [|reflexivity]. intros o Hin w Hw. subst w.
  destruct (option_ops o Hin) as [E|[x [y E]]]; subst o; cbn [eff].
  - destruct (key_eqb (KTab T) k) eqn:Ek; [|reflexivity]. apply key_eqb_eq in Ek. rewrite (Hk (eq_sym Ek)). reflexivity.
  - replace (key_eqb (KOpt T x) k) with false; [reflexivity|]. symmetry. apply key_eqb_neq. intro F. apply (Ho x). congruence.
Qed.
Lemma row_idle : forall k v, (k = KTab T -> present v = true) -> k <> KRow T ->
  at_key k (col_ops d (diff_row_deletion d sdiff n (ct_rowdel tb) (ct_rowdel ta))) v = Some v.
Proof.
  intros k v Hk Ho. apply (idle_of_ops (fun w => w = v)); [|reflexivity]. intros o Hin w Hw. subst w.
  assert (Er : key_eqb (KRow T) k = false) by (apply key_eqb_neq; congruence).
  destruct (row_ops o Hin) as [E|[E|[[x E]|[f E]]]]; subst o; cbn [eff]; rewrite ?Er; try reflexivity.
  destruct (key_eqb (KTab T) k) eqn:Ek; [|reflexivity]. apply key_eqb_eq in Ek. rewrite (Hk (eq_sym Ek)). reflexivity.
Qed.

(** Constraint phases leave keys alone that are not keys of constraints. *)
Lemma con_idle_drop : forall k v, (k = KTab T -> present v = true) ->
  (forall c, In c (ct_constraints tb) -> ckey d bn c <> k) ->
  at_key k (col_ops d (flat_map (drop_gone_constraint d sdiff bn n (ct_constraints ta)) (ct_constraints tb))) v = Some v.
Proof.
  intros k v Ht Hk. rewrite col_ops_flat_map. apply (idle_flat_map (fun w => w = v)); [|reflexivity].
  intros c Hc. rewrite drop_gone_eq by exact Hc. destruct (find_constraint _ _); [apply idle_nil|].
  apply idle_app; [|apply del_idle; intro F; apply (Hk c Hc); congruence].
  apply has_tab_idle. intros E w Hw. subst w. apply Ht. exact E.
Qed.
Lemma con_idle_change : forall k v, (k = KTab T -> present v = true) ->
  (forall c, In c (ct_constraints tb) -> ckey d bn c <> k) ->
  (forall c, In c (ct_constraints ta) -> ckey d n c <> k) ->
  at_key k (col_ops d (flat_map (change_constraint d sdiff nv bn n (ct_constraints ta)) (ct_constraints tb))) v = Some v.
Proof.
  intros k v Ht Hk Hk2. rewrite col_ops_flat_map. apply (idle_flat_map (fun w => w = v)); [|reflexivity].
  intros c Hc. destruct (find_constraint (con_key c) (ct_constraints ta)) as [a|] eqn:F.
  - rewrite (change_eq k c a Hc F). destruct (neqs _ _); [|apply idle_nil]. destruct (find_con_some _ _ _ F) as [Ha _].
    apply idle_app; (apply idle_app; [apply has_tab_idle; intros E w Hw; subst w; apply Ht; exact E|]).
    + apply del_idle; intro E; apply (Hk c Hc); congruence.
    + apply add_idle; intro E; apply (Hk2 a Ha); congruence.
  - rewrite change_none by exact F. apply idle_nil.
Qed.
Lemma con_idle_add : forall k v added, (k = KTab T -> present v = true) ->
  (forall c, In c added -> In c (ct_constraints ta)) ->
  (forall c, In c (ct_constraints ta) -> ckey d n c <> k) ->
  at_key k (col_ops d (map (add_constraint d sdiff nv n) added)) v = Some v.
Proof.
  intros k v added Ht Hin Hk. rewrite col_ops_map. apply (idle_flat_map (fun w => w = v)); [|reflexivity].
  intros c Hc. rewrite add_eq by (apply Hin; exact Hc). apply idle_app; [apply has_tab_idle; intros E w Hw; subst w; apply Ht; exact E|].
  apply add_idle; intro E; apply (Hk c (Hin c Hc)); congruence.
Qed.
Lemma cols_idle : forall k v, (k = KTab T -> present v = true /\ v = Some VTab) -> (forall c, k <> KCol T c) ->
  (forall c x, In c (ct_columns tb) -> find_column (id_name (c_name c)) (ct_columns ta) = None ->
     v = Some x -> involves T (id_name (c_name c)) k x = false) ->
  at_key k (col_ops d (diff_columns d sdiff n (ct_columns tb) (ct_columns ta))) v = Some v.
Proof.
  intros k v Ht Hc Hi. apply (idle_of_ops (fun w => w = v)); [|reflexivity]. intros o Ho w Hw. subst w.
  destruct (diff_columns_ops d sdiff n _ _ o dflt_ok Ho) as [c [Hcop Hdel]]. fold T in Hcop.
  destruct (key_dec k (KTab T)) as [E|E].
  - destruct (Ht E) as [H1 H2]. subst k. apply (this_col_tab T c o v Hcop H1). intros x Hx. congruence.
  - destruct Hcop as [|f|y|]; cbn [eff].
    + replace (key_eqb (KTab T) k) with false; [reflexivity|]. symmetry. apply key_eqb_neq. congruence.
    + replace (key_eqb (KCol T c) k) with false; [reflexivity|]. symmetry. apply key_eqb_neq. intro F. apply (Hc c). congruence.
    + replace (key_eqb (KCol T c) k) with false; [reflexivity|]. symmetry. apply key_eqb_neq. intro F. apply (Hc c). congruence.
    + replace (key_eqb (KCol T c) k) with false by (symmetry; apply key_eqb_neq; intro F; apply (Hc c); congruence).
      destruct v as [x|]; [|reflexivity]. cbn [unless]. destruct (Hdel T c eq_refl) as [b [Hb [En Ef]]].
      rewrite <- En in Ef |- *. rewrite (Hi b x Hb Ef eq_refl). reflexivity.
Qed.

(** Keys that are not of this table: nothing happens (unless a dropped column is involved). *)
Lemma phases_frame : forall added k v, 
  (forall c, In c added -> In c (ct_constraints ta)) ->
  owner k <> Some T ->
  (forall c, In c (ct_constraints tb) -> ckey d bn c <> k) ->
  (forall c, In c (ct_constraints ta) -> ckey d n c <> k) ->
  (forall c x, In c (ct_columns tb) -> find_column (id_name (c_name c)) (ct_columns ta) = None ->
     v = Some x -> involves T (id_name (c_name c)) k x = false) ->
  at_key k (col_ops d (phases added)) v = Some v.
Proof.
  intros added k v Hadd Ho Hb Ha Hi.
  assert (Ht : k <> KTab T) by (intro F; subst k; apply Ho; reflexivity).
  assert (Ht' : k = KTab T -> present v = true) by (intro F; contradiction).
  unfold phases. rewrite at_col_app, con_idle_drop by assumption.
  rewrite at_col_app, cols_idle; [|intro F; contradiction|intros c F; subst k; apply Ho; reflexivity|exact Hi].
  rewrite at_col_app, con_idle_change by assumption.
  rewrite at_col_app, con_idle_add by assumption.
  rewrite at_col_app, options_idle; [|exact Ht'|intros o F; subst k; apply Ho; reflexivity].
  apply row_idle; [exact Ht'|intro F; subst k; apply Ho; reflexivity].
Qed.

Lemma added_subset : forall added, Permutation added
  (filter (fun c => match find_constraint (con_key c) (ct_constraints tb) with None => true | Some _ => false end) (ct_constraints ta)) ->
  forall c, In c added -> In c (ct_constraints ta).
Proof. intros added P c H. apply (Permutation_in _ P) in H. apply filter_In in H. tauto. Qed.

(** Keys of this table: from the entries of before to the entries of after. *)
Lemma phases_sound : forall added k,
  (d = Sp -> options_diff d (ct_options tb) = options_diff d (ct_options ta)) ->
  Permutation added
  (filter (fun c => match find_constraint (con_key c) (ct_constraints tb) with None => true | Some _ => false end) (ct_constraints ta)) ->
  owner k = Some T \/ (exists c, In c (ct_constraints tb) /\ ckey d bn c = k) \/ (exists c, In c (ct_constraints ta) /\ ckey d n c = k) ->
  at_key k (col_ops d (phases added)) (assoc_key k (table_entries d tb)) = Some (assoc_key k (table_entries d ta)).
Proof.
  intros added k Hsp Hadded Hhome. pose proof (added_subset added Hadded) as Hsub.
  assert (Hcon : conkey k -> at_key k (col_ops d (phases added)) (assoc_key k (table_entries d tb)) = Some (assoc_key k (table_entries d ta))).
  { intro Hk. rewrite !assoc_table_con by assumption. fold bn n.
    assert (Ecv : forall o, option_map (cval d bn) o = option_map (cval d n) o) by (intros [c|]; cbn [option_map]; [rewrite cval_name|]; reflexivity).
    rewrite Ecv. unfold phases. rewrite at_col_app, (phase_drop k Hk) by reflexivity.
    rewrite at_col_app, (phase_cols_con k Hk) by reflexivity.
    rewrite at_col_app, (phase_change k Hk) by reflexivity.
    rewrite at_col_app, (phase_add k Hk added Hadded) by reflexivity.
    rewrite at_col_app, options_idle; [|intro F; subst k; contradiction|intros o F; subst k; contradiction].
    apply row_idle; [intro F; subst k; contradiction|intro F; subst k; contradiction]. }
  destruct (owner k) as [u|] eqn:Eo.
  2:{ apply Hcon. destruct k; try discriminate Eo. exact I. }
  assert (Eu : u = T).
  { destruct Hhome as [H|[[c [_ H]]|[c [_ H]]]].
    - congruence.
    - subst k. unfold ckey in Eo. destruct (is_idx c); [discriminate Eo|]. injection Eo as Eo. rewrite <- Eo. exact names_eq.
    - subst k. unfold ckey in Eo. destruct (is_idx c); [discriminate Eo|]. injection Eo as Eo. rewrite <- Eo. reflexivity. }
  subst u.
  assert (Hnc : forall c, ckey d bn c = k \/ ckey d n c = k -> conkey k).
  { intros c [H|H]; rewrite <- H; apply ckey_conkey. }
  assert (Hother : ~ conkey k -> (forall c, In c (ct_constraints tb) -> ckey d bn c <> k) /\ (forall c, In c (ct_constraints ta) -> ckey d n c <> k)).
  { intro H. split; intros c _ F; apply H; apply (Hnc c); auto. }
  destruct k as [t|t c|t c|t o|t|i]; cbn in Eo; try (inversion Eo; subst t).
  - (* KTab *)
    destruct (Hother (fun F => F)) as [H1 H2].
    assert (E1 : assoc_key (KTab T) (table_entries d tb) = Some VTab).
    { unfold table_entries. cbn [assoc_key]. unfold T. fold bn. rewrite <- names_eq, key_eqb_refl. reflexivity. }
    assert (E2 : assoc_key (KTab T) (table_entries d ta) = Some VTab).
    { unfold table_entries. cbn [assoc_key]. unfold T. fold n. rewrite key_eqb_refl. reflexivity. }
    rewrite E1, E2. unfold phases. rewrite at_col_app, con_idle_drop; [|reflexivity|exact H1].
    rewrite at_col_app, cols_idle; [|split; reflexivity|discriminate|reflexivity].
    rewrite at_col_app, con_idle_change; [|reflexivity|exact H1|exact H2].
    rewrite at_col_app, con_idle_add; [|reflexivity|exact Hsub|exact H2].
    rewrite at_col_app, options_idle; [|reflexivity|discriminate].
    apply row_idle; [reflexivity|discriminate].
  - (* KCol *)
    destruct (Hother (fun F => F)) as [H1 H2].
    assert (E1 : assoc_key (KCol T c) (table_entries d tb) = option_map (fun x => VCol (sem_col d x)) (find_column c (ct_columns tb))).
    { unfold T. rewrite <- names_eq. apply assoc_table_col. exact Nb. }
    assert (E2 : assoc_key (KCol T c) (table_entries d ta) = option_map (fun x => VCol (sem_col d x)) (find_column c (ct_columns ta))).
    { apply assoc_table_col. exact Na. }
    rewrite E1, E2. unfold phases. rewrite at_col_app, con_idle_drop; [|discriminate|exact H1].
    rewrite at_col_app, phase_columns.
    rewrite at_col_app, con_idle_change; [|discriminate|exact H1|exact H2].
    rewrite at_col_app, con_idle_add; [|discriminate|exact Hsub|exact H2].
    rewrite at_col_app, options_idle; [|discriminate|discriminate].
    apply row_idle; discriminate.
  - apply Hcon. exact I.
  - (* KOpt *)
    destruct (Hother (fun F => F)) as [H1 H2].
    assert (E1 : assoc_key (KOpt T o) (table_entries d tb) = option_map (fun x => VOpt (etoks (o_value x)))
      (find (fun x => eqs (o_name x) o && negb (match d with My => counter_option x | _ => false end)) (ct_options tb))).
    { unfold T. rewrite <- names_eq. apply assoc_table_opt. exact Nb. }
    assert (E2 : assoc_key (KOpt T o) (table_entries d ta) = option_map (fun x => VOpt (etoks (o_value x)))
      (find (fun x => eqs (o_name x) o && negb (match d with My => counter_option x | _ => false end)) (ct_options ta))).
    { apply assoc_table_opt. exact Na. }
    rewrite E1, E2. unfold phases. rewrite at_col_app, con_idle_drop; [|discriminate|exact H1].
    rewrite at_col_app, cols_idle; [|discriminate|discriminate|reflexivity].
    rewrite at_col_app, con_idle_change; [|discriminate|exact H1|exact H2].
    rewrite at_col_app, con_idle_add; [|discriminate|exact Hsub|exact H2].
    rewrite at_col_app.
    assert (Hrow : forall v, at_key (KOpt T o) (col_ops d (diff_row_deletion d sdiff n (ct_rowdel tb) (ct_rowdel ta))) v = Some v).
    { intro v. apply row_idle; discriminate. }
    destruct d eqn:Ed.
    + destruct (po_opts _ _ _ OK) as [O1 O2]. rewrite O1, O2. reflexivity.
    + destruct (po_opts _ _ _ OK) as [O1 O2]. rewrite O1, O2. reflexivity.
    + rewrite <- Ed in *. rewrite (phase_options_my Ed). apply Hrow.
    + replace (diff_table_options Sp sdiff n (ct_options tb) (ct_options ta)) with (@nil stmt) by reflexivity. cbn [col_ops flat_map at_key].
      rewrite Hrow. f_equal. pose proof (po_opts _ _ _ OK (Hsp eq_refl) o) as HO. unfold find_option in HO.
      assert (Ef : forall os, find (fun x => eqs (o_name x) o && negb false) os = find (fun x => eqs (o_name x) o) os).
      { intro os. apply find_ext. intros x _. rewrite andb_true_r. reflexivity. }
      rewrite !Ef. exact HO.
  - (* KRow *)
    destruct (Hother (fun F => F)) as [H1 H2].
    assert (E1 : assoc_key (KRow T) (table_entries d tb) = option_map (fun x => VRow (etoks (o_value x))) (ct_rowdel tb)).
    { unfold T. rewrite <- names_eq. apply assoc_table_row. exact Nb. }
    assert (E2 : assoc_key (KRow T) (table_entries d ta) = option_map (fun x => VRow (etoks (o_value x))) (ct_rowdel ta)).
    { apply assoc_table_row. exact Na. }
    rewrite E1, E2. unfold phases. rewrite at_col_app, con_idle_drop; [|discriminate|exact H1].
    rewrite at_col_app, cols_idle; [|discriminate|discriminate|reflexivity].
    rewrite at_col_app, con_idle_change; [|discriminate|exact H1|exact H2].
    rewrite at_col_app, con_idle_add; [|discriminate|exact Hsub|exact H2].
    rewrite at_col_app, options_idle; [|discriminate|discriminate].
    destruct d eqn:Ed; try (destruct (po_row _ _ _ OK) as [R1 R2]; rewrite R1, R2; reflexivity).
    rewrite <- Ed in *. apply phase_row_sp. exact Ed.
Qed.
End Tables.
