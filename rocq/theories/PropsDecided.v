(** Property C86 for apply: whether tables can be taken away is decided by the order in which the
    old schema declares them. *)
From Coq Require Import Lia.
From Verif Require Import GoStr Token Lexer LexSpec Ast Parser Diff Db DbFacts AppendFacts DiffSound Tidy TidyFacts DiffSame Reconcile ReconcileFacts DiffSpec
  Lines LinesFacts Apply ApplySpec ApplyFacts Intact IntactFacts Printable SqlRead ReadFacts ReadDiff SqlDb SqlDbFacts DbDep DepServer DepFacts DbRefuse RefuseFacts RestrictDb.
From Verif Require Import PropsDiff PropsApply PropsRead PropsDep StuckFacts PropsStuck PropsRefuse PropsRestrict PropsTolerated.
Local Open Scope list_scope.

Lemma filter_cut : forall (f : stmt -> bool) l p a q, filter f l = p ++ a :: q -> exists l1 l2, l = l1 ++ a :: l2 /\ filter f l2 = q.
Proof.
  intros f l. induction l as [|y l IH]; intros p a q H; cbn [filter] in H; [destruct p; discriminate H|]. destruct (f y) eqn:F.
  - destruct p as [|z p]; cbn [List.app] in H.
    + injection H as -> H. exists [], l. split; [reflexivity|exact H].
    + injection H as -> H. destruct (IH p a q H) as [l1 [l2 [E E']]]. exists (z :: l1), l2. rewrite E. split; [reflexivity|exact E'].
  - destruct (IH p a q H) as [l1 [l2 [E E']]]. exists (y :: l1), l2. rewrite E. split; [reflexivity|exact E'].
Qed.
Lemma no_table : forall t l, find_stmt (CreateTable t) l = None -> ~ has_table (table_name t) l.
Proof.
  intros t l F H. unfold has_table in H. apply in_map_iff in H. destruct H as [u [E I]]. apply in_tables in I. pose proof (find_none _ _ F _ I) as N.
  cbn [same_type andb] in N. rewrite !stmt_name_table in N. unfold table_name in E. rewrite E, String.eqb_refl in N. discriminate N.
Qed.
(** Out of order: a table that goes, and a later one that goes and refers to it. *)
Lemma wrong_pair : forall d before after mb ma, describes d before mb -> describes d after ma -> dropped_in_order d (gone before after) = false ->
  exists b1 x b2 v b3 f cols rc act, before = b1 ++ CreateTable x :: b2 ++ CreateTable v :: b3 /\ table_name x <> table_name v
    /\ ~ has_table (table_name x) after /\ ~ has_table (table_name v) after /\ mb (KCon (table_name v) f) = Some (VCon (SForeign cols (table_name x) rc act)).
Proof.
  intros d B A db0 dba HB HA Or.
  destruct (describes_entries d B db0 HB) as [NB [VB KB]]. destruct (describes_entries d A dba HA) as [NA [VA KA]].
  destruct HB as [CB _]. destruct HA as [CA _]. rewrite (gone_eq B A CB CA) in Or.
  destruct (out_of_order d _ Or) as [p [t [q [s [El [Is Rs]]]]]].
  assert (Ht : In (CreateTable t) B /\ find_stmt (CreateTable t) A = None) by (apply only_left_in; rewrite El; apply in_or_app; right; left; reflexivity). destruct Ht as [Ht Ft].
  assert (Hx : In s B /\ find_stmt s A = None) by (apply only_left_in; rewrite El; apply in_or_app; right; right; exact Is). destruct Hx as [Hx Fx].
  pose proof Rs as R0. unfold referred in R0. apply in_flat_map in R0. destruct R0 as [[k v] [Io Rv]]. cbn [snd] in Rv.
  rewrite (objects_stmt d B A CB CA KB KA s (or_introl Hx)) in Io.
  pose proof (In_assoc _ _ _ (nodup_flat_stmt d B s NB Hx) Io) as Vx.
  assert (Bx : belongs d k s = true) by (apply declares_belongs, declares_assoc; rewrite Vx; reflexivity).
  assert (Vk : db0 k = Some v) by (rewrite VB; rewrite assoc_hm by assumption; rewrite (hm_in d k B s CB NB Hx Bx); exact Vx).
  destruct (entry_refers d s k v _ (known_create B A CB CA s (or_introl Hx)) Io Rv) as [u [y Ek]]. subst k.
  destruct (filter_cut _ B p (CreateTable t) q El) as [b1 [r [EB Eq]]]. rewrite <- Eq in Is. apply filter_In in Is. destruct Is as [Is _]. apply in_split in Is. destruct Is as [b2 [b3 Er]].
  assert (S : exists w, s = CreateTable w /\ table_name w = u).
  { unfold belongs in Bx. cbn [owner] in Bx. destruct s as [w|i|?|?|?]; try discriminate Bx. exists w. split; [reflexivity|]. apply String.eqb_eq in Bx. exact Bx. }
  destruct S as [w [-> Ew]]. subst u.
  assert (C : exists cols rc act, v = VCon (SForeign cols (table_name t) rc act)).
  { destruct v as [|?|c|?|?|?]; cbn [refers] in Rv; try contradiction. destruct c as [cols|cols ref rc act|cols|e]; try contradiction. destruct Rv as [Rv|Rv].
    - injection Rv as ->. eauto.
    - exfalso. unfold columns_of in Rv. apply in_map_iff in Rv. destruct Rv as [z [Rv _]]. discriminate Rv. }
  destruct C as [cols [rc [act ->]]].
  exists b1, t, b2, w, b3, y, cols, rc, act. split; [rewrite EB, Er; reflexivity|]. split.
  { intro N. assert (F1 : belongs d (KTab (table_name t)) (CreateTable t) = true) by (unfold belongs; cbn [owner]; apply String.eqb_refl).
    assert (F2 : belongs d (KTab (table_name t)) (CreateTable w) = true) by (unfold belongs; cbn [owner]; rewrite N; apply String.eqb_refl).
    pose proof (belongs_eq d B _ _ _ CB NB Ht Hx F1 F2) as Q. pose proof (nodup_stmts d B CB NB) as Nd. rewrite EB, Er, Q in Nd. apply NoDup_remove_2 in Nd. apply Nd. apply in_or_app. right. apply in_or_app. right. left. reflexivity. }
  split; [exact (no_table t A Ft)|]. split; [exact (no_table w A Fx)|exact Vk].
Qed.

(** Schemas in order, and a server that looks at everything: apply ends well exactly if no table
    that goes refers to one that goes and is declared earlier. *)
Theorem C86_decided_by_the_order : forall ks w dsn src d s1 s2 before after mb ma stmts, working w -> approved w ->
  d <> Sp -> dialect_of (w_dialect w) = Some d -> srt_ok (w_srt w) ->
  w_resolve w dsn = Some s1 -> w_resolve w src = Some s2 -> parse d (w_srt w) s1 = Ok before -> parse d (w_srt w) s2 = Ok after ->
  restrict_served ks d mb w -> (forall k, mb k <> None -> In k ks) -> describes d before mb -> describes d after ma ->
  printable d before = true -> printable d after = true -> index_names_ok d before = true -> index_names_ok d after = true ->
  diff d (w_srt w) (w_sdiff w) (Some before) (Some after) = DOk stmts ->
  forallb (fun s => arrives d (text d s) && comment_arrives d (comment_of s)) stmts = true ->
  reconcilable d before after = true -> text_ok d before after = true -> in_order d before after = true ->
  ((exists tr, apply_command w [dsn; src] = (tr, Done)) <-> dropped_in_order d (gone before after) = true).
Proof.
  intros ks w dsn src d s1 s2 before after mb ma stmts Ww Wa Nd Hd Hs R1 R2 P1 P2 W Lk DB DA PB PA NB NA E Cl Rc To Io. split.
  - intros [tr A]. destruct (dropped_in_order d (gone before after)) eqn:Or; [reflexivity|exfalso].
    destruct (wrong_pair d before after mb ma DB DA Or) as [b1 [x [b2 [v [b3 [f [cols [rc [act [Eb [Nxv [Nx [Nv Fk]]]]]]]]]]]]].
    pose proof Rc as T. unfold reconcilable in T. rewrite !andb_true_iff in T. destruct T as [[[[[[[[TB TA] _] _] _] _] _] _] _].
    refine (C86_wrong_order_never_applied ks w dsn src d s1 s2 before after mb ma stmts b1 b2 b3 x v f cols rc act tr Done Nd Hd Hs R1 R2 P1 P2 W DB DA TB TA PB PA NB NA E Cl Eb Nxv Nx Nv Fk _ A eq_refl).
    apply Lk. rewrite Fk. discriminate.
  - intro Do. destruct (C86_apply_partial ks w dsn src d s1 s2 before after mb ma stmts Ww Wa Nd Hd Hs R1 R2 P1 P2 W DB DA PB PA NB NA E Cl Rc To Io Do) as [tr [A _]]. exists tr. exact A.
Qed.
Print Assumptions C86_decided_by_the_order.

(** The declared objects are the ones of the catalogue, so the server of [restrict_serving] looks at everything. *)
Lemma looked_at : forall d l m, describes d l m -> forall k, m k <> None -> In k (keys d l).
Proof.
  intros d l m H k N. destruct (describes_entries d l m H) as [Nl [V K]]. destruct H as [C _].
  apply (keys_B d l l C C Nl K K). rewrite <- V. destruct (m k); [reflexivity|contradiction].
Qed.
(** Both answers occur: [good_old] and [pair_old] (PropsTolerated.v, PropsRestrict.v) differ in nothing
    but the order, and satisfy the other conditions. *)
Example C86_both : forallb (fun d => forallb (fun b => restrictable d b pair_new && reconcilable d (schema d b) (schema d pair_new) && text_ok d (schema d b) (schema d pair_new)
    && in_order d (schema d b) (schema d pair_new)) [good_old; pair_old]) [Pg; Crdb; My] = true
  /\ map (fun b => dropped_in_order My (gone (schema My b) (schema My pair_new))) [good_old; pair_old] = [true; false].
Proof. split; vm_compute; reflexivity. Qed.
