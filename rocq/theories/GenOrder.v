(** The order of iteration does not matter. *)
From Coq Require Import Permutation Sorted Lia.
From Verif Require Import GoStr Token Lexer Ast Parser Lines Tidy IndexText LinesFacts Generate GenSpec GenFacts.

Lemma read_sources_perm : forall cfg look short file l l', Permutation l l' ->
  (exists outs outs', Permutation outs outs' /\ Forall2 (fun r o => read_source cfg look short file r = Ok o) l outs
     /\ read_sources cfg look short file l = Ok (List.concat outs) /\ read_sources cfg look short file l' = Ok (List.concat outs'))
  \/ read_sources cfg look short file l = Panic /\ read_sources cfg look short file l' = Panic.
Proof.
  intros cfg look short file l l' P.
  assert (forall a b, Permutation a b -> forall out, read_sources cfg look short file a = Ok out ->
    exists outs outs', Permutation outs outs' /\ Forall2 (fun r o => read_source cfg look short file r = Ok o) a outs
     /\ read_sources cfg look short file a = Ok (List.concat outs) /\ read_sources cfg look short file b = Ok (List.concat outs')) as K.
  { intros a b Pab out H. pose proof H as H0. apply read_sources_Forall2 in H. destruct H as (outs & F & ->).
    destruct (Forall2_perm _ _ _ _ _ Pab _ F) as (outs' & P' & F'). exists outs, outs'. repeat split; try assumption.
    apply read_sources_Forall2. exists outs'. split; [exact F'|reflexivity]. }
  pose proof (read_sources_panic cfg look short file l) as O1. pose proof (read_sources_panic cfg look short file l') as O2.
  destruct (read_sources cfg look short file l) as [out| | |] eqn:E1; try contradiction.
  - left. destruct (K l l' P out E1) as (outs & outs' & H1 & H2 & H3 & H4). exists outs, outs'. rewrite E1 in H3. repeat split; assumption.
  - destruct (read_sources cfg look short file l') as [out'| | |] eqn:E2; try contradiction; [|right; split; reflexivity].
    destruct (K l' l (Permutation_sym P) out' E2) as (outs & outs' & _ & _ & _ & H4). congruence.
Qed.

Lemma outs_from : forall cfg look short file l outs, Forall good_source l -> Forall2 (fun r o => read_source cfg look short file r = Ok o) l outs ->
  Forall2 (fun r o => Forall (from_file file (map cl_line (s_group r))) o) l outs.
Proof.
  intros cfg look short file l outs G F. induction F; [constructor|]. inversion G; subst. constructor; [|apply IHF; assumption].
  eapply read_source_from; eassumption.
Qed.
Lemma concat_files : forall file l outs, Forall2 (fun r o => Forall (from_file file (map cl_line (s_group r))) o) l outs ->
  Forall (fun s => stmt_file s = file) (List.concat outs).
Proof.
  intros file l outs F. induction F; [constructor|]. cbn [List.concat]. apply Forall_app. split; [|exact IHF].
  eapply Forall_impl; [|exact H]. intros s [Hs _]. exact Hs.
Qed.
Lemma all_good : forall tag nodes, Forall good_source (extract_sources tag nodes).
Proof. intros. apply Forall_forall. intros r I. apply extract_good in I. tauto. Qed.

Lemma parse_file_any_sort : forall cfg look short srt srt' file nodes nodes', sorts srt -> sorts srt' -> Permutation nodes nodes' ->
  (forall l, parse_file cfg look short srt file (Some nodes) = Ok (Some l) -> NoDup (map stmt_line l)) ->
  parse_file cfg look short srt file (Some nodes) = parse_file cfg look short srt' file (Some nodes').
Proof.
  intros cfg look short srt srt' file nodes nodes' S S' P D. cbn [parse_file] in *.
  pose proof (flat_map_perm _ _ (sources_of_node (ddl_tag cfg)) _ _ P) as Q. fold (extract_sources (ddl_tag cfg) nodes) in Q. fold (extract_sources (ddl_tag cfg) nodes') in Q.
  pose proof (all_good (ddl_tag cfg) nodes) as G.
  destruct (extract_sources (ddl_tag cfg) nodes) as [|a l]; [apply Permutation_nil in Q; rewrite Q; reflexivity|].
  destruct (extract_sources (ddl_tag cfg) nodes') as [|a' l']; [apply Permutation_sym, Permutation_nil in Q; discriminate|].
  destruct (read_sources_perm cfg look short file _ _ Q) as [(outs & outs' & PO & F & E & E')|[E E']]; rewrite E in *; rewrite E' in *; [|reflexivity].
  cbn [bind] in *. do 2 f_equal. destruct (S (List.concat outs)) as [P1 S1]. destruct (S' (List.concat outs')) as [P2 S2].
  apply sorted_distinct; try assumption.
  - eapply Permutation_trans; [exact P1|]. eapply Permutation_trans; [apply concat_perm; exact PO|]. apply Permutation_sym. exact P2.
  - apply (lines_keys file); [|apply D; reflexivity].
    eapply Permutation_Forall; [apply Permutation_sym; exact P1|]. eapply concat_files. eapply outs_from; eassumption.
Qed.

(** * Few statements: the sort is stable *)

Lemma FOP_filter : forall A (R : A -> A -> Prop) f l, ForallOrdPairs R l -> ForallOrdPairs R (filter f l).
Proof.
  intros A R f l H. induction H; [constructor|]. cbn [filter]. destruct (f a); [|exact IHForallOrdPairs]. constructor; [|exact IHForallOrdPairs].
  rewrite Forall_forall in *. intros x I. apply H. apply filter_In in I. tauto.
Qed.
Lemma FOP_perm : forall A (R : A -> A -> Prop), (forall a b, R a b -> R b a) -> forall l l', Permutation l l' -> ForallOrdPairs R l -> ForallOrdPairs R l'.
Proof.
  intros A R Sym l l' P. induction P; intro H.
  - constructor.
  - inversion H; subst. constructor; [eapply Permutation_Forall; eassumption|apply IHP; assumption].
  - inversion H as [|? ? H1 H2]; subst. inversion H2 as [|? ? H3 H4]; subst. inversion H1; subst.
    constructor; [constructor; [apply Sym; assumption|assumption]|]. constructor; assumption.
  - apply IHP2, IHP1, H.
Qed.
Lemma groups_of_sources : forall tag nodes, map s_group (extract_sources tag nodes)
  = filter (fun g => match find (fun l => match_tag tag (cl_text l)) g with Some _ => true | None => false end) (flat_map n_groups nodes).
Proof.
  intros tag nodes. unfold extract_sources. induction nodes as [|n nodes IH]; [reflexivity|]. cbn [flat_map]. rewrite map_app, filter_app, IH. f_equal.
  unfold sources_of_node. induction (n_groups n) as [|g l IH']; [reflexivity|]. cbn [flat_map filter]. rewrite map_app, IH'. unfold sources_of_group.
  destruct (find _ g); reflexivity.
Qed.

Definition keys_apart (a b : list gstmt) : Prop := forall k, of_key k a = [] \/ of_key k b = [].
Lemma from_apart : forall file g g' a b, lines_apart g g' ->
  Forall (from_file file (map cl_line g)) a -> Forall (from_file file (map cl_line g')) b -> keys_apart a b.
Proof.
  intros file g g' a b L A B k. destruct (of_key k a) as [|x a'] eqn:Ea; [left; reflexivity|]. destruct (of_key k b) as [|y b'] eqn:Eb; [right; reflexivity|]. exfalso.
  assert (In x (of_key k a)) as Ix by (rewrite Ea; left; reflexivity). assert (In y (of_key k b)) as Iy by (rewrite Eb; left; reflexivity).
  unfold of_key in Ix, Iy. apply filter_In in Ix, Iy. destruct Ix as [Ix Kx], Iy as [Iy Ky]. apply String.eqb_eq in Kx, Ky.
  rewrite Forall_forall in A, B. destruct (A _ Ix) as [F1 L1]. destruct (B _ Iy) as [F2 L2].
  apply in_map_iff in L1, L2. destruct L1 as (l & El & Il), L2 as (l' & El' & Il'). apply (L l l' Il Il').
  rewrite El, El'. apply sort_key_line; congruence.
Qed.
Lemma FOP_outs : forall file l outs, Forall2 (fun r o => Forall (from_file file (map cl_line (s_group r))) o) l outs ->
  ForallOrdPairs lines_apart (map s_group l) -> ForallOrdPairs keys_apart outs.
Proof.
  intros file l outs F. induction F as [|r o l outs H F IH]; intro P; [constructor|]. cbn [map] in P. inversion P as [|? ? H1 H2]; subst.
  constructor; [|apply IH; exact H2]. clear IH H2 P. induction F as [|r' o' l outs H' F IH]; [constructor|]. cbn [map] in H1. inversion H1; subst.
  constructor; [eapply from_apart; eassumption|apply IH; assumption].
Qed.
Lemma of_key_app : forall k a b, of_key k (a ++ b) = (of_key k a ++ of_key k b)%list.
Proof. intros. apply filter_app. Qed.
Lemma keys_apart_sym : forall a b, keys_apart a b -> keys_apart b a.
Proof. intros a b H k. destruct (H k); tauto. Qed.
Lemma concat_of_key : forall l l', Permutation l l' -> ForallOrdPairs keys_apart l -> forall k, of_key k (List.concat l) = of_key k (List.concat l').
Proof.
  intros l l' P. induction P; intros H k; cbn [List.concat]; rewrite ?of_key_app.
  - reflexivity.
  - inversion H; subst. rewrite IHP by assumption. reflexivity.
  - inversion H as [|? ? H1 H2]; subst. inversion H1 as [|? ? H3 H4]; subst. destruct (H3 k) as [E|E]; rewrite E; cbn [app]; rewrite ?app_nil_r; reflexivity.
  - rewrite IHP1 by assumption. apply IHP2. eapply FOP_perm; [apply keys_apart_sym|exact P1|exact H].
Qed.

Lemma parse_file_small : forall cfg look short srt file nodes nodes', sorts_like_go srt -> Permutation nodes nodes' ->
  groups_apart nodes ->
  (forall l, parse_file cfg look short srt file (Some nodes) = Ok (Some l) -> List.length l <= 12) ->
  parse_file cfg look short srt file (Some nodes) = parse_file cfg look short srt file (Some nodes').
Proof.
  intros cfg look short srt file nodes nodes' [S Sm] P A D. cbn [parse_file] in *.
  pose proof (flat_map_perm _ _ (sources_of_node (ddl_tag cfg)) _ _ P) as Q. fold (extract_sources (ddl_tag cfg) nodes) in Q. fold (extract_sources (ddl_tag cfg) nodes') in Q.
  pose proof (all_good (ddl_tag cfg) nodes) as G.
  assert (ForallOrdPairs lines_apart (map s_group (extract_sources (ddl_tag cfg) nodes))) as A'.
  { rewrite groups_of_sources. apply FOP_filter. exact A. }
  destruct (extract_sources (ddl_tag cfg) nodes) as [|a l]; [apply Permutation_nil in Q; rewrite Q; reflexivity|].
  destruct (extract_sources (ddl_tag cfg) nodes') as [|a' l']; [apply Permutation_sym, Permutation_nil in Q; discriminate|].
  destruct (read_sources_perm cfg look short file _ _ Q) as [(outs & outs' & PO & F & E & E')|[E E']]; rewrite E in *; rewrite E' in *; [|reflexivity].
  cbn [bind] in *. do 2 f_equal. specialize (D _ eq_refl). rewrite (Permutation_length (proj1 (S (List.concat outs)))) in D.
  rewrite !Sm; [|rewrite (Permutation_length (concat_perm _ _ _ (Permutation_sym PO))); exact D|exact D].
  apply sorted_by_key; [apply sort_small_sorts|apply sort_small_sorts|]. intro k. rewrite !sort_small_stable.
  apply concat_of_key; [exact PO|]. eapply FOP_outs; [eapply outs_from; eassumption|exact A'].
Qed.

(** * Trees of files *)

Lemma parse_tree_same : forall cfg look short srt srt' l l',
  Forall2 (fun a b => fst a = fst b /\ parse_file cfg look short srt (fst a) (snd a) = parse_file cfg look short srt' (fst b) (snd b)) l l' ->
  parse_tree cfg look short srt l = parse_tree cfg look short srt' l'.
Proof.
  intros cfg look short srt srt' l l' F. induction F as [|[n p] [n' p'] l l' [H1 H2] F IH]; [reflexivity|]. cbn [fst snd] in *. subst n'.
  cbn [parse_tree]. rewrite IH, H2. reflexivity.
Qed.
Lemma parse_input_same : forall cfg look short srt srt' i i', reordered i i' ->
  (forall file a b, In (file, a) (files_of i) -> reordered_file (file, a) (file, b) ->
     parse_file cfg look short srt file a = parse_file cfg look short srt' file b) ->
  parse_input cfg look short srt i = parse_input cfg look short srt' i'.
Proof.
  intros cfg look short srt srt' i i' R H. destruct i as [|n p|l], i' as [|n' p'|l']; try contradiction; cbn [parse_input reordered files_of] in *.
  - reflexivity.
  - assert (n' = n) as -> by (destruct R as [E _]; cbn in E; congruence). rewrite (H n p p' (or_introl eq_refl) R). reflexivity.
  - apply parse_tree_same. induction R as [|[n p] [n' p'] l l' E R IH]; [constructor|]. constructor.
    + cbn [fst snd]. assert (n' = n) as -> by (destruct E as [E _]; cbn in E; congruence). split; [reflexivity|]. apply H; [left; reflexivity|exact E].
    + apply IH. intros file a b I. apply H. right. exact I.
Qed.
