(** Facts about the generate command. *)
From Coq Require Import Permutation Sorted Lia Decimal DecimalString DecimalN DecimalFacts.
From Verif Require Import GoStr Token Lexer Ast Parser Lines Tidy IndexText LinesFacts Generate GenSpec.

(** * Sorting *)

Lemma ltb_both : forall a b, String.ltb a b = false -> String.ltb b a = false -> a = b.
Proof.
  intros a b H1 H2. unfold String.ltb in *. destruct (String.compare a b) eqn:E; [apply String.compare_eq_iff; exact E|discriminate|].
  rewrite String.compare_antisym, E in H2. discriminate.
Qed.

Notation le_key := (fun a b : gstmt => String.ltb (sort_key b) (sort_key a) = false).

(** Sorted lists with the same elements of each key are equal. *)
Definition of_key (k : string) (l : list gstmt) : list gstmt := filter (fun s => String.eqb (sort_key s) k) l.
Lemma of_key_head : forall x l, of_key (sort_key x) (x :: l) = x :: of_key (sort_key x) l.
Proof. intros. unfold of_key. cbn [filter]. rewrite String.eqb_refl. reflexivity. Qed.

Lemma sorted_by_key : forall l l', StronglySorted le_key l -> StronglySorted le_key l' ->
  (forall k, of_key k l = of_key k l') -> l = l'.
Proof.
  induction l as [|x l IH]; intros l' S1 S2 H.
  - destruct l' as [|y l']; [reflexivity|]. specialize (H (sort_key y)). rewrite of_key_head in H. discriminate.
  - destruct l' as [|y l']; [specialize (H (sort_key x)); rewrite of_key_head in H; discriminate|].
    assert (sort_key x = sort_key y) as E.
    { pose proof (H (sort_key x)) as Hx. pose proof (H (sort_key y)) as Hy. rewrite of_key_head in Hx, Hy.
      assert (In x (y :: l')) as I1. { apply (proj1 (filter_In (fun s => String.eqb (sort_key s) (sort_key x)) _ _)). unfold of_key in Hx. rewrite <- Hx. left. reflexivity. }
      assert (In y (x :: l)) as I2. { apply (proj1 (filter_In (fun s => String.eqb (sort_key s) (sort_key y)) _ _)). unfold of_key in Hy. rewrite Hy. left. reflexivity. }
      destruct I1 as [<-|I1]; [reflexivity|]. destruct I2 as [->|I2]; [reflexivity|].
      inversion S1 as [|? ? _ F1]; subst. inversion S2 as [|? ? _ F2]; subst.
      rewrite Forall_forall in F1, F2. apply ltb_both; [apply (F2 _ I1)|apply (F1 _ I2)]. }
    pose proof (H (sort_key x)) as Hx. rewrite of_key_head in Hx. rewrite E in Hx at 2. rewrite of_key_head in Hx. injection Hx as -> _.
    f_equal. inversion S1; subst. inversion S2; subst. apply IH; try assumption.
    intro k. specialize (H k). unfold of_key in *. cbn [filter] in H. destruct (String.eqb (sort_key y) k); [injection H as H|]; exact H.
Qed.

Lemma of_key_perm : forall k l l', Permutation l l' -> Permutation (of_key k l) (of_key k l').
Proof.
  intros k l l' P. unfold of_key. induction P; cbn [filter].
  - constructor.
  - destruct (String.eqb (sort_key x) k); [constructor|]; exact IHP.
  - destruct (String.eqb (sort_key x) k), (String.eqb (sort_key y) k); try apply Permutation_refl. apply perm_swap.
  - eapply Permutation_trans; eassumption.
Qed.
Lemma of_key_single : forall k l, NoDup (map sort_key l) -> List.length (of_key k l) <= 1.
Proof.
  intros k. induction l as [|x l IH]; intro N; [cbn; lia|]. inversion N; subst. unfold of_key in *. cbn [filter].
  destruct (String.eqb (sort_key x) k) eqn:E; [|apply IH; assumption]. apply String.eqb_eq in E. subst k.
  enough (filter (fun s => String.eqb (sort_key s) (sort_key x)) l = []) as -> by (cbn; lia).
  destruct (filter _ l) as [|y r] eqn:F; [reflexivity|]. exfalso. apply H1.
  assert (In y (filter (fun s => String.eqb (sort_key s) (sort_key x)) l)) as I by (rewrite F; left; reflexivity).
  apply filter_In in I. destruct I as [I E]. apply String.eqb_eq in E. rewrite <- E. apply in_map. exact I.
Qed.
Lemma perm_single : forall A (l l' : list A), Permutation l l' -> List.length l <= 1 -> l = l'.
Proof.
  intros A l l' P L. destruct l as [|x [|y l]]; [|apply Permutation_length_1_inv in P; congruence|cbn in L; lia].
  apply Permutation_nil in P. congruence.
Qed.
Lemma sorted_distinct : forall l l', StronglySorted le_key l -> StronglySorted le_key l' -> Permutation l l' ->
  NoDup (map sort_key l) -> l = l'.
Proof.
  intros l l' S1 S2 P N. apply sorted_by_key; try assumption. intro k. apply perm_single; [apply of_key_perm; exact P|apply of_key_single; exact N].
Qed.

(** * The insertion sort *)

Lemma ltb_trans_neg : forall a b c, String.ltb a b = true -> String.ltb c b = false -> String.ltb c a = false.
Proof.
  intros a b c. unfold String.ltb. destruct (String.compare a b) eqn:E1; try discriminate. intros _.
  destruct (String.compare c b) eqn:E2; try discriminate; intros _.
  - apply String.compare_eq_iff in E2. subst. rewrite String.compare_antisym, E1. reflexivity.
  - destruct (String.compare c a) eqn:E3; try reflexivity. exfalso.
    enough (String.compare c b = Lt) by congruence. clear E2. revert a b E1 E3.
    induction c as [|x c IH]; intros [|y a] [|z b] E1 E3; try discriminate; try reflexivity.
    cbn [String.compare] in *. unfold Ascii.compare in *.
    destruct (N.compare (N_of_ascii y) (N_of_ascii z)) eqn:C1; try discriminate;
    destruct (N.compare (N_of_ascii x) (N_of_ascii y)) eqn:C2; try discriminate.
    + apply N.compare_eq_iff in C1, C2. rewrite C2, C1, N.compare_refl. eapply IH; eassumption.
    + apply N.compare_eq_iff in C1. rewrite <- C1, C2. reflexivity.
    + apply N.compare_eq_iff in C2. rewrite C2, C1. reflexivity.
    + rewrite N.compare_lt_iff in C1, C2. rewrite (proj2 (N.compare_lt_iff _ _)) by (eapply N.lt_trans; eassumption). reflexivity.
Qed.

Notation ge_key := (fun a b : gstmt => String.ltb (sort_key a) (sort_key b) = false).
Lemma sink_perm : forall x l, Permutation (sink x l) (x :: l).
Proof.
  intros x. induction l as [|y l IH]; [constructor; constructor|]. cbn [sink]. destruct (String.ltb _ _); [|apply Permutation_refl].
  eapply Permutation_trans; [apply perm_skip; exact IH|apply perm_swap].
Qed.
Lemma ltb_asym : forall a b, String.ltb a b = true -> String.ltb b a = false.
Proof. intros a b H. unfold String.ltb in *. rewrite String.compare_antisym. destruct (String.compare a b); [discriminate|reflexivity|discriminate]. Qed.
Lemma ge_trans : forall a b c, String.ltb a b = false -> String.ltb b c = false -> String.ltb a c = false.
Proof.
  intros a b c H1 H2. destruct (String.ltb a c) eqn:E; [|reflexivity]. exfalso.
  pose proof (ltb_trans_neg a c b E H2) as H3. pose proof (ltb_both a b H1 H3). subst. congruence.
Qed.
Lemma sink_sorted : forall x l, StronglySorted ge_key l -> StronglySorted ge_key (sink x l).
Proof.
  intros x. induction l as [|y l IH]; intro S; [constructor; constructor|]. cbn [sink]. inversion S as [|? ? S' F]; subst.
  destruct (String.ltb (sort_key x) (sort_key y)) eqn:E.
  - constructor; [apply IH; exact S'|]. eapply Permutation_Forall; [apply Permutation_sym, sink_perm|]. constructor; [|exact F]. apply ltb_asym. exact E.
  - constructor; [exact S|]. constructor; [exact E|]. eapply Forall_impl; [|exact F]. intros z Hz. exact (ge_trans _ _ _ E Hz).
Qed.
Lemma sink_stable : forall x l k, StronglySorted ge_key l ->
  of_key k (sink x l) = of_key k (x :: l).
Proof.
  intros x. induction l as [|y l IH]; intros k S; [reflexivity|]. cbn [sink]. inversion S as [|? ? S' F]; subst.
  destruct (String.ltb (sort_key x) (sort_key y)) eqn:E; [|reflexivity].
  unfold of_key in *. cbn [filter]. rewrite IH by exact S'. cbn [filter].
  destruct (String.eqb (sort_key y) k) eqn:E1, (String.eqb (sort_key x) k) eqn:E2; try reflexivity.
  exfalso. apply String.eqb_eq in E1, E2. rewrite E1, E2 in E. pose proof (ltb_asym _ _ E). congruence.
Qed.
Lemma of_key_rev : forall k l, of_key k (rev l) = rev (of_key k l).
Proof.
  intros k. induction l as [|x l IH]; [reflexivity|]. unfold of_key in *. cbn [rev]. rewrite filter_app, IH. cbn [filter].
  destruct (String.eqb (sort_key x) k); [reflexivity|apply app_nil_r].
Qed.
Lemma sorted_snoc : forall A (R : A -> A -> Prop) l x, StronglySorted R l -> Forall (fun y => R y x) l -> StronglySorted R (l ++ [x]).
Proof.
  induction l as [|y l IH]; intros x S F; [constructor; constructor|]. inversion S; subst. inversion F; subst. cbn [app]. constructor; [apply IH; assumption|].
  apply Forall_app. split; [assumption|]. constructor; [assumption|constructor].
Qed.
Lemma sorted_rev : forall l, StronglySorted ge_key l -> StronglySorted le_key (rev l).
Proof.
  induction l as [|x l IH]; intro S; [constructor|]. inversion S as [|? ? S' F]; subst. cbn [rev]. apply sorted_snoc; [apply IH; exact S'|].
  apply Forall_rev. eapply Forall_impl; [|exact F]. intros z Hz. exact Hz.
Qed.
Lemma small_inv : forall l acc, StronglySorted ge_key acc ->
  let r := fold_left (fun acc x => sink x acc) l acc in
  StronglySorted ge_key r /\ Permutation r (rev l ++ acc) /\ forall k, of_key k r = of_key k (rev l ++ acc).
Proof.
  induction l as [|x l IH]; intros acc S; cbn [fold_left rev app].
  - split; [exact S|]. split; [apply Permutation_refl|reflexivity].
  - specialize (IH (sink x acc) (sink_sorted x acc S)). cbn zeta in IH. destruct IH as (S' & P & K).
    split; [exact S'|]. rewrite <- app_assoc. cbn [app]. split.
    + eapply Permutation_trans; [exact P|]. apply Permutation_app_head. apply sink_perm.
    + intro k. rewrite K. unfold of_key. rewrite !filter_app. f_equal. apply sink_stable. exact S.
Qed.
Lemma sort_small_sorts : sorts sort_small.
Proof.
  intro l. unfold sort_small. destruct (small_inv l [] (SSorted_nil _)) as (S & P & _). rewrite app_nil_r in P. split.
  - eapply Permutation_trans; [apply Permutation_sym, Permutation_rev|]. eapply Permutation_trans; [exact P|]. apply Permutation_sym, Permutation_rev.
  - apply sorted_rev. exact S.
Qed.
Lemma sort_small_stable : forall l k, of_key k (sort_small l) = of_key k l.
Proof.
  intros l k. unfold sort_small. destruct (small_inv l [] (SSorted_nil _)) as (_ & _ & K). rewrite of_key_rev, K, app_nil_r, of_key_rev. apply rev_involutive.
Qed.

(** * Sort keys *)

Lemma zeros_uint : forall n d u, NilEmpty.uint_of_string d = Some u ->
  exists u', NilEmpty.uint_of_string (zeros n ++ d) = Some u' /\ N.of_uint u' = N.of_uint u.
Proof.
  induction n as [|n IH]; intros d u H; [exists u; split; [exact H|reflexivity]|].
  destruct (IH d u H) as (u' & H1 & H2). exists (D0 u'). cbn [zeros append NilEmpty.uint_of_string uint_of_char option_map]. rewrite H1. split; [reflexivity|].
  rewrite <- H2. reflexivity.
Qed.
Lemma pad9_inj : forall n m, pad9 (itoa n) = pad9 (itoa m) -> n = m.
Proof.
  intros n m H. unfold pad9, itoa in H.
  destruct (zeros_uint (9 - String.length (NilEmpty.string_of_uint (N.to_uint n))) _ _ (NilEmpty.usu (N.to_uint n))) as (u1 & A1 & B1).
  destruct (zeros_uint (9 - String.length (NilEmpty.string_of_uint (N.to_uint m))) _ _ (NilEmpty.usu (N.to_uint m))) as (u2 & A2 & B2).
  rewrite H, A2 in A1. injection A1 as ->. rewrite DecimalN.Unsigned.of_to in B1, B2. congruence.
Qed.
Lemma append_cancel : forall a b c : string, (a ++ b)%string = (a ++ c)%string -> b = c.
Proof. induction a as [|x a IH]; intros b c H; [exact H|]. cbn [append] in H. injection H as H. apply IH. exact H. Qed.
Lemma sort_key_line : forall a b, stmt_file a = stmt_file b -> sort_key a = sort_key b -> stmt_line a = stmt_line b.
Proof.
  intros a b F H. unfold sort_key in H. rewrite F in H. apply append_cancel in H. apply append_cancel in H. apply pad9_inj. exact H.
Qed.
Lemma lines_keys : forall file l, Forall (fun s => stmt_file s = file) l -> NoDup (map stmt_line l) -> NoDup (map sort_key l).
Proof.
  induction l as [|x l IH]; intros F N; [constructor|]. inversion F; subst. inversion N; subst. cbn [map]. constructor; [|apply IH; assumption].
  intro I. apply in_map_iff in I. destruct I as (y & E & I). apply H1. rewrite Forall_forall in H2. rewrite <- (sort_key_line y x (H2 _ I) E). apply in_map. exact I.
Qed.

(** * Reading comments *)

Lemma append_empty : forall s, (s ++ "")%string = s.
Proof. induction s as [|c s IH]; [reflexivity|]. cbn [append]. rewrite IH. reflexivity. Qed.

Lemma strip_suffix : forall p s, exists a, s = (a ++ trim_prefix p s)%string.
Proof. intros p s. unfold trim_prefix. destruct (drop_prefix p s) eqn:E; [exists p; apply drop_prefix_app; exact E|exists ""; reflexivity]. Qed.
Lemma clean_suffix : forall s, exists a, s = (a ++ clean s)%string.
Proof.
  intro s. unfold clean, trim_head. destruct (strip_suffix "//" s) as (a1 & E1). destruct (strip_suffix "/*" (trim_prefix "//" s)) as (a2 & E2).
  destruct (strip_suffix "*/" (trim_prefix "/*" (trim_prefix "//" s))) as (a3 & E3).
  set (u := trim_prefix "*/" (trim_prefix "/*" (trim_prefix "//" s))) in *.
  destruct (strip_all_app spaces (String.length u) u) as (a4 & E4).
  exists (a1 ++ a2 ++ a3 ++ a4)%string. rewrite !append_assoc, <- E4, <- E3, <- E2. exact E1.
Qed.
Lemma containing_clean : forall g l, In l g -> exists l', containing g (clean (cl_text l)) = Some l' /\ In l' g.
Proof.
  intros g l I. unfold containing. destruct (find _ g) as [l'|] eqn:F; [exists l'; split; [reflexivity|]; apply find_some in F; tauto|].
  exfalso. pose proof (find_none _ _ F l I) as H. cbn beta in H. destruct (clean_suffix (cl_text l)) as (a & E).
  assert (contains (clean (cl_text l)) (a ++ clean (cl_text l) ++ "") = true) as C.
  { apply contains_part. apply prefix_contains. rewrite <- (append_empty (clean (cl_text l))) at 2. apply prefix_app. }
  rewrite append_empty, <- E in C. congruence.
Qed.

Definition from_file (file : string) (lines : list N) (s : gstmt) : Prop := stmt_file s = file /\ In (stmt_line s) lines.
Lemma read_comments_ok : forall file g l t out lines,
  (forall c, In c l -> exists x, In x g /\ c = clean (cl_text x)) -> lines = map cl_line g ->
  Forall (from_file file lines) out ->
  exists t' out', read_comments file g l (t, out) = Ok (t', out')
    /\ g_file t' = g_file t /\ g_line t' = g_line t /\ g_columns t' = g_columns t /\ Forall (from_file file lines) out'.
Proof.
  induction l as [|c l IH]; intros t out lines Hc Hl Ho.
  - exists t, out. repeat (split; [reflexivity|]). exact Ho.
  - cbn [read_comments]. unfold read_comment. destruct (Hc c (or_introl eq_refl)) as (x & Ix & ->).
    assert (forall c, In c l -> exists x, In x g /\ c = clean (cl_text x)) as Hc' by (intros c I; apply Hc; right; exact I).
    destruct (match_index (clean (cl_text x))) as [m|].
    + destruct (containing_clean g x Ix) as (y & -> & Iy). cbn [bind]. apply IH; try assumption.
      apply Forall_app. split; [exact Ho|]. constructor; [|constructor]. split; [reflexivity|]. subst lines. cbn [stmt_line gi_line]. apply in_map. exact Iy.
    + cbn [bind]. match goal with |- context [read_comments _ _ _ (?u, _)] => destruct (IH u out lines Hc' Hl Ho) as (t' & out' & E & H1 & H2 & H3 & H4) end.
      exists t', out'. split; [exact E|]. rewrite H1, H2, H3. destruct (match_table _); [|destruct (match_constraint _); [|destruct (match_option _)]]; repeat (split; [reflexivity|]); exact H4.
Qed.

(** * Reading fields *)

Lemma bind_Ok : forall A B (r : res A) (f : A -> res B) b, bind r f = Ok b -> exists a, r = Ok a /\ f a = Ok b.
Proof. intros A B [a| | |] f b H; try discriminate. exists a. split; [reflexivity|exact H]. Qed.
Definition ok_or_panic {A} (r : res A) : Prop := match r with Ok _ | Panic => True | _ => False end.
Lemma bind_ok_or_panic : forall A B (r : res A) (f : A -> res B), ok_or_panic r -> (forall a, ok_or_panic (f a)) -> ok_or_panic (bind r f).
Proof. intros A B [a| | |] f H1 H2; cbn in *; auto; contradiction. Qed.
Lemma first_name_panic : forall f, ok_or_panic (first_name f).
Proof. intro f. unfold first_name. destruct (f_names f); exact I. Qed.

Lemma read_field_panic : forall cfg look ty t f, ok_or_panic (read_field cfg look ty t f).
Proof.
  intros. unfold read_field. destruct (f_tag f); [|exact I]. cbv zeta. destruct (String.eqb _ "-").
  { apply bind_ok_or_panic; [apply first_name_panic|intro; exact I]. }
  apply bind_ok_or_panic.
  - destruct (String.eqb _ ""); [|exact I]. apply bind_ok_or_panic; [apply first_name_panic|intro; exact I].
  - intros [n c]. destruct (_ || _); [exact I|]. apply bind_ok_or_panic; [|intro; exact I].
    destruct (_ || _); [exact I|]. apply bind_ok_or_panic; [apply first_name_panic|intro; exact I].
Qed.
Lemma read_fields_panic : forall cfg look ty l t, ok_or_panic (read_fields cfg look ty l t).
Proof.
  induction l as [|f l IH]; intro t; [exact I|]. cbn [read_fields]. apply bind_ok_or_panic; [apply read_field_panic|exact IH].
Qed.

Lemma read_field_keeps : forall cfg look ty t f t', read_field cfg look ty t f = Ok t' ->
  g_file t' = g_file t /\ g_line t' = g_line t /\ g_create t' = g_create t /\ g_constraints t' = g_constraints t /\ g_options t' = g_options t.
Proof.
  intros cfg look ty t f t' H. unfold read_field in H. destruct (f_tag f) as [v|]; [|discriminate]. cbv zeta in H.
  destruct (String.eqb _ "-"). { apply bind_Ok in H. destruct H as (n & _ & H). injection H as <-. repeat split; reflexivity. }
  apply bind_Ok in H. destruct H as ([n c] & _ & H). cbv beta iota in H.
  destruct (_ || _) in H. { injection H as <-. repeat split; reflexivity. }
  apply bind_Ok in H. destruct H as (cs & _ & H). injection H as <-.
  destruct (_ || _); repeat split; reflexivity.
Qed.
Lemma read_fields_keeps : forall cfg look ty l t t', read_fields cfg look ty l t = Ok t' ->
  g_file t' = g_file t /\ g_line t' = g_line t /\ g_create t' = g_create t /\ g_constraints t' = g_constraints t /\ g_options t' = g_options t.
Proof.
  induction l as [|f l IH]; intros t t' H; [injection H as <-; repeat split; reflexivity|]. cbn [read_fields] in H.
  apply bind_Ok in H. destruct H as (u & H1 & H2). apply read_field_keeps in H1. apply IH in H2.
  destruct H1 as (A1 & A2 & A3 & A4 & A5). destruct H2 as (B1 & B2 & B3 & B4 & B5). repeat split; congruence.
Qed.

(** * Reading sources *)

Definition good_source (r : source) : Prop :=
  In (s_line r) (map cl_line (s_group r)) /\ (s_struct r <> None -> s_type r <> None).

Lemma last_fold : forall l acc, fold_left (fun acc t => Some (ts_name t)) l (Some acc) <> None.
Proof. induction l as [|x l IH]; intros acc; [discriminate|]. cbn. apply IH. Qed.
Lemma struct_type : forall l, last_struct l <> None -> last_type l <> None.
Proof. intros [|x l] H; [exfalso; apply H; reflexivity|]. unfold last_type. cbn [fold_left]. apply last_fold. Qed.
Lemma extract_good : forall tag nodes r, In r (extract_sources tag nodes) ->
  good_source r /\ exists n, In n nodes /\ In (s_group r) (n_groups n) /\ s_struct r = last_struct (n_types n).
Proof.
  intros tag nodes r I. unfold extract_sources in I. apply in_flat_map in I. destruct I as (n & In1 & I).
  unfold sources_of_node in I. apply in_flat_map in I. destruct I as (g & Ig & I). unfold sources_of_group in I.
  destruct (find _ g) as [l|] eqn:F; [|contradiction]. destruct I as [<-|[]]. apply find_some in F. destruct F as [F _].
  split; [split; [cbn; apply in_map; exact F|cbn; apply struct_type]|]. exists n. repeat split; assumption.
Qed.

Lemma clean_members : forall g c, In c (map (fun l => clean (cl_text l)) g) -> exists x, In x g /\ c = clean (cl_text x).
Proof. intros g c I. apply in_map_iff in I. destruct I as (x & E & I). exists x. split; [exact I|congruence]. Qed.

Lemma read_source_panic : forall cfg look short file r, ok_or_panic (read_source cfg look short file r).
Proof.
  intros. unfold read_source.
  destruct (read_comments_ok file (s_group r) _ (mkGTable file (s_line r) [] "" [] [] [] []) [] _ (clean_members (s_group r)) eq_refl (Forall_nil _)) as (t & out & E & _).
  rewrite E. cbn [bind]. apply bind_ok_or_panic; [|intro; exact I].
  destruct (s_struct r); [apply read_fields_panic|exact I].
Qed.
Lemma read_source_from : forall cfg look short file r out, good_source r -> read_source cfg look short file r = Ok out ->
  Forall (from_file file (map cl_line (s_group r))) out.
Proof.
  intros cfg look short file r out G H. unfold read_source in H.
  destruct (read_comments_ok file (s_group r) _ (mkGTable file (s_line r) [] "" [] [] [] []) [] _ (clean_members (s_group r)) eq_refl (Forall_nil _)) as (t & o & E & H1 & H2 & _ & H4).
  rewrite E in H. cbn [bind] in H. apply bind_Ok in H. destruct H as (t' & Ht & H). injection H as <-.
  apply Forall_app. split; [exact H4|].
  set (u := match s_type r with Some _ => _ | None => t end) in Ht.
  assert (g_file u = file /\ g_line u = s_line r) as [U1 U2].
  { subst u. destruct (s_type r); [destruct (String.eqb _ _)|]; split; cbn in *; congruence. }
  assert (g_file t' = file /\ g_line t' = s_line r) as [T1 T2].
  { destruct (s_struct r); [apply read_fields_keeps in Ht; destruct Ht as (A & B & _); split; congruence|injection Ht as <-; split; assumption]. }
  match goal with |- Forall _ (match g_columns ?v with [] => _ | _ => _ end) => set (w := v) end.
  assert (g_file w = file /\ g_line w = s_line r) as [W1 W2].
  { subst w. destruct (String.eqb (g_create t') ""); [|destruct (g_columns t')]; split; assumption. }
  destruct (g_columns w); [constructor|]. constructor; [|constructor]. split; [exact W1|]. cbn [stmt_line]. rewrite W2. apply G.
Qed.

Lemma read_sources_Forall2 : forall cfg look short file l out,
  read_sources cfg look short file l = Ok out <-> exists outs, Forall2 (fun r o => read_source cfg look short file r = Ok o) l outs /\ out = List.concat outs.
Proof.
  induction l as [|r l IH]; intro out; cbn [read_sources].
  - split; intro H.
    + injection H as <-. exists []. split; [constructor|reflexivity].
    + destruct H as (outs & F & ->). inversion F. reflexivity.
  - split; intro H.
    + apply bind_Ok in H. destruct H as (a & H1 & H). apply bind_Ok in H. destruct H as (b & H2 & H). injection H as <-.
      apply IH in H2. destruct H2 as (outs & F & ->). exists (a :: outs). split; [constructor; assumption|reflexivity].
    + destruct H as (outs & F & ->). inversion F as [|? a ? outs' H1 H2]; subst. rewrite H1. cbn [bind].
      rewrite (proj2 (IH (List.concat outs'))) by (exists outs'; split; [assumption|reflexivity]). reflexivity.
Qed.
Lemma read_sources_panic : forall cfg look short file l, ok_or_panic (read_sources cfg look short file l).
Proof.
  induction l as [|r l IH]; [exact I|]. cbn [read_sources]. apply bind_ok_or_panic; [apply read_source_panic|]. intro. apply bind_ok_or_panic; [exact IH|intro; exact I].
Qed.

Lemma Forall2_perm : forall A B (R : A -> B -> Prop) l l', Permutation l l' -> forall m, Forall2 R l m -> exists m', Permutation m m' /\ Forall2 R l' m'.
Proof.
  intros A B R l l' P. induction P; intros m F.
  - exists m. split; [apply Permutation_refl|exact F].
  - inversion F as [|? b ? m0 H1 H2]; subst. destruct (IHP _ H2) as (m' & P' & F'). exists (b :: m'). split; [constructor; exact P'|constructor; assumption].
  - inversion F as [|? b ? m0 H1 H2]; subst. inversion H2 as [|? b' ? m1 H3 H4]; subst. exists (b' :: b :: m1). split; [constructor|repeat constructor; assumption].
  - destruct (IHP1 _ F) as (m1 & P' & F'). destruct (IHP2 _ F') as (m2 & P'' & F''). exists m2. split; [eapply Permutation_trans; eassumption|exact F''].
Qed.
Lemma concat_perm : forall A (l l' : list (list A)), Permutation l l' -> Permutation (List.concat l) (List.concat l').
Proof.
  intros A l l' P. induction P; cbn [List.concat].
  - constructor.
  - apply Permutation_app_head. exact IHP.
  - rewrite !app_assoc. apply Permutation_app_tail. apply Permutation_app_comm.
  - eapply Permutation_trans; eassumption.
Qed.
Lemma flat_map_perm : forall A B (f : A -> list B) l l', Permutation l l' -> Permutation (flat_map f l) (flat_map f l').
Proof. intros. rewrite !flat_map_concat_map. apply concat_perm. apply Permutation_map. assumption. Qed.
