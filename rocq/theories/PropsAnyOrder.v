(** C55 and C92: a PostgreSQL schema whose tables the catalogue keeps in any order. *)
From Coq Require Import Permutation Lia.
From Verif Require Import GoStr Token Lexer LexerFacts LexSpec Ast Parser Diff Printable Written PrintLex PrintStmt PrintToks PrintParse PrintDdl WrittenFacts.
From Verif Require Import GenRead GenReadFacts Apply Show ShowFacts ShowPg ShowPgRead ShowPgFacts Variants Db DbFacts Tidy DiffSame VariantFacts PropsDiff PropsApply PropsWritten PropsShowPg PropsListing.
Local Open Scope list_scope.

(** * Proofs *)
Lemma names_perm : forall db db' n, Permutation db db' -> In n (ShowPgRead.foreign_names db') -> In n (ShowPgRead.foreign_names db).
Proof. intros db db' n P. unfold ShowPgRead.foreign_names. apply Permutation_in. apply flat_map_perm. apply Permutation_sym. exact P. Qed.
Lemma plain_perm : forall db db' l l', Permutation db db' -> Permutation l l' -> plain_pg db' l -> plain_pg db l'.
Proof.
  intros db db' l l' P Q H. assert (I : forall t, In t l' -> In t l) by (intro t; apply Permutation_in, Permutation_sym, Q). constructor.
  - intros t It. apply (pp_columns db' l H t (I t It)).
  - intros t c It Ic. destruct (pp_constraints db' l H t c (I t It) Ic) as (A & B & C). split; [exact A|]. split; [exact B|]. intro N. apply C. apply (names_perm _ _ _ (Permutation_sym P)). exact N.
  - intros t i t' c It Ii It' Ic. exact (pp_indexes db' l H t i t' c (I t It) Ii (I t' It') Ic).
Qed.
Lemma strict_names : forall l, (forall a x b y c, l = a ++ x :: b ++ y :: c -> String.compare (pt_name x) (pt_name y) = Lt) -> NoDup (map pt_name l).
Proof.
  induction l as [|x l IH]; intro H; [constructor|]. cbn [map]. constructor.
  - intro I. apply in_map_iff in I. destruct I as (y & E & I). apply in_split in I. destruct I as (b & c & ->). pose proof (H [] x b y c eq_refl) as L. rewrite E in L.
    assert (R : String.compare (pt_name x) (pt_name x) = Eq) by (pose proof (String.compare_antisym (pt_name x) (pt_name x)) as A; destruct (String.compare (pt_name x) (pt_name x)); [reflexivity|discriminate A|discriminate A]). congruence.
  - apply IH. intros a u b v c E. apply (H (x :: a) u b v c). cbn. rewrite E. reflexivity.
Qed.
Lemma forall2_perm : forall A B (R : A -> B -> Prop) l l' m, Permutation l l' -> Forall2 R l m -> exists m', Permutation m m' /\ Forall2 R l' m'.
Proof.
  intros A B R l l' m P. revert m. induction P as [|x l l' P IH|x y l|l1 l2 l3 P1 I1 P2 I2]; intros m F.
  - exists []. inversion F. split; constructor.
  - inversion F as [|? b ? m1 H F1]; subst. destruct (IH m1 F1) as (m' & Q & F'). exists (b :: m'). split; [constructor; exact Q|constructor; assumption].
  - inversion F as [|? b ? m1 H F1]; subst. inversion F1 as [|? c ? m2 H2 F2]; subst. exists (c :: b :: m2). split; [apply perm_swap|]. constructor; [exact H2|]. constructor; assumption.
  - destruct (I1 m F) as (m1 & Q1 & F1). destruct (I2 m1 F1) as (m2 & Q2 & F2). exists m2. split; [eapply Permutation_trans; eassumption|exact F2].
Qed.
Lemma shown_any_order : forall schema db l tables indexes, Permutation (of_schema schema db) l ->
  (forall a x b y c, l = a ++ x :: b ++ y :: c -> String.compare (pt_name x) (pt_name y) = Lt) -> plain_pg db l ->
  Forall2 p_table_says l tables -> Forall2 p_index_says (flat_map pt_indexes (of_schema schema db)) indexes -> forallb (written_ok Pg) (tables ++ indexes) = true ->
  FF Pg (show_postgres schema db) (flat_map (written_toks Pg) (tables ++ indexes)).
Proof.
  intros schema db l tables indexes Q O P C X H. rewrite forallb_app in H. apply andb_true_iff in H. destruct H as [H1 H2]. rewrite flat_map_app.
  unfold show_postgres. apply FF_FF_app.
  - unfold table_statements. assert (E : order_by le_table (of_schema schema db) = l).
    { rewrite <- (by_name_order l O). symmetry. apply order_perm; [apply Permutation_sym; exact Q|apply strict_names; exact O]. }
    rewrite E.
    assert (G : forall m ts, (forall t, In t m -> In t l) -> Forall2 p_table_says m ts -> forallb (written_ok Pg) ts = true ->
      FF Pg (concat_str (map (fun s => s ++ nl)%string (flat_map (fun t => match p_table_text db t with Some s => [s] | None => [] end) m))) (flat_map (written_toks Pg) ts)).
    { intros m ts S F. induction F as [|t w m ts Ht F IH]; intro K; [apply FF_nil|]. cbn [forallb] in K. apply andb_true_iff in K. destruct K as [K1 K2].
      destruct (p_table_FF db l t w P (S t (or_introl eq_refl)) Ht K1) as (s & Es & Fs). cbn [flat_map]. rewrite Es, map_app. cbn [map List.app concat_str].
      apply FF_FF_app; [exact Fs|]. apply IH; [intros x Hx; apply S; right; exact Hx|exact K2]. }
    apply G; auto.
  - rewrite (index_rows_kept schema db (of_schema schema db)); [|apply (plain_perm db db l _ (Permutation_refl _) (Permutation_sym Q) P)|reflexivity].
    clear - X H2. induction X as [|i w is ws (x & -> & A) X IH]; [apply FF_nil|]. cbn [forallb] in H2. apply andb_true_iff in H2. destruct H2 as [K1 K2].
    cbn [map concat_str flat_map written_toks]. apply FF_FF_app; [|apply IH, K2]. rewrite <- app_s_assoc.
    rewrite <- (app_nil_r (create_index_toks Pg x)).
    apply TT_FF_app; [|apply nl_FF|apply lead1_byte; reflexivity]. apply (alike_TT Pg _ _ _ A), TT_lex, FF_TT, create_index_FF, K1.
Qed.
(** The tables of a schema sorted by name, in whatever order the catalogue keeps them. *)
Definition sorted_by_name (schema : string) (db l : list p_table) : Prop :=
  Permutation (filter (fun t => String.eqb (pt_schema t) schema) db) l /\ forall a x b y c, l = (a ++ x :: b ++ y :: c)%list -> String.compare (pt_name x) (pt_name y) = Lt.
Definition p_consists_of (schema : string) (db l : list p_table) (tables indexes : list written) : Prop :=
  Forall2 p_table_says l tables /\ Forall2 p_index_says (flat_map pt_indexes (filter (fun t => String.eqb (pt_schema t) schema) db)) indexes.
Theorem C55_any_catalogue_is_read_partial : forall srt schema db l tables indexes, sorted_by_name schema db l -> plain_pg db l -> p_consists_of schema db l tables indexes ->
  forallb (written_ok Pg) (tables ++ indexes) = true -> parse Pg srt (show_postgres schema db) = Ok (map (meant Pg) (tables ++ indexes)).
Proof.
  intros srt schema db l tables indexes [Q O] P [C X] H. apply written_parse; [|exact H|].
  - intros w _. destruct w; exact Logic.I.
  - apply TT_lex, FF_TT. apply (shown_any_order schema db l); assumption.
Qed.
Print Assumptions C55_any_catalogue_is_read_partial.
Lemma forallb_perm_eq : forall A (p : A -> bool) l l', Permutation l l' -> forallb p l = forallb p l'.
Proof.
  intros A p l l' H. apply eq_iff_eq_true. rewrite !forallb_forall. split; intros F x I; apply F; [exact (Permutation_in x (Permutation_sym H) I)|exact (Permutation_in x H I)].
Qed.

(** If the tables, sorted by name, consist of the statements, then the database is read as these
    statements however its catalogue is sorted: the tables by name, the indexes in some order. *)
Theorem C55_read_in_any_order_partial : forall srt schema db sorted l tables indexes, Permutation db sorted ->
  by_name schema sorted l -> plain_pg sorted l -> p_consists l tables indexes -> forallb (written_ok Pg) (tables ++ indexes) = true ->
  exists indexes', Permutation indexes indexes' /\ parse Pg srt (show_postgres schema db) = Ok (map (meant Pg) (tables ++ indexes')).
Proof.
  intros srt schema db sorted l tables indexes P [E O] N [C X] H.
  assert (Q : Permutation l (of_schema schema db)) by (rewrite E; unfold of_schema; apply filter_perm, Permutation_sym, P).
  destruct (forall2_perm _ _ _ _ _ _ (flat_map_perm _ _ pt_indexes _ _ Q) X) as (indexes' & R & X'). exists indexes'. split; [exact R|].
  assert (H' : forallb (written_ok Pg) (tables ++ indexes') = true) by (rewrite <- (forallb_perm_eq _ _ _ _ (Permutation_app_head tables R)); exact H).
  apply written_parse; [|exact H'|].
  - intros w _. destruct w; exact Logic.I.
  - apply TT_lex, FF_TT. apply (shown_any_order schema db l); [apply Permutation_sym, Q|exact O|apply (plain_perm db sorted l l P (Permutation_refl _) N)|exact C|exact X'|exact H'].
Qed.
Print Assumptions C55_read_in_any_order_partial.

Lemma orders_no_difference : forall srt sdiff (l la lb : ddl) m, describes Pg l m -> tidy Pg l = true -> Permutation l la -> Permutation l lb ->
  diff Pg srt sdiff (Some la) (Some lb) = DNoDiff.
Proof.
  intros srt sdiff l la lb m D T A B. destruct (describes_entries Pg l m D) as [N [_ K]]. destruct D as [C _].
  assert (Ea : Permutation (entries Pg l) (entries Pg la)) by (unfold entries; apply flat_map_perm; exact A).
  assert (Eb : Permutation (entries Pg l) (entries Pg lb)) by (unfold entries; apply flat_map_perm; exact B).
  assert (Na : NoDup (map fst (entries Pg la))) by (apply (Permutation_NoDup (l := map fst (entries Pg l))); [apply Permutation_map; exact Ea|exact N]).
  assert (Iab : forall x, In x la -> In x lb) by (intros x I; apply (Permutation_in x B), (Permutation_in x (Permutation_sym A) I)).
  assert (Iba : forall x, In x lb -> In x la) by (intros x I; apply (Permutation_in x A), (Permutation_in x (Permutation_sym B) I)).
  assert (Ta : tidy Pg la = true) by (unfold tidy in *; rewrite <- (forallb_perm_eq _ _ _ _ A); exact T).
  assert (Tb : tidy Pg lb = true) by (unfold tidy in *; rewrite <- (forallb_perm_eq _ _ _ _ B); exact T).
  assert (Ca : forallb is_create la = true) by (rewrite <- (forallb_perm_eq _ _ _ _ A); exact C).
  assert (Cb : forallb is_create lb = true) by (rewrite <- (forallb_perm_eq _ _ _ _ B); exact C).
  assert (Nb : NoDup (map fst (entries Pg lb))) by (apply (Permutation_NoDup (l := map fst (entries Pg l))); [apply Permutation_map; exact Eb|exact N]).
  assert (Ka : forall t, In (CreateTable t) la -> all_con_named t = true) by (intros t I; apply K, (Permutation_in _ (Permutation_sym A) I)).
  assert (Kb : forall t, In (CreateTable t) lb -> all_con_named t = true) by (intros t I; apply K, (Permutation_in _ (Permutation_sym B) I)).
  apply same_nodiff; try assumption.
  - unfold same_style. apply andb_true_iff. split; apply disjoint_intro; intros x H1 H2.
    + apply (inner_outer Pg la x Na); [exact H1|]. unfold outer_indexes in *. apply in_flat_map in H2. destruct H2 as (s & Is & H2). apply in_flat_map. exists s. split; [apply Iba; exact Is|exact H2].
    + apply (inner_outer Pg la x Na); [|exact H1]. unfold inner_indexes in *. apply in_flat_map in H2. destruct H2 as (s & Is & H2). apply in_flat_map. exists s. split; [apply Iba; exact Is|exact H2].
  - apply assoc_perm; [exact Na|]. eapply Permutation_trans; [apply Permutation_sym, Ea|exact Eb].
  - discriminate.
Qed.
(** So diff finds no difference between two servers that keep the same tables in another order, and
    apply does nothing. *)
Theorem C92_no_difference : forall w a b schema db db' sorted l tables indexes m, w_load w = true -> dialect_of (w_dialect w) = Some Pg ->
  w_resolve w a = Some (show_postgres schema db) -> w_resolve w b = Some (show_postgres schema db') ->
  Permutation db sorted -> Permutation db' sorted ->
  by_name schema sorted l -> plain_pg sorted l -> p_consists l tables indexes -> forallb (written_ok Pg) (tables ++ indexes) = true ->
  describes Pg (map (meant Pg) (tables ++ indexes)) m -> tidy Pg (map (meant Pg) (tables ++ indexes)) = true ->
  diff_command w [a; b] = ([], Done) /\ apply_command w [a; b] = ([EPrint ("no difference" ++ nl)], Done).
Proof.
  intros w a b schema db db' sorted l tables indexes m L D Ra Rb P P' O N C H M T.
  destruct (C55_read_in_any_order_partial (w_srt w) schema db sorted l tables indexes P O N C H) as (ia & Qa & Ea).
  destruct (C55_read_in_any_order_partial (w_srt w) schema db' sorted l tables indexes P' O N C H) as (ib & Qb & Eb).
  apply (C28_no_difference_no_effect w a b Pg _ _ _ _ L D Ra Rb Ea Eb).
  apply (orders_no_difference _ _ (map (meant Pg) (tables ++ indexes)) _ _ m M T); apply Permutation_map, Permutation_app_head; assumption.
Qed.
Print Assumptions C92_no_difference.
(** The example of C55 with its tables the other way round. *)
Example C92_any_order_example : forall srt, let l := filter (fun t => String.eqb (pt_schema t) "public") shown_pg in
  exists indexes', Permutation shown_pg_indexes indexes' /\ parse Pg srt (show_postgres "public" (rev shown_pg)) = Ok (map (meant Pg) (shown_pg_tables ++ indexes')).
Proof.
  intros srt l. apply (C55_read_in_any_order_partial srt "public" (rev shown_pg) shown_pg l).
  - apply Permutation_sym, Permutation_rev.
  - exact C55_example_order.
  - exact C55_example_plain.
  - exact C55_example_consists.
  - vm_compute. reflexivity.
Qed.
