(** C92: the order in which PostgreSQL keeps its tables does not matter. *)
From Coq Require Import Permutation.
From Verif Require Import GoStr Token Ast Parser Generate Show ShowFacts ShowPg.
Local Open Scope string_scope.
Local Open Scope list_scope.

(** The names of the foreign keys of all schemas *)
Definition foreign_names (db : list p_table) : list string :=
  flat_map (fun t => map pk_name (filter (fun c => match pk_kind c with PForeign _ _ _ _ => true | _ => false end) (pt_constraints t))) db.
Definition names_in (schema : string) (db : list p_table) : list string :=
  map pt_name (filter (fun t => String.eqb (pt_schema t) schema) db).

(** * Proofs *)
Lemma filter_perm : forall A (p : A -> bool) l l', Permutation l l' -> Permutation (filter p l) (filter p l').
Proof.
  intros A p l l' H. induction H as [|x l l' H IH|x y l|l1 l2 l3 H1 I1 H2 I2]; [constructor| | |eapply Permutation_trans; eassumption].
  - cbn [filter]. destruct (p x); [constructor|]; exact IH.
  - cbn [filter]. destruct (p x), (p y); try apply perm_swap; apply Permutation_refl.
Qed.
(** Lists in order with the same elements are the same if the order tells all elements apart. *)
Inductive ranked {A} (le : A -> A -> bool) : list A -> Prop :=
| ranked_nil : ranked le []
| ranked_cons : forall x l, (forall y, In y l -> le x y = true) -> ranked le l -> ranked le (x :: l).
Lemma ranked_unique : forall A (le : A -> A -> bool) l l', (forall x y, In x l -> In y l -> le x y = true -> le y x = true -> x = y) ->
  ranked le l -> ranked le l' -> Permutation l l' -> l = l'.
Proof.
  intros A le l l' H R. revert l' H. induction R as [|x l Hx R IH]; intros l' H R' P.
  - apply Permutation_nil in P. congruence.
  - destruct R' as [|y l' Hy R']; [apply Permutation_sym, Permutation_nil in P; discriminate P|].
    assert (E : x = y).
    { assert (Iy : In y (x :: l)) by (apply (Permutation_in y (Permutation_sym P)); left; reflexivity).
      assert (Ix : In x (y :: l')) by (apply (Permutation_in x P); left; reflexivity).
      destruct Iy as [Iy|Iy]; [exact Iy|]. destruct Ix as [Ix|Ix]; [congruence|].
      apply H; [left; reflexivity|right; exact Iy|apply Hx; exact Iy|apply Hy; exact Ix]. }
    subst y. f_equal. apply IH; [|exact R'|eapply Permutation_cons_inv; exact P]. intros a b Ia Ib. apply H; right; assumption.
Qed.
Lemma put_ranked : forall A (le : A -> A -> bool), (forall x y, le x y = false -> le y x = true) -> (forall x y z, le x y = true -> le y z = true -> le x z = true) ->
  forall x l, ranked le l -> ranked le (put le x l).
Proof.
  intros A le T Tr x l R. induction R as [|y l Hy R IH]; [constructor; [intros z []|constructor]|]. cbn [put]. destruct (le x y) eqn:E.
  - constructor; [|constructor; assumption]. intros z [<-|I]; [exact E|]. exact (Tr x y z E (Hy z I)).
  - constructor; [|exact IH]. intros z I. apply (Permutation_in z (put_perm A le x l)) in I. destruct I as [<-|I]; [exact (T _ _ E)|exact (Hy z I)].
Qed.
Lemma order_ranked : forall A (le : A -> A -> bool), (forall x y, le x y = false -> le y x = true) -> (forall x y z, le x y = true -> le y z = true -> le x z = true) ->
  forall l, ranked le (order_by le l).
Proof. intros A le T Tr. induction l as [|x l IH]; [constructor|]. unfold order_by. cbn [fold_right]. apply put_ranked; assumption. Qed.
Lemma le_total : forall x y, le_table x y = false -> le_table y x = true.
Proof. intros x y H. unfold le_table in *. rewrite (String.compare_antisym (pt_name x) (pt_name y)) in H. destruct (String.compare (pt_name y) (pt_name x)); [reflexivity|reflexivity|discriminate H]. Qed.
Lemma compare_lt_trans : forall a b c, String.compare a b <> Gt -> String.compare b c <> Gt -> String.compare a c <> Gt.
Proof.
  induction a as [|x a IH]; intros [|y b] [|z c] H1 H2; cbn [String.compare] in *; try discriminate; try contradiction; try (intro; discriminate).
  unfold Ascii.compare in *. destruct (N.compare_spec (N_of_ascii x) (N_of_ascii y)) as [E1|L1|L1]; [| |now destruct H1].
  - destruct (N.compare_spec (N_of_ascii y) (N_of_ascii z)) as [E2|L2|L2]; [| |now destruct H2].
    + rewrite E1, E2, N.compare_refl. apply (IH b c); assumption.
    + rewrite E1. apply N.compare_lt_iff in L2. rewrite L2. discriminate.
  - destruct (N.compare_spec (N_of_ascii y) (N_of_ascii z)) as [E2|L2|L2]; [| |now destruct H2].
    + rewrite <- E2. apply N.compare_lt_iff in L1. rewrite L1. discriminate.
    + pose proof (N.lt_trans _ _ _ L1 L2) as L. apply N.compare_lt_iff in L. rewrite L. discriminate.
Qed.
Lemma le_not_gt : forall x y, le_table x y = true <-> String.compare (pt_name x) (pt_name y) <> Gt.
Proof. intros x y. unfold le_table. destruct (String.compare (pt_name x) (pt_name y)); split; congruence. Qed.
Lemma le_trans : forall x y z, le_table x y = true -> le_table y z = true -> le_table x z = true.
Proof. intros x y z. rewrite !le_not_gt. apply compare_lt_trans. Qed.
Lemma le_names : forall x y, le_table x y = true -> le_table y x = true -> pt_name x = pt_name y.
Proof.
  intros x y H1 H2. apply String.compare_eq_iff. apply le_not_gt in H1, H2. rewrite String.compare_antisym in H2. destruct (String.compare (pt_name x) (pt_name y)); [reflexivity|now destruct H2|now destruct H1].
Qed.
Lemma nodup_same : forall A B (f : A -> B) l x y, NoDup (map f l) -> In x l -> In y l -> f x = f y -> x = y.
Proof.
  intros A B f l x y. induction l as [|z l IH]; intros N Ix Iy E; [destruct Ix|]. cbn [map] in N. inversion N as [|? ? N1 N2]; subst. destruct Ix as [<-|Ix], Iy as [<-|Iy].
  - reflexivity.
  - exfalso. apply N1. rewrite E. apply in_map. exact Iy.
  - exfalso. apply N1. rewrite <- E. apply in_map. exact Ix.
  - apply IH; assumption.
Qed.
Lemma order_perm : forall l l', Permutation l l' -> NoDup (map pt_name l) -> order_by le_table l = order_by le_table l'.
Proof.
  intros l l' P N. apply (ranked_unique _ le_table).
  - intros x y Ix Iy H1 H2. apply (Permutation_in x (order_by_perm _ le_table l)) in Ix. apply (Permutation_in y (order_by_perm _ le_table l)) in Iy. exact (nodup_same _ _ pt_name l x y N Ix Iy (le_names x y H1 H2)).
  - apply order_ranked; [exact le_total|exact le_trans].
  - apply order_ranked; [exact le_total|exact le_trans].
  - eapply Permutation_trans; [apply order_by_perm|]. eapply Permutation_trans; [exact P|]. apply Permutation_sym. apply order_by_perm.
Qed.
Lemma referential_names : forall db, map fst (referential_rows db) = foreign_names db.
Proof.
  intro db. unfold referential_rows, foreign_names. induction db as [|t db IH]; [reflexivity|]. cbn [flat_map]. rewrite map_app, IH. f_equal.
  induction (pt_constraints t) as [|c l IHl]; [reflexivity|]. cbn [flat_map filter]. rewrite map_app, IHl. destruct (pk_kind c); reflexivity.
Qed.
Lemma flat_map_perm : forall A B (f : A -> list B) l l', Permutation l l' -> Permutation (flat_map f l) (flat_map f l').
Proof.
  intros A B f l l' H. induction H as [|x l l' H IH|x y l|l1 l2 l3 H1 I1 H2 I2]; [constructor| | |eapply Permutation_trans; eassumption].
  - cbn [flat_map]. apply Permutation_app_head. exact IH.
  - cbn [flat_map]. rewrite !app_assoc. apply Permutation_app_tail. apply Permutation_app_comm.
Qed.
Lemma one_row : forall (l : list (string * (string * string))) n, NoDup (map fst l) -> List.length (filter (fun r => String.eqb n (fst r)) l) <= 1.
Proof.
  induction l as [|[x v] l IH]; intros n N; [apply le_S, le_n|]. cbn [map fst] in N. inversion N as [|? ? N1 N2]; subst. cbn [filter fst]. destruct (String.eqb_spec n x) as [->|]; [|apply IH; exact N2].
  assert (E : filter (fun r => String.eqb x (fst r)) l = []).
  { clear - N1. induction l as [|[y w] l IH]; [reflexivity|]. cbn [filter fst map In] in *. destruct (String.eqb_spec x y) as [->|]; [exfalso; apply N1; left; reflexivity|]. apply IH. intro H. apply N1. right. exact H. }
  rewrite E. apply le_n.
Qed.
Lemma rows_perm : forall db db' c, Permutation db db' -> NoDup (foreign_names db) -> constraint_rows db c = constraint_rows db' c.
Proof.
  intros db db' c P N. unfold constraint_rows.
  assert (Q : Permutation (filter (fun r => String.eqb (pk_name c) (fst r)) (referential_rows db)) (filter (fun r => String.eqb (pk_name c) (fst r)) (referential_rows db'))) by (apply filter_perm; unfold referential_rows; apply flat_map_perm; exact P).
  rewrite <- referential_names in N. pose proof (one_row _ (pk_name c) N) as L.
  destruct (filter (fun r => String.eqb (pk_name c) (fst r)) (referential_rows db)) as [|r [|r2 l]].
  - apply Permutation_nil in Q. rewrite Q. reflexivity.
  - apply Permutation_length_1_inv in Q. rewrite Q. reflexivity.
  - cbn [List.length] in L. apply le_S_n in L. inversion L.
Qed.

(** The tables are listed by name, so that their text does not depend on the order of the catalogue. *)
Theorem C92_tables : forall schema db db', Permutation db db' -> NoDup (names_in schema db) -> NoDup (foreign_names db) ->
  table_statements schema db = table_statements schema db'.
Proof.
  intros schema db db' P N F. unfold table_statements. assert (Q : Permutation (of_schema schema db) (of_schema schema db')) by (unfold of_schema; apply filter_perm; exact P).
  rewrite (order_perm _ _ Q N). apply flat_map_ext. intro t. unfold p_table_text. replace (constraint_defs db t) with (constraint_defs db' t); [reflexivity|].
  unfold constraint_defs. rewrite (flat_map_ext (constraint_rows db') (constraint_rows db)); [reflexivity|]. intro c. symmetry. apply rows_perm; assumption.
Qed.
Print Assumptions C92_tables.
(** The indexes are the same, in whatever order. *)
Lemma existsb_perm : forall A (p : A -> bool) l l', Permutation l l' -> existsb p l = existsb p l'.
Proof.
  intros A p l l' H. apply eq_iff_eq_true. rewrite !existsb_exists. split; intros (x & I & E); exists x; (split; [|exact E]); [exact (Permutation_in x H I)|exact (Permutation_in x (Permutation_sym H) I)].
Qed.
Theorem C92_indexes : forall schema db db', Permutation db db' -> Permutation (index_statements schema db) (index_statements schema db').
Proof.
  intros schema db db' P. unfold index_statements. assert (Q : Permutation (of_schema schema db) (of_schema schema db')) by (unfold of_schema; apply filter_perm; exact P).
  apply Permutation_map. rewrite (filter_ext _ (fun r => negb (existsb (String.eqb (pi_name r)) (schema_constraint_names schema db')))).
  - apply filter_perm. apply flat_map_perm. exact Q.
  - intro r. f_equal. apply existsb_perm. unfold schema_constraint_names. apply flat_map_perm. exact Q.
Qed.
Print Assumptions C92_indexes.
(** Without an index the whole text is the same. *)
Theorem C92_text : forall schema db db', Permutation db db' -> NoDup (names_in schema db) -> NoDup (foreign_names db) -> List.length (index_statements schema db) <= 1 ->
  show_postgres schema db = show_postgres schema db'.
Proof.
  intros schema db db' P N F L. unfold show_postgres. rewrite (C92_tables schema db db' P N F). f_equal. f_equal. f_equal. pose proof (C92_indexes schema db db' P) as Q.
  destruct (index_statements schema db) as [|x [|y l]].
  - apply Permutation_nil in Q. congruence.
  - apply Permutation_length_1_inv in Q. congruence.
  - cbn [List.length] in L. apply le_S_n in L. inversion L.
Qed.
Print Assumptions C92_text.
(** The order of the indexes is that of the catalogue. *)
Definition table_with (n i : string) : p_table :=
  mkPTable "public" n false [mkPColumn "a" "integer" None "" false None] [] [mkPIndex i ("CREATE INDEX " ++ i ++ " ON public." ++ n ++ " USING btree (a)")].
Theorem C92_index_order_refuted : exists db db', Permutation db db' /\ NoDup (names_in "public" db) /\ NoDup (foreign_names db) /\ show_postgres "public" db <> show_postgres "public" db'.
Proof.
  exists [table_with "t" "i"; table_with "u" "j"], [table_with "u" "j"; table_with "t" "i"]. split; [apply perm_swap|]. split.
  { vm_compute. constructor; [intros [H|[]]; discriminate H|]. constructor; [intros []|constructor]. }
  split; [vm_compute; constructor|]. vm_compute. discriminate.
Qed.
Print Assumptions C92_index_order_refuted.
(** Two foreign keys of one name: the rules of both are shown, in the order of the catalogue. *)
Definition table_ref (n upd : string) : p_table :=
  mkPTable "public" n false [mkPColumn "a" "integer" None "" false None] [mkPConstraint "f" (PForeign "x" ["a"] upd "NO ACTION") ["a"]] [].
Theorem C92_foreign_names_refuted : exists db db', Permutation db db' /\ NoDup (names_in "public" db) /\ table_statements "public" db <> table_statements "public" db'.
Proof.
  exists [table_ref "t" "CASCADE"; table_ref "u" "NO ACTION"], [table_ref "u" "NO ACTION"; table_ref "t" "CASCADE"]. split; [apply perm_swap|]. split.
  { vm_compute. constructor; [intros [H|[]]; discriminate H|]. constructor; [intros []|constructor]. }
  vm_compute. discriminate.
Qed.
Print Assumptions C92_foreign_names_refuted.
Example C92_example : let a := table_with "t" "i" in let b := table_ref "u" "CASCADE" in
  show_postgres "public" [a; b] = show_postgres "public" [b; a] /\ show_postgres "public" [a; b] <> "".
Proof. split; [reflexivity|vm_compute; discriminate]. Qed.

(** A constraint is shown once for each foreign key that bears its name, in whatever table, with
    the rules of that foreign key; once, without rules, if no foreign key does. *)
Theorem C92_lines_of_a_constraint : forall db c,
  List.length (constraint_rows db c) = Nat.max 1 (count_occ string_dec (foreign_names db) (pk_name c))
  /\ (forall t k r rc u d, In t db -> In k (pt_constraints t) -> pk_name k = pk_name c -> pk_kind k = PForeign r rc u d ->
      In ("CONSTRAINT " ++ pk_name c ++ " " ++ kind_text (pk_kind c) ++ " (" ++ join ", " (pk_columns c) ++ ")" ++ " ON UPDATE " ++ u ++ " ON DELETE " ++ d)%string (constraint_rows db c)).
Proof.
  intros db c. split.
  - rewrite <- referential_names. unfold constraint_rows.
    assert (E : forall l : list (string * (string * string)), count_occ string_dec (map fst l) (pk_name c) = List.length (filter (fun r => String.eqb (pk_name c) (fst r)) l)).
    { induction l as [|[x v] l IH]; [reflexivity|]. cbn [map fst count_occ filter]. destruct (string_dec x (pk_name c)) as [->|N].
      - rewrite String.eqb_refl. cbn [List.length]. rewrite IH. reflexivity.
      - destruct (String.eqb_spec (pk_name c) x) as [H|_]; [exfalso; apply N; symmetry; exact H|exact IH]. }
    rewrite E. destruct (filter _ (referential_rows db)) as [|r l]; [reflexivity|]. rewrite map_length. cbn [List.length Nat.max]. reflexivity.
  - intros t k r rc u d It Ik En Ek. unfold constraint_rows.
    assert (I : In (pk_name c, (u, d)) (filter (fun r => String.eqb (pk_name c) (fst r)) (referential_rows db))).
    { apply filter_In. split; [|cbn [fst]; apply String.eqb_refl]. unfold referential_rows. apply in_flat_map. exists t. split; [exact It|]. apply in_flat_map. exists k. split; [exact Ik|]. rewrite Ek, En. left. reflexivity. }
    destruct (filter _ (referential_rows db)) as [|x l]; [destruct I|]. apply in_map_iff. exists (pk_name c, (u, d)). split; [|exact I]. reflexivity.
Qed.
Print Assumptions C92_lines_of_a_constraint.
Example C92_lines_example : constraint_rows [table_ref "t" "CASCADE"; table_ref "u" "NO ACTION"] (mkPConstraint "f" PUnique ["a"])
  = ["CONSTRAINT f UNIQUE (a) ON UPDATE CASCADE ON DELETE NO ACTION"; "CONSTRAINT f UNIQUE (a) ON UPDATE NO ACTION ON DELETE NO ACTION"].
Proof. reflexivity. Qed.
