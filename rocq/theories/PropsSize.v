(** Property C71: how many statements a difference has. *)
From Coq Require Import Lia Permutation.
From Verif Require Import GoStr Token Lexer Ast Parser Diff AppendFacts PropsDiff.
Local Open Scope list_scope.

(** * Specification: the parts of a statement that can be migrated one by one *)

(** A statement counts for itself (twice in the old schema, where the object may have to be dropped and
    created again), a column of the old schema three times, a constraint of the old schema twice,
    everything else once. *)
Definition old_parts (s : stmt) : nat :=
  match s with
  | CreateTable t => 2 + 3 * List.length (ct_columns t) + 2 * List.length (ct_constraints t) + List.length (ct_options t)
  | _ => 2
  end.
Definition new_parts (s : stmt) : nat :=
  match s with
  | CreateTable t => 1 + List.length (ct_columns t) + List.length (ct_constraints t) + List.length (ct_options t)
  | _ => 1
  end.
Fixpoint total (f : stmt -> nat) (l : ddl) : nat := match l with [] => 0 | s :: r => f s + total f r end.
(** What a statement is about: the kind of the object and its name *)
Definition kind (s : stmt) : nat := match s with CreateTable _ => 0 | CreateIndex _ => 1 | DropTable _ _ _ => 2 | DropIndex _ _ _ => 3 | AlterTable _ _ _ => 4 end.
Definition subject (s : stmt) : nat * string := (kind s, stmt_name s).

(** * Counting *)
Lemma flat_map_bound : forall A B (f : A -> list B) k l, (forall x, List.length (f x) <= k) -> List.length (flat_map f l) <= k * List.length l.
Proof. intros A B f k l H. induction l as [|x l IH]; cbn [flat_map List.length]; [lia|]. rewrite app_length. specialize (H x). lia. Qed.
Lemma filter_bound : forall A (f : A -> bool) l, List.length (filter f l) <= List.length l.
Proof. intros A f. induction l as [|x l IH]; cbn [filter List.length]; [lia|]. destruct (f x); cbn [List.length]; lia. Qed.
Lemma replace_length : forall cs c l, replace_constraint cs c = Some (Some l) -> List.length l = List.length cs.
Proof.
  induction cs as [|y cs IH]; intros c l H; cbn [replace_constraint] in H; [discriminate H|]. destruct (con_name y), (con_name c); try discriminate H.
  destruct (eqs _ _); [inversion H; reflexivity|]. destruct (replace_constraint cs c) as [[z|]|] eqn:E; try discriminate H. inversion H. cbn [List.length]. f_equal. exact (IH _ _ E).
Qed.

Section Size.
Variable d : dialect.
Variable srt : list constraint -> list constraint.
Variable sdiff : string -> string -> string.
Hypothesis Hs : srt_ok srt.

Lemma append_bound : forall new cs l, append_constraints d srt cs new = Ok l -> List.length l <= List.length cs + List.length new.
Proof.
  induction new as [|c new IH]; intros cs l H; cbn [append_constraints] in H; [inversion H; subst; cbn; lia|].
  destruct (append_constraint d srt cs c) as [cs'| | |] eqn:E; cbn [bind] in H; try discriminate H. apply IH in H. cbn [List.length].
  unfold append_constraint in E. destruct (replace_constraint cs c) as [[z|]|] eqn:R; try discriminate E; inversion E; subst cs'.
  - rewrite (replace_length _ _ _ R) in H. lia.
  - assert (L : List.length (match d with Crdb | My => sort_constraints srt (cs ++ [c]) | _ => cs ++ [c] end) = S (List.length cs)).
    { destruct d; rewrite ?(Permutation_length (sort_constraints_perm srt Hs _)), app_length; cbn [List.length]; lia. }
    rewrite L in H. lia.
Qed.
Lemma common_bound : forall n b a, List.length (diff_common_column d sdiff n b a) <= 3.
Proof.
  intros n b a. unfold diff_common_column, diff_default, diff_notnull, diff_options.
  destruct d; rewrite ?app_length; repeat match goal with |- context [if ?x then _ else _] => destruct x end; cbn [List.length]; lia.
Qed.
Lemma columns_bound : forall n bcols acols, List.length (diff_columns d sdiff n bcols acols) <= 3 * List.length bcols + List.length acols.
Proof.
  intros n bcols acols. unfold diff_columns. rewrite app_length, map_length.
  assert (A : List.length (flat_map (diff_before_column d sdiff n acols) bcols) <= 3 * List.length bcols).
  { apply flat_map_bound. intro x. unfold diff_before_column. destruct (find_column _ acols); [apply common_bound|]. destruct (keep_hidden d x); cbn [List.length]; lia. }
  pose proof (filter_bound _ (fun c => match find_column (id_name (c_name c)) bcols with None => true | Some _ => false end) acols) as B. unfold only_left_columns. lia.
Qed.
(** A constraint of the old table is dropped or changed, not both. *)
Lemma constraints_bound : forall nv bn n acs bcs,
  List.length (flat_map (drop_gone_constraint d sdiff bn n acs) bcs) + List.length (flat_map (change_constraint d sdiff nv bn n acs) bcs) <= 2 * List.length bcs.
Proof.
  intros nv bn n acs. induction bcs as [|c bcs IH]; cbn [flat_map List.length]; [lia|]. rewrite !app_length.
  assert (X : List.length (drop_gone_constraint d sdiff bn n acs c) + List.length (change_constraint d sdiff nv bn n acs c) <= 2).
  { unfold drop_gone_constraint, change_constraint. destruct (find_constraint (con_key c) acs); [|destruct (is_index d c); cbn [List.length]; lia].
    repeat match goal with |- context [if ?x then _ else _] => destruct x end; cbn [List.length]; lia. }
  lia.
Qed.
Lemma options_bound : forall n bos aos, List.length (diff_table_options d sdiff n bos aos) <= List.length bos + List.length aos.
Proof.
  intros n bos aos. unfold diff_table_options. destruct d; try (cbn [List.length]; lia). rewrite app_length, map_length.
  match goal with |- List.length (flat_map ?f bos) + _ <= _ => assert (A : List.length (flat_map f bos) <= 1 * List.length bos) end.
  { apply flat_map_bound. intro x. destruct (is_auto_increment x); [cbn; lia|]. destruct (find_option _ aos); [|cbn; lia]. destruct (neqs _ _); cbn; lia. }
  pose proof (filter_bound _ (fun a => negb (is_auto_increment a)) (only_left_options aos bos)) as B.
  pose proof (filter_bound _ (fun o => match find_option (o_name o) bos with None => true | Some _ => false end) aos) as C. unfold only_left_options in *. lia.
Qed.
Lemma tables_bound : forall nv b a l, eqs (stmt_name (CreateTable b)) (stmt_name (CreateTable a)) = true -> diff_tables d srt sdiff nv b a = Ok l -> List.length l <= old_parts (CreateTable b) + new_parts (CreateTable a).
Proof.
  intros nv b a l _ H. unfold diff_tables in H. destruct (only_left_constraints d srt (ct_constraints a) (ct_constraints b)) as [added| | |] eqn:E; cbn [bind] in H; try discriminate H. inversion H; subst l. clear H.
  rewrite !app_length, map_length. unfold only_left_constraints in E. apply append_bound in E. cbn [List.length Nat.add] in E.
  pose proof (filter_bound _ (fun c => match find_constraint (con_key c) (ct_constraints b) with None => true | Some _ => false end) (ct_constraints a)) as F.
  pose proof (columns_bound (final_name (ct_name b) (ct_name a)) (ct_columns b) (ct_columns a)) as C.
  pose proof (constraints_bound nv (ct_name b) (final_name (ct_name b) (ct_name a)) (ct_constraints a) (ct_constraints b)) as K.
  pose proof (options_bound (final_name (ct_name b) (ct_name a)) (ct_options b) (ct_options a)) as O.
  assert (R : List.length (diff_rename sdiff (ct_name b) (ct_name a)) <= 1) by (unfold diff_rename; destruct (renamed _ _); cbn; lia).
  assert (W : List.length (diff_row_deletion d sdiff (final_name (ct_name b) (ct_name a)) (ct_rowdel b) (ct_rowdel a)) <= 1).
  { unfold diff_row_deletion. destruct d; try (cbn; lia). destruct (neqs _ _); [|cbn; lia]. destruct (ct_rowdel b), (ct_rowdel a); cbn; lia. }
  cbn [old_parts new_parts]. lia.
Qed.
Definition partner (s : stmt) (after : ddl) : nat := match find_stmt s after with Some a => new_parts a | None => 0 end.
Lemma stmt_bound : forall s after l, diff_stmt d srt sdiff s after = Ok l -> List.length l <= (match find_stmt s after with Some _ => old_parts s | None => 0 end) + partner s after.
Proof.
  intros s after l H. unfold diff_stmt, partner in *. destruct (find_stmt s after) as [a|] eqn:E; [|destruct s; rewrite ?E in H; inversion H; subst; cbn; lia].
  destruct s as [b|i| | |]; rewrite ?E in H; try (inversion H; subst; cbn [List.length]; lia).
  - destruct a as [a| | | |]; try (inversion H; subst; cbn [List.length]; lia). unfold diff_create_table in H.
    destruct (match d with Sp => _ | _ => _ end); [inversion H; subst; cbn [List.length old_parts]; lia|].
    destruct (eqs (create_table_string d b) (create_table_string d a)); [inversion H; subst; cbn [List.length]; lia|].
    destruct (all_named (ct_constraints b) && all_named (ct_constraints a)); [|discriminate H].
    destruct (diff_tables d srt sdiff false b a) as [[|x r]| | |] eqn:T; try discriminate H; inversion H; subst; [cbn [List.length]; lia|].
    apply tables_bound in T; [exact T|]. unfold find_stmt in E. apply find_some in E. destruct E as [_ E]. apply andb_true_iff in E. apply E.
  - destruct a as [|a| | |]; try (inversion H; subst; cbn [List.length]; lia). destruct (neqs _ _); inversion H; subst; cbn [List.length old_parts]; lia.
Qed.
Fixpoint partners (before after : ddl) : nat := match before with [] => 0 | s :: r => partner s after + partners r after end.
Lemma stmts_bound : forall before after l, diff_stmts d srt sdiff before after = Ok l ->
  List.length l + List.length (only_left_stmts before after) <= total old_parts before + partners before after.
Proof.
  induction before as [|s r IH]; intros after l H; cbn [diff_stmts] in H; [inversion H; subst; cbn; lia|].
  destruct (diff_stmt d srt sdiff s after) as [x| | |] eqn:E; cbn [bind] in H; try discriminate H.
  destruct (diff_stmts d srt sdiff r after) as [y| | |] eqn:F; cbn [bind] in H; try discriminate H. inversion H; subst l. rewrite app_length.
  specialize (IH after y F). apply stmt_bound in E. cbn [total partners]. unfold only_left_stmts in *. cbn [filter].
  assert (G : 2 <= old_parts s) by (destruct s; cbn [old_parts]; lia). destruct (find_stmt s after); cbn [List.length]; lia.
Qed.
Lemma map_opt_length : forall A B (f : A -> option B) l r, map_opt f l = Some r -> List.length r = List.length l.
Proof.
  induction l as [|x l IH]; intros r H; cbn [map_opt] in H; [inversion H; reflexivity|]. destruct (f x); [|discriminate H]. destruct (map_opt f l); [|discriminate H]. inversion H. cbn [List.length]. f_equal. apply IH. reflexivity.
Qed.
Lemma ddl_bound : forall before after l, diff_ddl d srt sdiff before after = DOk l ->
  List.length l <= total old_parts before + partners before after + List.length (only_left_stmts after before).
Proof.
  intros before after l H. unfold diff_ddl in H. destruct (eqs _ _); [discriminate H|].
  destruct (map_opt drop_stmt (only_left_stmts before after)) as [dr|] eqn:E1; [|discriminate H]. destruct (map_opt create_stmt (only_left_stmts after before)) as [cr|] eqn:E2; [|discriminate H].
  destruct (diff_stmts d srt sdiff before after) as [ch| | |] eqn:E3; try discriminate H. apply map_opt_length in E1, E2. apply stmts_bound in E3.
  assert (L : l = dr ++ cr ++ ch) by (destruct (dr ++ cr ++ ch); [discriminate H|inversion H; reflexivity]). subst l. rewrite !app_length. lia.
Qed.
End Size.

(** Partners of different statements are different. *)
Lemma matched_subject : forall s x, same_type s x && eqs (stmt_name s) (stmt_name x) = true -> subject s = subject x.
Proof. intros s x H. apply andb_true_iff in H. destruct H as [A B]. apply String.eqb_eq in B. unfold subject. rewrite B. destruct s, x; try discriminate A; reflexivity. Qed.
Lemma subject_matched : forall s x, subject s = subject x -> same_type s x && eqs (stmt_name s) (stmt_name x) = true.
Proof. intros s x H. inversion H as [[A B]]. rewrite B. unfold eqs. rewrite String.eqb_refl, andb_true_r. destruct s, x; try discriminate A; reflexivity. Qed.
Lemma partners_front : forall a after before, NoDup (map subject before) ->
  partners before (a :: after) <= partners before after + (if existsb (fun s => same_type s a && eqs (stmt_name s) (stmt_name a)) before then new_parts a else 0).
Proof.
  intros a after. induction before as [|s r IH]; intro N; cbn [partners existsb]; [lia|]. inversion N as [|? ? N1 N2]; subst.
  unfold partner at 1. unfold find_stmt. cbn [find]. destruct (same_type s a && eqs (stmt_name s) (stmt_name a)) eqn:E; cbn [orb].
  - assert (X : partners r (a :: after) = partners r after).
    { clear IH N N2. induction r as [|x r IH]; [reflexivity|]. cbn [partners]. rewrite IH by (intro F; apply N1; right; exact F). f_equal. unfold partner, find_stmt. cbn [find].
      destruct (same_type x a && eqs (stmt_name x) (stmt_name a)) eqn:F; [|reflexivity]. exfalso. apply N1. left. rewrite (matched_subject _ _ F), <- (matched_subject _ _ E). reflexivity. }
    rewrite X. lia.
  - specialize (IH N2). fold (find_stmt s after). fold (partner s after). lia.
Qed.
Lemma left_front : forall a after before, only_left_stmts (a :: after) before = (if match find_stmt a before with None => true | Some _ => false end then [a] else []) ++ only_left_stmts after before.
Proof. intros a after before. unfold only_left_stmts. cbn [filter]. destruct (find_stmt a before); reflexivity. Qed.
Lemma distinct_bound : forall before after, NoDup (map subject before) -> partners before after + List.length (only_left_stmts after before) <= total new_parts after.
Proof.
  intros before after N. induction after as [|a after IH].
  - assert (X : partners before [] = 0) by (clear N; induction before as [|s r IH]; [reflexivity|cbn [partners]; rewrite IH; reflexivity]). rewrite X. cbn. lia.
  - pose proof (partners_front a after before N) as P. rewrite left_front, app_length. cbn [total].
    assert (G : 1 <= new_parts a) by (destruct a; cbn [new_parts]; lia).
    destruct (find_stmt a before) as [x|] eqn:E; cbn [List.length Nat.add].
    + destruct (existsb _ before); lia.
    + assert (F : existsb (fun s => same_type s a && eqs (stmt_name s) (stmt_name a)) before = false).
      { destruct (existsb _ before) eqn:F; [|reflexivity]. apply existsb_exists in F. destruct F as [y [F1 F2]]. apply matched_subject in F2. symmetry in F2. apply subject_matched in F2.
        pose proof (find_none _ _ E y F1) as F3. cbv beta in F3. congruence. }
      rewrite F in P. lia.
Qed.
Lemma partners_product : forall before after, partners before after <= List.length before * total new_parts after.
Proof.
  intros before after. induction before as [|s r IH]; cbn [partners List.length]; [lia|].
  assert (X : partner s after <= total new_parts after).
  { unfold partner. destruct (find_stmt s after) as [a|] eqn:E; [|lia]. apply find_some in E. destruct E as [E _]. clear - E. induction after as [|x l IH]; [destruct E|]. cbn [total]. destruct E as [E|E]; [subst; lia|specialize (IH E); lia]. }
  lia.
Qed.
Lemma left_total : forall after before, List.length (only_left_stmts after before) <= total new_parts after.
Proof.
  intros after before. induction after as [|a after IH]; [cbn; lia|]. rewrite left_front, app_length. cbn [total]. assert (G : 1 <= new_parts a) by (destruct a; cbn [new_parts]; lia).
  destruct (find_stmt a before); cbn [List.length]; lia.
Qed.

(** * C71: a difference is not longer than the two schemas *)

(** When no object is described twice in the old schema *)
Theorem C71_linear_partial : forall d srt sdiff before after stmts, srt_ok srt -> NoDup (map subject before) ->
  diff d srt sdiff (Some before) (Some after) = DOk stmts -> List.length stmts <= total old_parts before + total new_parts after.
Proof.
  intros d srt sdiff before after stmts Hs N H. cbn [diff] in H. pose proof (ddl_bound d srt sdiff Hs before after stmts H) as B. pose proof (distinct_bound before after N). lia.
Qed.
Print Assumptions C71_linear_partial.
(** Whatever the schemas *)
Theorem C71_bounded : forall d srt sdiff before after stmts, srt_ok srt ->
  diff d srt sdiff (Some before) (Some after) = DOk stmts -> List.length stmts <= total old_parts before + S (List.length before) * total new_parts after.
Proof.
  intros d srt sdiff before after stmts Hs H. cbn [diff] in H. pose proof (ddl_bound d srt sdiff Hs before after stmts H) as B. pose proof (partners_product before after). pose proof (left_total after before). lia.
Qed.
Print Assumptions C71_bounded.
(** Nothing to create, or nothing to drop *)
Theorem C71_one_side : forall d srt sdiff l stmts,
  (diff d srt sdiff None (Some l) = DOk stmts \/ diff d srt sdiff (Some l) None = DOk stmts) -> List.length stmts = List.length l.
Proof.
  intros d srt sdiff l stmts [H|H]; cbn [diff] in H; [inversion H; reflexivity|]. destruct (map_opt drop_stmt l) eqn:E; [|discriminate H]. inversion H; subst. exact (map_opt_length _ _ _ _ _ E).
Qed.
Print Assumptions C71_one_side.

Definition count (d : dialect) (b a : string) : nat := match diff_of d (schema d b) (schema d a) with DOk l => List.length l | _ => 0 end.
Definition allowance (d : dialect) (b a : string) : nat := total old_parts (schema d b) + total new_parts (schema d a).
(** Every column of the old table gives three statements, a constraint two. *)
Definition busy_old : string := "CREATE TABLE t (a INTEGER, b INTEGER, CONSTRAINT k UNIQUE (a));".
Definition busy_new : string := "CREATE TABLE t (a BIGINT NOT NULL DEFAULT 1, b BIGINT NOT NULL DEFAULT 2, c INTEGER, CONSTRAINT k UNIQUE (b));".
Example C71_example : count Pg busy_old busy_new = 9%nat /\ allowance Pg busy_old busy_new = 15%nat.
Proof. split; vm_compute; reflexivity. Qed.
(** A table described several times in the old schema is compared several times: every time all new
    columns are added. *)
Definition thrice : string := "CREATE TABLE t (a INTEGER); CREATE TABLE t (a INTEGER); CREATE TABLE t (a INTEGER);".
Definition wide : string := "CREATE TABLE t (a INTEGER, b INTEGER, c INTEGER, e INTEGER, f INTEGER, g INTEGER, h INTEGER, i INTEGER, j INTEGER, k INTEGER, l INTEGER, m INTEGER);".
Theorem C71_described_twice_refuted : exists b a stmts, accepted Pg b = true /\ accepted Pg a = true /\ diff_of Pg (schema Pg b) (schema Pg a) = DOk stmts
  /\ total old_parts (schema Pg b) + total new_parts (schema Pg a) < List.length stmts.
Proof.
  exists thrice, wide. destruct (diff_of Pg (schema Pg thrice) (schema Pg wide)) as [stmts| | |] eqn:E; try (vm_compute in E; discriminate E).
  exists stmts. split; [vm_compute; reflexivity|]. split; [vm_compute; reflexivity|]. split; [reflexivity|].
  assert (X : (allowance Pg thrice wide <? count Pg thrice wide)%nat = true) by (vm_compute; reflexivity). apply Nat.ltb_lt in X. unfold count in X. rewrite E in X. exact X.
Qed.
Print Assumptions C71_described_twice_refuted.
