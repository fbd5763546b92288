(** C62: the sort the generated statements go through, and the properties of generation
    with it. *)
From Coq Require Import Lia Permutation Sorted Arith.
From Verif Require Import GoStr Token Lexer Ast Parser Diff LexSpec Printable Written GoSort GoSortFacts GoSortSorts.
From Verif Require Import Db Apply ApplySpec SqlDb Resolve Generate GenSpec GenTold GenRead AppendFacts GenFacts PropsGenerate PropsTold PropsGenRead PropsWhole PropsSort.

(** sort.Slice in parseFile: pkg/internal/lang/go/parse.go:224-226.  [rnd] are the numbers of the
    library's generator.  The sort always ends ([slice_sort_ends]). *)
Definition key_less (a b : gstmt) : bool := String.ltb (sort_key a) (sort_key b).
Definition go_order (rnd : nat -> nat -> nat) (l : list gstmt) : list gstmt :=
  match slice_sort key_less rnd l with Some l => l | None => [] end.
Lemma go_order_some : forall rnd l, slice_sort key_less rnd l = Some (go_order rnd l).
Proof. intros rnd l. unfold go_order. destruct (slice_sort_ends key_less rnd l) as [l' E]. rewrite E. reflexivity. Qed.

(** The same statements, in the order of their keys. *)
Theorem C62_sorts : forall rnd, sorts (go_order rnd).
Proof.
  intros rnd l. pose proof (go_order_some rnd l) as E. split; [apply (slice_sort_permuted key_less rnd _ _ E)|].
  apply (slice_sort_sorts gstmt key_less rnd) in E; [exact E|intros x y; apply ltb_asym|]. intros x y z H1 H2. exact (ge_trans _ _ _ H2 H1).
Qed.
Print Assumptions C62_sorts.

(** Up to twelve it is the insertion sort that [sort_small] writes out. *)
Lemma sink_inserts : forall rev_done c rest, GoSort.sink key_less (List.length rev_done) (List.length rev_done) (rev rev_done ++ c :: rest)
  = (rev (Generate.sink c rev_done) ++ rest)%list.
Proof.
  induction rev_done as [|y r IH]; intros c rest; [reflexivity|]. cbn [List.length GoSort.sink rev Generate.sink]. rewrite <- app_assoc. cbn [List.app].
  assert (N1 : nth_error (rev r ++ y :: c :: rest) (S (List.length r)) = Some c).
  { rewrite nth_error_app2 by (rewrite rev_length; lia). rewrite rev_length. replace (S (List.length r) - List.length r) with 1 by lia. reflexivity. }
  assert (N0 : nth_error (rev r ++ y :: c :: rest) (S (List.length r) - 1) = Some y).
  { rewrite nth_error_app2 by (rewrite rev_length; lia). rewrite rev_length. replace (S (List.length r) - 1 - List.length r) with 0 by lia. reflexivity. }
  unfold lt_at. rewrite N0, N1. unfold key_less at 1. destruct (String.ltb (sort_key c) (sort_key y)).
  - replace (S (List.length r) - 1) with (List.length r) by lia. rewrite <- (rev_length r) at 3 4. rewrite swap_next. cbn [rev]. rewrite IH, <- app_assoc. reflexivity.
  - cbn [rev]. rewrite <- !app_assoc. reflexivity.
Qed.
Lemma insertion_inserts : forall todo acc, acc <> [] ->
  insertion_from key_less (List.length todo) (List.length acc) 0 (rev acc ++ todo) = rev (fold_left (fun acc x => Generate.sink x acc) todo acc).
Proof.
  induction todo as [|c todo IH]; intros acc N; cbn [List.length insertion_from fold_left]; [apply app_nil_r|]. rewrite Nat.sub_0_r, sink_inserts.
  rewrite <- IH; [|destruct acc as [|y acc]; [contradiction|]; cbn [Generate.sink]; destruct (String.ltb _ _); discriminate].
  replace (S (List.length acc)) with (List.length (Generate.sink c acc)); [reflexivity|]. rewrite (Permutation_length (sink_perm c acc)). reflexivity.
Qed.
Theorem C62_few_are_inserted : forall rnd l, List.length l <= 12 -> go_order rnd l = sort_small l.
Proof.
  intros rnd l L. destruct l as [|x l]; [reflexivity|]. pose proof (go_order_some rnd (x :: l)) as E. unfold slice_sort in E. cbn [pdqsort] in E. rewrite Nat.sub_0_r in E. rewrite (proj2 (Nat.leb_le _ _) L) in E.
  unfold insertion_sort in E. cbn [List.length] in E. replace (S (List.length l) - 1) with (List.length l) in E by lia.
  pose proof (insertion_inserts l [x]) as I. cbn [List.length rev List.app] in I. rewrite I in E by discriminate. injection E as <-. reflexivity.
Qed.
Print Assumptions C62_few_are_inserted.
Lemma go_order_like_go : forall rnd, sorts_like_go (go_order rnd).
Proof. intro rnd. split; [apply C62_sorts|apply C62_few_are_inserted]. Qed.
Example C62_example : forall rnd, exists a b, map stmt_line (go_order rnd [a; b]) = [9; 10]%N /\ stmt_line a = 10%N /\ stmt_line b = 9%N.
Proof. intro rnd. exists (GIndex (mkGIndex "f" 10 [] "")), (GIndex (mkGIndex "f" 9 [] "")). repeat split; vm_compute; reflexivity. Qed.

(** * Generation with the library's sort *)

(** Statements of different lines: neither the order of the maps nor the library's generator
    matter. *)
Corollary C30_go_partial : forall cfg look short rnd rnd' dialect language i i', reordered i i' ->
  (forall file nodes l, In (file, nodes) (files_of i) -> parse_file cfg look short (go_order rnd) file nodes = Ok (Some l) -> NoDup (map stmt_line l)) ->
  generate cfg look short (go_order rnd) dialect language i = generate cfg look short (go_order rnd') dialect language i'.
Proof. intros cfg look short rnd rnd' dialect language i i' R H. apply C30_deterministic_partial; [apply C62_sorts|apply C62_sorts|exact R|exact H]. Qed.
Print Assumptions C30_go_partial.

(** An index annotated in the first line of its comment has the line of its table.  From
    thirteen statements on the sort may exchange them: which of the two comes first depends on the
    order of the map, here for a file with thirteen structs. *)
Definition struct_at (line : N) : cnode := demo_node "A" [(("// pgddl: table: t" ++ itoa line)%string, line)].
Definition indexed : cnode := demo_node "B" [("// pgddl: index: i ON b (id)", 1%N); ("// pgddl: table: b", 2%N)].
Definition twelve_structs : list cnode := map struct_at [10; 20; 30; 40; 50; 60; 70; 80; 90; 100; 110; 120]%N.
Definition creates (r : res (option (list gstmt))) : list string :=
  match r with Ok (Some l) => map (fun s => match s with GTable t => g_create t | GIndex i => gi_create i end) l | _ => [] end.
Lemma many_apart : groups_apart (indexed :: twelve_structs).
Proof. unfold groups_apart. cbn. repeat (constructor; [repeat (constructor; [intros l l' H H'; cbn in H, H'; intuition (subst; discriminate)|]); constructor|]). constructor. Qed.
Theorem C30_many_statements_refuted : forall rnd, exists file nodes nodes', Permutation nodes nodes' /\ groups_apart nodes
  /\ firstn 2 (creates (parse_file demo look_simple (fun s => s) (go_order rnd) file (Some nodes))) = ["CREATE INDEX i ON b (id)"; "CREATE TABLE b"]
  /\ firstn 2 (creates (parse_file demo look_simple (fun s => s) (go_order rnd) file (Some nodes'))) = ["CREATE TABLE b"; "CREATE INDEX i ON b (id)"]
  /\ generate demo look_simple (fun s => s) (go_order rnd) "postgres" "go" (OneFile file (Some nodes))
     <> generate demo look_simple (fun s => s) (go_order rnd) "postgres" "go" (OneFile file (Some nodes')).
Proof.
  intro rnd. exists "a.go", (indexed :: twelve_structs), (indexed :: rev twelve_structs). split; [apply perm_skip, Permutation_rev|]. split; [exact many_apart|].
  split; [vm_compute; reflexivity|]. split; [vm_compute; reflexivity|]. vm_compute. discriminate.
Qed.
Print Assumptions C30_many_statements_refuted.

Corollary C49_go_generate : forall cfg look short rnd dialect p file nodes l, good_tag (ddl_tag cfg) = true -> printer_for dialect p ->
  file_says cfg look nodes l -> l <> [] ->
  exists out, generate cfg look short (go_order rnd) dialect "go" (OneFile file (Some nodes)) = Ok (print_ddl p short out) /\ Permutation (map bare out) l.
Proof. intros cfg look short rnd dialect p file nodes l T. apply C49_generate; [exact T|apply C62_sorts]. Qed.
Print Assumptions C49_go_generate.
Corollary C49_go_generate_tree : forall cfg look short rnd dialect p files ls, good_tag (ddl_tag cfg) = true -> printer_for dialect p ->
  tree_says cfg look files ls ->
  exists outs, generate cfg look short (go_order rnd) dialect "go" (Tree files) = Ok (print_ddl p short (List.concat outs)) /\ Forall2 (fun out l => Permutation (map bare out) l) outs ls.
Proof. intros cfg look short rnd dialect p files ls T. apply C49_generate_tree; [exact T|apply C62_sorts]. Qed.
Print Assumptions C49_go_generate_tree.
Corollary C51_go_line_order : forall cfg look short rnd file nodes out, parse_file cfg look short (go_order rnd) file (Some nodes) = Ok (Some out) ->
  Forall (fun s => (stmt_line s < 1000000000)%N) out -> StronglySorted (fun a b => (stmt_line a <= stmt_line b)%N) out.
Proof. intros cfg look short rnd file nodes out. apply C51_line_order, C62_sorts. Qed.
Print Assumptions C51_go_line_order.
Corollary C31_go_tables_are_complete : forall cfg look short rnd file nodes l, parse_file cfg look short (go_order rnd) file nodes = Ok (Some l) ->
  forall t, In (GTable t) l -> g_create t <> "" /\ g_columns t <> [].
Proof. intros cfg look short rnd file nodes l. apply C31_tables_are_complete, C62_sorts. Qed.
Print Assumptions C31_go_tables_are_complete.
(** Nothing is assumed of either sort any more. *)
Corollary C52_go_file_is_read_partial : forall cfg look short rnd rnd' name p d file nodes l ws,
  good_tag (ddl_tag cfg) = true -> dialect_for name p d -> plain_settings cfg -> LexSpec.one_line (short file) = true -> plain_nodes nodes ->
  file_says cfg look nodes l -> l <> [] -> Forall2 (says p d) l ws -> forallb (written_ok d) ws = true ->
  exists text ws', generate cfg look short (go_order rnd) name "go" (OneFile file (Some nodes)) = Ok text
    /\ Permutation ws' ws /\ parse d (go_sort rnd') text = Ok (map (meant d) ws').
Proof.
  intros cfg look short rnd rnd' name p d file nodes l ws T D C F N H Hl Y W.
  apply (C52_generated_file_is_read_partial cfg look short (go_order rnd) (go_sort rnd') name p d file nodes l ws); try assumption; [apply C62_sorts|apply go_sort_keeps_all].
Qed.
Print Assumptions C52_go_file_is_read_partial.
Corollary C52_go_tree_is_read_partial : forall cfg look short rnd rnd' name p d files ls wss,
  good_tag (ddl_tag cfg) = true -> dialect_for name p d -> plain_settings cfg ->
  (forall file nodes, In (file, Some nodes) files -> LexSpec.one_line (short file) = true /\ plain_nodes nodes) ->
  tree_says cfg look files ls -> Forall2 (Forall2 (says p d)) ls wss -> forallb (written_ok d) (List.concat wss) = true ->
  exists text wss', generate cfg look short (go_order rnd) name "go" (Tree files) = Ok text
    /\ Forall2 (@Permutation written) wss' wss /\ parse d (go_sort rnd') text = Ok (map (meant d) (List.concat wss')).
Proof.
  intros cfg look short rnd rnd' name p d files ls wss T D C N H Y W.
  apply (C52_generated_tree_is_read_partial cfg look short (go_order rnd) (go_sort rnd') name p d files ls wss); try assumption; [apply C62_sorts|apply go_sort_keeps_all].
Qed.
Print Assumptions C52_go_tree_is_read_partial.
Corollary C59_go_sources_reach_database_partial : forall y cfg look short rnd rnd' w name p d dsn dir files ls wss wb m0,
  dialect_for name p d -> w_dialect w = name -> (forall a, w_resolve w a = resolve y cfg look short (go_order rnd) "go" name a) -> w_srt w = go_sort rnd' ->
  y_entry y dsn = ANothing -> has_database (w_srt w) name d (y_server y dsn) wb -> forallb (written_ok d) wb = true ->
  y_entry y dir = ADirectory files -> good_tag (ddl_tag cfg) = true -> plain_settings cfg ->
  (forall file nodes, In (file, Some nodes) files -> LexSpec.one_line (short file) = true /\ plain_nodes nodes) ->
  tree_says cfg look files ls -> Forall2 (Forall2 (says p d)) ls wss -> forallb (written_ok d) (List.concat wss) = true ->
  working w -> approved w -> served d m0 w ->
  exists wss', Forall2 (@Permutation written) wss' wss /\
  forall ma, convertible d (w_srt w) (w_sdiff w) (map (meant d) wb) (map (meant d) (List.concat wss')) m0 ma ->
  exists tr, apply_command w [dsn; dir] = (tr, Done) /\ db_eq (sv_db (after_events d tr m0)) ma /\ Forall (fun q => snd q = None) (sent tr).
Proof.
  intros y cfg look short rnd rnd' w name p d dsn dir files ls wss wb m0 Df Wd Wr Ws E1 Hb Wb E2 Gt Pc Pn Ts Sy Wo Ww Wa Sv.
  eapply C59_sources_reach_database_partial; try eassumption; [apply C62_sorts| |]; rewrite Ws; [apply go_sort_keeps_all|apply go_sort_ok].
Qed.
Print Assumptions C59_go_sources_reach_database_partial.
