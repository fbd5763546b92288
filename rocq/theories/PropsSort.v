(** The sort the constraints go through (C61), and the other properties with it. *)
From Coq Require Import Lia Permutation Arith.
From Verif Require Import GoStr Token Lexer Ast Parser Diff LexSpec Printable CaseSpec Written Variants GoSort GoSortFacts PrintLex PrintStmt PrintDdl WrittenFacts AppendFacts ParserCase.
From Verif Require Import Apply Generate GenSpec GenTold GenRead GenReadFacts ShowMy ShowMyRead PropsParse PropsRound PropsDiff PropsWritten PropsGenRead PropsShowMy.

(** sort.Slice in Constraints.Append: cockroachdb/ddl_table.go:31-39, mysql/ddl_table.go:31-39.
    [rnd] are the numbers of the library's generator.  The sort always ends
    ([slice_sort_ends]). *)
Definition go_sort (rnd : nat -> nat -> nat) (cs : list constraint) : list constraint :=
  match slice_sort (fun x _ => is_primary x) rnd cs with Some l => l | None => [] end.

Lemma go_sort_some : forall rnd cs, slice_sort (left_marked is_primary) rnd cs = Some (go_sort rnd cs).
Proof. intros rnd cs. unfold go_sort. destruct (slice_sort_ends (left_marked is_primary) rnd cs) as [l E]. unfold left_marked in *. rewrite E. reflexivity. Qed.
Lemma is_pkey_primary : forall c, is_pkey c = is_primary c.
Proof. destruct c; reflexivity. Qed.
(** Nothing is lost. *)
Lemma go_sort_ok : forall rnd, srt_ok (go_sort rnd).
Proof. intros rnd cs. apply (slice_sort_permuted (left_marked is_primary) rnd). apply go_sort_some. Qed.
Lemma go_sort_keeps : forall rnd cs, forallb (fun c => negb (is_pkey c)) (tl cs) = true -> go_sort rnd cs = cs.
Proof.
  intros rnd cs H. pose proof (slice_sort_rest is_primary rnd cs) as R. rewrite go_sort_some in R. assert (E : Some (go_sort rnd cs) = Some cs); [apply R|congruence].
  intros i x Hi Hx. destruct cs as [|c cs]; [destruct i; discriminate Hx|]. destruct i as [|i]; [lia|]. cbn [tl nth_error] in *. apply nth_error_In in Hx.
  rewrite forallb_forall in H. specialize (H x Hx). rewrite is_pkey_primary in H. destruct (is_primary x); [discriminate H|reflexivity].
Qed.
Lemma go_sort_case : forall rnd l l', map up_constraint l = map up_constraint l' -> map up_constraint (go_sort rnd l) = map up_constraint (go_sort rnd l').
Proof.
  intros rnd l l' H. assert (N : forall k, Some (map up_constraint (go_sort rnd k)) = slice_sort (left_marked is_primary) rnd (map up_constraint k)).
  { intro k. rewrite (slice_sort_map up_constraint (left_marked is_primary)); [rewrite go_sort_some; reflexivity|]. intros x y. destruct x; reflexivity. }
  assert (E : Some (map up_constraint (go_sort rnd l)) = Some (map up_constraint (go_sort rnd l'))) by (rewrite !N, H; reflexivity). congruence.
Qed.
(** The parser model writes the case of up to twelve elements out; it is the library's. *)
Lemma marked_insert : forall todo done, marked_first is_primary done todo = insert_primaries done todo.
Proof. induction todo as [|c r IH]; intro done; cbn [marked_first insert_primaries]; [reflexivity|]. destruct (is_primary c); apply IH. Qed.
Theorem C61_small_case_is_the_library : forall rnd cs, sort_constraints (go_sort rnd) cs = go_sort rnd cs.
Proof.
  intros rnd cs. unfold sort_constraints. destruct (Nat.leb (List.length cs) 12) eqn:L; [|reflexivity]. apply Nat.leb_le in L. destruct cs as [|c r]; [reflexivity|].
  pose proof (slice_sort_few is_primary rnd c r L) as F. rewrite go_sort_some, marked_insert in F. congruence.
Qed.
Print Assumptions C61_small_case_is_the_library.

(** * C61: the primary key comes first, nothing is lost *)

(** Appending differently named constraints one by one. *)
Definition names_differ (cs : list constraint) : Prop := forall a x b y c, cs = (a ++ x :: b ++ y :: c)%list ->
  exists n m, con_name x = Some n /\ con_name y = Some m /\ id_name n <> id_name m.
Lemma replace_fresh : forall cs c, (forall x, In x cs -> exists n m, con_name x = Some n /\ con_name c = Some m /\ id_name n <> id_name m) -> replace_constraint cs c = Some None.
Proof.
  induction cs as [|x r IH]; intros c H; [reflexivity|]. cbn [replace_constraint]. destruct (H x (or_introl eq_refl)) as (n & m & -> & -> & N).
  unfold eqs. replace (String.eqb (id_name n) (id_name m)) with false by (symmetry; apply String.eqb_neq; exact N). rewrite IH; [reflexivity|]. intros y Hy. apply H. right. exact Hy.
Qed.
Lemma append_fresh : forall d rnd cs c, d = Crdb \/ d = My -> (forall x, In x cs -> exists n m, con_name x = Some n /\ con_name c = Some m /\ id_name n <> id_name m) ->
  append_constraint d (go_sort rnd) cs c = Ok (go_sort rnd (cs ++ [c])).
Proof. intros d rnd cs c D H. unfold append_constraint. rewrite replace_fresh by exact H. destruct D as [-> | ->]; rewrite C61_small_case_is_the_library; reflexivity. Qed.
Lemma names_differ_last : forall cs c, names_differ (cs ++ [c]) -> forall x, In x cs -> exists n m, con_name x = Some n /\ con_name c = Some m /\ id_name n <> id_name m.
Proof. intros cs c H x Hx. apply in_split in Hx. destruct Hx as (a & b & ->). apply (H a x b c []). rewrite <- app_assoc. reflexivity. Qed.
Lemma names_differ_front : forall a b, names_differ (a ++ b) -> names_differ a.
Proof.
  intros a b H x1 x x2 y x3 E. subst a. apply (H x1 x x2 y (x3 ++ b)%list). rewrite <- !app_assoc. cbn [List.app]. rewrite <- app_assoc. reflexivity.
Qed.
Lemma append_all : forall d rnd, d = Crdb \/ d = My -> forall new cs given, Permutation cs given -> names_differ (given ++ new) ->
  forallb (fun c => negb (is_pkey c)) (tl cs) = true ->
  forallb (fun c => negb (is_pkey c)) new = true -> append_constraints d (go_sort rnd) cs new = Ok (cs ++ new)%list.
Proof.
  intros d rnd D. induction new as [|c new IH]; intros cs given P N T F; cbn [append_constraints]; [rewrite app_nil_r; reflexivity|].
  cbn [forallb] in F. apply andb_true_iff in F. destruct F as [F1 F2].
  replace (given ++ c :: new)%list with ((given ++ [c]) ++ new)%list in N by (rewrite <- app_assoc; reflexivity).
  rewrite append_fresh; [|exact D|intros x Hx; apply (names_differ_last given c (names_differ_front _ _ N)); eapply Permutation_in; eassumption].
  assert (T' : forallb (fun c => negb (is_pkey c)) (tl (cs ++ [c])) = true) by (destruct cs; [reflexivity|]; cbn [List.app tl] in *; rewrite forallb_app, T; cbn [forallb]; rewrite F1; reflexivity).
  rewrite go_sort_keeps by exact T'. cbn [bind]. rewrite (IH (cs ++ [c])%list (given ++ [c])%list); [rewrite <- app_assoc; reflexivity|apply Permutation_app_tail, P|exact N|exact T'|exact F2].
Qed.
Theorem C61_primary_key_comes_first : forall d rnd pre k post, d = Crdb \/ d = My -> names_differ (pre ++ k :: post) ->
  is_pkey k = true -> forallb (fun c => negb (is_pkey c)) (pre ++ post) = true ->
  exists rest, append_constraints d (go_sort rnd) [] (pre ++ k :: post) = Ok (k :: rest ++ post)%list /\ Permutation rest pre
    /\ (List.length pre < 12 \/ 49 <= List.length pre -> rest = pre).
Proof.
  intros d rnd pre k post D N K F. rewrite forallb_app in F. apply andb_true_iff in F. destruct F as [F1 F2].
  assert (AA : forall a b cs, append_constraints d (go_sort rnd) cs (a ++ b) = let! cs' := append_constraints d (go_sort rnd) cs a in append_constraints d (go_sort rnd) cs' b).
  { induction a as [|c a IH]; intros b cs; [reflexivity|]. cbn [List.app append_constraints]. destruct (append_constraint d (go_sort rnd) cs c); cbn [bind]; [apply IH|reflexivity..]. }
  assert (N' : names_differ ((pre ++ [k]) ++ post)) by (rewrite <- app_assoc; exact N). pose proof (names_differ_front _ _ N') as Np.
  rewrite AA. rewrite (append_all d rnd D pre [] []); [|constructor|apply (names_differ_front pre [k]), Np|reflexivity|exact F1].
  cbn [List.app bind append_constraints]. rewrite append_fresh; [|exact D|apply names_differ_last, Np]. cbn [bind].
  destruct (slice_sort_last is_primary rnd pre k) as (rest & R1 & R2).
  { rewrite forallb_forall in *. intros x Hx. rewrite <- is_pkey_primary. apply F1, Hx. }
  { rewrite <- is_pkey_primary. exact K. }
  rewrite go_sort_some in R1. assert (R : go_sort rnd (pre ++ [k]) = (k :: rest)%list) by congruence. rewrite R.
  assert (P : Permutation (k :: rest) (pre ++ [k])) by (rewrite <- R; apply go_sort_ok).
  assert (Q : Permutation rest pre) by (apply (Permutation_cons_inv (a := k)); eapply Permutation_trans; [exact P|apply Permutation_sym, Permutation_cons_append]).
  exists rest. split; [|split; [exact Q|exact R2]].
  rewrite (append_all d rnd D post (k :: rest)%list (pre ++ [k])%list); [reflexivity|exact P|exact N'| |exact F2].
  cbn [tl]. rewrite forallb_forall in *. intros x Hx. apply F1. eapply Permutation_in; eassumption.
Qed.
Print Assumptions C61_primary_key_comes_first.
(** Without a primary key, or with it first, the order is the given one. *)
Theorem C61_order_is_kept : forall d rnd cs, names_differ cs -> forallb (fun c => negb (is_pkey c)) (tl cs) = true ->
  append_constraints d (go_sort rnd) [] cs = Ok cs.
Proof.
  intros d rnd cs N T. destruct cs as [|k post]; [reflexivity|]. cbn [tl] in T.
  assert (G : forall post pre, names_differ (pre ++ post) -> (d = Crdb \/ d = My -> forallb (fun c => negb (is_pkey c)) (tl (pre ++ post)) = true) ->
            append_constraints d (go_sort rnd) pre post = Ok (pre ++ post)%list).
  { clear. induction post as [|c post IH]; intros pre N T; cbn [append_constraints]; [rewrite app_nil_r; reflexivity|].
    replace (pre ++ c :: post)%list with ((pre ++ [c]) ++ post)%list in * by (rewrite <- app_assoc; reflexivity).
    assert (A : append_constraint d (go_sort rnd) pre c = Ok (pre ++ [c])%list).
    { pose proof (names_differ_last pre c (names_differ_front _ _ N)) as M. unfold append_constraint. rewrite replace_fresh by exact M.
      assert (K : d = Crdb \/ d = My -> sort_constraints (go_sort rnd) (pre ++ [c]) = (pre ++ [c])%list).
      { intro D. specialize (T D). rewrite C61_small_case_is_the_library. apply go_sort_keeps. destruct pre; [reflexivity|]. cbn [List.app tl] in *. rewrite forallb_app in T. apply andb_true_iff in T. apply T. }
      destruct d; try reflexivity; rewrite K by auto; reflexivity. }
    rewrite A. cbn [bind]. apply IH; assumption. }
  apply (G (k :: post)%list []); [exact N|]. intros _. exact T.
Qed.
Print Assumptions C61_order_is_kept.

(** With thirteen constraints, the last of which is the primary key, two of the others change
    places; with sixteen the order depends on the generator. *)
Definition key_ (n : string) : constraint := CPrimary (Some (plain_name n)) [mkCI (plain_name "a") None].
Definition unique_ (n : string) : constraint := CUnique (Some (plain_name n)) [mkCI (plain_name n) None].
Definition twelve : list constraint := map unique_ ["a"; "b"; "c"; "d"; "e"; "f"; "g"; "h"; "i"; "j"; "k"; "l"].
Theorem C61_order_refuted : forall d rnd, d = Crdb \/ d = My ->
  append_constraints d (go_sort rnd) [] (twelve ++ [key_ "p"])
  = Ok (key_ "p" :: map unique_ ["g"; "c"; "d"; "e"; "f"; "a"; "h"; "i"; "j"; "k"; "l"; "b"])%list.
Proof. intros d rnd [-> | ->]; vm_compute; reflexivity. Qed.
Print Assumptions C61_order_refuted.
(** The same through the parser. *)
Definition many_keys : string :=
  "CREATE TABLE t (a INT, UNIQUE KEY a (a), UNIQUE KEY b (a), UNIQUE KEY c (a), UNIQUE KEY d (a), UNIQUE KEY e (a), UNIQUE KEY f (a), UNIQUE KEY g (a), UNIQUE KEY h (a), UNIQUE KEY i (a), UNIQUE KEY j (a), UNIQUE KEY k (a), UNIQUE KEY l (a), PRIMARY KEY (a));".
Definition constraint_order (l : ddl) : list string :=
  match l with [CreateTable t] => map (fun c => match con_name c with Some n => id_name n | None => "" end) (ct_constraints t) | _ => [] end.
Example C61_example : forall rnd, exists l, parse My (go_sort rnd) many_keys = Ok l
  /\ constraint_order l = ["PRIMARY KEY"; "g"; "c"; "d"; "e"; "f"; "a"; "h"; "i"; "j"; "k"; "l"; "b"].
Proof. intro rnd. eexists. split; [vm_compute; reflexivity|reflexivity]. Qed.

(** The part of the sort that turns a range around does exactly that. *)
Lemma swap_ends : forall (A : Type) (a : list A) x m y b,
  swap (a ++ x :: m ++ y :: b) (List.length a) (List.length a + S (List.length m)) = (a ++ y :: m ++ x :: b)%list.
Proof.
  intros A a x m y b. unfold swap. rewrite nth_mid.
  replace (a ++ x :: m ++ y :: b)%list with ((a ++ x :: m) ++ y :: b)%list at 1 by (rewrite <- app_assoc; reflexivity).
  replace (List.length a + S (List.length m)) with (List.length (a ++ x :: m)) by (rewrite app_length; reflexivity). rewrite nth_mid, set_mid.
  replace (List.length (a ++ x :: m)) with (List.length (a ++ y :: m)) by (rewrite !app_length; reflexivity).
  replace (a ++ y :: m ++ y :: b)%list with ((a ++ y :: m) ++ y :: b)%list by (rewrite <- app_assoc; reflexivity).
  rewrite set_mid, <- app_assoc. reflexivity.
Qed.
Lemma reverse_middle : forall (A : Type) k n (m a b : list A), List.length m <= k -> List.length m <= n ->
  reverse_loop n (List.length a) (List.length a + List.length m - 1) (a ++ m ++ b) = (a ++ rev m ++ b)%list.
Proof.
  intros A k. induction k as [|k IH]; intros n m a b K N.
  - destruct m; [|cbn in K; lia]. cbn [List.length rev List.app]. destruct n as [|n]; cbn [reverse_loop]; [reflexivity|]. destruct (Nat.ltb_spec (List.length a) (List.length a + 0 - 1)); [lia|reflexivity].
  - destruct m as [|x m]; [apply IH; cbn; lia|]. destruct (rev m) as [|y r] eqn:R.
    + assert (m = []) as -> by (apply (f_equal (@rev A)) in R; rewrite rev_involutive in R; exact R). cbn [List.length rev List.app].
      destruct n as [|n]; cbn [reverse_loop]; [reflexivity|]. destruct (Nat.ltb_spec (List.length a) (List.length a + 1 - 1)); [lia|reflexivity].
    + assert (E : m = (rev r ++ [y])%list) by (apply (f_equal (@rev A)) in R; rewrite rev_involutive in R; exact R). clear R. subst m. set (q := rev r) in *.
      cbn [List.length] in *. rewrite app_length in *. cbn [List.length] in *. destruct n as [|n]; [lia|]. cbn [reverse_loop].
      destruct (Nat.ltb_spec (List.length a) (List.length a + S (List.length q + 1) - 1)); [|lia].
      replace (List.length a + S (List.length q + 1) - 1) with (List.length a + S (List.length q)) by lia.
      replace (a ++ (x :: q ++ [y]) ++ b)%list with (a ++ x :: q ++ y :: b)%list by (cbn [List.app]; rewrite <- app_assoc; reflexivity).
      rewrite swap_ends.
      replace (a ++ y :: q ++ x :: b)%list with ((a ++ [y]) ++ q ++ x :: b)%list by (rewrite <- app_assoc; reflexivity).
      replace (S (List.length a)) with (List.length (a ++ [y])) by (rewrite app_length; cbn; lia).
      replace (List.length a + S (List.length q) - 1) with (List.length (a ++ [y]) + List.length q - 1) by (rewrite app_length; cbn; lia).
      rewrite IH by lia. cbn [rev]. rewrite rev_app_distr, <- !app_assoc. reflexivity.
Qed.
Theorem C61_reversing_is_exact : forall (A : Type) (a m b : list A),
  reverse_range (List.length a) (List.length a + List.length m) (a ++ m ++ b) = (a ++ rev m ++ b)%list.
Proof. intros A a m b. unfold reverse_range. apply (reverse_middle A (List.length m)); lia. Qed.
Print Assumptions C61_reversing_is_exact.
Example C61_reversing_example : reverse_range 1 6 ["a"; "b"; "c"; "d"; "e"; "f"; "g"]%string = ["a"; "f"; "e"; "d"; "c"; "b"; "g"]%string.
Proof. reflexivity. Qed.

(** * The other properties with the library's sort *)

Lemma go_sort_keeps_all : forall d rnd ws, sort_keeps d (go_sort rnd) ws.
Proof. intros d rnd ws t _. destruct d; try exact I; intros cs _ H; apply go_sort_keeps; exact H. Qed.
Corollary C04_go_sort : forall d rnd s s', recased d s s' ->
  map tk_type (lex d s) = map tk_type (lex d s') /\ same_outcome (parse d (go_sort rnd) s) (parse d (go_sort rnd) s').
Proof. intros d rnd s s' H. apply C04_keywords_case_insensitive; [apply go_sort_case|exact H]. Qed.
Print Assumptions C04_go_sort.
Corollary C08_go_sort_partial : forall d rnd l, printable d l = true -> parse d (go_sort rnd) (ddl_string d l) = Ok (map without_comment l).
Proof. intros d rnd l H. apply C08_printed_schema_is_read_back_partial; [exact H|]. intros t _. destruct d; try exact I; intros cs _ K; apply go_sort_keeps; exact K. Qed.
Print Assumptions C08_go_sort_partial.
Corollary C09_go_sort_partial : forall d rnd s l, parse d (go_sort rnd) s = Ok l -> printable d l = true -> parse d (go_sort rnd) (ddl_string d l) = Ok l.
Proof. intros d rnd s l P H. apply (C09_normalising_is_idempotent_partial d _ s l P H). intros t _. destruct d; try exact I; intros cs _ K; apply go_sort_keeps; exact K. Qed.
Print Assumptions C09_go_sort_partial.
Corollary C53_go_sort_partial : forall d rnd l text, forallb (written_ok d) l = true -> lex d text = lex d (concat_str (map (written_string d) l)) ->
  parse d (go_sort rnd) text = Ok (map (meant d) l).
Proof. intros d rnd l text H E. apply C53_written_schema_is_read_partial; [exact H|exact E|]. intros t _. destruct d; try exact I; intros cs _ K; apply go_sort_keeps; exact K. Qed.
Print Assumptions C53_go_sort_partial.
