(** C74: whole statements are added to a schema or taken from it. *)
From Coq Require Import Lia Permutation.
From Verif Require Import GoStr Token Ast Parser Lexer LexSpec LexerFacts Diff Db DbDep DbFacts AppendFacts DiffSound Grown PropsParse PropsDiff PropsRound Printable.
From Verif Require Import Apply ApplySpec SqlDb SqlRead Plain PropsApply PropsRead PropsPlain.
Local Open Scope list_scope.

(** ** Which statement is found *)
Lemma find_who : forall s l, is_create s = true -> forallb is_create l = true ->
  find_stmt s l = find (fun x => match who s, who x with Some (b, n), Some (c, k) => Bool.eqb b c && String.eqb n k | _, _ => false end) l.
Proof.
  intros s l Hs Hl. unfold find_stmt. induction l as [|x r IH]; [reflexivity|]. cbn [forallb] in Hl. apply andb_true_iff in Hl. destruct Hl as [Hx Hr].
  cbn [find]. rewrite (IH Hr). unfold eqs. destruct s, x; try discriminate Hs; try discriminate Hx; cbn [same_type who andb Bool.eqb]; rewrite ?stmt_name_table, ?stmt_name_index; reflexivity.
Qed.
Lemma find_some_who : forall s l, is_create s = true -> single l -> In s l -> find_stmt s l = Some s.
Proof.
  intros s l Hs [C N] I. rewrite (find_who s l Hs C). induction l as [|x r IH]; [destruct I|]. cbn [forallb map] in C, N. apply andb_true_iff in C. destruct C as [Cx Cr].
  inversion N as [|? ? N1 N2]; subst. cbn [find]. destruct I as [I|I].
  - subst x. destruct s; try discriminate Hs; cbn [who Bool.eqb andb]; rewrite String.eqb_refl; reflexivity.
  - assert (E : who s <> who x) by (intro E; apply N1; rewrite <- E; apply in_map; exact I).
    rewrite (IH Cr N2 I). destruct s, x; try discriminate Hs; try discriminate Cx; cbn [who Bool.eqb andb] in *; try reflexivity;
      (destruct (String.eqb _ _) eqn:Q; [apply String.eqb_eq in Q; exfalso; apply E; rewrite Q; reflexivity|reflexivity]).
Qed.
Lemma find_none_who : forall s l, is_create s = true -> forallb is_create l = true -> ~ In (who s) (map who l) -> find_stmt s l = None.
Proof.
  intros s l Hs C N. rewrite (find_who s l Hs C). induction l as [|x r IH]; [reflexivity|]. cbn [forallb map] in C, N. apply andb_true_iff in C. destruct C as [Cx Cr].
  cbn [find]. rewrite IH; [|exact Cr|intro I; apply N; right; exact I].
  assert (E : who s <> who x) by (intro E; apply N; left; symmetry; exact E).
  destruct s, x; try discriminate Hs; try discriminate Cx; cbn [who Bool.eqb andb] in *; try reflexivity;
    (destruct (String.eqb _ _) eqn:Q; [apply String.eqb_eq in Q; exfalso; apply E; rewrite Q; reflexivity|reflexivity]).
Qed.

Lemma mixed_in : forall A (x y z : list A) a, mixed x y z -> (In a z <-> In a x \/ In a y).
Proof. intros A x y z a M. induction M as [|b x y z M IH|b x y z M IH]; cbn [In]; [tauto| |]; rewrite IH; tauto. Qed.
Lemma mixed_perm : forall A (x y z : list A), mixed x y z -> Permutation z (x ++ y).
Proof.
  intros A x y z M. induction M as [|b x y z M IH|b x y z M IH]; [constructor|constructor; exact IH|].
  eapply perm_trans; [apply perm_skip; exact IH|]. apply Permutation_middle.
Qed.
Lemma mixed_filter : forall A (f : A -> bool) x y z, mixed x y z -> (forall a, In a x -> f a = false) -> (forall a, In a y -> f a = true) -> filter f z = y.
Proof.
  intros A f x y z M. induction M as [|b x y z M IH|b x y z M IH]; intros Fx Fy; [reflexivity| |]; cbn [filter].
  - rewrite (Fx b (or_introl eq_refl)). apply IH; [|exact Fy]. intros a Ha. apply Fx. right. exact Ha.
  - rewrite (Fy b (or_introl eq_refl)). f_equal. apply IH; [exact Fx|]. intros a Ha. apply Fy. right. exact Ha.
Qed.
Lemma mixed_end : forall A (x y : list A), mixed x y (x ++ y).
Proof. induction x as [|a x IH]; intro y; cbn [app]; [|constructor; apply IH]. induction y; constructor; assumption. Qed.

Section Whole.
Variable d : dialect.
Variable srt : list constraint -> list constraint.
Variable sdiff : string -> string -> string.
Variables before after gone new : ddl.
Hypothesis W : whole_change before after gone new.

Lemma in_create : forall l s, single l -> In s l -> is_create s = true.
Proof. intros l s [C _] I. rewrite forallb_forall in C. exact (C s I). Qed.
(** The two sides of the change, each seen from the other *)
Lemma one_side : forall b a x y k k', single b -> single a -> mixed k x b -> mixed k' y a -> Permutation k k' ->
  (forall g n, In g x -> In n y -> who g <> who n) ->
  only_left_stmts b a = x.
Proof.
  intros b a x y k k' Sb Sa Mb Ma P O. unfold only_left_stmts. apply (mixed_filter _ _ k x b Mb).
  - intros s Hs. assert (Ib : In s b) by (apply (mixed_in _ _ _ _ s Mb); left; exact Hs).
    assert (Ia : In s a) by (apply (mixed_in _ _ _ _ s Ma); left; exact (Permutation_in _ P Hs)).
    rewrite (find_some_who s a (in_create b s Sb Ib) Sa Ia). reflexivity.
  - intros s Hs. assert (Ib : In s b) by (apply (mixed_in _ _ _ _ s Mb); right; exact Hs).
    rewrite (find_none_who s a (in_create b s Sb Ib) (proj1 Sa)); [reflexivity|]. intro I. apply in_map_iff in I. destruct I as [t [E It]].
    apply (mixed_in _ _ _ _ t Ma) in It. destruct It as [It|It]; [|exact (O s t Hs It (eq_sym E))].
    apply (Permutation_in _ (Permutation_sym P)) in It.
    destruct Sb as [_ N]. pose proof (Permutation_map who (mixed_perm _ _ _ _ Mb)) as Q. apply (Permutation_NoDup Q) in N. rewrite map_app in N.
    clear - N It Hs E. induction k as [|z r IH]; [destruct It|]. cbn [map app] in N. inversion N as [|? ? N1 N2]; subst. destruct It as [It|It]; [|exact (IH N2 It)].
    subst z. apply N1. apply in_or_app. right. rewrite E. apply in_map. exact Hs.
Qed.
Lemma whole_sides : only_left_stmts before after = gone /\ only_left_stmts after before = new.
Proof.
  destruct W as [Sb Sa [k [k' [Mb [Ma P]]]] O]. split; [exact (one_side before after gone new k k' Sb Sa Mb Ma P O)|].
  apply (one_side after before new gone k' k Sa Sb Ma Mb (Permutation_sym P)). intros g n G N E. exact (O n g N G (eq_sym E)).
Qed.
Lemma kept_unchanged : diff_stmts d srt sdiff before after = Ok [].
Proof.
  destruct W as [Sb Sa [k [k' [Mb [Ma P]]]] O].
  assert (G : forall l, (forall s, In s l -> In s before) -> diff_stmts d srt sdiff l after = Ok []).
  { induction l as [|s r IH]; intro H; [reflexivity|]. cbn [diff_stmts].
    rewrite (IH (fun x Hx => H x (or_intror Hx))). pose proof (H s (or_introl eq_refl)) as I. pose proof (in_create before s Sb I) as C.
    assert (E : diff_stmt d srt sdiff s after = Ok []); [|rewrite E; reflexivity]. unfold diff_stmt.
    destruct (find_stmt s after) as [p|] eqn:F; [|destruct s; rewrite ?F; reflexivity].
    assert (J : In s after).
    { apply (mixed_in _ _ _ _ s Mb) in I. destruct I as [I|I]; [apply (mixed_in _ _ _ _ s Ma); left; exact (Permutation_in _ P I)|].
      exfalso. pose proof (proj1 whole_sides) as L. rewrite <- L in I. unfold only_left_stmts in I. apply filter_In in I. destruct I as [_ I]. rewrite F in I. discriminate I. }
    rewrite (find_some_who s after C Sa J) in F. inversion F; subst p. pose proof (find_some_who s after C Sa J) as F'. destruct s as [t|i| | |]; try discriminate C; rewrite F'.
    - rewrite C11_table_equals_itself. reflexivity.
    - unfold neqs, eqs. rewrite String.eqb_refl. reflexivity. }
  apply G. auto.
Qed.
Lemma whole_diff : diff d srt sdiff (Some before) (Some after) =
  if String.eqb (ddl_string d before) (ddl_string d after) then DNoDiff
  else match map removal gone ++ new with [] => DNoDiff | l => DOk l end.
Proof.
  cbn [diff]. unfold diff_ddl, eqs. destruct (String.eqb _ _); [reflexivity|]. destruct whole_sides as [L R]. rewrite L, R, kept_unchanged.
  destruct W as [Sb Sa [k [k' [Mb [Ma P]]]] O].
  assert (Cg : forallb is_create gone = true) by (apply forallb_forall; intros s Hs; apply (in_create before s Sb); apply (mixed_in _ _ _ _ s Mb); right; exact Hs).
  assert (Cn : forallb is_create new = true) by (apply forallb_forall; intros s Hs; apply (in_create after s Sa); apply (mixed_in _ _ _ _ s Ma); right; exact Hs).
  rewrite DiffSound.map_opt_drop, DiffSound.map_opt_create by assumption. rewrite app_nil_r.
  replace (map drop1 gone) with (map removal gone); [reflexivity|]. apply map_ext_in. intros s Hs. rewrite forallb_forall in Cg. specialize (Cg s Hs).
  destruct s; try discriminate Cg; reflexivity.
Qed.
End Whole.

(** ** The statements that are gone are undone, those that are new are carried out as they stand *)
Theorem C74_whole_statements : forall d srt sdiff before after gone new, whole_change before after gone new ->
  ddl_string d before <> ddl_string d after ->
  diff d srt sdiff (Some before) (Some after) = match map removal gone ++ new with [] => DNoDiff | l => DOk l end.
Proof.
  intros d srt sdiff before after gone new W N. rewrite (whole_diff d srt sdiff before after gone new W). apply String.eqb_neq in N. rewrite N. reflexivity.
Qed.
Print Assumptions C74_whole_statements.

Lemma string_weight : forall d l, String.length (ddl_string d l) = list_sum (map (fun s => String.length (stmt_string d s)) l).
Proof.
  intros d l. unfold ddl_string. induction l as [|s r IH]; [reflexivity|]. cbn [map concat_str list_sum fold_right]. rewrite length_app_s, IH. reflexivity.
Qed.
Lemma sum_perm : forall x y, Permutation x y -> list_sum x = list_sum y.
Proof. intros x y P. induction P; cbn [list_sum fold_right] in *; unfold list_sum in *; lia. Qed.
Lemma printed_longer : forall d l k x, Permutation l (k ++ x) -> String.length (ddl_string d l) = String.length (ddl_string d k) + String.length (ddl_string d x).
Proof.
  intros d l k x P. rewrite !string_weight, (sum_perm _ _ (Permutation_map _ P)), map_app, list_sum_app. reflexivity.
Qed.
Lemma printed_some : forall d x, x <> [] -> 0 < String.length (ddl_string d x).
Proof.
  intros d [|s r] N; [contradiction|]. rewrite string_weight. cbn [map list_sum fold_right].
  pose proof (text_ends d s) as T. unfold text_of in T. rewrite ApplyFacts.printed_comment, T, !length_app_s. cbn [String.length]. lia.
Qed.

(** Statements added anywhere: exactly these, in their order, without any change. *)
Theorem C74_added : forall d srt sdiff before after new, whole_change before after [] new -> new <> [] ->
  diff d srt sdiff (Some before) (Some after) = DOk new.
Proof.
  intros d srt sdiff before after new W N. rewrite (C74_whole_statements d srt sdiff before after [] new W).
  - cbn [map app]. destruct new; [contradiction|reflexivity].
  - destruct W as [_ _ [k [k' [Mb [Ma P]]]] _]. intro E. apply (f_equal String.length) in E.
    rewrite (printed_longer d before k [] (mixed_perm _ _ _ _ Mb)) in E.
    assert (Q : Permutation after (k ++ new)) by (eapply perm_trans; [apply (mixed_perm _ _ _ _ Ma)|]; apply Permutation_app_tail; apply Permutation_sym; exact P).
    rewrite (printed_longer d after k new Q) in E. pose proof (printed_some d new N). cbn [ddl_string map concat_str String.length] in E. change (String.length (ddl_string d [])) with 0 in E. lia.
Qed.
Print Assumptions C74_added.
(** Statements taken away: exactly what they created is dropped, in their order. *)
Theorem C74_removed : forall d srt sdiff before after gone, whole_change before after gone [] -> gone <> [] ->
  diff d srt sdiff (Some before) (Some after) = DOk (map removal gone).
Proof.
  intros d srt sdiff before after gone W N. rewrite (C74_whole_statements d srt sdiff before after gone [] W).
  - rewrite app_nil_r. destruct gone; [contradiction|reflexivity].
  - destruct W as [_ _ [k [k' [Mb [Ma P]]]] _]. intro E. apply (f_equal String.length) in E.
    rewrite (printed_longer d before k gone (mixed_perm _ _ _ _ Mb)) in E.
    assert (Q : Permutation after (k ++ [])) by (eapply perm_trans; [apply (mixed_perm _ _ _ _ Ma)|]; apply Permutation_app_tail; apply Permutation_sym; exact P).
    rewrite (printed_longer d after k [] Q) in E. pose proof (printed_some d gone N). change (String.length (ddl_string d [])) with 0 in E. lia.
Qed.
Print Assumptions C74_removed.
(** Only the order changes: no difference, whatever the statements are. *)
Theorem C74_reordered : forall d srt sdiff before after, whole_change before after [] [] -> diff d srt sdiff (Some before) (Some after) = DNoDiff.
Proof. intros d srt sdiff before after W. rewrite (whole_diff d srt sdiff before after [] [] W). destruct (String.eqb _ _); reflexivity. Qed.
Print Assumptions C74_reordered.

(** Both at once, for schemas that are read back as they are printed (C08): the texts differ. *)
Lemma who_comment : forall s, who (without_comment s) = who s.
Proof. intros [t|i| | |]; reflexivity. Qed.
Theorem C74_printable : forall d srt sdiff before after gone new, whole_change before after gone new -> printable d before = true -> printable d after = true ->
  gone ++ new <> [] -> diff d srt sdiff (Some before) (Some after) = DOk (map removal gone ++ new).
Proof.
  intros d srt sdiff before after gone new W Pb Pa N.
  destruct gone as [|g gr]; [apply C74_added; assumption|]. destruct new as [|n nr]; [rewrite app_nil_r in *; apply C74_removed; assumption|]. clear N.
  rewrite (C74_whole_statements d srt sdiff before after _ _ W); [reflexivity|].
  intro E. pose proof (C08_printing_loses_nothing_partial d before after Pb Pa E) as C. apply (f_equal (map who)) in C. rewrite !map_map in C.
  rewrite (map_ext (fun x => who (without_comment x)) who who_comment), (map_ext (fun x => who (without_comment x)) who who_comment) in C.
  destruct (whole_sides before after _ _ W) as [L _]. destruct W as [Sb Sa [k [k' [Mb [Ma P]]]] O].
  assert (I : In g (only_left_stmts before after)) by (rewrite L; left; reflexivity). unfold only_left_stmts in I. apply filter_In in I. destruct I as [I F].
  assert (J : In (who g) (map who after)) by (rewrite <- C; apply in_map; exact I). apply in_map_iff in J. destruct J as [a [Ea Ia]].
  assert (Cg : is_create g = true) by exact (in_create before g Sb I). assert (Ca : is_create a = true) by exact (in_create after a Sa Ia).
  destruct (find_stmt g after) as [p|] eqn:Q; [discriminate F|]. pose proof (find_stmt_none _ _ Q a Ia) as Z. unfold same_object in Z.
  destruct g, a; try discriminate Cg; try discriminate Ca; cbn [who] in Ea; try discriminate Ea; cbn [same_type andb] in Z; rewrite ?stmt_name_table, ?stmt_name_index in Z; inversion Ea as [E1]; rewrite E1, String.eqb_refl in Z; discriminate Z.
Qed.
Print Assumptions C74_printable.

(** ** Appending to a schema *)
Lemma appended : forall b x, single (b ++ x) -> whole_change b (b ++ x) [] x.
Proof.
  intros b x [C N]. split.
  - split; [rewrite forallb_app in C; apply andb_true_iff in C; apply C|]. rewrite map_app in N. clear C. induction (map who b) as [|a r IH]; [constructor|].
    cbn [app] in N. inversion N as [|? ? N1 N2]; subst. constructor; [|exact (IH N2)]. intro I. apply N1. apply in_or_app. left. exact I.
  - split; assumption.
  - exists b, b. split; [|split; [apply mixed_end|apply Permutation_refl]]. pose proof (mixed_end _ b []) as M. rewrite app_nil_r in M. exact M.
  - intros g n [].
Qed.
Theorem C74_appended : forall d srt sdiff b x, single (b ++ x) -> x <> [] -> diff d srt sdiff (Some b) (Some (b ++ x)) = DOk x.
Proof. intros d srt sdiff b x S0 N. exact (C74_added d srt sdiff b (b ++ x) x (appended b x S0) N). Qed.
Print Assumptions C74_appended.

(** If the whole schema can be created from nothing in the order in which it is written, with
    all dependencies enforced (DbDep.v), then the difference can be executed where the part
    that was there has been created, and the result is the same. *)
Lemma dep_app : forall d a b m, dep_exec_all d (a ++ b) m = match dep_exec_all d a m with Some m' => dep_exec_all d b m' | None => None end.
Proof.
  intros d. induction a as [|s a IH]; intros b m; [reflexivity|]. cbn [app dep_exec_all]. destruct (dep_exec d s m); [apply IH|reflexivity].
Qed.
Theorem C74_appended_executable : forall d srt sdiff b x m, single (b ++ x) -> x <> [] -> dep_exec_all d (b ++ x) empty_db = Some m ->
  exists m0 l, dep_exec_all d b empty_db = Some m0 /\ diff d srt sdiff (Some b) (Some (b ++ x)) = DOk l /\ dep_exec_all d l m0 = Some m.
Proof.
  intros d srt sdiff b x m S0 N H. rewrite dep_app in H. destruct (dep_exec_all d b empty_db) as [m0|]; [|discriminate H].
  exists m0, x. split; [reflexivity|]. split; [apply C74_appended; assumption|exact H].
Qed.
Print Assumptions C74_appended_executable.

(** The same for texts: a file that is continued. *)
Theorem C74_continued_text : forall d srt sdiff s more b x, no_nul s = true -> outside d s ->
  parse d srt s = Ok b -> parse d srt more = Ok x -> single (b ++ x) -> x <> [] ->
  exists a, parse d srt (s ++ ";" ++ nl ++ more) = Ok a /\ diff d srt sdiff (Some b) (Some a) = DOk x.
Proof.
  intros d srt sdiff s more b x Z O P1 P2 S0 N. exists (b ++ x). split; [apply C10_concatenation; assumption|apply C74_appended; assumption].
Qed.
Print Assumptions C74_continued_text.
(** And for a run of apply: what is sent are the statements of the continuation, if the texts
    are plain (C69). *)
Theorem C74_apply_sends_the_continuation : forall w dsn src d s more b x tr o,
  dialect_of (w_dialect w) = Some d -> srt_ok (w_srt w) -> modest (w_sdiff w) -> no_nul s = true -> outside d s ->
  w_resolve w dsn = Some s -> w_resolve w src = Some (s ++ ";" ++ nl ++ more)%string ->
  parse d (w_srt w) s = Ok b -> parse d (w_srt w) more = Ok x -> single (b ++ x) -> x <> [] ->
  plain_schema b = true -> plain_schema x = true -> apply_command w [dsn; src] = (tr, o) -> sent tr <> [] ->
  match d with
  | Sp => exists m, map fst (sent tr) = firstn m ("START BATCH DDL"%string :: map (text d) x ++ ["RUN BATCH"%string])
  | _ => exists k, map fst (sent tr) = List.concat (repeat (map (text d) x) k)
  end.
Proof.
  intros w dsn src d s more b x tr o Hd Hs Hm Z O R1 R2 P1 P2 S0 N Lb Lx H Ns.
  pose proof (C10_concatenation d (w_srt w) s more b x Z O P1 P2) as P.
  assert (La : plain_schema (b ++ x) = true) by (unfold plain_schema in *; rewrite forallb_app, Lb, Lx; reflexivity).
  destruct (C69_sent_is_displayed w dsn src d s (s ++ ";" ++ nl ++ more)%string b (b ++ x) tr o Hd Hs Hm R1 R2 P1 P Lb La H Ns) as [stmts [rest [E [_ Q]]]].
  pose proof (eq_trans (eq_sym (C74_appended d (w_srt w) (w_sdiff w) b x S0 N)) E) as D. inversion D; subst stmts. exact Q.
Qed.
Print Assumptions C74_apply_sends_the_continuation.

(** * Examples *)
Local Open Scope string_scope.
Definition old_text := "CREATE TABLE users (id INTEGER NOT NULL, name TEXT); CREATE INDEX users_name ON users (name)".
Definition more_text := "CREATE TABLE posts (id INTEGER, author INTEGER, CONSTRAINT posts_author FOREIGN KEY (author) REFERENCES users (id)); CREATE INDEX posts_a ON posts (author);".
Local Open Scope list_scope.
Definition handles (l : ddl) : list (option (bool * string)) := map who l.
Example C74_example :
  handles (schema Pg old_text) = [Some (true, "users"); Some (false, "users_name")]%string
  /\ handles (schema Pg more_text) = [Some (true, "posts"); Some (false, "posts_a")]%string
  /\ schema Pg (old_text ++ ";" ++ nl ++ more_text)%string = schema Pg old_text ++ schema Pg more_text
  /\ printed Pg (diff_of Pg (schema Pg old_text) (schema Pg (old_text ++ ";" ++ nl ++ more_text)%string)) = Some (ddl_string Pg (schema Pg more_text))
  /\ plain_schema (schema Pg old_text) = true /\ plain_schema (schema Pg more_text) = true
  /\ present (dep_exec_all Pg (schema Pg old_text ++ schema Pg more_text) empty_db) = true.
Proof. repeat split; vm_compute; reflexivity. Qed.
Lemma single_test : forall l, forallb is_create l = true ->
  (fix go (x : list (option (bool * string))) : bool := match x with [] => true | a :: r => negb (existsb (fun b => match a, b with
     | Some (p, n), Some (q, m) => Bool.eqb p q && String.eqb n m | None, None => true | _, _ => false end) r) && go r end) (map who l) = true -> single l.
Proof.
  intros l C H. split; [exact C|]. clear C. induction (map who l) as [|a r IH]; [constructor|]. apply andb_true_iff in H. destruct H as [H1 H2]. constructor; [|exact (IH H2)].
  intro I. apply negb_true_iff in H1. rewrite <- not_true_iff_false in H1. apply H1. apply existsb_exists. exists a. split; [exact I|].
  destruct a as [[p n]|]; [|reflexivity]. rewrite Bool.eqb_reflx, String.eqb_refl. reflexivity.
Qed.
Example C74_example_single : single (schema Pg old_text ++ schema Pg more_text).
Proof. apply single_test; vm_compute; reflexivity. Qed.
(** A table goes, another comes, an index moves: two statements. *)
Definition mix_before := "CREATE TABLE a (x INTEGER); CREATE TABLE b (y INTEGER); CREATE INDEX i ON b (y);"%string.
Definition mix_after := "CREATE TABLE c (z INTEGER); CREATE INDEX i ON b (y); CREATE TABLE b (y INTEGER);"%string.
Example C74_example_mixed : whole_change (schema Pg mix_before) (schema Pg mix_after) (schema Pg "CREATE TABLE a (x INTEGER);") (schema Pg "CREATE TABLE c (z INTEGER);")
  /\ printed Pg (diff_of Pg (schema Pg mix_before) (schema Pg mix_after)) = Some ("DROP TABLE a;" ++ nl ++ "CREATE TABLE c (" ++ nl ++ "    z INTEGER" ++ nl ++ ");" ++ nl)%string
  /\ printable Pg (schema Pg mix_before) = true /\ printable Pg (schema Pg mix_after) = true.
Proof.
  split; [|split; [|split]]; try (vm_compute; reflexivity). split.
  - apply single_test; vm_compute; reflexivity.
  - apply single_test; vm_compute; reflexivity.
  - exists (tl (schema Pg mix_before)), (tl (schema Pg mix_after)). vm_compute.
    split; [|split]; [apply mixed_right; repeat apply mixed_left; apply mixed_nil|apply mixed_right; repeat apply mixed_left; apply mixed_nil|apply perm_swap].
  - intros g n G N. vm_compute in G, N. destruct G as [G|[]]. destruct N as [N|[]]. subst g n. discriminate.
Qed.
(** Why no object may be described twice: a second description of a table, appended to the
    schema, is never looked at. *)
Theorem C74_described_twice_refuted : exists b x, x <> [] /\ forallb is_create (b ++ x) = true /\ diff_of Pg b (b ++ x) = DNoDiff.
Proof.
  exists (schema Pg "CREATE TABLE t (a INTEGER);"), (schema Pg "CREATE TABLE t (a INTEGER, b INTEGER);"). split; [vm_compute; discriminate|]. split; vm_compute; reflexivity.
Qed.
Print Assumptions C74_described_twice_refuted.
