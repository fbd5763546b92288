(** C87: what the show command asks a MySQL server for. *)
From Verif Require Import GoStr AppendFacts ShowMy ShowMyFacts MyServer.
Local Open Scope list_scope.

Lemma quoted_plain : forall n, plain n = true -> quoted_name (n ++ "`")%string = Some (n, EmptyString).
Proof.
  induction n as [|c n IH]; intro H; [reflexivity|]. unfold plain in *. cbn [list_ascii_of_string existsb] in H. rewrite negb_orb in H. apply andb_true_iff in H. destruct H as [H1 H2].
  cbn [append quoted_name]. rewrite IH by exact H2. destruct (Ascii.eqb_spec c bq) as [E|E]; [subst c; discriminate H1|reflexivity].
Qed.
Lemma asked_plain : forall n, plain n = true -> asked_table (create_query n) = Some n.
Proof. intros n H. unfold asked_table, create_query. change (after_prefix _ _) with (Some (n ++ "`")%string). cbn beta iota. rewrite (quoted_plain n H). reflexivity. Qed.
Lemma text_in : forall db n s, NoDup (map fst db) -> In (n, s) db -> table_text db n = Some s.
Proof.
  induction db as [|[m t] db IH]; intros n s N I; [destruct I|]. cbn [map] in N. inversion N as [|? ? N1 N2]; subst. cbn [table_text]. destruct I as [I|I].
  - injection I as -> ->. rewrite String.eqb_refl. reflexivity.
  - destruct (String.eqb_spec m n) as [E|E]; [|exact (IH n s N2 I)]. exfalso. subst m. apply N1. exact (in_map fst _ _ I).
Qed.

(** Every table is asked for once, and the answers are put one behind the other.  Missing for
    the full property: names with back quotes, for which it is false (below). *)
Theorem C87_every_table_is_asked_for_partial : forall db, NoDup (map fst db) -> forallb plain (map fst db) = true ->
  ask_mysql (server_names db) (server_create db) "" = Some (concat_str (map (fun e => snd e ++ ";" ++ nl)%string db)).
Proof.
  intros db N P. unfold ask_mysql. change (server_names db (names_query "")) with (Some (map fst db)). cbn beta iota.
  assert (E : map (fun n => server_create db (create_query n)) (map fst db) = map Some (map snd db)).
  { rewrite !map_map. apply map_ext_in. intros [n s] I. cbn [fst snd]. unfold server_create. rewrite asked_plain; [exact (text_in db n s N I)|].
    rewrite forallb_forall in P. apply P. exact (in_map fst _ _ I). }
  rewrite E, shown_my, map_map. reflexivity.
Qed.
Print Assumptions C87_every_table_is_asked_for_partial.

(** If the server refuses any query, there is no result. *)
Theorem C87_refusal_is_reported : forall names create database text, ask_mysql names create database = Some text ->
  exists l, names (names_query database) = Some l /\ forall n, In n l -> create (create_query n) <> None.
Proof.
  intros names create database text H. unfold ask_mysql in H. destruct (names (names_query database)) as [l|]; [|discriminate H]. exists l. split; [reflexivity|].
  revert text H. induction l as [|m l IH]; intros text H n I; [destruct I|]. cbn [map show_mysql] in H. destruct (create (create_query m)) as [s|] eqn:C; [|discriminate H].
  destruct (show_mysql (map (fun n => create (create_query n)) l)) as [t|] eqn:S; [|discriminate H]. destruct I as [I|I]; [congruence|]. exact (IH t eq_refl n I).
Qed.
Print Assumptions C87_refusal_is_reported.

Definition two_tables := [("users", "CREATE TABLE `users` (`id` int)"); ("order items", "CREATE TABLE `order items` (`id` int)")]%string.
Example C87_example : NoDup (map fst two_tables) /\ forallb plain (map fst two_tables) = true
  /\ ask_mysql (server_names two_tables) (server_create two_tables) "" = Some ("CREATE TABLE `users` (`id` int);
CREATE TABLE `order items` (`id` int);
")%string.
Proof. split; [repeat constructor; cbn; intuition discriminate|]. split; vm_compute; reflexivity. Qed.

(** A back quote in one name, and nothing is shown. *)
Theorem C87_back_quote_refuted : exists db, NoDup (map fst db) /\ (forall n s, In (n, s) db -> table_text db n = Some s)
  /\ ask_mysql (server_names db) (server_create db) "" = None.
Proof.
  exists [("users", "CREATE TABLE `users` (`id` int)"); ("a`b", "CREATE TABLE `a``b` (`id` int)")]%string.
  assert (N : NoDup (map fst [("users", "CREATE TABLE `users` (`id` int)"); ("a`b", "CREATE TABLE `a``b` (`id` int)")]%string)) by (repeat constructor; cbn; intuition discriminate).
  split; [exact N|]. split; [intros n s; exact (text_in _ n s N)|vm_compute; reflexivity].
Qed.
Print Assumptions C87_back_quote_refuted.
(** Another table is shown in place of the one asked for. *)
Theorem C87_other_table_refuted : exists db text, NoDup (map fst db) /\ ask_mysql (server_names db) (server_create db) "" = Some text
  /\ exists n s, In (n, s) db /\ server_create db (create_query n) <> Some s.
Proof.
  exists [("a", "CREATE TABLE `a` (`x` int)"); ("a` -- b", "CREATE TABLE `a`` -- b` (`y` int)")]%string. eexists.
  split; [repeat constructor; cbn; intuition discriminate|]. split; [vm_compute; reflexivity|].
  exists "a` -- b"%string, "CREATE TABLE `a`` -- b` (`y` int)"%string. split; [right; left; reflexivity|]. vm_compute. discriminate.
Qed.
Print Assumptions C87_other_table_refuted.
