(** C83: what show prints stands for the database; C65: sources in another language. *)
From Verif Require Import GoStr Token Ast Parser Diff Lines Apply ApplySpec ApplyFacts PropsDiff PropsApply Generate Show ShowMy Resolve Process PropsProcess PropsStands.
From Verif Require Config.
Local Open Scope list_scope.

(** A name that is neither a directory nor a file: a data source name. *)
Definition nowhere (k : disk) (name : string) : Prop := is_dir k name = false /\ content k name = None.
(** A file with this content. *)
Definition holds (k : disk) (name t : string) : Prop := is_dir k name = false /\ content k name = Some t.
Definition dialect_chosen (a : call) : string := text (chosen a "dialect" "DDLCTL_DIALECT" (VString "")).

Lemma dialect_config : forall a, a_command a = CShow \/ a_command a = CDiff \/ a_command a = CApply -> Config.cfg_dialect (config_of a) = dialect_chosen a.
Proof.
  intros a [A|[A|A]].
  - rewrite (proj2 (proj2 (C65_configuration a)) A). reflexivity.
  - rewrite (proj1 (C65_configuration a) (or_intror A)). reflexivity.
  - rewrite (proj1 (proj2 (C65_configuration a)) A). reflexivity.
Qed.

Lemma shown_resolve : forall x k s k1 l o dsn r, ddlctl x k s = (k1, l, o) -> a_command s = CShow -> a_args s = dsn :: r -> exit_code o = 0 ->
  k1 = k /\ exists t, l = [EPrint t] /\ forall k2 name a, nowhere k2 dsn -> holds k2 name t -> a_command a = CDiff \/ a_command a = CApply -> dialect_chosen a = dialect_chosen s ->
    w_resolve (world_of x k2 (config_of a)) dsn = Some t /\ w_resolve (world_of x k2 (config_of a)) name = Some t.
Proof.
  intros x k s k1 l o dsn r H C A X. pose proof (dialect_config s (or_introl C)) as Ds. unfold ddlctl in H. rewrite C in H. destruct (show_command _ _ _) as [l1 o1] eqn:S.
  injection H as <- <- <-. split; [reflexivity|]. unfold show_command in S. rewrite A in S.
  destruct (show (Config.cfg_dialect (config_of s)) (x_server x dsn)) as [t|] eqn:T; [|injection S as <- <-; discriminate].
  destruct (x_out x [] t); injection S as <- <-; [|discriminate]. exists t. split; [reflexivity|]. intros k2 name a [N1 N2] [F1 F2] B D.
  assert (Config.cfg_dialect (config_of a) = Config.cfg_dialect (config_of s)) as E by (rewrite Ds, (dialect_config a (or_intror B)); exact D).
  cbn [world_of w_resolve]. unfold resolve. cbn [y_entry y_server]. unfold entry_of. rewrite N1, N2, F1, F2, E, T. split; reflexivity.
Qed.

(** After a successful show, with the text printed saved under a name: diff does the same with
    the file as with the data source, apply the same as if the wanted schema is that of the
    data source. *)
Theorem C83_stands_for : forall x k s k1 l o dsn r, ddlctl x k s = (k1, l, o) -> a_command s = CShow -> a_args s = dsn :: r -> exit_code o = 0 ->
  k1 = k /\ exists t, l = [EPrint t] /\ forall k2 name a b, nowhere k2 dsn -> holds k2 name t -> a_command a = CDiff \/ a_command a = CApply -> dialect_chosen a = dialect_chosen s ->
    ddlctl x k2 (with_args a [b; name]) = ddlctl x k2 (with_args a [b; dsn])
    /\ (a_command a = CDiff -> ddlctl x k2 (with_args a [name; b]) = ddlctl x k2 (with_args a [dsn; b])).
Proof.
  intros x k s k1 l o dsn r H C A X. destruct (shown_resolve _ _ _ _ _ _ _ _ H C A X) as [K [t [L R]]]. split; [exact K|]. exists t. split; [exact L|].
  intros k2 name a b N F B D. destruct (R k2 name a N F B D) as [R1 R2].
  assert (forall args, a_command a = CDiff -> ddlctl x k2 (with_args a args) = let (l, o) := diff_command (world_of x k2 (config_of a)) args in (k2, l, o)) as U1.
  { clear. intros args B. unfold ddlctl. change (config_of (with_args a args)) with (config_of a). generalize (config_of a). intro c. cbn [with_args a_command a_args]. rewrite B. reflexivity. }
  assert (forall args, a_command a = CApply -> ddlctl x k2 (with_args a args) = let (l, o) := apply_command (world_of x k2 (config_of a)) args in (k2, l, o)) as U2.
  { clear. intros args B. unfold ddlctl. change (config_of (with_args a args)) with (config_of a). generalize (config_of a). intro c. cbn [with_args a_command a_args]. rewrite B. reflexivity. }
  generalize dependent (world_of x k2 (config_of a)). intros w R1 R2 U1 U2.
  assert (forall c, diff_text w c name = diff_text w c dsn) as T1 by (intro c; unfold diff_text; rewrite R1, R2; reflexivity).
  assert (forall c, diff_text w name c = diff_text w dsn c) as T2 by (intro c; unfold diff_text; rewrite R1, R2; reflexivity).
  split.
  - destruct B as [B|B]; [rewrite !(U1 _ B); unfold diff_command|rewrite !(U2 _ B); unfold apply_command]; rewrite T1; reflexivity.
  - intro B'. rewrite !(U1 _ B'). unfold diff_command. rewrite T2. reflexivity.
Qed.
Print Assumptions C83_stands_for.

(** So the text shown and the database never differ: if it is read at all. *)
Theorem C83_no_difference : forall x k s k1 l o dsn r, ddlctl x k s = (k1, l, o) -> a_command s = CShow -> a_args s = dsn :: r -> exit_code o = 0 ->
  exists t, l = [EPrint t] /\ forall k2 name a d u, nowhere k2 dsn -> holds k2 name t -> a_command a = CDiff -> dialect_chosen a = dialect_chosen s ->
    dialect_of (dialect_chosen s) = Some d -> parse d (x_srt x) t = Ok u ->
    ddlctl x k2 (with_args a [name; dsn]) = (k2, [], Done) /\ ddlctl x k2 (with_args a [dsn; name]) = (k2, [], Done).
Proof.
  intros x k s k1 l o dsn r H C A X. destruct (shown_resolve _ _ _ _ _ _ _ _ H C A X) as [K [t [L R]]]. exists t. split; [exact L|].
  intros k2 name a d u N F B D Dd P. destruct (R k2 name a N F (or_introl B) D) as [R1 R2].
  assert (forall args, ddlctl x k2 (with_args a args) = let (l, o) := diff_command (world_of x k2 (config_of a)) args in (k2, l, o)) as U.
  { intro args. unfold ddlctl. change (config_of (with_args a args)) with (config_of a). generalize (config_of a). intro c. cbn [with_args a_command a_args]. rewrite B. reflexivity. }
  rewrite !U. clear U. unfold diff_command. change (w_load (world_of x k2 (config_of a))) with true. cbn [negb]. unfold diff_text. rewrite R1, R2.
  change (w_dialect (world_of x k2 (config_of a))) with (Config.cfg_dialect (config_of a)). change (w_srt (world_of x k2 (config_of a))) with (x_srt x).
  rewrite (dialect_config a (or_intror (or_introl B))), D, Dd, P, C11_schema_equals_itself. split; reflexivity.
Qed.
Print Assumptions C83_no_difference.

(** Two databases; what is shown of the second one, saved, is what the second one is. *)
Definition two_servers : outside :=
  mkOutside demo_parse look_simple (fun s => s) sort_small
    (fun dsn => if String.eqb dsn "one" then CockroachServer (Some ["CREATE TABLE b (id TEXT);"]) else if String.eqb dsn "two" then CockroachServer (Some ["CREATE TABLE c (id TEXT);"]) else NoServer)
    (fun l _ => List.length l) (fun _ _ => true)
    (fun _ _ => true) "yes" (fun _ => true) (fun _ => true) (fun _ _ => None) (fun _ => true) (fun c => c) (fun _ _ => ""%string) "usage" ["version"%string].
Example C83_example :
  let call c args := mkCall c (flag "dialect" (VString "cockroachdb") unset) unset args in
  let t := ("CREATE TABLE c (id TEXT);" ++ nl)%string in
  let k2 := mkDisk [] [("saved.sql"%string, t)] in
  ddlctl two_servers demo_disk (call CShow ["two"%string]) = (demo_disk, [EPrint t], Done)
  /\ nowhere k2 "two" /\ holds k2 "saved.sql" t
  /\ ddlctl two_servers k2 (call CDiff ["two"%string; "saved.sql"%string]) = (k2, [], Done)
  /\ executed (ddlctl two_servers k2 (call CApply ["one"%string; "saved.sql"%string])) = executed (ddlctl two_servers k2 (call CApply ["one"%string; "two"%string]))
  /\ List.length (executed (ddlctl two_servers k2 (call CApply ["one"%string; "two"%string]))) = 2.
Proof. vm_compute. repeat split. Qed.

(** * C65: another language *)

(** With a language other than Go a directory of sources stands for nothing: diff and apply
    fail without a message, a question or a statement. *)
Theorem C65_other_language : forall x k a p q, a_command a = CDiff \/ a_command a = CApply -> text (chosen a "lang" "DDLCTL_LANGUAGE" (VString "go")) <> "go"%string ->
  is_dir k p = true \/ is_dir k q = true -> ddlctl x k (with_args a [p; q]) = (k, [], Failed).
Proof.
  intros x k a p q B L D.
  assert (Config.cfg_language (config_of a) <> "go"%string) as L'.
  { destruct B as [B|B]; [rewrite (proj1 (C65_configuration a) (or_intror B))|rewrite (proj1 (proj2 (C65_configuration a)) B)]; exact L. }
  assert (forall n, is_dir k n = true -> w_resolve (world_of x k (config_of a)) n = None) as R.
  { intros n N. cbn [world_of w_resolve]. unfold resolve. cbn [y_entry]. unfold entry_of. rewrite N. unfold generate. rewrite (proj2 (String.eqb_neq _ _) L'). reflexivity. }
  assert (diff_text (world_of x k (config_of a)) p q = DiffFailed) as T.
  { unfold diff_text. destruct D as [D|D]; rewrite (R _ D); [reflexivity|]. destruct (w_resolve _ p); reflexivity. }
  unfold ddlctl. change (config_of (with_args a [p; q])) with (config_of a). revert T. clear - B. generalize (config_of a). intros c T. cbn [with_args a_command a_args].
  destruct B as [B|B]; rewrite B; [unfold diff_command|unfold apply_command]; rewrite T; reflexivity.
Qed.
Print Assumptions C65_other_language.
Example C65_other_language_example :
  let call l := mkCall CApply (flag "dialect" (VString "cockroachdb") (flag "lang" (VString l) unset)) unset ["dsn"%string; "/src"%string] in
  ddlctl (demo_outside "yes") demo_disk (call "rust"%string) = (demo_disk, [], Failed) /\ exit_code (snd (ddlctl (demo_outside "yes") demo_disk (call "go"%string))) = 0.
Proof. split; vm_compute; reflexivity. Qed.
