(** C81: the file written by generate stands for the directory it was generated from. *)
From Coq Require Import Lia.
From Verif Require Import GoStr Token Ast Parser Diff Lines Apply ApplySpec ApplyFacts PropsDiff PropsApply Generate Show Resolve Process PropsProcess.
From Verif Require Config.

(** The same call with other arguments. *)
Definition with_args (a : call) (args : list string) : call := mkCall (a_command a) (a_flags a) (a_env a) args.
(** Two calls that choose the same dialect, language and tags. *)
Definition choose_alike (a b : call) : Prop :=
  Forall (fun o => text (chosen a (fst (fst o)) (snd (fst o)) (VString (snd o))) = text (chosen b (fst (fst o)) (snd (fst o)) (VString (snd o))))
    [("dialect", "DDLCTL_DIALECT", ""); ("lang", "DDLCTL_LANGUAGE", "go"); ("go-column-tag", "DDLCTL_GO_COLUMN_TAG", "db");
     ("go-ddl-tag", "DDLCTL_GO_DDL_TAG", "ddlctl"); ("go-pk-tag", "DDLCTL_GO_PK_TAG", "pk")].

Lemma alike_config : forall a b, choose_alike a b -> a_command a = CGenerate -> a_command b = CDiff \/ a_command b = CApply ->
  settings_of (config_of a) = settings_of (config_of b) /\ Config.cfg_dialect (config_of a) = Config.cfg_dialect (config_of b) /\ Config.cfg_language (config_of a) = Config.cfg_language (config_of b).
Proof.
  intros a b H A B. unfold choose_alike in H. rewrite !Forall_cons_iff in H. cbn [fst snd] in H. destruct H as (H1 & H2 & H3 & H4 & H5 & _).
  rewrite (proj1 (C65_configuration a) (or_introl A)).
  destruct B as [B|B]; [rewrite (proj1 (C65_configuration b) (or_intror B))|rewrite (proj1 (proj2 (C65_configuration b)) B)];
    cbn [settings_of Config.cfg_column_tag Config.cfg_ddl_tag Config.cfg_pk_tag Config.cfg_dialect Config.cfg_language]; unfold settings_of; cbn; rewrite H1, H2, H3, H4, H5; repeat split; reflexivity.
Qed.

(** Both names mean the same text. *)
Lemma stands_resolve : forall x k g k' l o src dst r a, ddlctl x k g = (k', l, o) -> a_command g = CGenerate -> a_args g = src :: dst :: r -> exit_code o = 0 ->
  is_dir k src = true -> is_dir k (destination k dst) = false -> no_source (destination k dst) -> choose_alike g a -> a_command a = CDiff \/ a_command a = CApply ->
  exists t, w_resolve (world_of x k' (config_of a)) src = Some t /\ w_resolve (world_of x k' (config_of a)) (destination k dst) = Some t.
Proof.
  intros x k g k' l o src dst r a H C A X D ND NS L B. destruct (alike_config g a L C B) as (E1 & E2 & E3). unfold ddlctl in H. rewrite C in H.
  destruct (generate_on _ _ _ _ _ _) as [k1 o1] eqn:G. injection H as <- <- <-. unfold generate_on in G. rewrite A in G. set (name := destination k dst) in *.
  destruct (x_opens x k name); [|injection G as <- <-; discriminate]. rewrite E1, E2, E3 in G.
  destruct (generate _ _ _ _ _ _ _) as [t| | |] eqn:Gt; injection G as <- <-; try discriminate. exists t.
  cbn [world_of w_resolve]. unfold resolve. cbn [y_entry]. unfold entry_of.
  change (is_dir (write (x_place x) (write (x_place x) k name "") name t) src) with (is_dir k src). change (is_dir (write (x_place x) (write (x_place x) k name "") name t) name) with (is_dir k name).
  rewrite D, ND, content_write, String.eqb_refl. split; [|reflexivity].
  unfold input_of in Gt. change (is_dir (write (x_place x) k name "") src) with (is_dir k src) in Gt. rewrite D in Gt.
  unfold generate in *. destruct (String.eqb _ "go"); [|discriminate]. cbn [parse_input] in *.
  rewrite write_twice. cbn [k_files]. rewrite (tree_overwritten _ _ _ _ _ _ _ _ _ NS). rewrite Gt. reflexivity.
Qed.

(** After a successful generate from a directory, diff and apply with the same options do the
    same with the file written as with the directory. *)
Theorem C81_stands_for : forall x k g k' l o src dst r a b, ddlctl x k g = (k', l, o) -> a_command g = CGenerate -> a_args g = src :: dst :: r -> exit_code o = 0 ->
  is_dir k src = true -> is_dir k (destination k dst) = false -> no_source (destination k dst) -> choose_alike g a -> a_command a = CDiff \/ a_command a = CApply ->
  ddlctl x k' (with_args a [b; src]) = ddlctl x k' (with_args a [b; destination k dst])
  /\ (a_command a = CDiff -> ddlctl x k' (with_args a [src; b]) = ddlctl x k' (with_args a [destination k dst; b])).
Proof.
  intros x k g k' l o src dst r a b H C A X D ND NS L B. destruct (stands_resolve _ _ _ _ _ _ _ _ _ a H C A X D ND NS L B) as (t & R1 & R2).
  unfold ddlctl, with_args. cbn [a_command a_args].
  change (config_of (mkCall (a_command a) (a_flags a) (a_env a) [b; src])) with (config_of a). change (config_of (mkCall (a_command a) (a_flags a) (a_env a) [b; destination k dst])) with (config_of a).
  change (config_of (mkCall (a_command a) (a_flags a) (a_env a) [src; b])) with (config_of a). change (config_of (mkCall (a_command a) (a_flags a) (a_env a) [destination k dst; b])) with (config_of a).
  assert (forall c, diff_text (world_of x k' (config_of a)) c src = diff_text (world_of x k' (config_of a)) c (destination k dst)) as T1.
  { intro c. unfold diff_text. rewrite R1, R2. reflexivity. }
  assert (forall c, diff_text (world_of x k' (config_of a)) src c = diff_text (world_of x k' (config_of a)) (destination k dst) c) as T2.
  { intro c. unfold diff_text. rewrite R1, R2. reflexivity. }
  split.
  - destruct B as [B|B]; rewrite B; [unfold diff_command|unfold apply_command]; rewrite T1; reflexivity.
  - intro B'. rewrite B'. unfold diff_command. rewrite T2. reflexivity.
Qed.
Print Assumptions C81_stands_for.

(** So comparing the two says nothing: the schema of the file is that of the directory, or
    neither is read. *)
Theorem C81_no_difference : forall x k g k' l o src dst r a, ddlctl x k g = (k', l, o) -> a_command g = CGenerate -> a_args g = src :: dst :: r -> exit_code o = 0 ->
  is_dir k src = true -> is_dir k (destination k dst) = false -> no_source (destination k dst) -> choose_alike g a -> a_command a = CDiff ->
  exists o', ddlctl x k' (with_args a [destination k dst; src]) = (k', [], o') /\ ddlctl x k' (with_args a [src; destination k dst]) = (k', [], o')
    /\ (exit_code o' = 0 <-> exists d t s, dialect_of (text (chosen a "dialect" "DDLCTL_DIALECT" (VString ""))) = Some d /\ content k' (destination k dst) = Some t /\ parse d (x_srt x) t = Ok s).
Proof.
  intros x k g k' l o src dst r a H C A X D ND NS L B. destruct (stands_resolve _ _ _ _ _ _ _ _ _ a H C A X D ND NS L (or_introl B)) as (t & R1 & R2).
  assert (content k' (destination k dst) = Some t) as Ct.
  { cbn [world_of w_resolve] in R2. unfold resolve in R2. cbn [y_entry] in R2. unfold entry_of in R2.
    assert (is_dir k' (destination k dst) = false) as ND'.
    { unfold ddlctl in H. rewrite C in H. destruct (generate_on _ _ _ _ _ _) as [k1 o1] eqn:G. injection H as <- <- <-. unfold generate_on in G. rewrite A in G.
      destruct (x_opens x k _); [|injection G as <- <-; discriminate]. destruct (generate _ _ _ _ _ _ _); injection G as <- <-; exact ND. }
    rewrite ND' in R2. destruct (content k' (destination k dst)) as [u|] eqn:E; [exact R2|].
    exfalso. unfold ddlctl in H. rewrite C in H. destruct (generate_on _ _ _ _ _ _) as [k1 o1] eqn:G. injection H as <- <- <-. unfold generate_on in G. rewrite A in G.
    destruct (x_opens x k _); [|injection G as <- <-; discriminate]. destruct (generate _ _ _ _ _ _ _); injection G as <- <-; try discriminate; rewrite content_write, String.eqb_refl in E; discriminate. }
  assert (forall p q, In p [src; destination k dst] -> In q [src; destination k dst] -> diff_command (world_of x k' (config_of a)) [p; q] =
    match dialect_of (Config.cfg_dialect (config_of a)) with
    | Some d => match parse d (x_srt x) t with Ok _ => ([], Done) | Err => ([], Failed) | _ => ([], Crashed) end
    | None => ([], Failed)
    end) as T.
  { intros p q Ip Iq. assert (w_resolve (world_of x k' (config_of a)) p = Some t) as Rp by (destruct Ip as [<-|[<-|[]]]; assumption).
    assert (w_resolve (world_of x k' (config_of a)) q = Some t) as Rq by (destruct Iq as [<-|[<-|[]]]; assumption).
    unfold diff_command. cbn [world_of w_load negb]. unfold diff_text. fold (world_of x k' (config_of a)). rewrite Rp, Rq.
    change (w_dialect (world_of x k' (config_of a))) with (Config.cfg_dialect (config_of a)). change (w_srt (world_of x k' (config_of a))) with (x_srt x).
    destruct (dialect_of _) as [d|]; [|reflexivity]. destruct (parse d (x_srt x) t) as [s| | |]; try reflexivity. rewrite C11_schema_equals_itself. reflexivity. }
  pose proof (T (destination k dst) src ltac:(right; left; reflexivity) ltac:(left; reflexivity)) as T1. pose proof (T src (destination k dst) ltac:(left; reflexivity) ltac:(right; left; reflexivity)) as T2.
  assert (Config.cfg_dialect (config_of a) = text (chosen a "dialect" "DDLCTL_DIALECT" (VString ""))) as Ed by (rewrite (proj1 (C65_configuration a) (or_intror B)); reflexivity).
  assert (forall p q, ddlctl x k' (with_args a [p; q]) = let (l, o) := diff_command (world_of x k' (config_of a)) [p; q] in (k', l, o)) as U.
  { intros p q. unfold ddlctl. change (config_of (with_args a [p; q])) with (config_of a). generalize (config_of a). intro c. cbn [with_args a_command a_args]. rewrite B. reflexivity. }
  rewrite !U.
  rewrite T1, T2, Ed. clear T T1 T2. destruct (dialect_of (text (chosen a "dialect" "DDLCTL_DIALECT" (VString "")))) as [d|].
  - destruct (parse d (x_srt x) t) as [s| | |] eqn:P; (eexists; split; [reflexivity|]; split; [reflexivity|]; split; [intro Z; try discriminate Z|intros (d' & t' & s' & E & Et & Ep)]).
    + exists d, t, s. repeat split; assumption.
    + reflexivity.
    + injection E as <-. congruence.
    + injection E as <-. congruence.
    + injection E as <-. congruence.
  - eexists. split; [reflexivity|]. split; [reflexivity|]. split; [intro Z; discriminate Z|]. intros (d' & t' & s' & E & _). discriminate.
Qed.
Print Assumptions C81_no_difference.

(** Generated into the directory of the sources: the directory and the file are the same to
    diff and to apply. *)
Example C81_example :
  let r := ddlctl (demo_outside "yes") demo_disk (demo_generate "/src" "/src") in
  let call c args := mkCall c (flag "dialect" (VString "cockroachdb") unset) unset args in
  let go c args := ddlctl (demo_outside "yes") (fst (fst r)) (call c args) in
  exit_code (snd r) = 0 /\ snd (fst (go CDiff ["/src"; "/src/ddlctl.gen.sql"])) = [] /\ exit_code (snd (go CDiff ["/src"; "/src/ddlctl.gen.sql"])) = 0
  /\ executed (go CApply ["dsn"; "/src/ddlctl.gen.sql"]) = executed (go CApply ["dsn"; "/src"]) /\ List.length (executed (go CApply ["dsn"; "/src"])) = 2.
Proof. vm_compute. repeat split. Qed.

(** Not so for a single Go file: generate reads it as Go, diff and apply as SQL. *)
Theorem C81_single_file_refuted : exists x k g a k' l o, g = demo_generate "/src/a.go" "/o.sql" /\ ddlctl x k g = (k', l, o) /\ exit_code o = 0
  /\ choose_alike g a /\ a_command a = CDiff
  /\ exit_code (snd (ddlctl x k' (with_args a ["/o.sql"; "/o.sql"]))) = 0 /\ exit_code (snd (ddlctl x k' (with_args a ["/o.sql"; "/src/a.go"]))) = 1.
Proof.
  exists (demo_outside ""), demo_disk, (demo_generate "/src/a.go" "/o.sql"), (mkCall CDiff (flag "dialect" (VString "postgres") unset) unset []). do 3 eexists.
  split; [reflexivity|]. split; [vm_compute; reflexivity|]. split; [reflexivity|]. split; [repeat constructor|]. split; [reflexivity|]. split; vm_compute; reflexivity.
Qed.
Print Assumptions C81_single_file_refuted.
