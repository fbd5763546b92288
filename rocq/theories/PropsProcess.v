(** C64 - C67: the tag expression compiled once, what a command line can do, the files of
    generate. *)
From Coq Require Import Lia.
From Verif Require Import GoStr Token Ast Parser Diff Lines Apply ApplySpec ApplyFacts PropsApply Generate Show Resolve Process.
From Verif Require Config.
Local Open Scope string_scope.
Local Open Scope list_scope.

(** * C64: generations in one process *)

(** A cell an earlier generation with the tag [t] may have left behind. *)
Definition fits (c : cell) (t : string) : Prop := c = None \/ c = Some t.

Lemma fits_compiled : forall c cfg, fits c (ddl_tag cfg) -> compiled c cfg = ddl_tag cfg.
Proof. intros c cfg [-> | ->]; reflexivity. Qed.
Lemma file_once : forall c cfg look short srt file parsed, fits c (ddl_tag cfg) ->
  exists c', parse_file_once c cfg look short srt file parsed = (parse_file cfg look short srt file parsed, c') /\ fits c' (ddl_tag cfg).
Proof.
  intros c cfg look short srt file parsed F. unfold parse_file_once, parse_file. destruct parsed as [nodes|]; [|exists c; split; [reflexivity|exact F]].
  rewrite (fits_compiled c cfg F). exists (if asked nodes then Some (ddl_tag cfg) else c). split; [reflexivity|].
  destruct (asked nodes); [right; reflexivity|exact F].
Qed.
Lemma tree_once : forall cfg look short srt files c, fits c (ddl_tag cfg) ->
  exists c', parse_tree_once c cfg look short srt files = (parse_tree cfg look short srt files, c') /\ fits c' (ddl_tag cfg).
Proof.
  intros cfg look short srt files. induction files as [|[name parsed] r IH]; intros c F; cbn [parse_tree_once parse_tree].
  - exists c. split; [reflexivity|exact F].
  - destruct (negb (ends_with ".go" name) || ends_with "_test.go" name); [exact (IH c F)|].
    destruct (file_once c cfg look short srt name parsed F) as [c1 [-> F1]].
    destruct (parse_file cfg look short srt name parsed) as [a| | |]; cbn [bind]; try (exists c1; split; [reflexivity|exact F1]).
    destruct (IH c1 F1) as [c2 [-> F2]]. exists c2. split; [reflexivity|exact F2].
Qed.
(** Whatever was generated before with the tag, the result is that of a fresh process. *)
Theorem C64_same_tag : forall c cfg look short srt dialect language i, fits c (ddl_tag cfg) ->
  exists c', generate_once c cfg look short srt dialect language i = (generate cfg look short srt dialect language i, c') /\ fits c' (ddl_tag cfg).
Proof.
  intros c cfg look short srt dialect language i F. unfold generate_once, generate. destruct (String.eqb language "go"); [|exists c; split; [reflexivity|exact F]].
  assert (P : exists c', parse_input_once c cfg look short srt i = (parse_input cfg look short srt i, c') /\ fits c' (ddl_tag cfg)).
  { destruct i as [|name parsed|files]; cbn [parse_input_once parse_input].
    - exists c. split; [reflexivity|exact F].
    - destruct (file_once c cfg look short srt name parsed F) as [c1 [-> F1]]. exists c1. split; [reflexivity|exact F1].
    - exact (tree_once cfg look short srt files c F). }
  destruct P as [c1 [-> F1]]. exists c1. split; [reflexivity|exact F1].
Qed.
Print Assumptions C64_same_tag.

(** So a sequence of generations that agree in the tag gives what each gives alone. *)
Theorem C64_sequence_partial : forall look short srt t l, (forall cfg dialect language i, In (cfg, dialect, language, i) l -> ddl_tag cfg = t) ->
  generations None look short srt l
  = map (fun g => let '(cfg, dialect, language, i) := g in generate cfg look short srt dialect language i) l.
Proof.
  intros look short srt t l. assert (G : forall c, fits c t -> (forall cfg dialect language i, In (cfg, dialect, language, i) l -> ddl_tag cfg = t) ->
    generations c look short srt l = map (fun g => let '(cfg, dialect, language, i) := g in generate cfg look short srt dialect language i) l).
  { induction l as [|[[[cfg dialect] language] i] r IH]; intros c F H; [reflexivity|]. cbn [generations map].
    pose proof (H cfg dialect language i (or_introl eq_refl)) as E. rewrite <- E in F.
    destruct (C64_same_tag c cfg look short srt dialect language i F) as [c1 [-> F1]]. f_equal. rewrite E in F1. apply IH; [exact F1|].
    intros cfg' d' la' i' I. exact (H cfg' d' la' i' (or_intror I)). }
  intros H. apply G; [left; reflexivity|exact H].
Qed.
Print Assumptions C64_sequence_partial.

(** The two arguments of diff and apply are two generations with one configuration. *)
Theorem C64_two_arguments : forall cfg look short srt dialect language i j,
  generations None look short srt [(cfg, dialect, language, i); (cfg, dialect, language, j)]
  = [generate cfg look short srt dialect language i; generate cfg look short srt dialect language j].
Proof.
  intros cfg look short srt dialect language i j. refine (C64_sequence_partial look short srt (ddl_tag cfg) _ _).
  intros cfg' d la k [E|[E|[]]]; injection E as <- _ _ _; reflexivity.
Qed.
Print Assumptions C64_two_arguments.

(** Sources annotated for two tags *)
Definition two_tags : input :=
  OneFile "a.go" (Some
    [mkNode [mkType "A" (Some [mkField ["ID"] (Some "`db:""id"" one:""INT"" two:""TEXT""`") ""])] [[mkLine "// one: table: a" 3]];
     mkNode [mkType "B" (Some [mkField ["ID"] (Some "`db:""id"" one:""INT"" two:""TEXT""`") ""])] [[mkLine "// two: table: b" 9]]]).
Definition asks (tag : string) : settings * string * string * input := (mkSettings "db" tag "pk", "postgres", "go", two_tags).
Example C64_example : generations None look_simple (fun s => s) sort_small [asks "one"; asks "one"]
  = [Ok (unlines_example ["-- Code generated by ddlctl. DO NOT EDIT."; "--"; ""; "-- source: a.go:3"; "-- one: table: a"; "CREATE TABLE a ("; "    ""id"" INT"; ");"]);
     Ok (unlines_example ["-- Code generated by ddlctl. DO NOT EDIT."; "--"; ""; "-- source: a.go:3"; "-- one: table: a"; "CREATE TABLE a ("; "    ""id"" INT"; ");"])].
Proof. vm_compute. reflexivity. Qed.
(** With another tag the second generation still looks for the annotations of the first, and
    takes the types of the second: a table nobody described. *)
Theorem C64_other_tag_refuted : exists look short srt g1 g2 fresh mixed,
  generations None look short srt [g1; g2] <> generations None look short srt [g1] ++ generations None look short srt [g2]
  /\ generations None look short srt [g2] = [Ok fresh] /\ nth_error (generations None look short srt [g1; g2]) 1 = Some (Ok mixed)
  /\ fresh = unlines_example ["-- Code generated by ddlctl. DO NOT EDIT."; "--"; ""; "-- source: a.go:9"; "-- two: table: b"; "CREATE TABLE b ("; "    ""id"" TEXT"; ");"]
  /\ mixed = unlines_example ["-- Code generated by ddlctl. DO NOT EDIT."; "--"; ""; "-- source: a.go:3"; "-- one: table: a"; "CREATE TABLE a ("; "    ""id"" TEXT"; ");"].
Proof.
  exists look_simple, (fun s => s), sort_small, (asks "one"), (asks "two"). eexists. eexists. split; [vm_compute; discriminate|].
  split; [vm_compute; reflexivity|]. split; [vm_compute; reflexivity|]. split; reflexivity.
Qed.
Print Assumptions C64_other_tag_refuted.

(** The expression is compiled at the first comment met, of whatever kind: sources without any
    comment leave the next generation free to use a tag of its own. *)
Definition no_comments (i : input) : Prop :=
  forall file nodes n g, (i = OneFile file (Some nodes) \/ exists files, i = Tree files /\ In (file, Some nodes) files) ->
  In n nodes -> In g (n_groups n) -> g = [].
Lemma not_asked : forall nodes, (forall n g, In n nodes -> In g (n_groups n) -> g = []) -> asked nodes = false.
Proof.
  intros nodes H. unfold asked. destruct (existsb _ nodes) eqn:E; [|reflexivity]. apply existsb_exists in E. destruct E as [n [I E]].
  apply existsb_exists in E. destruct E as [g [J E]]. rewrite (H n g I J) in E. discriminate E.
Qed.
Theorem C64_no_comment : forall c cfg look short srt dialect language i, no_comments i ->
  snd (generate_once c cfg look short srt dialect language i) = c.
Proof.
  intros c cfg look short srt dialect language i H. unfold generate_once. destruct (String.eqb language "go"); [|reflexivity].
  assert (F : forall file parsed, (forall nodes n g, parsed = Some nodes -> In n nodes -> In g (n_groups n) -> g = []) ->
    snd (parse_file_once c cfg look short srt file parsed) = c).
  { intros file [nodes|] Hf; [|reflexivity]. cbn [parse_file_once snd]. rewrite (not_asked nodes); [reflexivity|]. intros n g. exact (Hf nodes n g eq_refl). }
  assert (P : snd (parse_input_once c cfg look short srt i) = c).
  { destruct i as [|file parsed|files]; cbn [parse_input_once]; [reflexivity| |].
    - specialize (F file parsed). destruct (parse_file_once _ _ _ _ _ _ _) as [a c1]. cbn [snd] in *. apply F. intros nodes n g E. apply (H file nodes n g). left. rewrite E. reflexivity.
    - assert (G : forall l, (forall file nodes n g, In (file, Some nodes) l -> In n nodes -> In g (n_groups n) -> g = []) -> snd (parse_tree_once c cfg look short srt l) = c).
      { induction l as [|[name parsed] r IH]; intros Hl; cbn [parse_tree_once]; [reflexivity|].
        assert (R : snd (parse_tree_once c cfg look short srt r) = c) by (apply IH; intros file nodes n g I; exact (Hl file nodes n g (or_intror I))).
        destruct (_ || _); [exact R|].
        assert (Q : snd (parse_file_once c cfg look short srt name parsed) = c) by (apply F; intros nodes n g E; apply (Hl name nodes n g); left; rewrite E; reflexivity).
        destruct (parse_file_once _ _ _ _ _ _ _) as [a c1]. cbn [snd] in Q. subst c1. destruct a; try reflexivity.
        destruct (parse_tree_once _ _ _ _ _ r) as [b c2]. exact R. }
      apply G. intros file nodes n g I. apply (H file nodes n g). right. exists files. split; [reflexivity|exact I]. }
  destruct (parse_input_once _ _ _ _ _ _) as [a c1]. exact P.
Qed.
Print Assumptions C64_no_comment.
(** One comment that has nothing to do with tables is enough. *)
Theorem C64_any_comment_refuted : exists look short srt i j t1 t2,
  (forall n, i = OneFile "a.go" (Some [n]) -> n_groups n = [[mkLine "// A is a letter." 3]])
  /\ generations None look short srt [(mkSettings "db" t1 "pk", "postgres", "go", i); (mkSettings "db" t2 "pk", "postgres", "go", j)]
     <> [generate (mkSettings "db" t1 "pk") look short srt "postgres" "go" i; generate (mkSettings "db" t2 "pk") look short srt "postgres" "go" j].
Proof.
  exists look_simple, (fun s => s), sort_small, (OneFile "a.go" (Some [mkNode [mkType "A" (Some [])] [[mkLine "// A is a letter." 3]]])), two_tags, "one", "two".
  split; [intros n E; injection E as <-; reflexivity|]. vm_compute. discriminate.
Qed.
Print Assumptions C64_any_comment_refuted.
Example C64_no_comment_example :
  let bare := OneFile "a.go" (Some [mkNode [mkType "A" (Some [])] []]) in
  no_comments bare /\ exists t, generations None look_simple (fun s => s) sort_small [(mkSettings "db" "one" "pk", "postgres", "go", bare); asks "two"]
    = [Err; Ok t] /\ generations None look_simple (fun s => s) sort_small [asks "two"] = [Ok t].
Proof.
  cbv zeta. split.
  - intros file nodes n g [E|[files [E _]]]; [|discriminate E]. injection E as _ <-. intros [<-|[]] []. 
  - eexists. split; vm_compute; reflexivity.
Qed.

(** * C65: what a command line can do *)

(** The words commands are called by; any other word is no command. *)
Definition words : list (string * command) :=
  [("version", CVersion); ("generate", CGenerate); ("gen", CGenerate); ("show", CShow); ("diff", CDiff); ("apply", CApply)].
Theorem C65_words : (forall w c, In (w, c) words -> command_named w = c) /\ (forall w, ~ In w (map fst words) -> command_named w = CUsage).
Proof.
  split.
  - intros w c I. cbn [words In] in I. repeat (destruct I as [E|I]; [injection E as <- <-; reflexivity|]). destruct I.
  - intros w N. unfold command_named. cbn [words map fst In] in N.
    repeat match goal with |- context [String.eqb w ?y] => let E := fresh "E" in destruct (String.eqb w y) eqn:E; [apply String.eqb_eq in E; exfalso; apply N; rewrite E; auto 10|] end. reflexivity.
Qed.
Print Assumptions C65_words.

(** The value an option was given. *)
Definition chosen (a : call) (flag env : string) (default : value) : value :=
  match a_flags a flag with Some v => v | None => match a_env a env with Some v => v | None => default end end.
Definition text (v : value) : string := match v with VString s => s | VBool _ => "" end.
Definition truth (v : value) : bool := match v with VBool b => b | VString _ => false end.

(** Options mean the same for generate, diff and apply; show knows the dialect only. *)
Theorem C65_configuration : forall a,
  let trace := truth (chosen a "trace" "DDLCTL_TRACE" (VBool false)) in
  let debug := truth (chosen a "debug" "DDLCTL_DEBUG" (VBool false)) in
  let dialect := text (chosen a "dialect" "DDLCTL_DIALECT" (VString "")) in
  let lang := text (chosen a "lang" "DDLCTL_LANGUAGE" (VString "go")) in
  let column := text (chosen a "go-column-tag" "DDLCTL_GO_COLUMN_TAG" (VString "db")) in
  let ddl := text (chosen a "go-ddl-tag" "DDLCTL_GO_DDL_TAG" (VString "ddlctl")) in
  let pk := text (chosen a "go-pk-tag" "DDLCTL_GO_PK_TAG" (VString "pk")) in
  let auto := truth (chosen a "auto-approve" "DDLCTL_AUTO_APPROVE" (VBool false)) in
  (a_command a = CGenerate \/ a_command a = CDiff -> config_of a = Config.mkConfig trace debug lang dialect false column ddl pk)
  /\ (a_command a = CApply -> config_of a = Config.mkConfig trace debug lang dialect auto column ddl pk)
  /\ (a_command a = CShow -> config_of a = Config.mkConfig trace debug "" dialect false "" "" "").
Proof.
  intros [cmd flags env args]. cbn [a_command]. split; [|split].
  - intros [-> | ->]; reflexivity.
  - intros ->. reflexivity.
  - intros ->. reflexivity.
Qed.
Print Assumptions C65_configuration.

(** A statement is executed, and a database opened for it, by apply with two arguments only,
    approved by the flag, by the environment, or by the word typed. *)
Theorem C65_nothing_without_approval : forall x k a k' l o, ddlctl x k a = (k', l, o) ->
  (exists q r, In (EExec q r) l) \/ (exists dsn, In (EOpen dsn) l) ->
  a_command a = CApply /\ (exists dsn src, a_args a = [dsn; src])
  /\ (a_flags a "auto-approve" = Some (VBool true)
      \/ (a_flags a "auto-approve" = None /\ a_env a "DDLCTL_AUTO_APPROVE" = Some (VBool true))
      \/ typed_yes (x_stdin x)).
Proof.
  intros x k a k' l o H X. unfold ddlctl in H. destruct (a_command a) eqn:C.
  - injection H as _ <- _. exfalso. destruct X as [[q [r X]]|[dsn X]]; destruct X as [X|[]]; discriminate X.
  - injection H as _ <- _. exfalso. destruct X as [[q [r X]]|[dsn X]]; apply in_map_iff in X; destruct X as [y [X _]]; discriminate X.
  - exfalso. destruct (generate_on _ _ _ _ _ _) as [k1 o1]. injection H as _ <- _. destruct X as [[q [r []]]|[dsn []]].
  - exfalso. destruct (show_command _ _ _) as [l1 o1] eqn:S. injection H as _ <- _. unfold show_command in S. destruct (a_args a) as [|dsn r]; [injection S as <- _; destruct X as [[q [r []]]|[d []]]|].
    destruct (show _ _) as [t|]; [|injection S as <- _; destruct X as [[q [r' []]]|[d []]]].
    destruct (x_out x [] t); injection S as <- _; destruct X as [[q [r' X]]|[d X]]; try destruct X as [X|[]]; try discriminate X; destruct X.
  - exfalso. destruct (diff_command _ _) as [l1 o1] eqn:S. injection H as _ <- _. unfold diff_command in S.
    repeat match type of S with context [match ?y with _ => _ end] => destruct y end; injection S as <- _;
    destruct X as [[q [r' X]]|[d X]]; try destruct X as [X|[]]; try discriminate X; destruct X.
  - destruct (apply_command _ _) as [l1 o1] eqn:S. injection H as _ <- _. split; [reflexivity|]. split.
    + unfold apply_command in S. destruct (a_args a) as [|dsn [|src [|z r]]]; try (exists dsn, src; reflexivity); cbn in S; injection S as <- _;
      exfalso; destruct X as [[q [r' []]]|[d []]].
    + pose proof (C22_nothing_without_approval _ _ _ _ S X) as A. destruct A as [A|A]; [|right; right; exact A].
      cbn [world_of w_auto] in A. pose proof (proj1 (proj2 (C65_configuration a)) C) as E. rewrite E in A. cbn [Config.cfg_auto_approve] in A.
      unfold chosen in A. destruct (a_flags a "auto-approve") as [[s|[|]]|]; try discriminate A; [left; reflexivity|].
      right; left. split; [reflexivity|]. destruct (a_env a "DDLCTL_AUTO_APPROVE") as [[s|[|]]|]; try discriminate A. reflexivity.
Qed.
Print Assumptions C65_nothing_without_approval.

(** Only generate writes files. *)
Theorem C65_only_generate_writes : forall x k a k' l o, ddlctl x k a = (k', l, o) -> k' <> k -> a_command a = CGenerate.
Proof.
  intros x k a k' l o H D. unfold ddlctl in H. destruct (a_command a); try reflexivity; exfalso;
  [injection H as E _ _|injection H as E _ _|destruct (show_command _ _ _); injection H as E _ _|destruct (diff_command _ _); injection H as E _ _
  |destruct (apply_command _ _); injection H as E _ _]; congruence.
Qed.
Print Assumptions C65_only_generate_writes.

(** C67: Without one of the four dialects no command succeeds, prints or executes anything. *)
Theorem C67_dialect_needed_partial : forall x k a k' l o, ddlctl x k a = (k', l, o) ->
  a_command a <> CUsage -> a_command a <> CVersion ->
  ~ In (text (chosen a "dialect" "DDLCTL_DIALECT" (VString ""))) ["mysql"; "postgres"; "cockroachdb"; "spanner"] ->
  l = [] /\ exit_code o <> 0.
Proof.
  intros x k a k' l o H NU NV D. pose proof (C65_configuration a) as [CG [CA CS]]. set (dia := text (chosen a "dialect" "DDLCTL_DIALECT" (VString ""))) in *.
  assert (Q : dia <> "mysql" /\ dia <> "postgres" /\ dia <> "cockroachdb" /\ dia <> "spanner").
  { repeat split; intros E; apply D; rewrite E; cbn [In]; auto. }
  destruct Q as [Q1 [Q2 [Q3 Q4]]]. apply String.eqb_neq in Q1, Q2, Q3, Q4.
  unfold ddlctl in H. destruct (a_command a) eqn:C; try congruence.
  - specialize (CG (or_introl eq_refl)). rewrite CG in H. cbn [Config.cfg_dialect Config.cfg_language] in H.
    destruct (generate_on _ _ _ _ _ _) as [k1 o1] eqn:G. injection H as _ <- <-. split; [reflexivity|].
    unfold generate_on in G. destruct (a_args a) as [|src [|dst r]]; [injection G as _ <-; discriminate|injection G as _ <-; discriminate|].
    destruct (x_opens x k (destination k dst)); [|injection G as _ <-; discriminate].
    destruct (generate _ _ _ _ _ _ _) as [t| | |] eqn:T; try (injection G as _ <-; discriminate).
    exfalso. unfold generate in T. destruct (String.eqb _ "go"); [|discriminate T]. destruct (parse_input _ _ _ _ _); cbn [bind] in T; try discriminate T.
    unfold printer_of in T. rewrite Q1, Q2, Q3, Q4 in T. discriminate T.
  - specialize (CS eq_refl). rewrite CS in H. cbn [Config.cfg_dialect] in H.
    destruct (show_command _ _ _) as [l1 o1] eqn:S. injection H as _ <- <-. unfold show_command in S.
    destruct (a_args a) as [|dsn r]; [injection S as <- <-; split; [reflexivity|discriminate]|].
    assert (N : show dia (x_server x dsn) = None) by (unfold show; destruct (x_server x dsn); rewrite ?Q1, ?Q2, ?Q3, ?Q4; reflexivity).
    rewrite N in S. injection S as <- <-. split; [reflexivity|discriminate].
  - specialize (CG (or_intror eq_refl)). rewrite CG in H.
    destruct (a_args a) as [|s [|t [|z r]]]; cbn in H; try (injection H as _ <- <-; split; [reflexivity|discriminate]).
    pose proof (C29_bad_input_no_effect (world_of x k (config_of a)) s t) as B. rewrite CG in B. destruct B as [[o1 [N B]] _]; [right; right; exact D|].
    unfold world_of in *. cbn in B. cbn in H. rewrite B in H. injection H as _ <- <-. split; [reflexivity|]. destruct o1; [congruence|discriminate|discriminate].
  - specialize (CA eq_refl). rewrite CA in H.
    destruct (a_args a) as [|s [|t [|z r]]]; try (cbn in H; injection H as _ <- <-; split; [reflexivity|discriminate]).
    pose proof (C29_bad_input_no_effect (world_of x k (config_of a)) s t) as B. rewrite CA in B. destruct B as [_ [o1 [N B]]]; [right; right; exact D|].
    rewrite B in H. injection H as _ <- <-. split; [reflexivity|]. destruct o1; [congruence|discriminate|discriminate].
Qed.
Print Assumptions C67_dialect_needed_partial.

(** The exit code is 0 only if what was to be done is done: apply found no difference, or every
    statement of the last attempt was accepted. *)
Theorem C65_exit_code : forall x k a k' l o d, ddlctl x k a = (k', l, o) -> a_command a = CApply -> exit_code o = 0 ->
  dialect_of (text (chosen a "dialect" "DDLCTL_DIALECT" (VString ""))) = Some d ->
  sent l = [] \/ exists before final after, l = before ++ final ++ after /\ sent after = [] /\ Forall (fun p => acceptable d (snd p)) (sent final)
    /\ exists n, map fst (sent l) = concat (repeat (map fst (sent final)) n).
Proof.
  intros x k a k' l o d H C E D. unfold ddlctl in H. rewrite C in H. destruct (apply_command _ _) as [l1 o1] eqn:S. injection H as _ <- <-.
  destruct o1; try discriminate E. destruct (C24_success_is_honest_partial _ _ _ S) as [[s [t [_ [_ N]]]]|[d' [stmts [rest [_ [D' [b [f [z [L [A [F [R _]]]]]]]]]]]]].
  - left. exact N.
  - right. exists b, f, z. split; [exact L|]. split; [exact A|]. split; [|exact R].
    cbn [world_of w_dialect] in D'. rewrite (proj1 (proj2 (C65_configuration a)) C) in D'. cbn [Config.cfg_dialect] in D'.
    rewrite D in D'. injection D' as ->. exact F.
Qed.
Print Assumptions C65_exit_code.

(** ** A process *)
Definition demo_parse (t : string) : option (list cnode) :=
  if String.eqb t "go" then Some [mkNode [mkType "A" (Some [mkField ["ID"] (Some "`db:""id"" ddlctl:""TEXT""`") ""])] [[mkLine "// ddlctl: table: a" 3]]]
  else None.
Definition demo_disk : disk := mkDisk ["/src"] [("/old.sql", "CREATE TABLE b (id TEXT);"); ("/src/a.go", "go"); ("/src/notes.txt", "n")].
Definition demo_outside (typed : string) : outside :=
  mkOutside demo_parse look_simple (fun s => s) sort_small
    (fun dsn => if String.eqb dsn "dsn" then CockroachServer (Some ["CREATE TABLE b (id TEXT);"]) else NoServer)
    (fun l _ => List.length l) (fun _ _ => true)
    (fun _ _ => true) typed (fun _ => true) (fun _ => true) (fun _ _ => None) (fun _ => true) (fun c => c) (fun _ _ => "") "usage" ["version"].
Definition flag (name : string) (v : value) (f : string -> option value) (x : string) : option value :=
  if String.eqb x name then Some v else f x.
Definition unset (x : string) : option value := None.
Definition executed (r : disk * list event * outcome) : list string :=
  flat_map (fun e => match e with EExec q _ => [q] | _ => [] end) (snd (fst r)).

(** apply from a directory of sources, asked and not; the same arguments under diff *)
Example C65_example :
  let go (c : command) (typed : string) (f e : string -> option value) :=
    let r := ddlctl (demo_outside typed) demo_disk (mkCall c f e ["dsn"; "/src"]) in (executed r, exit_code (snd r)) in
  let crdb := flag "dialect" (VString "cockroachdb") unset in
  go CApply "yes" crdb unset = (["DROP TABLE b"; "CREATE TABLE a (" ++ nl ++ "    ""id"" TEXT" ++ nl ++ ")"], 0)%string
  /\ go CApply "no" crdb unset = ([], 1)
  /\ go CApply "" (flag "auto-approve" (VBool true) crdb) unset = go CApply "yes" crdb unset
  /\ go CApply "" crdb (flag "DDLCTL_AUTO_APPROVE" (VBool true) unset) = go CApply "yes" crdb unset
  /\ go CApply "no" (flag "auto-approve" (VBool false) crdb) (flag "DDLCTL_AUTO_APPROVE" (VBool true) unset) = ([], 1)
  /\ go CApply "yes" unset (flag "DDLCTL_DIALECT" (VString "cockroachdb") unset) = go CApply "yes" crdb unset
  /\ go CDiff "yes" (flag "auto-approve" (VBool true) crdb) unset = ([], 0)
  /\ go CApply "yes" unset unset = ([], 1).
Proof. vm_compute. repeat split. Qed.

(** ** C67: what cannot be carried out

    A command that is called without its arguments does not report it but panics. *)
Theorem C67_missing_arguments_refuted : forall x k f e,
  exit_code (snd (ddlctl x k (mkCall CShow f e []))) = 2 /\ exit_code (snd (ddlctl x k (mkCall CGenerate f e []))) = 2
  /\ forall src, exit_code (snd (ddlctl x k (mkCall CGenerate f e [src]))) = 2.
Proof. intros x k f e. repeat split. Qed.
Print Assumptions C67_missing_arguments_refuted.
(** diff and apply do report it. *)
Theorem C67_arguments_counted_partial : forall x k a, a_command a = CDiff \/ a_command a = CApply -> List.length (a_args a) <> 2 ->
  ddlctl x k a = (k, [], Failed).
Proof.
  intros x k a C N. unfold ddlctl. destruct (a_args a) as [|s [|t [|z r]]]; try (exfalso; apply N; reflexivity); destruct C as [-> | ->]; reflexivity.
Qed.
Print Assumptions C67_arguments_counted_partial.

(** A command without a dialect does nothing - but generate has emptied the destination. *)
Theorem C67_no_dialect_destroys_refuted : exists x k a k' l o, ddlctl x k a = (k', l, o) /\ a_flags a "dialect" = None /\ a_env a "DDLCTL_DIALECT" = None
  /\ o = Failed /\ content k "/old.sql" = Some "CREATE TABLE b (id TEXT);" /\ content k' "/old.sql" = Some "".
Proof.
  exists (demo_outside ""), demo_disk, (mkCall CGenerate unset unset ["/src"; "/old.sql"]). do 3 eexists. split; [vm_compute; reflexivity|]. repeat split.
Qed.
Print Assumptions C67_no_dialect_destroys_refuted.

(** * C66: the files of generate *)

Lemma assoc_overwrite : forall name t l n, assoc n (overwrite name t l) = if String.eqb n name then (match assoc name l with Some _ => Some t | None => None end) else assoc n l.
Proof.
  intros name t l n. induction l as [|[m u] r IH]; cbn [overwrite assoc].
  - destruct (String.eqb n name); reflexivity.
  - destruct (String.eqb name m) eqn:E.
    + apply String.eqb_eq in E. subst m. cbn [assoc]. destruct (String.eqb n name); reflexivity.
    + cbn [assoc]. rewrite IH. destruct (String.eqb n m) eqn:F; [|reflexivity]. apply String.eqb_eq in F. subst m.
      rewrite String.eqb_sym in E. rewrite E. reflexivity.
Qed.
Lemma assoc_app : forall n a b, assoc n (a ++ b) = match assoc n a with Some t => Some t | None => assoc n b end.
Proof. intros n a b. induction a as [|[m u] r IH]; cbn [app assoc]; [reflexivity|]. destruct (String.eqb n m); [reflexivity|exact IH]. Qed.
Lemma content_write : forall place k name t n, content (write place k name t) n = if String.eqb n name then Some t else content k n.
Proof.
  intros place k name t n. unfold write, content. destruct (assoc name (k_files k)) as [u|] eqn:A; cbn [k_files].
  - rewrite assoc_overwrite, A. reflexivity.
  - set (m := place (k_files k) name). assert (P : forall z, assoc z (k_files k) = match assoc z (firstn m (k_files k)) with Some v => Some v | None => assoc z (skipn m (k_files k)) end).
    { intros z. rewrite <- assoc_app, firstn_skipn. reflexivity. }
    rewrite assoc_app. cbn [assoc]. rewrite (P n). rewrite (P name) in A. destruct (String.eqb n name) eqn:E.
    + apply String.eqb_eq in E. subst n. destruct (assoc name (firstn _ _)); [discriminate A|reflexivity].
    + reflexivity.
Qed.
(** generate changes the content of the destination only. *)
Theorem C66_frame : forall x k a k' l o, ddlctl x k a = (k', l, o) -> forall n,
  content k' n <> content k n -> exists src dst r, a_command a = CGenerate /\ a_args a = src :: dst :: r
    /\ (n = dst \/ (is_dir k dst = true /\ n = dst ++ "/ddlctl.gen.sql")%string).
Proof.
  intros x k a k' l o H n D. assert (C : a_command a = CGenerate).
  { apply (C65_only_generate_writes x k a k' l o H). intros ->. apply D. reflexivity. }
  unfold ddlctl in H. rewrite C in H. destruct (generate_on _ _ _ _ _ _) as [k1 o1] eqn:G. injection H as <- _ _. unfold generate_on in G.
  destruct (a_args a) as [|src [|dst r]]; [injection G as <- _; congruence|injection G as <- _; congruence|]. exists src, dst, r. split; [exact C|]. split; [reflexivity|].
  assert (N : n = destination k dst).
  { destruct (x_opens x k (destination k dst)); [|injection G as <- _; congruence].
    destruct (String.eqb n (destination k dst)) eqn:E; [apply String.eqb_eq; exact E|exfalso].
    destruct (generate _ _ _ _ _ _ _); injection G as <- _; apply D; rewrite ?content_write, E; reflexivity. }
  unfold destination in N. destruct (is_dir k dst) eqn:I; [right; split; [reflexivity|exact N]|left; exact N].
Qed.
Print Assumptions C66_frame.

Lemma overwrite_twice : forall name s t l, overwrite name t (overwrite name s l) = overwrite name t l.
Proof.
  intros name s t l. induction l as [|[m u] r IH]; cbn [overwrite]; [reflexivity|]. destruct (String.eqb name m) eqn:E; cbn [overwrite]; rewrite E; [reflexivity|].
  rewrite IH. reflexivity.
Qed.
Lemma overwrite_there : forall name t l, assoc name l = Some t -> overwrite name t l = l.
Proof.
  intros name t l. induction l as [|[m u] r IH]; cbn [assoc overwrite]; [reflexivity|]. destruct (String.eqb name m); [intros E; injection E as ->; reflexivity|].
  intros E. rewrite (IH E). reflexivity.
Qed.
Lemma write_twice : forall place k name s t, write place (write place k name s) name t
  = mkDisk (k_dirs k) (overwrite name t (k_files (write place k name s))).
Proof.
  intros place k name s t. assert (A : content (write place k name s) name = Some s) by (rewrite content_write, String.eqb_refl; reflexivity).
  unfold write at 1. rewrite A. reflexivity.
Qed.
Lemma write_thrice : forall place k name s t u, write place (write place (write place k name s) name t) name u = write place (write place k name s) name u.
Proof.
  intros place k name s t u. rewrite (write_twice place (write place k name s)). cbn [k_dirs]. rewrite !write_twice. cbn [k_dirs k_files]. rewrite overwrite_twice. reflexivity.
Qed.
Lemma write_same : forall place k name s, write place (write place k name s) name s = write place k name s.
Proof.
  intros place k name s. rewrite write_twice, overwrite_there; [reflexivity|].
  pose proof (content_write place k name s name) as A. rewrite String.eqb_refl in A. exact A.
Qed.
(** Running generate again changes nothing, whatever source and destination are. *)
Theorem C66_again : forall x k a k' l o, (forall k1 k2 n, x_opens x k1 n = x_opens x k2 n) -> a_command a = CGenerate ->
  ddlctl x k a = (k', l, o) -> ddlctl x k' a = (k', l, o).
Proof.
  intros x k a k' l o S C H. unfold ddlctl in *. rewrite C in *. destruct (generate_on _ _ _ _ _ _) as [k1 o1] eqn:G. injection H as <- <- <-.
  replace (generate_on x (settings_of (config_of a)) (Config.cfg_dialect (config_of a)) (Config.cfg_language (config_of a)) k1 (a_args a)) with (k1, o1); [reflexivity|].
  unfold generate_on in *. destruct (a_args a) as [|src [|dst r]]; try (injection G as <- <-; reflexivity).
  assert (DD : forall k2 s, destination (write (x_place x) k2 (destination k dst) s) dst = destination k2 dst) by reflexivity.
  rewrite (S k1 k (destination k1 dst)). destruct (x_opens x k (destination k dst)) eqn:O.
  - remember (generate (settings_of (config_of a)) (x_look x) (x_short x) (x_gsrt x) (Config.cfg_dialect (config_of a)) (Config.cfg_language (config_of a))
       (input_of (x_gop x) (write (x_place x) k (destination k dst) "") src)) as g eqn:E.
    destruct g as [t| | |]; injection G as <- <-; rewrite ?DD, O.
    + rewrite write_thrice, write_same, <- E. rewrite !write_twice. cbn [k_dirs]. reflexivity.
    + rewrite write_same, <- E. reflexivity.
    + rewrite write_same, <- E. reflexivity.
    + rewrite write_same, <- E. reflexivity.
  - injection G as <- <-. rewrite O. reflexivity.
Qed.
Print Assumptions C66_again.

(** Files the walk through a directory leaves out *)
Definition no_source (n : string) : Prop := ends_with ".go" n = false \/ ends_with "_test.go" n = true.
Lemma tree_skips : forall cfg look short srt a n p b, no_source n ->
  parse_tree cfg look short srt (a ++ (n, p) :: b) = parse_tree cfg look short srt (a ++ b).
Proof.
  intros cfg look short srt a n p b N. induction a as [|[m q] r IH]; cbn [app parse_tree].
  - destruct N as [-> | ->]; [reflexivity|]. rewrite orb_true_r. reflexivity.
  - rewrite IH. reflexivity.
Qed.
Lemma tree_overwritten : forall cfg look short srt gop src n t l, no_source n ->
  parse_tree cfg look short srt (map (fun p => (fst p, gop (snd p))) (filter (fun p => below src (fst p)) (overwrite n t l)))
  = parse_tree cfg look short srt (map (fun p => (fst p, gop (snd p))) (filter (fun p => below src (fst p)) l)).
Proof.
  intros cfg look short srt gop src n t l N. induction l as [|[m u] r IH]; [reflexivity|]. cbn [overwrite]. destruct (String.eqb n m) eqn:E.
  - apply String.eqb_eq in E. subst m. cbn [filter fst]. destruct (below src n); [|reflexivity]. cbn [map fst snd].
    etransitivity; [exact (tree_skips cfg look short srt [] n _ _ N)|symmetry; exact (tree_skips cfg look short srt [] n _ _ N)].
  - cbn [filter fst]. destruct (below src m); [|exact IH]. cbn [map fst snd parse_tree]. rewrite IH. reflexivity.
Qed.
(** If the destination is no source, it receives what the sources as they were describe. *)
Theorem C66_text_partial : forall x k a k' l o src dst r, ddlctl x k a = (k', l, o) -> a_command a = CGenerate -> a_args a = src :: dst :: r ->
  destination k dst <> src -> (is_dir k src = true -> no_source (destination k dst)) ->
  let tags := mkSettings (text (chosen a "go-column-tag" "DDLCTL_GO_COLUMN_TAG" (VString "db"))) (text (chosen a "go-ddl-tag" "DDLCTL_GO_DDL_TAG" (VString "ddlctl")))
    (text (chosen a "go-pk-tag" "DDLCTL_GO_PK_TAG" (VString "pk"))) in
  let generated := generate tags (x_look x) (x_short x) (x_gsrt x)
    (text (chosen a "dialect" "DDLCTL_DIALECT" (VString ""))) (text (chosen a "lang" "DDLCTL_LANGUAGE" (VString "go"))) (input_of (x_gop x) k src) in
  (exit_code o = 0 -> exists t, generated = Ok t /\ content k' (destination k dst) = Some t)
  /\ (forall t, generated = Ok t -> x_opens x k (destination k dst) = true -> exit_code o = 0).
Proof.
  intros x k a k' l o src dst r H C A N S tags generated. unfold ddlctl in H. rewrite C in H. pose proof (proj1 (C65_configuration a) (or_introl C)) as E.
  destruct (generate_on _ _ _ _ _ _) as [k1 o1] eqn:G. injection H as <- <- <-. unfold generate_on in G. rewrite A in G.
  set (name := destination k dst) in *.
  assert (I : generate (settings_of (config_of a)) (x_look x) (x_short x) (x_gsrt x) (Config.cfg_dialect (config_of a)) (Config.cfg_language (config_of a))
       (input_of (x_gop x) (write (x_place x) k name "") src) = generated).
  { unfold generated. pose proof (f_equal Config.cfg_dialect E) as E1. pose proof (f_equal Config.cfg_language E) as E2. cbn [Config.cfg_dialect Config.cfg_language] in E1, E2. rewrite E1, E2.
    assert (T : settings_of (config_of a) = tags) by (rewrite E; reflexivity). rewrite T. clear T E E1 E2.
    unfold generate. destruct (String.eqb _ "go"); [|reflexivity]. f_equal. unfold input_of. change (is_dir (write (x_place x) k name "") src) with (is_dir k src).
    destruct (is_dir k src) eqn:D.
    - specialize (S eq_refl). cbn [parse_input]. unfold write, content. destruct (assoc name (k_files k)) as [u|]; cbn [k_files].
      + apply tree_overwritten. exact S.
      + replace (filter (fun p => below src (fst p)) (k_files k)) with (filter (fun p => below src (fst p)) (firstn (x_place x (k_files k) name) (k_files k) ++ skipn (x_place x (k_files k) name) (k_files k)))
          by (rewrite firstn_skipn; reflexivity).
        rewrite !filter_app. cbn [filter fst]. destruct (below src name); [|reflexivity].
        rewrite !map_app. cbn [map fst snd]. rewrite (tree_skips _ _ _ _ _ _ _ _ S). reflexivity.
    - rewrite content_write. destruct (String.eqb src name) eqn:F; [|reflexivity]. apply String.eqb_eq in F. exfalso. apply N. exact (eq_sym F). }
  rewrite I in G. destruct (x_opens x k name) eqn:O.
  - destruct generated as [t| | |]; injection G as <- <-; split; intros X; try discriminate X.
    + exists t. split; [reflexivity|]. rewrite content_write, String.eqb_refl. reflexivity.
    + intros _ _. reflexivity.
    + intros Y. discriminate Y.
    + intros Y. discriminate Y.
    + intros Y. discriminate Y.
  - injection G as <- <-. split; [intros X; discriminate X|]. intros t _ X. discriminate X.
Qed.
Print Assumptions C66_text_partial.

Definition demo_generate (src dst : string) : call := mkCall CGenerate (flag "dialect" (VString "postgres") unset) unset [src; dst].
Definition demo_text : string :=
  unlines_example ["-- Code generated by ddlctl. DO NOT EDIT."; "--"; ""; "-- source: /src/a.go:3"; "-- ddlctl: table: a"; "CREATE TABLE a ("; "    ""id"" TEXT"; ");"].
(** What is read: the file named, or the files below the directory named, and no other. *)
Definition inside (dir name : string) : Prop := exists r, name = (dir ++ "/" ++ r)%string.
Lemma prefix_inside : forall a b, String.prefix a b = true <-> exists r, b = (a ++ r)%string.
Proof.
  induction a as [|x a IH]; intros b; cbn [String.prefix String.append].
  - split; [intros _; exists b; reflexivity|destruct b; reflexivity].
  - destruct b as [|y b]; [split; [intros E; discriminate E|intros [r E]; discriminate E]|].
    cbn [String.prefix]. destruct (Ascii.ascii_dec x y) as [->|N].
    + split.
      * intros P. apply IH in P. destruct P as [r E]. exists r. rewrite E. reflexivity.
      * intros [r E]. apply IH. exists r. injection E as E. exact E.
    + split; [intros E; discriminate E|intros [r E]; injection E as E _; exfalso; apply N; exact (eq_sym E)].
Qed.
Lemma below_inside : forall dir name, below dir name = true <-> inside dir name.
Proof.
  intros dir name. unfold below, inside. rewrite prefix_inside.
  assert (A : forall r, ((dir ++ "/") ++ r = dir ++ "/" ++ r)%string).
  { intros r. induction dir as [|x d IH]; [reflexivity|]. cbn [String.append]. f_equal. exact IH. }
  split; intros [r E]; exists r; rewrite E; [|symmetry]; apply A.
Qed.
Theorem C66_reads_only : forall gop k src a n t b, k_files k = a ++ (n, t) :: b -> n <> src -> ~ inside src n ->
  input_of gop k src = input_of gop (mkDisk (k_dirs k) (a ++ b)) src
  /\ entry_of gop k src = entry_of gop (mkDisk (k_dirs k) (a ++ b)) src.
Proof.
  intros gop k src a n t b E N O.
  assert (B : below src n = false) by (destruct (below src n) eqn:X; [exfalso; apply O, below_inside; exact X|reflexivity]).
  assert (F : filter (fun p => below src (fst p)) (k_files k) = filter (fun p => below src (fst p)) (a ++ b)).
  { rewrite E, !filter_app. cbn [filter fst]. rewrite B. reflexivity. }
  assert (C : content k src = content (mkDisk (k_dirs k) (a ++ b)) src).
  { unfold content. cbn [k_files]. rewrite E, !assoc_app. cbn [assoc]. destruct (String.eqb src n) eqn:X; [apply String.eqb_eq in X; congruence|]. reflexivity. }
  unfold input_of, entry_of. cbn [k_files]. rewrite F, C. split; reflexivity.
Qed.
Print Assumptions C66_reads_only.
Theorem C66_reads_all : forall gop k src n t, is_dir k src = true -> In (n, t) (k_files k) -> inside src n ->
  exists files, input_of gop k src = Tree files /\ entry_of gop k src = ADirectory files /\ In (n, gop t) files.
Proof.
  intros gop k src n t D I B. unfold input_of, entry_of. rewrite D. eexists. split; [reflexivity|]. split; [reflexivity|].
  apply in_map_iff. exists (n, t). split; [reflexivity|]. apply filter_In. split; [exact I|]. apply below_inside. exact B.
Qed.
Print Assumptions C66_reads_all.
(** A neighbour whose name only begins like the directory is not read. *)
Example C66_reads_example :
  let k := mkDisk ["/src"; "/src2"] [("/src/a.go", "go"); ("/src2/b.go", "bad")] in
  inside "/src" "/src/a.go" /\ ~ inside "/src" "/src2/b.go"
  /\ content (fst (fst (ddlctl (demo_outside "") k (demo_generate "/src" "/o.sql")))) "/o.sql" = Some demo_text.
Proof.
  cbv zeta. split; [exists "a.go"; reflexivity|]. split; [intros [r E]; discriminate E|]. vm_compute. reflexivity.
Qed.
(** Into the directory of the sources, and twice *)
Example C66_example :
  let r := ddlctl (demo_outside "") demo_disk (demo_generate "/src" "/src") in
  content (fst (fst r)) "/src/ddlctl.gen.sql" = Some demo_text /\ exit_code (snd r) = 0
  /\ content (fst (fst r)) "/src/a.go" = Some "go" /\ ddlctl (demo_outside "") (fst (fst r)) (demo_generate "/src" "/src") = r.
Proof. vm_compute. repeat split. Qed.
(** The destination may be the source: then the source is lost. *)
Theorem C66_source_lost_refuted : exists x k a, a_command a = CGenerate /\ (exists n t k', content k n = Some t /\ t <> ""
  /\ input_of (x_gop x) k n <> Missing /\ In n (a_args a) /\ ddlctl x k a = (k', [], Failed) /\ content k' n = Some "").
Proof.
  exists (demo_outside ""), demo_disk, (demo_generate "/src/a.go" "/src/a.go"). split; [reflexivity|]. exists "/src/a.go", "go". eexists.
  split; [reflexivity|]. split; [discriminate|]. split; [discriminate|]. split; [left; reflexivity|]. split; [vm_compute; reflexivity|reflexivity].
Qed.
Print Assumptions C66_source_lost_refuted.
(** Also if it is one of the files in a directory of sources. *)
Theorem C66_source_in_directory_lost_refuted : exists x k a k', a_args a = ["/src"; "/src/a.go"] /\ is_dir k "/src" = true /\ content k "/src/a.go" = Some "go"
  /\ ddlctl x k a = (k', [], Failed) /\ content k' "/src/a.go" = Some "".
Proof.
  exists (demo_outside ""), demo_disk, (demo_generate "/src" "/src/a.go"). eexists. do 3 (split; [reflexivity|]). split; [vm_compute; reflexivity|reflexivity].
Qed.
Print Assumptions C66_source_in_directory_lost_refuted.
