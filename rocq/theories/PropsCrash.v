(** C67, C02: when diff and apply crash.  A crash of diff or apply is a panic of the parser on one of
    the two texts; comparing two accepted texts does not crash (PostgreSQL, CockroachDB, MySQL). *)
From Verif Require Import GoStr Token Lexer LexSpec Ast Parser Diff Apply ApplySpec ApplyFacts AppendFacts ParserSafe ParserSafe PropsParse PropsDiff PropsApply PropsAnswer.
Local Open Scope list_scope.

(** One of the two texts makes the parser panic (the second is read if the first is accepted). *)
Definition parser_panics (w : world) (src dst : string) : Prop :=
  exists d s1 s2, dialect_of (w_dialect w) = Some d /\ w_resolve w src = Some s1 /\ w_resolve w dst = Some s2
    /\ (parse d (w_srt w) s1 = Panic \/ (exists b, parse d (w_srt w) s1 = Ok b) /\ parse d (w_srt w) s2 = Panic).
Lemma parse_ends : forall d srt s, parse d srt s <> OutOfFuel.
Proof. intros d srt s H. destruct (C01_parsing_terminates d srt s) as [_ [_ [_ [[l E]|[E|E]]]]]; congruence. Qed.
Lemma crashed_text : forall w src dst, dialect_of (w_dialect w) <> Some Sp -> srt_ok (w_srt w) -> (diff_text w src dst = DiffCrashed <-> parser_panics w src dst).
Proof.
  intros w src dst Nd Hs. unfold diff_text. split.
  - intro H. destruct (w_resolve w src) as [s1|] eqn:R1; [|discriminate H]. destruct (w_resolve w dst) as [s2|] eqn:R2; [|discriminate H].
    destruct (dialect_of (w_dialect w)) as [d|] eqn:D; [|discriminate H]. assert (d <> Sp) as N by congruence. exists d, s1, s2. split; [exact D|]. split; [exact R1|]. split; [exact R2|].
    destruct (parse d (w_srt w) s1) as [b| | |] eqn:P1; [right|discriminate H|left; reflexivity|exfalso; exact (parse_ends _ _ _ P1)]. split; [exists b; reflexivity|].
    destruct (parse d (w_srt w) s2) as [a| | |] eqn:P2; [exfalso|discriminate H|reflexivity|exfalso; exact (parse_ends _ _ _ P2)].
    destruct (C89_any_two_texts d (w_srt w) (w_sdiff w) s1 s2 b a N Hs P1 P2) as [[stmts [E _]]|[E _]]; rewrite E in H; discriminate H.
  - intros (d & s1 & s2 & D & R1 & R2 & H). rewrite D, R1, R2. destruct H as [H|[[b H] P]]; rewrite H; [reflexivity|]. rewrite P. reflexivity.
Qed.

Theorem C67_a_crash_is_the_parsers : forall w args, dialect_of (w_dialect w) <> Some Sp -> srt_ok (w_srt w) ->
  (snd (diff_command w args) = Crashed <-> w_load w = true /\ exists src dst, args = [src; dst] /\ parser_panics w src dst)
  /\ (snd (apply_command w args) = Crashed <-> w_load w = true /\ exists dsn src, args = [dsn; src] /\ parser_panics w dsn src).
Proof.
  intros w args Nd Hs.
  unfold diff_command, apply_command. destruct (w_load w); cbn [negb]; [|split; (split; [discriminate|intros [X _]; discriminate X])].
  destruct args as [|src [|dst [|z args]]]; try (split; (split; [discriminate|intros [_ [? [? [X _]]]]; discriminate X])).
  pose proof (crashed_text w src dst Nd Hs) as C.
  assert (Y : (exists x y, [src; dst] = [x; y] /\ parser_panics w x y) <-> parser_panics w src dst).
  { split; [intros [x [y [E H]]]; injection E as <- <-; exact H|]. intro H. exists src, dst. split; [reflexivity|exact H]. }
  rewrite Y, <- C. destruct (diff_text w src dst) as [s| | |] eqn:T; cbn [snd].
  - split; (split; [|intros [_ X]; discriminate X]).
    + destruct (w_out w [] s); discriminate.
    + destruct (negb (w_out w [] (message s))); [discriminate|]. cbv zeta. match goal with |- context [if negb (snd ?a) then _ else _] => destruct (negb (snd a)) end; [discriminate|].
      match goal with |- context [apply w src s ?t] => destruct (apply w src s t) as [evs ok] end. destruct ok; discriminate.
  - split; (split; [discriminate|intros [_ X]; discriminate X]).
  - split; (split; [discriminate|intros [_ X]; discriminate X]).
  - split; (split; [intros _; split; reflexivity|reflexivity]).
Qed.
Print Assumptions C67_a_crash_is_the_parsers.

(** With the conditions under which parsing does not panic (C02): no crash. *)
Corollary C02_commands_do_not_crash_partial : forall w src dst d, dialect_of (w_dialect w) = Some d -> d <> Sp -> srt_ok (w_srt w) ->
  (forall x s, x = src \/ x = dst -> w_resolve w x = Some s -> no_nul s = true /\ (forall q, mode d Outside s <> InQuote q) /\ has_pair (default_type d) (lex d s) = false) ->
  snd (diff_command w [src; dst]) <> Crashed /\ snd (apply_command w [src; dst]) <> Crashed.
Proof.
  intros w src dst d D N Hs H.
  assert (K : ~ parser_panics w src dst).
  { intros (d' & s1 & s2 & D' & R1 & R2 & P). rewrite D in D'. injection D' as <-.
    assert (U : forall s, has_pair (unnamed_check d) (lex d s) = false).
    { intro s. assert (Z : forall a b, unnamed_check d a b = false) by (intros a b; destruct d; try reflexivity; contradiction N; reflexivity). generalize (lex d s). clear - Z. intro l.
      induction l as [|a l IH]; [reflexivity|]. destruct l as [|b l]; [reflexivity|]. cbn [has_pair] in *. rewrite Z. exact IH. }
    destruct P as [P|[_ P]].
    - destruct (H src s1 (or_introl eq_refl) R1) as [H1 [H2 H3]]. exact (C02_parsing_never_panics_partial d (w_srt w) s1 Hs H1 H2 H3 (U s1) P).
    - destruct (H dst s2 (or_intror eq_refl) R2) as [H1 [H2 H3]]. exact (C02_parsing_never_panics_partial d (w_srt w) s2 Hs H1 H2 H3 (U s2) P). }
  destruct (C67_a_crash_is_the_parsers w [src; dst]) as [A B]; [congruence|exact Hs|].
  split; intro C; [apply A in C|apply B in C]; destruct C as [_ [x [y [E P]]]]; injection E as <- <-; exact (K P).
Qed.
Print Assumptions C02_commands_do_not_crash_partial.

Definition told (name b a : string) : world :=
  mkWorld true true name (fun x => if String.eqb x "db" then Some b else if String.eqb x "new" then Some a else None) (fun _ _ => true) "" (fun _ => true) (fun _ => true)
    (fun _ _ => None) (fun _ => true) id_srt (fun _ _ => ""%string).
(** An unfinished literal behind an accepted text crashes the command. *)
Example C67_crash_example : snd (diff_command (told "postgres" "CREATE TABLE t (a INT);" "CREATE TABLE t (a INT DEFAULT 'x);") ["db"; "new"]%string) = Crashed
  /\ snd (diff_command (told "postgres" "CREATE TABLE t (a INT);" "CREATE TABLE t (a INT DEFAULT 'x');") ["db"; "new"]%string) = Done
  /\ snd (diff_command (told "postgres" "CREATE TABLE t (a INT);" "CREATE TABLE t (a INT") ["db"; "new"]%string) = Failed.
Proof. repeat split; vm_compute; reflexivity. Qed.
(** Spanner: two accepted texts, and the comparison crashes (a CHECK without a name). *)
Theorem C67_spanner_comparison_refuted : exists s1 s2 b a, parse Sp id_srt s1 = Ok b /\ parse Sp id_srt s2 = Ok a
  /\ snd (diff_command (told "spanner" s1 s2) ["db"; "new"]%string) = Crashed /\ snd (apply_command (told "spanner" s1 s2) ["db"; "new"]%string) = Crashed.
Proof.
  exists "CREATE TABLE t (id INT64) PRIMARY KEY (id)"%string, "CREATE TABLE t (id INT64, CHECK (id > 0)) PRIMARY KEY (id)"%string.
  do 2 eexists. split; [vm_compute; reflexivity|]. split; [vm_compute; reflexivity|]. split; vm_compute; reflexivity.
Qed.
Print Assumptions C67_spanner_comparison_refuted.
