(** Properties of tokenising and parsing: C01 - C07, C10. *)
From Coq Require Import Lia.
From Verif Require Import GoStr Token Lexer Ast Parser Diff.
From Verif Require Import LexerFacts LexSpec LexLayout LexKeyword LexPanic CaseSpec AppendFacts.
From Verif Require Import ParserTotal ParserCase ParserSafe ParserConcat.

Definition id_srt (cs : list constraint) : list constraint := cs.
Lemma id_srt_ok : srt_ok id_srt.
Proof. intro l. apply Permutation.Permutation_refl. Qed.

(** * C01: parsing terminates *)

Lemma lex_count : forall d s, List.length (lex d s) <= String.length s.
Proof.
  intros d s. remember (String.length s) as n eqn:En. revert s En. induction n as [n IH] using lt_wf_ind. intros s En. subst n.
  rewrite lex_eq. pose proof (trim_length s) as L. destruct (trim s) as [|c r]; [cbn; lia|]. cbn [String.length] in L.
  destruct (scan d (String c r)) as [t rest|] eqn:E; [|cbn; lia]. pose proof (scan_length _ _ _ _ _ E) as L2. cbn [List.length].
  specialize (IH (String.length rest) ltac:(lia) rest eq_refl). lia.
Qed.
Lemma lex_more : forall d s f, String.length s < f -> lex_fuel f d s = lex d s.
Proof. intros d s f H. unfold lex. apply lex_fuel_more; lia. Qed.

(** Tokenising needs at most one step per byte; the loops of the parser, each allowed one
    more iteration than there are tokens left, never run out of iterations. *)
Theorem C01_parsing_terminates : forall d srt s,
  List.length (lex d s) <= String.length s
  /\ (forall steps, String.length s < steps -> lex_fuel steps d s = lex d s)
  /\ (forall iterations acc ts, List.length ts < iterations -> parse_loop d srt iterations acc ts <> OutOfFuel)
  /\ ((exists l, parse d srt s = Ok l) \/ parse d srt s = Err \/ parse d srt s = Panic).
Proof.
  intros d srt s. refine (conj (lex_count d s) (conj (lex_more d s) (conj _ _))).
  - intros f acc ts L E. pose proof (parse_loop_ends d srt f acc ts L) as K. rewrite E in K. exact K.
  - pose proof (parse_ends d srt s) as H. destruct (parse d srt s) as [l| | |]; [eauto|auto|auto|contradiction].
Qed.
Print Assumptions C01_parsing_terminates.

Example C01_example_endless_paren : forall d, parse d id_srt "CREATE TABLE t ((((((((" = Err.
Proof. intros []; reflexivity. Qed.

(** * C02: no panic *)

(** Missing for the full property: texts that end inside a quoted literal, texts in which
    (postgres, cockroachdb) DEFAULT, AS, STORED or VIRTUAL is directly followed by the name of
    a data type, and (spanner) texts with a CHECK constraint without a name.  For these the
    parser does panic, see the refutations below. *)
Theorem C02_parsing_never_panics_partial : forall d srt s, srt_ok srt -> no_nul s = true ->
  (forall q, mode d Outside s <> InQuote q) ->
  has_pair (default_type d) (lex d s) = false -> has_pair (unnamed_check d) (lex d s) = false ->
  parse d srt s <> Panic.
Proof.
  intros d srt s Hsrt Hz Hm H1 H2 E. unfold parse in E.
  assert (K : SI d true (lex d s)).
  { intros _. unfold clean. rewrite H1, H2. cbn [negb]. rewrite !andb_true_r. exact (lex_no_boom d s Hz Hm). }
  pose proof (parse_tokens_post d srt Hsrt true (lex d s) K) as P. rewrite E in P. discriminate P.
Qed.
Print Assumptions C02_parsing_never_panics_partial.

Example C02_example : 
  let s := ("CREATE TABLE users (id UUID NOT NULL DEFAULT gen_random_uuid(), name TEXT DEFAULT 'it''s' -- it's" ++ nl ++
            ", CONSTRAINT p PRIMARY KEY (id));")%string in
  no_nul s = true /\ (forall q, mode Pg Outside s <> InQuote q) /\ has_pair (default_type Pg) (lex Pg s) = false
  /\ has_pair (unnamed_check Pg) (lex Pg s) = false /\ exists l, parse Pg id_srt s = Ok l.
Proof. vm_compute. repeat split; [discriminate|]. eexists. reflexivity. Qed.

(** An unterminated quoted literal crashes the parser of every dialect. *)
Theorem C02_parsing_never_panics_refuted : forall d srt, exists s, parse d srt s = Panic.
Proof. intros d srt. exists "CREATE TABLE 'users (id"%string. destruct d; reflexivity. Qed.
Print Assumptions C02_parsing_never_panics_refuted.
(** [DEFAULT TEXT 'x'] crashes the postgres and cockroachdb parsers. *)
Theorem C02_default_type_refuted : forall srt,
  parse Pg srt "CREATE TABLE users (name TEXT DEFAULT TEXT 'x')" = Panic
  /\ parse Crdb srt "CREATE TABLE users (name STRING DEFAULT STRING 'x')" = Panic.
Proof. intro srt. split; reflexivity. Qed.
Print Assumptions C02_default_type_refuted.
(** Two CHECK constraints without names crash the spanner parser. *)
Theorem C02_unnamed_check_refuted : forall srt,
  parse Sp srt "CREATE TABLE t (id INT64, CHECK (id > 0), CHECK (id < 9)) PRIMARY KEY (id)" = Panic.
Proof. intro srt. reflexivity. Qed.
Print Assumptions C02_unnamed_check_refuted.

(** * C03: layout *)

Theorem C03_layout_between_tokens : forall d srt a g1 g2 c,
  no_nul a = true -> outside d a -> gap g1 -> gap g2 -> separates a g1 -> separates a g2 ->
  parse d srt (a ++ g1 ++ c) = parse d srt (a ++ g2 ++ c).
Proof.
  intros d srt a g1 g2 c Hz Ho G1 G2 S1 S2. unfold parse. rewrite !lex_gap_between by assumption. reflexivity.
Qed.
Print Assumptions C03_layout_between_tokens.
Theorem C03_layout_at_start : forall d srt g s, gap g -> parse d srt (g ++ s) = parse d srt s.
Proof. intros d srt g s G. unfold parse. rewrite lex_gap_start by exact G. reflexivity. Qed.
Print Assumptions C03_layout_at_start.
Theorem C03_layout_at_end : forall d srt a g, no_nul a = true -> outside d a -> tail_gap g ->
  (last_byte a <> Some "-"%char \/ first_byte g <> Some "-"%char) -> parse d srt (a ++ g) = parse d srt a.
Proof. intros d srt a g Hz Ho G S. unfold parse. rewrite lex_gap_end by assumption. reflexivity. Qed.
Print Assumptions C03_layout_at_end.

Example C03_example_gap : gap ("  " ++ "-- a comment; it's 'odd" ++ nl ++ "	" ++ nl).
Proof.
  cbn. apply gap_blank; [reflexivity|]. apply gap_blank; [reflexivity|].
  apply (gap_comment " a comment; it's 'odd" ("	" ++ nl)); [reflexivity|]. apply gap_blank; [reflexivity|].
  apply gap_blank; [reflexivity|]. apply gap_nil.
Qed.
Example C03_example : exists l,
  parse Pg id_srt ("CREATE TABLE" ++ (" -- it's" ++ nl) ++ "t (id UUID);") = Ok l /\ l <> [] /\
  parse Pg id_srt ("CREATE TABLE" ++ " " ++ "t (id UUID);") = Ok l.
Proof. eexists. split; [vm_compute; reflexivity|]. split; [discriminate|vm_compute; reflexivity]. Qed.

(** * C04: letter case of keywords *)

(** Outcomes agree: both accept (with schemas that differ at most in the case of the kept
    keywords, see CaseSpec), both reject or both crash. *)
Definition same_outcome (r r' : res ddl) : Prop :=
  match r, r' with
  | Ok l, Ok l' => map up_stmt l = map up_stmt l'
  | Err, Err | Panic, Panic | OutOfFuel, OutOfFuel => True
  | _, _ => False
  end.
Theorem C04_keywords_case_insensitive : forall d srt s s',
  (forall l l', map up_constraint l = map up_constraint l' -> map up_constraint (srt l) = map up_constraint (srt l')) ->
  recased d s s' ->
  map tk_type (lex d s) = map tk_type (lex d s') /\ same_outcome (parse d srt s) (parse d srt s').
Proof.
  intros d srt s s' Hs H. pose proof (recased_tokens d s s' H) as F. split.
  - clear H. induction F as [|t t' l l' Ht F IH]; [reflexivity|]. cbn. f_equal; [apply Ht|exact IH].
  - exact (parse_tokens_case d srt Hs (lex d s) (lex d s') F).
Qed.
Print Assumptions C04_keywords_case_insensitive.

Example C04_example :
  recased Pg "create table t (id uuid NOT null)" "CREATE TABLE t (id UUID NOT NULL)"
  /\ exists l, parse Pg id_srt "create table t (id uuid NOT null)" = Ok l /\ l <> [].
Proof.
  assert (SL : forall a b, Ascii.eqb (upper_byte a) (upper_byte b) = true -> word_byte a = true -> word_byte b = true ->
     (N_of_ascii a = (N_of_ascii b + 32)%N /\ (65 <= N_of_ascii b <= 90)%N \/
             N_of_ascii b = (N_of_ascii a + 32)%N /\ (65 <= N_of_ascii a <= 90)%N) -> same_letter a b) by (intros; right; auto).
  split.
  - apply (rc_word Pg "" "create" "CREATE" " table t (id uuid NOT null)" " TABLE t (id UUID NOT NULL)"); try reflexivity.
    { exists "CREATE"%string. split; [cbn; tauto|]. repeat split; apply SL; try reflexivity; left; split; try reflexivity; split; discriminate. }
    { repeat split; apply SL; try reflexivity; left; split; try reflexivity; split; discriminate. }
    apply (rc_word Pg " " "table" "TABLE" " t (id uuid NOT null)" " t (id UUID NOT NULL)"); try reflexivity.
    { exists "TABLE"%string. split; [cbn; tauto|]. repeat split; apply SL; try reflexivity; left; split; try reflexivity; split; discriminate. }
    { repeat split; apply SL; try reflexivity; left; split; try reflexivity; split; discriminate. }
    apply (rc_word Pg " t (id " "uuid" "UUID" " NOT null)" " NOT NULL)"); try reflexivity.
    { exists "UUID"%string. split; [cbn; tauto|]. repeat split; apply SL; try reflexivity; left; split; try reflexivity; split; discriminate. }
    { repeat split; apply SL; try reflexivity; left; split; try reflexivity; split; discriminate. }
    apply (rc_word Pg " NOT " "null" "NULL" ")" ")"); try reflexivity.
    { exists "NULL"%string. split; [cbn; tauto|]. repeat split; apply SL; try reflexivity; left; split; try reflexivity; split; discriminate. }
    { repeat split; apply SL; try reflexivity; left; split; try reflexivity; split; discriminate. }
    apply rc_same.
  - eexists. split; [vm_compute; reflexivity|discriminate].
Qed.

(** * C05: tokenising loses nothing *)

Theorem C05_tokenising_loses_nothing : forall d s, no_nul s = true -> (forall q, mode d Outside s <> InQuote q) ->
  tiles s (lex d s).
Proof.
  intros d s Hz Hm. apply lex_tiles; [exact Hz|]. intro H. pose proof (lex_no_boom d s Hz Hm) as K. rewrite forallb_forall in K.
  specialize (K _ H). discriminate K.
Qed.
Print Assumptions C05_tokenising_loses_nothing.
Example C05_example : tiles ("a  -- c" ++ nl ++ " 'b--' <=") (lex Pg ("a  -- c" ++ nl ++ " 'b--' <="))
  /\ map tk_lit (lex Pg ("a  -- c" ++ nl ++ " 'b--' <=")) = ["a"; "'b--'"; "<"; "="].
Proof. split; [|vm_compute; reflexivity]. apply C05_tokenising_loses_nothing; [reflexivity|]. intros q. vm_compute. discriminate. Qed.

(** A NUL byte outside quotes yields an EOF token: everything behind it is never parsed. *)
Theorem C05_nul_refuted : exists s, forall d srt,
  no_nul s = false /\ parse d srt s = Ok [] /\ parse d srt (substring 1 (String.length s - 1) s) <> Ok [].
Proof. exists (String ch_nul "CREATE TABLE t ("). intros d srt. destruct d; vm_compute; repeat split; discriminate. Qed.
Print Assumptions C05_nul_refuted.

(** * C06: only CREATE TABLE and CREATE INDEX *)

Definition only_creates (l : ddl) : Prop :=
  forall s, In s l -> (exists t, s = CreateTable t) \/ (exists i, s = CreateIndex i).

Lemma parse_only_creates : forall d srt s l, srt_ok srt -> parse d srt s = Ok l -> only_creates l.
Proof.
  intros d srt s l Hsrt E. unfold parse in E.
  assert (K : SI d false (lex d s)) by (intro F; discriminate F).
  pose proof (parse_tokens_post d srt Hsrt false (lex d s) K) as P. rewrite E in P. cbn in P. rewrite Forall_forall in P.
  intros x Hx. specialize (P x Hx). destruct x; cbn in P; try contradiction; eauto.
Qed.
Lemma map_opt_drop : forall l, only_creates l -> map_opt drop_stmt l <> None.
Proof.
  induction l as [|s l IH]; intros H; [discriminate|]. cbn. assert (H' : only_creates l) by (intros x Hx; apply H; right; exact Hx).
  specialize (IH H'). destruct (map_opt drop_stmt l); [|congruence]. destruct (H s (or_introl eq_refl)) as [[t E]|[i E]]; subst; discriminate.
Qed.
Lemma map_opt_create : forall l, only_creates l -> map_opt create_stmt l <> None.
Proof.
  induction l as [|s l IH]; intros H; [discriminate|]. cbn. assert (H' : only_creates l) by (intros x Hx; apply H; right; exact Hx).
  specialize (IH H'). destruct (map_opt create_stmt l); [|congruence]. destruct (H s (or_introl eq_refl)) as [[t E]|[i E]]; subst; discriminate.
Qed.
Lemma only_creates_filter : forall f l, only_creates l -> only_creates (filter f l).
Proof. intros f l H s Hs. apply filter_In in Hs. apply H. apply Hs. Qed.
Lemma diff_supported : forall d srt sdiff b a, only_creates b -> only_creates a -> diff d srt sdiff (Some b) (Some a) <> DNotSupported.
Proof.
  intros d srt sdiff b a Hb Ha. cbn. unfold diff_ddl. destruct (eqs _ _); [discriminate|].
  pose proof (map_opt_drop _ (only_creates_filter (fun s => match find_stmt s a with None => true | Some _ => false end) b Hb)) as D.
  fold (only_left_stmts b a) in D. destruct (map_opt drop_stmt (only_left_stmts b a)) as [drops|]; [|congruence].
  pose proof (map_opt_create _ (only_creates_filter (fun s => match find_stmt s b with None => true | Some _ => false end) a Ha)) as C.
  fold (only_left_stmts a b) in C. destruct (map_opt create_stmt (only_left_stmts a b)) as [creates|]; [|congruence].
  destruct (diff_stmts d srt sdiff b a) as [ch| | |]; try discriminate. destruct (drops ++ creates ++ ch)%list; discriminate.
Qed.
Theorem C06_only_creates : forall d srt sdiff s1 s2 l1 l2, srt_ok srt ->
  parse d srt s1 = Ok l1 -> parse d srt s2 = Ok l2 ->
  only_creates l1 /\ diff d srt sdiff (Some l1) (Some l2) <> DNotSupported
  /\ diff d srt sdiff (Some l1) None <> DNotSupported /\ diff d srt sdiff None (Some l1) <> DNotSupported.
Proof.
  intros d srt sdiff s1 s2 l1 l2 Hs E1 E2. pose proof (parse_only_creates _ _ _ _ Hs E1) as H1. pose proof (parse_only_creates _ _ _ _ Hs E2) as H2.
  split; [exact H1|]. split; [apply diff_supported; assumption|]. split; [|discriminate].
  cbn. pose proof (map_opt_drop _ H1) as D. destruct (map_opt drop_stmt l1); [discriminate|congruence].
Qed.
Print Assumptions C06_only_creates.
Example C06_example : exists l1 l2 l,
  parse Pg id_srt "CREATE TABLE t (id UUID); CREATE INDEX i ON t (id);" = Ok l1
   /\ parse Pg id_srt "CREATE TABLE t (id TEXT); CREATE INDEX j ON t (id);" = Ok l2
   /\ diff Pg id_srt (fun _ _ => "") (Some l1) (Some l2) = DOk l /\ List.length l = 3.
Proof. do 3 eexists. vm_compute. repeat split; reflexivity. Qed.

(** * C07: constraint names *)

Definition uniquely_named (cs : list constraint) : Prop :=
  (forall c, In c cs -> exists n, con_name c = Some n)
  /\ NoDup (map (fun c => option_map id_name (con_name c)) cs).
Lemma uniquely_named_of : forall cs, forallb named cs = true -> NoDup (map con_key cs) -> uniquely_named cs.
Proof.
  induction cs as [|c cs IH]; intros H N; [split; [intros c []|constructor]|]. cbn in H, N. apply andb_true_iff in H. destruct H as [Hc H].
  inversion N as [|? ? N1 N2]; subst. destruct (IH H N2) as [I1 I2]. unfold named in Hc. destruct (con_name c) as [n|] eqn:En; [|discriminate].
  split.
  - intros x [Hx|Hx]; [subst; eauto|apply I1; exact Hx].
  - cbn. rewrite En. cbn. constructor; [|exact I2]. intro F. apply N1. apply in_map_iff in F. destruct F as [x [Ex Hx]].
    apply in_map_iff. exists x. split; [|exact Hx]. destruct (con_name x) as [m|] eqn:Em; [|discriminate]. cbn in Ex. inversion Ex as [E1].
    unfold con_key, con_ident. rewrite En, Em. exact E1.
Qed.
(** For spanner: if no CHECK constraint without a name is written. *)
Theorem C07_constraints_uniquely_named_partial : forall d srt s l t, srt_ok srt ->
  parse d srt s = Ok l -> In (CreateTable t) l ->
  (d = Sp -> no_nul s = true /\ (forall q, mode d Outside s <> InQuote q) /\ has_pair (unnamed_check d) (lex d s) = false) ->
  uniquely_named (ct_constraints t).
Proof.
  intros d srt s l t Hsrt E Ht Hsp. unfold parse in E.
  assert (K : exists strict, SI d strict (lex d s) /\ namedok d strict).
  { destruct d; try (exists false; split; [intro F; discriminate F|right; discriminate]).
    exists true. split; [|left; reflexivity]. destruct (Hsp eq_refl) as [Hz [Hm Hp]]. intros _. unfold clean. rewrite Hp.
    rewrite (lex_no_boom Sp s Hz Hm : no_boom (lex Sp s) = true). cbn [negb andb].
    replace (has_pair (default_type Sp) (lex Sp s)) with false; [reflexivity|]. symmetry. generalize (lex Sp s). clear. intro r.
    induction r as [|a r IH]; [reflexivity|]. destruct r; [reflexivity|exact IH]. }
  destruct K as [strict [K1 K2]]. pose proof (parse_tokens_post d srt Hsrt strict (lex d s) K1) as P. rewrite E in P. cbn in P.
  rewrite Forall_forall in P. specialize (P _ Ht). cbn in P. destruct (P K2) as [P1 P2]. apply uniquely_named_of; assumption.
Qed.
Print Assumptions C07_constraints_uniquely_named_partial.
Example C07_example : exists t, 
  parse Pg id_srt "CREATE TABLE t (id UUID PRIMARY KEY UNIQUE, o UUID, UNIQUE (id, o), FOREIGN KEY (o) REFERENCES o (id))" = Ok [CreateTable t]
  /\ List.length (ct_constraints t) = 4.
Proof. eexists. vm_compute. split; reflexivity. Qed.
(** A spanner CHECK without a name gives a constraint without a name. *)
Theorem C07_constraints_uniquely_named_refuted : forall srt, exists s l t,
  parse Sp srt s = Ok l /\ In (CreateTable t) l /\ ~ uniquely_named (ct_constraints t).
Proof.
  intro srt. exists "CREATE TABLE t (id INT64, CHECK (id > 0)) PRIMARY KEY (id)"%string. do 2 eexists.
  split; [vm_compute; reflexivity|]. split; [left; reflexivity|]. intros [H _]. cbn in H. destruct (H _ (or_introl eq_refl)) as [n E]. discriminate E.
Qed.
Print Assumptions C07_constraints_uniquely_named_refuted.

(** * C10: concatenation *)

(** The first text must not end inside a comment (its semicolon would belong to the comment). *)
Theorem C10_concatenation : forall d srt a b l1 l2, no_nul a = true -> outside d a ->
  parse d srt a = Ok l1 -> parse d srt b = Ok l2 ->
  parse d srt (a ++ ";" ++ nl ++ b) = Ok (l1 ++ l2)%list.
Proof. exact parse_concat. Qed.
Print Assumptions C10_concatenation.
Example C10_example : exists l1 l2,
  parse My id_srt "CREATE TABLE t (id INTEGER) ENGINE=InnoDB" = Ok l1 /\ parse My id_srt "CREATE INDEX i ON t (id);" = Ok l2
  /\ l1 <> [] /\ l2 <> [] /\
  parse My id_srt ("CREATE TABLE t (id INTEGER) ENGINE=InnoDB" ++ ";" ++ nl ++ "CREATE INDEX i ON t (id);") = Ok (l1 ++ l2)%list.
Proof. do 2 eexists. vm_compute. repeat split; try reflexivity; discriminate. Qed.
