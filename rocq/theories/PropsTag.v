(** C63: what is read out of struct tags. *)
From Coq Require Import Lia Permutation.
From Verif Require Import GoStr Token Lexer Ast Parser Diff LexSpec Printable Written Lines GoSort.
From Verif Require Import Db Apply ApplySpec SqlDb Resolve Generate GenSpec GenTold GenRead PropsGenerate PropsTold PropsGenRead PropsWhole PropsSort PropsLib.
From Verif Require LinesFacts.
From Verif Require Import GoTag TagSpec TagFacts.

(** * Tags *)

(** Under a key stands the value of the first pair that has it. *)
Theorem C63_get : forall tag l key, tag_of tag l -> tag_get tag key = value_under key l.
Proof. intros tag l key H. unfold tag_get. apply lookup_tag; [exact H|lia]. Qed.
Print Assumptions C63_get.
(** A tag says one thing only. *)
Theorem C63_unambiguous : forall tag l l' key, tag_of tag l -> tag_of tag l' -> value_under key l = value_under key l'.
Proof. intros tag l l' key H H'. rewrite <- (C63_get tag l key H). now apply C63_get. Qed.
Print Assumptions C63_unambiguous.

(** Every value can be written, also in a raw string. *)
Lemma hex_exists : forall v, (v < 16)%N -> exists c, digit_of 16 c v /\ Ascii.eqb c ch_bquote = false.
Proof.
  intros v H. assert (Forall (fun v => exists c, digit_of 16 c v /\ Ascii.eqb c ch_bquote = false) [0;1;2;3;4;5;6;7;8;9;10;11;12;13;14;15]%N) as K.
  { repeat apply Forall_cons; try apply Forall_nil;
      [..|exists "a"%char|exists "b"%char|exists "c"%char|exists "d"%char|exists "e"%char|exists "f"%char];
      [exists "0"%char|exists "1"%char|exists "2"%char|exists "3"%char|exists "4"%char|exists "5"%char|exists "6"%char|exists "7"%char|exists "8"%char|exists "9"%char|..];
      (split; [split; [lia|]|reflexivity]); first [left; split; [reflexivity|lia]|right; split; [left; reflexivity|lia]]. }
  rewrite Forall_forall in K. apply K. cbn [In]. lia.
Qed.
Lemma no_bquote : forall a b, has_byte ch_bquote (a ++ b) = has_byte ch_bquote a || has_byte ch_bquote b.
Proof. intros a b. apply has_byte_app. Qed.
Theorem C63_every_value : forall v, exists q, quoted q v /\ has_byte ch_bquote q = false.
Proof.
  induction v as [|c v (q & Q & B)]; [exists ""; split; [constructor|reflexivity]|].
  assert (N_of_ascii c < 256)%N as L by apply N_ascii_bounded.
  destruct (hex_exists (N_of_ascii c / 16)) as (a & Da & Ba); [apply N.div_lt_upper_bound; lia|].
  destruct (hex_exists (N_of_ascii c mod 16)) as (b & Db & Bb); [apply N.mod_lt; lia|].
  exists ((backslash ++ "x" ++ String a (String b "")) ++ q). split.
  - replace (String c v) with (bytes [N_of_ascii c] ++ v) by (cbn [bytes fold_right append]; now rewrite ascii_N_embedding).
    apply quoted_piece; [|exact Q]. apply piece_hex; [|reflexivity].
    replace (N_of_ascii c) with ((0 * 16 + N_of_ascii c / 16) * 16 + N_of_ascii c mod 16)%N at 1.
    + change (String a (String b "")) with (("" ++ String a "") ++ String b ""). apply number_digit; [apply number_digit; [constructor|exact Da]|exact Db].
    + rewrite N.mul_0_l, N.add_0_l, N.mul_comm. symmetry. apply N.div_mod. discriminate.
  - rewrite has_byte_app, B, orb_false_r. cbn [has_byte append backslash bytes fold_right]. rewrite (Ascii.eqb_sym ch_bquote a), (Ascii.eqb_sym ch_bquote b), Ba, Bb. reflexivity.
Qed.
Print Assumptions C63_every_value.
Lemma plain_quoted : forall s, all_tame s = true -> has_byte ch_nl s = false -> all_of (fun c => N.ltb (N_of_ascii c) 128) s = true -> quoted s s.
Proof.
  induction s as [|c s IH]; intros T N A; [constructor|]. cbn [all_tame has_byte all_of] in *. apply andb_prop in T as [Tc T], A as [Ac A]. apply orb_false_iff in N as [Nc N].
  apply andb_prop in Tc as [T1 T2]. change (String c s) with (String c "" ++ s). apply quoted_piece; [|now apply IH].
  apply piece_plain; [now apply N.ltb_lt|intros ->; discriminate|intros ->; discriminate|intros ->; discriminate].
Qed.
Lemma string_app_nil : forall s : string, s ++ "" = s.
Proof. induction s; cbn; [reflexivity|now rewrite IHs]. Qed.
Ltac pair_ k key q := apply (tag_pair k key q); [discriminate|reflexivity|apply plain_quoted; reflexivity|].
Lemma quoted_app : forall p v q w, quoted p v -> quoted q w -> quoted (p ++ q) (v ++ w).
Proof. intros p v q w P Q. induction P as [|p v p' v' P Pr IH]; [exact Q|]. rewrite !string_app_assoc. now apply quoted_piece. Qed.
Lemma quoted_one : forall p v, piece p v -> quoted p v.
Proof. intros p v H. rewrite <- (string_app_nil p), <- (string_app_nil v). apply quoted_piece; [exact H|constructor]. Qed.
Example C63_example : forall key, tag_get "db:""id""  pgddl:""TEXT DEFAULT 'é\u00e9\""'"" db:""no""" key
  = value_under key [("db", "id"); ("pgddl", "TEXT DEFAULT 'éé""'"); ("db", "no")].
Proof.
  intro key. apply C63_get. pair_ 0 "db" "id".
  assert (codes 233 (bytes [195; 169]%N)) as C by (apply codes_2; unfold continues; [lia|lia|reflexivity|lia]).
  apply (tag_pair 2 "pgddl" ("TEXT DEFAULT '" ++ bytes [195; 169]%N ++ (backslash ++ "u" ++ "00e9") ++ (backslash ++ dquote) ++ "'")); [discriminate|reflexivity| |].
  - change "TEXT DEFAULT 'éé""'" with ("TEXT DEFAULT '" ++ bytes [195; 169]%N ++ bytes [195; 169]%N ++ dquote ++ "'").
    repeat apply quoted_app; [apply plain_quoted; reflexivity|apply quoted_one..|apply plain_quoted; reflexivity]; [exact (piece_char _ _ C)| |constructor].
    apply (piece_code "u" "00e9" 233); [left; split; reflexivity| |left; exact C].
    apply (number_digit 16 "00e" 14 "9" 9); [apply (number_digit 16 "00" 0 "e" 14); [apply (number_digit 16 "0" 0 "0" 0); [apply (number_digit 16 "" 0 "0" 0); [constructor|]|]|]|];
      (split; [lia|]); first [left; split; [reflexivity|lia]|right; split; [left; reflexivity|lia]].
  - pair_ 1 "db" "no". apply (tag_nil 0).
Qed.

(** * Fields *)

(** What is written in the tag of a field is what the generator is told. *)
Theorem C63_field : forall cfg f c, field_says cfg f c -> told cfg tag_get f c.
Proof.
  assert (forall cfg f column type pk, field_tag cfg f column type pk -> tag_says cfg tag_get f column type pk) as K.
  { intros cfg f column type pk (tag & l & E & B & T & <- & <- & <-). exists tag. split; [exact E|]. split; [exact B|]. repeat split; now apply C63_get. }
  intros cfg f c H. destruct H as [name names type pk N T|name names column type pk N T V|name names column type pk N T C V key Hk|name names type pk N T V key Hk].
  - eapply told_ignored; [exact N|]. apply K. exact T.
  - eapply told_untyped; [exact N| |exact V]. apply K. exact T.
  - eapply told_column; [exact N| |exact C|exact V|exact Hk]. apply K. exact T.
  - eapply told_field; [exact N| |exact V|exact Hk]. apply K. exact T.
Qed.
Print Assumptions C63_field.
Lemma file_told : forall cfg nodes l, file_tells cfg nodes l -> file_says cfg tag_get nodes l.
Proof.
  intros cfg nodes l (ls & F & ->). exists ls. split; [|reflexivity]. induction F as [|n l' nodes ls H F IH]; constructor; [|exact IH].
  destruct H as [name fields cols notes E N B C G|notes E G].
  - eapply node_struct; [exact E|exact N|exact B| |exact G]. clear -C. induction C; constructor; [now apply C63_field|assumption].
  - now apply node_plain.
Qed.

(** Generation, with nothing left open but the shortening of file names and the
    numbers of the sort: the statements are those the sources ask for. *)
Theorem C63_generate : forall cfg short rnd dialect p file nodes l, good_tag (ddl_tag cfg) = true -> printer_for dialect p ->
  file_tells cfg nodes l -> l <> [] ->
  exists out, generate cfg tag_get short (go_order rnd) dialect "go" (OneFile file (Some nodes)) = Ok (print_ddl p short out) /\ Permutation (map bare out) l.
Proof. intros cfg short rnd dialect p file nodes l T P F N. eapply C49_go_generate; [exact T|exact P|now apply file_told|exact N]. Qed.
Print Assumptions C63_generate.
(** And what is generated is read as meant. *)
Theorem C63_read_partial : forall cfg short rnd rnd' name p d file nodes l ws,
  good_tag (ddl_tag cfg) = true -> dialect_for name p d -> plain_settings cfg -> LexSpec.one_line (short file) = true -> plain_nodes nodes ->
  file_tells cfg nodes l -> l <> [] -> Forall2 (says p d) l ws -> forallb (written_ok d) ws = true ->
  exists text ws', generate cfg tag_get short (go_order rnd) name "go" (OneFile file (Some nodes)) = Ok text
    /\ Permutation ws' ws /\ parse d (go_sort rnd') text = Ok (map (meant d) ws').
Proof.
  intros cfg short rnd rnd' name p d file nodes l ws T D C F N H Hl Y W. eapply C52_go_file_is_read_partial; try eassumption. now apply file_told.
Qed.
Print Assumptions C63_read_partial.

(** A directory, all the way to the database. *)
Inductive tree_tells (cfg : settings) : list (string * option (list cnode)) -> list (list gstmt) -> Prop :=
| tree_done : tree_tells cfg [] []
| tree_skipped : forall name parsed r ls, ~ go_source name -> tree_tells cfg r ls -> tree_tells cfg ((name, parsed) :: r) ls
| tree_source : forall name nodes l r ls, go_source name -> file_tells cfg nodes l -> tree_tells cfg r ls -> tree_tells cfg ((name, Some nodes) :: r) (l :: ls).
Lemma tree_told : forall cfg files ls, tree_tells cfg files ls -> tree_says cfg tag_get files ls.
Proof. intros cfg files ls H. induction H; [apply tree_nil|now apply tree_other|apply tree_file; [assumption|now apply file_told|assumption]]. Qed.
Theorem C63_apply_partial : forall y cfg short rnd rnd' w name p d dsn dir files ls wss wb m0,
  dialect_for name p d -> w_dialect w = name -> (forall a, w_resolve w a = resolve y cfg tag_get short (go_order rnd) "go" name a) -> w_srt w = go_sort rnd' ->
  y_entry y dsn = ANothing -> has_database (w_srt w) name d (y_server y dsn) wb -> forallb (written_ok d) wb = true ->
  y_entry y dir = ADirectory files -> good_tag (ddl_tag cfg) = true -> plain_settings cfg ->
  (forall file nodes, In (file, Some nodes) files -> LexSpec.one_line (short file) = true /\ plain_nodes nodes) ->
  tree_tells cfg files ls -> Forall2 (Forall2 (says p d)) ls wss -> forallb (written_ok d) (List.concat wss) = true ->
  working w -> approved w -> served d m0 w ->
  exists wss', Forall2 (@Permutation written) wss' wss /\
  forall ma, convertible d (w_srt w) (w_sdiff w) (map (meant d) wb) (map (meant d) (List.concat wss')) m0 ma ->
  exists tr, apply_command w [dsn; dir] = (tr, Done) /\ db_eq (sv_db (after_events d tr m0)) ma /\ Forall (fun q => snd q = None) (sent tr).
Proof.
  intros y cfg short rnd rnd' w name p d dsn dir files ls wss wb m0 Df Wd Wr Ws E1 Hb Wb E2 Gt Pc Pn Ts Sy Wo Ww Wa Sv.
  eapply C59_go_sources_reach_database_partial; try eassumption. now apply tree_told.
Qed.
Print Assumptions C63_apply_partial.

Ltac solve_written t l := exists t, l; split; [reflexivity|split; [reflexivity|split; [|repeat split; reflexivity]]].
Lemma users_tell : file_tells cfg0 [user_node] users_told.
Proof.
  eexists [[_; _]]. split; [|reflexivity]. constructor; [|constructor].
  apply (tells_struct cfg0 user_node "User" user_fields [Some ("id", "TEXT NOT NULL", true); Some ("Name", "TEXT", false); None; None]
      [[NRemark; NTable "CREATE TABLE users"; NIndex "CREATE UNIQUE INDEX i ON users (id)"; NRemark; NConstraint "UNIQUE (Name)"]]); [reflexivity|discriminate|reflexivity| |].
  - constructor; [|constructor; [|constructor; [|constructor; [|constructor]]]].
    + apply (field_column cfg0 _ "ID" [] "id" "TEXT NOT NULL" "true"); [reflexivity| |apply not_void; reflexivity|apply not_void; reflexivity|cbn; tauto].
      solve_written "db:""id"" pgddl:""TEXT NOT NULL"" pk:""true""" [("db", "id"); ("pgddl", "TEXT NOT NULL"); ("pk", "true")]. pair_ 0 "db" "id". pair_ 1 "pgddl" "TEXT NOT NULL". pair_ 1 "pk" "true". apply (tag_nil 0).
    + apply (field_named cfg0 _ "Name" [] "TEXT" ""); [reflexivity| |apply not_void; reflexivity|split; [discriminate|intros [H|H]; discriminate]].
      solve_written "pgddl:""TEXT""" [("pgddl", "TEXT")]. pair_ 0 "pgddl" "TEXT". apply (tag_nil 0).
    + apply (field_ignored cfg0 _ "Secret" [] "TEXT" ""); [reflexivity|]. solve_written "db:""-"" pgddl:""TEXT""" [("db", "-"); ("pgddl", "TEXT")]. pair_ 0 "db" "-". pair_ 1 "pgddl" "TEXT". apply (tag_nil 0).
    + apply (field_untyped cfg0 _ "Note" [] "note" "" ""); [reflexivity| |left; reflexivity]. solve_written "db:""note""" [("db", "note")]. pair_ 0 "db" "note". apply (tag_nil 0).
  - constructor; [|constructor]. unfold group_says. cbn [map cl_text]. constructor; [|constructor; [|constructor; [|constructor; [|constructor; [|constructor]]]]].
    + apply (says_remark _ 1 "User" " is a user."); [reflexivity|reflexivity|reflexivity|right; exists 0, "i"%char, "s a user."; split; [reflexivity|split; [reflexivity|discriminate]]|reflexivity].
    + apply (says_table _ "table" "users"); [left; reflexivity|reflexivity|apply creates_short; left; reflexivity|solve_annotation 1 0 0 0 1].
    + apply (says_index _ "index" "CREATE UNIQUE INDEX i ON users (id)"); [left; reflexivity|reflexivity|apply (creates_full "INDEX" "CREATE" 0 "UNIQUE " "INDEX" "i ON users (id)"); reflexivity|solve_annotation 1 0 0 0 1].
    + apply (says_nothing _ 0).
    + apply (says_constraint _ "constraints"); [right; reflexivity|reflexivity|solve_annotation 0 0 0 0 2].
Qed.
Example C63_generate_example : forall rnd, exists out,
  generate cfg0 tag_get (fun s => s) (go_order rnd) "mysql" "go" (OneFile "a.go" (Some [user_node])) = Ok (print_ddl MyPrinter (fun s => s) out) /\ List.length out = 2.
Proof.
  intro rnd. edestruct (C63_generate cfg0 (fun s => s) rnd "mysql" MyPrinter "a.go" [user_node]) as (out & E & B); [reflexivity|right; right; left; reflexivity|exact users_tell|discriminate|].
  exists out. split; [exact E|]. apply Permutation_length in B. rewrite map_length in B. exact B.
Qed.
Example C63_read_example : forall rnd rnd', exists text ws',
  generate cfg0 tag_get (fun s => s) (go_order rnd) "postgres" "go" (OneFile "a.go" (Some [user_node])) = Ok text
  /\ Permutation ws' users_written /\ parse Pg (go_sort rnd') text = Ok (map (meant Pg) ws').
Proof.
  intros rnd rnd'. eapply (C63_read_partial cfg0 _ rnd rnd' "postgres" PgPrinter Pg "a.go" [user_node] users_told users_written);
    [reflexivity|left; reflexivity|constructor; reflexivity|reflexivity|exact users_plain|exact users_tell|discriminate|exact users_alike|vm_compute; reflexivity].
Qed.

(** * What is lost *)

(** A raw tag may go over several lines: the keys behind the first break are not
    seen.  The column [b] is lost without a word. *)
Theorem C63_lines_refuted : forall rnd, exists f out,
  f_tag f = Some ("`db:""b""" ++ nl ++ "pgddl:""TEXT""`")
  /\ parse_file cfg0 tag_get (fun s => s) (go_order rnd) "a.go" (Some [one_struct [mkField ["A"] (Some "`pgddl:""INT""`") ""; f] ["// pgddl: table: t"]]) = Ok (Some out)
  /\ columns_read out = [["A"]].
Proof. intro rnd. exists (mkField ["B"] (Some ("`db:""b""" ++ nl ++ "pgddl:""TEXT""`")) ""). eexists. split; [reflexivity|]. split; vm_compute; reflexivity. Qed.
Print Assumptions C63_lines_refuted.
(** A value broken over two lines is lost, and so is everything behind it: the key is
    not looked for again. *)
Definition plain_byte (c : ascii) : bool := between 0 127 c && negb (Ascii.eqb c "034"%char) && negb (Ascii.eqb c "092"%char).
Lemma plain_tame : forall s, all_of plain_byte s = true -> all_tame s = true.
Proof.
  induction s as [|c s IH]; intro H; [reflexivity|]. cbn [all_of all_tame] in *. apply andb_prop in H as [Hc H]. rewrite (IH H), andb_true_r.
  unfold plain_byte in Hc. apply andb_prop in Hc as [Hc B]. apply andb_prop in Hc as [_ A]. unfold tame. apply andb_true_intro. split; [exact A|exact B].
Qed.
Lemma broken_loop : forall a b fuel, all_of plain_byte a = true -> unquote_loop fuel (a ++ nl ++ b) = None.
Proof.
  induction a as [|c a IH]; intros b fuel H.
  - destruct fuel; reflexivity.
  - destruct fuel as [|fuel]; [reflexivity|]. cbn [all_of] in H. apply andb_prop in H as [Hc H]. cbn [append unquote_loop].
    unfold plain_byte in Hc. apply andb_prop in Hc as [Hc B]. apply andb_prop in Hc as [R A]. change ch_dquote with "034"%char. apply negb_true_iff in A, B. rewrite A.
    unfold unquote_char. change ch_dquote with "034"%char. change ch_backslash with "092"%char. rewrite A, B.
    unfold between in R. apply andb_prop in R as [_ R]. apply N.leb_le in R. replace (128 <=? N_of_ascii c)%N with false by (symmetry; apply N.leb_gt; lia).
    cbn [negb]. destruct (Ascii.eqb c ch_nl); [reflexivity|]. rewrite (IH b fuel H). reflexivity.
Qed.
Theorem C63_broken_value : forall k key a b rest, key <> "" -> all_of key_char key = true -> all_of plain_byte a = true -> all_of plain_byte b = true ->
  tag_get (blanks k ++ key ++ ":" ++ dquote ++ (a ++ nl ++ b) ++ dquote ++ rest) key = "".
Proof.
  intros k key a b rest N K A B. unfold tag_get. set (fuel := String.length _). clearbody fuel. cbn [tag_lookup].
  rewrite trim_blanks, key_first, key_read by assumption. destruct (String.eqb_spec key ""); [now destruct N|].
  change (":" ++ dquote ++ (a ++ nl ++ b) ++ dquote ++ rest)%string with (String ":" (String ch_dquote ((a ++ nl ++ b) ++ dquote ++ rest))). cbv iota beta.
  change (Ascii.eqb ":" ":" && Ascii.eqb ch_dquote ch_dquote) with true. cbv iota.
  assert (T : all_tame (a ++ nl ++ b) = true) by (rewrite !all_tame_app, (plain_tame a A), (plain_tame b B); reflexivity).
  rewrite value_tame by exact T. change (value_of (dquote ++ rest)) with (Some (dquote, rest)). cbv iota beta. rewrite String.eqb_refl.
  assert (U : unquote ((a ++ nl ++ b) ++ dquote) = None).
  { unfold unquote. rewrite until_tame by exact T. change (until_dquote dquote) with (Some ""). cbv iota beta. rewrite string_app_nil.
    replace (has_byte ch_nl (a ++ nl ++ b)) with true by (rewrite !has_byte_app; cbn [has_byte]; rewrite orb_true_r; reflexivity).
    cbn [negb]. rewrite andb_false_r. cbn [andb]. rewrite string_app_assoc. rewrite string_app_assoc. rewrite broken_loop by exact A. reflexivity. }
  rewrite U. reflexivity.
Qed.
Print Assumptions C63_broken_value.
Example C63_broken_value_example : tag_get ("pgddl:""TEXT" ++ nl ++ "NOT NULL"" pgddl:""INT""") "pgddl" = "".
Proof. exact (C63_broken_value 0 "pgddl" "TEXT" "NOT NULL" " pgddl:""INT""" ltac:(discriminate) eq_refl eq_refl eq_refl). Qed.

(** A tag in double quotation marks, the same tag to the compiler, is not read at
    all. *)
Theorem C63_interpreted_refuted : forall rnd, exists f out,
  f_tag f = Some (dquote ++ "pgddl:" ++ backslash ++ dquote ++ "TEXT" ++ backslash ++ dquote ++ dquote)
  /\ parse_file cfg0 tag_get (fun s => s) (go_order rnd) "a.go" (Some [one_struct [mkField ["A"] (Some "`pgddl:""INT""`") ""; f] ["// pgddl: table: t"]]) = Ok (Some out)
  /\ columns_read out = [["A"]].
Proof.
  intro rnd. exists (mkField ["B"] (Some (dquote ++ "pgddl:" ++ backslash ++ dquote ++ "TEXT" ++ backslash ++ dquote ++ dquote)) ""). eexists. split; [reflexivity|]. split; vm_compute; reflexivity.
Qed.
Print Assumptions C63_interpreted_refuted.
(** A byte that belongs to no character is replaced by U+FFFD.  (go/parser rejects a file
    with such a byte, so this never reaches the generator.) *)
Definition stray (c : ascii) : Prop := (128 <= N_of_ascii c <= 193 \/ 245 <= N_of_ascii c)%N.
Definition on_line (c : ascii) : bool := plain_byte c && negb (Ascii.eqb c ch_nl).
Lemma on_line_parts : forall c, on_line c = true -> (N_of_ascii c <? 128)%N = true /\ Ascii.eqb c ch_dquote = false /\ Ascii.eqb c ch_backslash = false /\ Ascii.eqb c ch_nl = false.
Proof.
  intros c H. unfold on_line, plain_byte, between in H. rewrite !andb_true_iff, !negb_true_iff in H. destruct H as [[[[_ H1] H2] H3] H4]. apply N.leb_le in H1. split; [apply N.ltb_lt; lia|]. auto.
Qed.
Lemma stray_read : forall c r, stray c -> (N_of_ascii c <? 128)%N = false /\ decode_rune c r = (rune_error, r).
Proof.
  intros c r H. assert (L : (N_of_ascii c <? 128)%N = false) by (apply N.ltb_ge; unfold stray in H; lia). split; [exact L|]. unfold decode_rune. rewrite L. unfold lead.
  assert (R : forall lo hi, (194 <= lo -> hi <= 244 -> in_range lo hi c = false)%N).
  { intros lo hi A B. unfold in_range. apply not_true_is_false. intro G. apply andb_true_iff in G. destruct G as [G1 G2]. apply N.leb_le in G1, G2. unfold stray in H. lia. }
  rewrite !R by lia. reflexivity.
Qed.
Lemma stray_invalid : forall a c b fuel, all_of on_line a = true -> stray c -> valid_string fuel (a ++ String c b) = false.
Proof.
  induction a as [|x a IH]; intros c b fuel H S; (destruct fuel as [|fuel]; [reflexivity|]).
  - destruct (stray_read c b S) as [L D]. cbn [append valid_string]. rewrite L, D, N.eqb_refl, Nat.eqb_refl. reflexivity.
  - cbn [all_of] in H. apply andb_prop in H as [Hx H]. destruct (on_line_parts x Hx) as [L _]. cbn [append valid_string]. rewrite L. apply IH; assumption.
Qed.
Lemma line_loop : forall a s fuel, all_of on_line a = true ->
  unquote_loop (String.length a + fuel) (a ++ s) = match unquote_loop fuel s with Some (v, rest) => Some ((a ++ v)%string, rest) | None => None end.
Proof.
  induction a as [|x a IH]; intros s fuel H; [cbn [String.length append Nat.add]; destruct (unquote_loop fuel s) as [[v r]|]; reflexivity|].
  cbn [all_of] in H. apply andb_prop in H as [Hx H]. destruct (on_line_parts x Hx) as (L & Q & B & W). cbn [String.length append Nat.add unquote_loop]. rewrite Q. unfold unquote_char. rewrite Q, B, W.
  replace (128 <=? N_of_ascii x)%N with false by (symmetry; apply N.leb_gt; apply N.ltb_lt; exact L). cbn [negb]. rewrite IH by exact H. destruct (unquote_loop fuel s) as [[v r]|]; [|reflexivity].
  rewrite orb_true_r. unfold byte. rewrite ?N.mod_small by (apply N.ltb_lt in L; lia). rewrite ascii_N_embedding. reflexivity.
Qed.
Lemma line_tame : forall s, all_of on_line s = true -> all_tame s = true.
Proof.
  induction s as [|c s IH]; intro H; [reflexivity|]. cbn [all_of all_tame] in *. apply andb_prop in H as [Hc H]. rewrite (IH H), andb_true_r. destruct (on_line_parts c Hc) as (_ & Q & B & _).
  unfold tame. change "034"%char with ch_dquote. change "092"%char with ch_backslash. rewrite Q, B. reflexivity.
Qed.
Lemma line_lacks : forall b s, (forall c, on_line c = true -> Ascii.eqb c b = false) -> all_of on_line s = true -> has_byte b s = false.
Proof.
  intros b. induction s as [|c s IH]; intros F H; [reflexivity|]. cbn [all_of has_byte] in *. apply andb_prop in H as [Hc H]. rewrite (IH F H), orb_false_r. rewrite Ascii.eqb_sym. exact (F c Hc).
Qed.
Theorem C63_stray_byte : forall k key a c b rest, key <> "" -> all_of key_char key = true -> all_of on_line a = true -> stray c -> all_of on_line b = true ->
  tag_get (blanks k ++ key ++ ":" ++ dquote ++ (a ++ String c b) ++ dquote ++ rest) key = a ++ String "239"%char (String "191"%char (String "189"%char b)).
Proof.
  intros k key a c b rest N K A S B. unfold tag_get. set (fuel := String.length _). clearbody fuel. cbn [tag_lookup].
  rewrite trim_blanks, key_first, key_read by assumption. destruct (String.eqb_spec key ""); [now destruct N|].
  change (":" ++ dquote ++ (a ++ String c b) ++ dquote ++ rest)%string with (String ":" (String ch_dquote ((a ++ String c b) ++ dquote ++ rest))). cbv iota beta.
  change (Ascii.eqb ":" ":" && Ascii.eqb ch_dquote ch_dquote) with true. cbv iota.
  assert (Ne : forall x, (N_of_ascii x < 128)%N -> Ascii.eqb c x = false).
  { intros x Lx. apply Ascii.eqb_neq. intro E. subst x. unfold stray in S. lia. }
  assert (Tc : tame c = true) by (unfold tame; rewrite !Ne by (vm_compute; reflexivity); reflexivity).
  assert (T : all_tame (a ++ String c b) = true) by (rewrite all_tame_app, (line_tame a A); cbn [all_tame]; rewrite Tc, (line_tame b B); reflexivity).
  rewrite value_tame by exact T. change (value_of (dquote ++ rest)) with (Some (dquote, rest)). cbv iota beta. rewrite String.eqb_refl.
  assert (U : unquote ((a ++ String c b) ++ dquote) = Some (a ++ String "239"%char (String "191"%char (String "189"%char b)))).
  { unfold unquote. rewrite until_tame by exact T. change (until_dquote dquote) with (Some ""). cbv iota beta. rewrite string_app_nil, stray_invalid by assumption. rewrite andb_false_r.
    assert (E : Datatypes.S (String.length ((a ++ String c b) ++ dquote)) = (String.length a + Datatypes.S (String.length b + 2))%nat) by (rewrite !LinesFacts.append_length; cbn [String.length dquote]; lia).
    rewrite E, string_app_assoc, line_loop by exact A. change (String c b ++ dquote) with (String c (b ++ dquote)). destruct (stray_read c (b ++ dquote) S) as [L D].
    cbn [unquote_loop]. rewrite (Ne ch_dquote) by (vm_compute; reflexivity). unfold unquote_char. rewrite (Ne ch_dquote) by (vm_compute; reflexivity).
    replace (128 <=? N_of_ascii c)%N with true by (symmetry; apply N.leb_le; apply N.ltb_ge in L; exact L). rewrite D. rewrite (Ne ch_nl) by (vm_compute; reflexivity).
    rewrite line_loop by exact B. change (unquote_loop 2 dquote) with (Some ("", "")). cbv iota beta. rewrite string_app_nil. reflexivity. }
  rewrite U. reflexivity.
Qed.
Print Assumptions C63_stray_byte.
Example C63_invalid_byte_example : tag_get ("pgddl:""TEXT" ++ String "200"%char " NOT NULL"" x:""y""") "pgddl"
  = "TEXT" ++ String "239"%char (String "191"%char (String "189"%char " NOT NULL"))
  /\ tag_get ("pgddl:""TEXT" ++ String "128"%char " NOT NULL"" x:""y""") "pgddl" = "TEXT" ++ String "239"%char (String "191"%char (String "189"%char " NOT NULL")).
Proof. split; [reflexivity|]. apply (C63_stray_byte 0 "pgddl" "TEXT" "128"%char " NOT NULL" " x:""y"""); try reflexivity; [discriminate|]. left. split; vm_compute; discriminate. Qed.
(** A key without a value behind it, colon and quotation mark, ends the reading: nothing is found under any key. *)
Theorem C63_no_value : forall k name a b rest key, name <> "" -> all_of key_char name = true -> key_byte a = false -> (a <> ":"%char \/ b <> ch_dquote) ->
  tag_get (blanks k ++ name ++ String a (String b rest)) key = "".
Proof.
  intros k name a b rest key N K A H. unfold tag_get. set (fuel := String.length _). clearbody fuel. cbn [tag_lookup].
  rewrite trim_blanks, key_first by assumption.
  assert (R : key_of (name ++ String a (String b rest)) = (name, String a (String b rest))).
  { clear N. induction name as [|x name IH]; [cbn [append key_of]; rewrite A; reflexivity|]. cbn [all_of] in K. apply andb_prop in K as [Kx K].
    pose proof (key_read (String x "") "" ltac:(cbn [all_of]; rewrite Kx; reflexivity)) as X. cbn [append key_of] in X. destruct (key_byte x) eqn:Y; [|discriminate X]. cbn [append key_of]. rewrite Y, (IH K). reflexivity. }
  rewrite R. destruct (String.eqb_spec name ""); [now destruct N|]. replace (Ascii.eqb a ":" && Ascii.eqb b ch_dquote) with false; [reflexivity|].
  symmetry. apply not_true_is_false. intro G. apply andb_true_iff in G. destruct G as [G1 G2]. apply Ascii.eqb_eq in G1, G2. destruct H; contradiction.
Qed.
Print Assumptions C63_no_value.
Example C63_no_value_example : tag_get "pgddl TEXT pgddl:""INT""" "pgddl" = "" /\ tag_get "db:x"" pgddl:""INT""" "pgddl" = "".
Proof. split; [apply (C63_no_value 0 "pgddl" " "%char "T"%char "EXT pgddl:""INT""" "pgddl")|apply (C63_no_value 0 "db" ":"%char "x"%char """ pgddl:""INT""" "pgddl")]; try reflexivity; try discriminate; [left|right]; discriminate. Qed.
(** An unknown escape, as in a pattern of a check, loses the whole value. *)
Theorem C63_escape_refuted : exists tag, tag = "pgddl:""TEXT CHECK (a ~ '^\d$')""" /\ tag_get tag "pgddl" = "".
Proof. eexists. split; reflexivity. Qed.
Print Assumptions C63_escape_refuted.
