(** C91: the comments of the source are carried over to the generated statements. *)
From Coq Require Import Lia.
From Verif Require Import GoStr Token Lexer Ast Parser Tidy IndexText Lines LinesFacts Generate GenSpec GenFacts GenSafe Regular PropsNote.
Local Open Scope string_scope.

(** * Specification *)

(** A line that asks for an index, as described by the expression of pkg/internal/lang/util/regex.go:17 *)
Definition index_note (c : string) : Prop := exists a m r, c = a ++ m ++ r /\ lang (entry "index" "es") a /\ lang some_text m.
(** [idx] are the lines of [l] that ask for an index and [rest] the others, in order. *)
Inductive sorted_out : list string -> list string -> list string -> Prop :=
| out_nil : sorted_out [] [] []
| out_index : forall c l idx rest, index_note c -> sorted_out l idx rest -> sorted_out (c :: l) (c :: idx) rest
| out_other : forall c l idx rest, ~ index_note c -> sorted_out l idx rest -> sorted_out (c :: l) idx (c :: rest).
(** [a] is [b] with elements left out. *)
Inductive among {A} : list A -> list A -> Prop :=
| among_nil : among [] []
| among_keep : forall x a b, among a b -> among (x :: a) (x :: b)
| among_skip : forall x a b, among a b -> among a (x :: b).
(** A remark of the program itself *)
Definition own_remark (c : string) : Prop := exists s, c = "WARN: " ++ s \/ c = "NOTE: " ++ s \/ c = "ERROR: " ++ s.
(** An index with its comment and its place: of the first line of the group that contains the comment. *)
Definition index_from (file : string) (g : list cline) (i : gindex) (c : string) : Prop :=
  gi_file i = file /\ gi_comments i = [c]
  /\ exists before l after, g = (before ++ l :: after)%list /\ gi_line i = cl_line l /\ contains c (cl_text l) = true /\ forall x, In x before -> contains c (cl_text x) = false.
(** The lines of the doc comment of a field, without those that begin with the tag and without an empty last one (C39) *)
Definition doc_part (tag : string) (f : field) : list string := trim_tail_empty (trim_has_prefix (split nl (trim_byte ch_nl (f_doc f))) tag).
Definition column_from (cfg : settings) (f : field) (c : gcolumn) : Prop :=
  exists w, gc_comments c = (w ++ doc_part (ddl_tag cfg) f)%list /\ Forall own_remark w.

(** * Proofs *)
Lemma index_found : forall c, index_note c <-> match_index c <> None.
Proof. intro c. destruct (C75_index c) as [H _]. unfold index_note. rewrite H. tauto. Qed.
Lemma find_first : forall A (p : A -> bool) l x, find p l = Some x -> exists a b, l = (a ++ x :: b)%list /\ p x = true /\ forall y, In y a -> p y = false.
Proof.
  intros A p l x. induction l as [|y l IH]; intro H; [discriminate H|]. cbn [find] in H. destruct (p y) eqn:E.
  - injection H as <-. exists [], l. split; [reflexivity|]. split; [exact E|]. intros z [].
  - destruct (IH H) as (a & b & -> & P & N). exists (y :: a), b. split; [reflexivity|]. split; [exact P|]. intros z [<-|I]; [exact E|exact (N z I)].
Qed.
Lemma comments_carried : forall file g l t out t' out', read_comments file g l (t, out) = Ok (t', out') ->
  exists idx rest is_, sorted_out l idx rest /\ out' = (out ++ map GIndex is_)%list /\ Forall2 (index_from file g) is_ idx
    /\ g_comments t' = (g_comments t ++ rest)%list /\ g_columns t' = g_columns t /\ g_file t' = g_file t /\ g_line t' = g_line t.
Proof.
  intros file g. induction l as [|c l IH]; intros t out t' out' H.
  - cbn [read_comments] in H. injection H as <- <-. exists [], [], []. rewrite !app_nil_r. repeat split; constructor.
  - cbn [read_comments] in H. destruct (read_comment file g (t, out) c) as [[t1 o1]| | |] eqn:E; try discriminate H. cbn [bind] in H.
    destruct (IH t1 o1 t' out' H) as (idx & rest & is_ & S & O & F & C & K & Fi & Li). unfold read_comment in E. destruct (match_index c) as [m|] eqn:M.
    + destruct (containing g c) as [x|] eqn:X; [|discriminate E]. injection E as <- <-. apply find_first in X. destruct X as (a & b & G & P & N).
      exists (c :: idx), rest, (mkGIndex file (cl_line x) [c] (set_create "INDEX" m) :: is_). split; [constructor; [apply index_found; rewrite M; discriminate|exact S]|].
      split; [rewrite O, <- app_assoc; reflexivity|]. split; [constructor; [|exact F]; split; [reflexivity|]; split; [reflexivity|]; exists a, x, b; auto|]. auto.
    + injection E as <- <-. exists idx, (c :: rest), is_. split; [apply out_other; [rewrite index_found, M; intro Q; apply Q; reflexivity|exact S]|]. split; [exact O|]. split; [exact F|].
      rewrite C, K, Fi, Li. destruct (match_table c); [|destruct (match_constraint c); [|destruct (match_option c)]]; cbn [g_comments g_columns g_file g_line add_comment set_table add_constraint add_option]; rewrite <- app_assoc; auto.
Qed.
Lemma field_carried : forall cfg look type f t t', read_field cfg look type t f = Ok t' ->
  g_file t' = g_file t /\ g_line t' = g_line t /\ g_create t' = g_create t /\ exists more, Forall own_remark more /\ g_comments t' = (g_comments t ++ more)%list
  /\ (g_columns t' = g_columns t \/ exists c, g_columns t' = (g_columns t ++ [c])%list /\ column_from cfg f c).
Proof.
  intros cfg look type f t t' H. unfold read_field in H. destruct (f_tag f) as [value|]; [|discriminate H]. cbv zeta in H.
  destruct (String.eqb _ "-").
  { unfold first_name in H. destruct (f_names f) as [|n r]; [discriminate H|]. cbn [bind] in H. injection H as <-. cbn [g_comments g_columns g_file g_line g_create add_comment]. repeat split.
    eexists. split; [|split; [reflexivity|left; reflexivity]]. constructor; [|constructor]. eexists. right. left. reflexivity. }
  match type of H with bind ?x _ = _ => destruct x as [[name comments]| | |] eqn:X; try discriminate H end. cbn [bind] in H.
  assert (W : Forall own_remark comments).
  { unfold first_name in X. destruct (String.eqb _ ""); [|injection X as _ <-; constructor]. destruct (f_names f); [discriminate X|]. cbn [bind] in X. injection X as _ <-. constructor; [|constructor]. eexists. left. reflexivity. }
  clear X. destruct (_ || _).
  { injection H as <-. repeat split. exists []. rewrite app_nil_r. split; [constructor|]. auto. }
  match type of H with bind ?x _ = _ => destruct x as [cs| | |] eqn:X; try discriminate H end. cbn [bind] in H. injection H as <-.
  assert (Wc : Forall own_remark cs).
  { unfold first_name in X. destruct (_ || _); [injection X as <-; exact W|]. destruct (f_names f); [discriminate X|]. cbn [bind] in X. injection X as <-. apply Forall_app. split; [exact W|]. constructor; [|constructor]. eexists. left. reflexivity. }
  match goal with |- context [if ?b then add_pk t name else t] => destruct b end; cbn [g_comments g_columns g_file g_line g_create add_column add_pk]; repeat split; exists []; rewrite app_nil_r; (split; [constructor|]; split; [reflexivity|right]; eexists; split; [reflexivity|]; exists cs; split; [reflexivity|exact Wc]).
Qed.
Lemma fields_carried : forall cfg look type l t t', read_fields cfg look type l t = Ok t' ->
  g_file t' = g_file t /\ g_line t' = g_line t /\ g_create t' = g_create t /\ exists more fs cols, Forall own_remark more /\ g_comments t' = (g_comments t ++ more)%list
  /\ among fs l /\ g_columns t' = (g_columns t ++ cols)%list /\ Forall2 (column_from cfg) fs cols.
Proof.
  intros cfg look type. induction l as [|f l IH]; intros t t' H.
  - cbn [read_fields] in H. injection H as <-. repeat split. exists [], [], []. rewrite !app_nil_r. repeat split; constructor.
  - cbn [read_fields] in H. destruct (read_field cfg look type t f) as [t1| | |] eqn:E; try discriminate H. cbn [bind] in H.
    destruct (field_carried cfg look type f t t1 E) as (F1 & L1 & C1 & m1 & R1 & G1 & K1). destruct (IH t1 t' H) as (F2 & L2 & C2 & m2 & fs & cols & R2 & G2 & A & K2 & Q).
    split; [congruence|]. split; [congruence|]. split; [congruence|]. destruct K1 as [K1|(c & K1 & Qc)].
    + exists (m1 ++ m2)%list, fs, cols. split; [apply Forall_app; auto|]. split; [rewrite G2, G1, app_assoc; reflexivity|]. split; [apply among_skip; exact A|]. split; [congruence|exact Q].
    + exists (m1 ++ m2)%list, (f :: fs), (c :: cols). split; [apply Forall_app; auto|]. split; [rewrite G2, G1, app_assoc; reflexivity|]. split; [apply among_keep; exact A|]. split; [rewrite K2, K1, <- app_assoc; reflexivity|constructor; assumption].
Qed.

(** Whatever a group and its struct are: every line that asks for an index becomes the comment of
    one index, in order; all other lines become the comments of the table, in order, and what else is said there
    comes behind them and is marked as a remark of the program; the comments of a column are those of its field. *)
Theorem C91_comments_are_carried_over : forall cfg look short file r out, read_source cfg look short file r = Ok out ->
  exists idx rest is_ ts, sorted_out (map (fun l => clean (cl_text l)) (s_group r)) idx rest
    /\ out = (map GIndex is_ ++ map GTable ts)%list /\ Forall2 (index_from file (s_group r)) is_ idx
    /\ (ts = [] \/ exists t fields more fs, ts = [t] /\ s_struct r = Some fields /\ g_file t = file /\ g_line t = s_line r
          /\ g_comments t = (rest ++ more)%list /\ Forall own_remark more /\ among fs fields /\ Forall2 (column_from cfg) fs (g_columns t)).
Proof.
  intros cfg look short file r out H. unfold read_source in H.
  destruct (read_comments file (s_group r) (map (fun l => clean (cl_text l)) (s_group r)) (mkGTable file (s_line r) [] "" [] [] [] [], [])) as [[t o]| | |] eqn:E; try discriminate H. cbn [bind] in H.
  destruct (comments_carried _ _ _ _ _ _ _ E) as (idx & rest & is_ & S & O & F & C & K & Fi & Li). cbn [g_comments g_columns g_file g_line app] in C, K, Fi, Li. cbn [app] in O. subst o.
  match type of H with bind (match s_struct r with Some fields => read_fields _ _ _ fields ?a | None => _ end) _ = _ => set (t1 := a) in * end.
  assert (T1 : g_file t1 = file /\ g_line t1 = s_line r /\ g_columns t1 = [] /\ exists m1, Forall own_remark m1 /\ g_comments t1 = (rest ++ m1)%list).
  { unfold t1. destruct (s_type r); [destruct (String.eqb (g_create t) "")|]; cbn [g_comments g_columns g_file g_line set_table add_comment].
    - repeat split; try assumption. rewrite C. eexists. split; [|reflexivity]. constructor; [|constructor]. eexists. left. reflexivity.
    - repeat split; try assumption. exists []. rewrite app_nil_r. split; [constructor|exact C].
    - repeat split; try assumption. exists []. rewrite app_nil_r. split; [constructor|exact C]. }
  clearbody t1. destruct T1 as (F1 & L1 & K1 & m1 & R1 & C1). exists idx, rest, is_.
  assert (Z : forall u, (exists m, Forall own_remark m /\ g_comments u = (rest ++ m)%list) -> exists u' m,
    (if String.eqb (g_create u) "" then add_comment u (msg_no_table short file (group_line (s_group r)) (ddl_tag cfg)) else match g_columns u with [] => add_comment u (msg_no_columns short file (group_line (s_group r)) (ddl_tag cfg)) | _ => u end) = u'
    /\ g_file u' = g_file u /\ g_line u' = g_line u /\ g_columns u' = g_columns u /\ Forall own_remark m /\ g_comments u' = (rest ++ m)%list).
  { intros u (m & Rm & Cm). destruct (String.eqb (g_create u) ""); [|destruct (g_columns u) eqn:Ku].
    - do 2 eexists. split; [reflexivity|]. cbn [g_comments g_columns g_file g_line add_comment]. repeat split; [|rewrite Cm, <- app_assoc; reflexivity]. apply Forall_app. split; [exact Rm|]. constructor; [|constructor]. eexists. left. reflexivity.
    - do 2 eexists. split; [reflexivity|]. cbn [g_comments g_columns g_file g_line add_comment]. rewrite Ku. repeat split; [|rewrite Cm, <- app_assoc; reflexivity]. apply Forall_app. split; [exact Rm|]. constructor; [|constructor]. eexists. right. right. reflexivity.
    - exists u, m. rewrite Ku. repeat split; try reflexivity; assumption. }
  destruct (s_struct r) as [fields|] eqn:Es.
  - destruct (read_fields cfg look (match s_type r with Some n => n | None => "" end) fields t1) as [t2| | |] eqn:E2; try discriminate H. cbn [bind] in H.
    destruct (fields_carried _ _ _ _ _ _ E2) as (F2 & L2 & _ & m2 & fs & cols & R2 & C2 & A & K2 & Q). rewrite K1 in K2. cbn [app] in K2.
    destruct (Z t2) as (u & m & U & Uf & Ul & Uk & Um & Uc); [exists (m1 ++ m2)%list; split; [apply Forall_app; auto|rewrite C2, C1, <- app_assoc; reflexivity]|].
    rewrite U in H. injection H as <-. destruct (g_columns u) as [|x xs] eqn:Ku.
    + exists []. split; [exact S|]. split; [reflexivity|]. split; [exact F|]. left. reflexivity.
    + exists [u]. split; [exact S|]. split; [reflexivity|]. split; [exact F|]. right. exists u, fields, m, fs. split; [reflexivity|]. split; [reflexivity|]. split; [congruence|]. split; [congruence|]. split; [exact Uc|]. split; [exact Um|]. split; [exact A|]. rewrite Ku, Uk, K2. exact Q.
  - cbn [bind] in H. destruct (Z t1) as (u & m & U & Uf & Ul & Uk & Um & Uc); [exists m1; auto|]. rewrite U in H. injection H as <-. rewrite Uk, K1. exists []. split; [exact S|]. split; [reflexivity|]. split; [exact F|]. left. reflexivity.
Qed.
Print Assumptions C91_comments_are_carried_over.
Definition carried_group : list cline :=
  [mkLine "// pgddl: table: users" 3; mkLine "// who they are" 4; mkLine "//pgddl: index: i ON users (a)" 5; mkLine "// the end" 6].
Definition carried_source : source :=
  mkSource 3 (Some "User") (Some [mkField ["A"] (Some "`db:""a"" pgddl:""INT""`") ("the first" ++ nl ++ "pgddl: x" ++ nl); mkField ["B"] (Some "`db:""-""`") "left out"]) carried_group.
Example C91_example : exists i t, read_source (mkSettings "db" "pgddl" "pk") look_simple (fun s => s) "a.go" carried_source = Ok [GIndex i; GTable t]
  /\ gi_line i = 5%N /\ gi_comments i = ["pgddl: index: i ON users (a)"]
  /\ (exists s, g_comments t = ["pgddl: table: users"; "who they are"; "the end"; "NOTE: " ++ s])
  /\ map gc_comments (g_columns t) = [["the first"]].
Proof. do 2 eexists. split; [vm_compute; reflexivity|]. split; [reflexivity|]. split; [reflexivity|]. split; [eexists; reflexivity|reflexivity]. Qed.
