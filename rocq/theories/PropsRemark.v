(** C50: exactly which comment lines of an annotated group contribute something. *)
From Verif Require Import GoStr Token Lexer Ast Parser Tidy IndexText Lines LinesFacts Generate GenSpec GenFacts GenSafe Regular PropsNote.
Local Open Scope string_scope.

(** * Specification *)

(** A line is a note if it begins with a text described by one of the four
    expressions of pkg/internal/lang/util/regex.go. *)
Definition kinds : list (string * string * re) :=
  [("index", "es", some_text); ("table", "s", table_text); ("constraint", "s", some_text); ("option", "s", some_text)].
Definition is_note (c : string) : Prop :=
  exists word suffix back a m r, In (word, suffix, back) kinds /\ c = a ++ m ++ r /\ lang (entry word suffix) a /\ lang back m.
(** [n] are the notes among [l], in order. *)
Inductive notes_of : list string -> list string -> Prop :=
| notes_nil : notes_of [] []
| notes_note : forall c l n, is_note c -> notes_of l n -> notes_of (c :: l) (c :: n)
| notes_remark : forall c l n, ~ is_note c -> notes_of l n -> notes_of (c :: l) n.
(** The same up to comments, the file and the lines. *)
Definition alike (x y : gtable) : Prop := bare (GTable x) = bare (GTable y).
Definition same_result (x y : res (list gstmt)) : Prop :=
  match x, y with Ok a, Ok b => map bare a = map bare b | Err, Err | Panic, Panic | OutOfFuel, OutOfFuel => True | _, _ => False end.

(** * Proofs *)
Lemma none_iff : forall A (o : option A), o = None <-> ~ (o <> None).
Proof. intros A [x|]; split; intro H; try discriminate; try reflexivity; try (exfalso; apply H; discriminate). intro G. apply G. reflexivity. Qed.
Lemma note_found : forall c, is_note c <-> match_index c <> None \/ match_table c <> None \/ match_constraint c <> None \/ match_option c <> None.
Proof.
  intro c. destruct (C75_index c) as [I _]. destruct (C75_table c) as [T _]. destruct (C75_constraint c) as [C _]. destruct (C75_option c) as [O _]. split.
  - intros (w & x & b & a & m & r & K & E). unfold kinds in K. cbn [In] in K. destruct K as [K|[K|[K|[K|[]]]]]; injection K as <- <- <-.
    + left. apply I. exists a, m, r. exact E.
    + right. left. apply T. exists a, m, r. exact E.
    + right. right. left. apply C. exists a, m, r. exact E.
    + right. right. right. apply O. exists a, m, r. exact E.
  - intros [H|[H|[H|H]]].
    + apply I in H. destruct H as (a & m & r & E). exists "index", "es", some_text, a, m, r. split; [unfold kinds; cbn [In]; auto|exact E].
    + apply T in H. destruct H as (a & m & r & E). exists "table", "s", table_text, a, m, r. split; [unfold kinds; cbn [In]; auto|exact E].
    + apply C in H. destruct H as (a & m & r & E). exists "constraint", "s", some_text, a, m, r. split; [unfold kinds; cbn [In]; auto|exact E].
    + apply O in H. destruct H as (a & m & r & E). exists "option", "s", some_text, a, m, r. split; [unfold kinds; cbn [In]; auto|exact E].
Qed.
Lemma remark_missed : forall c, ~ is_note c <-> match_index c = None /\ match_table c = None /\ match_constraint c = None /\ match_option c = None.
Proof. intro c. rewrite note_found. pose proof (none_iff _ (match_index c)). pose proof (none_iff _ (match_table c)). pose proof (none_iff _ (match_constraint c)). pose proof (none_iff _ (match_option c)). tauto. Qed.

(** A remark is added to the comments, and nothing else happens. *)
Theorem C50_remark : forall file g t out c, ~ is_note c ->
  exists t', read_comment file g (t, out) c = Ok (t', out) /\ alike t t' /\ g_comments t' = (g_comments t ++ [c])%list.
Proof.
  intros file g t out c N. apply remark_missed in N. destruct N as (I & T & C & O). unfold read_comment. rewrite I, T, C, O. exists (add_comment t c). split; [reflexivity|]. split; reflexivity.
Qed.
Print Assumptions C50_remark.
Lemma set_create_some : forall w s, set_create w s = "" -> s = "".
Proof. intros w s H. unfold set_create in H. destruct (search _ s); [exact H|discriminate H]. Qed.
Lemma nows_some : forall m, lang (Plus nows) m -> m <> "".
Proof.
  intros m H. unfold Plus in H. inversion H as [| | | |x y u v A B| | | |]; subst. inversion A; subst. discriminate.
Qed.
Lemma app_some : forall a b, a <> "" \/ b <> "" -> a ++ b <> "".
Proof. intros [|c a] b [H|H]; try contradiction; try discriminate; try exact H. Qed.
Lemma table_said : forall c m, match_table c = Some m -> m <> "".
Proof.
  intros c m H. destruct (C75_table c) as [_ T]. destruct (T m H) as (a & r & _ & _ & L & _). unfold table_text in L. cbn [seq] in L.
  inversion L as [| | | |x y u v A B| | | |]; subst. inversion B as [| | | |x' y' u' v' A' B'| | | |]; subst. apply app_some. right. apply app_some. left. exact (nows_some _ A').
Qed.
Lemma alike_parts : forall t u, alike t u <-> g_create t = g_create u /\ map (fun c => mkGColumn [] (gc_name c) (gc_type c)) (g_columns t) = map (fun c => mkGColumn [] (gc_name c) (gc_type c)) (g_columns u)
  /\ map bare_text (g_constraints t) = map bare_text (g_constraints u) /\ map bare_text (g_options t) = map bare_text (g_options u) /\ g_pk t = g_pk u.
Proof.
  intros t u. unfold alike. cbn [bare]. split.
  - intro H. injection H as H1 H2 H3 H4 H5. auto.
  - intros (-> & -> & -> & -> & ->). reflexivity.
Qed.
(** A note always says something: it adds an index, names the table or adds a constraint or an option. *)
Theorem C50_note : forall file g t out l c, In l g -> c = clean (cl_text l) -> is_note c -> g_create t = "" ->
  exists t' out', read_comment file g (t, out) c = Ok (t', out') /\ (alike t t' -> map bare out' <> map bare out).
Proof.
  intros file g t out l c Il Ec N G. subst c. destruct (containing_clean g l Il) as (x & X & _). apply note_found in N. unfold read_comment.
  destruct (match_index (clean (cl_text l))) as [m|] eqn:EI.
  { rewrite X. do 2 eexists. split; [reflexivity|]. intros _ H. rewrite map_app in H. apply (f_equal (@List.length gstmt)) in H. rewrite app_length in H. cbn [map List.length] in H. rewrite Nat.add_comm in H. exact (Nat.neq_succ_diag_l _ H). }
  do 2 eexists. split; [reflexivity|]. intros A _. destruct (match_table (clean (cl_text l))) as [m|] eqn:ET.
  { apply alike_parts in A. destruct A as (A & _). cbn [g_create g_columns g_constraints g_options g_pk add_comment set_table add_constraint add_option] in A. rewrite G in A. apply (table_said _ m ET). symmetry in A. exact (set_create_some _ _ A). }
  destruct (match_constraint (clean (cl_text l))) as [m|] eqn:EC.
  { apply alike_parts in A. destruct A as (_ & _ & A & _). cbn [g_create g_columns g_constraints g_options g_pk add_comment set_table add_constraint add_option] in A. rewrite map_app in A. apply (f_equal (@List.length gtext)) in A. rewrite app_length in A. cbn [map List.length] in A. rewrite Nat.add_comm in A. exact (Nat.neq_succ_diag_r _ A). }
  destruct (match_option (clean (cl_text l))) as [m|] eqn:EO.
  { apply alike_parts in A. destruct A as (_ & _ & _ & A & _). cbn [g_create g_columns g_constraints g_options g_pk add_comment set_table add_constraint add_option] in A. rewrite map_app in A. apply (f_equal (@List.length gtext)) in A. rewrite app_length in A. cbn [map List.length] in A. rewrite Nat.add_comm in A. exact (Nat.neq_succ_diag_r _ A). }
  destruct N as [N|[N|[N|N]]]; apply N; reflexivity.
Qed.
Print Assumptions C50_note.
(** Hence exactly the notes contribute something to a statement. *)
Theorem C50_exactly : forall file g l c line, In l g -> c = clean (cl_text l) ->
  (~ is_note c <-> exists t', read_comment file g (mkGTable file line [] "" [] [] [] [], []) c = Ok (t', []) /\ alike (mkGTable file line [] "" [] [] [] []) t').
Proof.
  intros file g l c line Il Ec. split.
  - intro N. destruct (C50_remark file g (mkGTable file line [] "" [] [] [] []) [] c N) as (t' & E & A & _). exists t'. auto.
  - intros (t' & E & A) N. destruct (C50_note file g (mkGTable file line [] "" [] [] [] []) [] l c Il Ec N eq_refl) as (t2 & o2 & E2 & H). rewrite E in E2. injection E2 as <- <-. exact (H A eq_refl).
Qed.
Print Assumptions C50_exactly.

(** ** The whole group *)
Ltac parts := repeat match goal with H : alike _ _ |- _ => apply alike_parts in H; destruct H as (? & ? & ? & ? & ?) end; apply alike_parts; cbn [g_create g_columns g_constraints g_options g_pk add_comment set_table add_constraint add_option add_column add_pk]; rewrite ?map_app; repeat split; try congruence.
Lemma alike_refl : forall t, alike t t. Proof. reflexivity. Qed.
Lemma note_step : forall file file' g g' t u o p l l' c, In l g -> In l' g' -> c = clean (cl_text l) -> c = clean (cl_text l') -> alike t u -> map bare o = map bare p ->
  exists t' u' o' p', read_comment file g (t, o) c = Ok (t', o') /\ read_comment file' g' (u, p) c = Ok (u', p') /\ alike t' u' /\ map bare o' = map bare p'.
Proof.
  intros file file' g g' t u o p l l' c Il Il' E E' A B. destruct (containing_clean g l Il) as (x & X & _). destruct (containing_clean g' l' Il') as (x' & X' & _). rewrite <- E in X. rewrite <- E' in X'.
  unfold read_comment. destruct (match_index c) as [m|].
  { rewrite X, X'. do 4 eexists. split; [reflexivity|]. split; [reflexivity|]. split; [exact A|]. rewrite !map_app, B. reflexivity. }
  do 4 eexists. split; [reflexivity|]. split; [reflexivity|]. split; [|exact B].
  destruct (match_table c); [parts|]. destruct (match_constraint c); [parts|]. destruct (match_option c); parts.
Qed.
Definition texts (g : list cline) : list string := map (fun l => clean (cl_text l)) g.
Lemma remarks_left : forall file file' g g' n l, notes_of l n -> forall l', notes_of l' n -> (forall c, In c l -> In c (texts g)) -> (forall c, In c l' -> In c (texts g')) ->
  forall t u o p, alike t u -> map bare o = map bare p ->
  exists t' u' o' p', read_comments file g l (t, o) = Ok (t', o') /\ read_comments file' g' l' (u, p) = Ok (u', p') /\ alike t' u' /\ map bare o' = map bare p'.
Proof.
  intros file file' g g' n l H. induction H as [|c l n N H IH|c l n N H IH]; intros l' H'.
  - intros _ I'. remember [] as n eqn:En. revert I'. induction H' as [|c l n N H' IH'|c l n N H' IH']; [|discriminate En|]; intros I' t u o p A B.
    + do 4 eexists. split; [reflexivity|]. split; [reflexivity|]. auto.
    + destruct (C50_remark file' g' u p c N) as (u1 & E1 & A1 & _).
      destruct (IH' En (fun c Ic => I' c (or_intror Ic)) t u1 o p) as (t2 & u2 & o2 & p2 & R1 & R2 & R3 & R4); [unfold alike in *; congruence|exact B|].
      exists t2, u2, o2, p2. split; [exact R1|]. split; [cbn [read_comments]; rewrite E1; exact R2|]. auto.
  - remember (c :: n) as n' eqn:En. intros I. induction H' as [|c' l' n' N' H' IH'|c' l' n' N' H' IH']; [discriminate En| |]; intros I' t u o p A B.
    + injection En as -> ->. pose proof (I c (or_introl eq_refl)) as J. pose proof (I' c (or_introl eq_refl)) as J'. unfold texts in J, J'. apply in_map_iff in J. apply in_map_iff in J'. destruct J as (x & X & Ix). destruct J' as (x' & X' & Ix').
      destruct (note_step file file' g g' t u o p x x' c Ix Ix' (eq_sym X) (eq_sym X') A B) as (t1 & u1 & o1 & p1 & E1 & E2 & A1 & B1).
      destruct (IH l' H' (fun c Ic => I c (or_intror Ic)) (fun c Ic => I' c (or_intror Ic)) t1 u1 o1 p1 A1 B1) as (t2 & u2 & o2 & p2 & R1 & R2 & R3 & R4).
      exists t2, u2, o2, p2. split; [cbn [read_comments]; rewrite E1; exact R1|]. split; [cbn [read_comments]; rewrite E2; exact R2|]. auto.
    + destruct (C50_remark file' g' u p c' N') as (u1 & E1 & A1 & _).
      destruct (IH' En (fun c Ic => I' c (or_intror Ic)) t u1 o p) as (t2 & u2 & o2 & p2 & R1 & R2 & R3 & R4); [unfold alike in *; congruence|exact B|].
      exists t2, u2, o2, p2. split; [exact R1|]. split; [cbn [read_comments]; rewrite E1; exact R2|]. auto.
  - intros I I' t u o p A B. destruct (C50_remark file g t o c N) as (t1 & E1 & A1 & _).
    destruct (IH l' H' (fun c Ic => I c (or_intror Ic)) I' t1 u o p) as (t2 & u2 & o2 & p2 & R1 & R2 & R3 & R4); [unfold alike in *; congruence|exact B|].
    exists t2, u2, o2, p2. split; [cbn [read_comments]; rewrite E1; exact R1|]. split; [exact R2|]. auto.
Qed.
Lemma field_alike : forall cfg look type f t u, alike t u ->
  match read_field cfg look type t f, read_field cfg look type u f with Ok a, Ok b => alike a b | Err, Err | Panic, Panic | OutOfFuel, OutOfFuel => True | _, _ => False end.
Proof.
  intros cfg look type f t u A. unfold read_field. destruct (f_tag f) as [value|]; [|exact Logic.I]. cbv zeta.
  destruct (String.eqb _ "-").
  { unfold first_name. destruct (f_names f) as [|n r]; [exact Logic.I|]. cbn [bind]. parts. }
  match goal with |- context [bind ?x] => match x with (if _ then _ else _) => destruct x as [[name comments]| | |] end end; try exact Logic.I. cbn [bind].
  destruct (_ || _); [exact A|]. match goal with |- context [bind ?x] => match x with (if _ then _ else _) => destruct x as [cs| | |] end end; try exact Logic.I. cbn [bind].
  destruct (_ || _); parts.
Qed.
Lemma fields_alike : forall cfg look type l t u, alike t u ->
  match read_fields cfg look type l t, read_fields cfg look type l u with Ok a, Ok b => alike a b | Err, Err | Panic, Panic | OutOfFuel, OutOfFuel => True | _, _ => False end.
Proof.
  intros cfg look type. induction l as [|f l IH]; intros t u A; [exact A|]. cbn [read_fields]. pose proof (field_alike cfg look type f t u A) as H.
  destruct (read_field cfg look type t f), (read_field cfg look type u f); try exact H; try contradiction. cbn [bind]. apply IH. exact H.
Qed.
(** Two annotated groups with the same notes ask for the same statements, whatever else they
    say, wherever they stand and whatever the struct is. *)
Theorem C50_only_notes_count : forall cfg look short file file' r r' n,
  s_type r = s_type r' -> s_struct r = s_struct r' -> notes_of (texts (s_group r)) n -> notes_of (texts (s_group r')) n ->
  same_result (read_source cfg look short file r) (read_source cfg look short file' r').
Proof.
  intros cfg look short file file' r r' n Et Es N N'. unfold read_source.
  destruct (remarks_left file file' (s_group r) (s_group r') n _ N _ N' (fun c H => H) (fun c H => H) (mkGTable file (s_line r) [] "" [] [] [] []) (mkGTable file' (s_line r') [] "" [] [] [] []) [] [] eq_refl eq_refl) as (t & u & o & p & E & E' & A & B).
  unfold texts in E, E'. rewrite E, E'. cbn [bind]. rewrite <- Et, <- Es.
  match goal with |- same_result (bind (match s_struct r with Some fields => read_fields _ _ _ fields ?a | None => _ end) _) (bind (match s_struct r with Some fields2 => read_fields _ _ _ fields2 ?b | None => _ end) _) => set (t1 := a); set (u1 := b) end.
  assert (A1 : alike t1 u1).
  { unfold t1, u1. pose proof A as A0. apply alike_parts in A0. destruct A0 as (C & _). rewrite C. destruct (s_type r); [|exact A]. destruct (String.eqb (g_create u) ""); [parts; reflexivity|exact A]. }
  clearbody t1 u1.
  assert (F : forall a b, alike a b ->
    map bare (o ++ match g_columns (if String.eqb (g_create a) "" then add_comment a (msg_no_table short file (group_line (s_group r)) (ddl_tag cfg)) else match g_columns a with [] => add_comment a (msg_no_columns short file (group_line (s_group r)) (ddl_tag cfg)) | _ => a end) with [] => [] | _ => [GTable (if String.eqb (g_create a) "" then add_comment a (msg_no_table short file (group_line (s_group r)) (ddl_tag cfg)) else match g_columns a with [] => add_comment a (msg_no_columns short file (group_line (s_group r)) (ddl_tag cfg)) | _ => a end)] end)%list
    = map bare (p ++ match g_columns (if String.eqb (g_create b) "" then add_comment b (msg_no_table short file' (group_line (s_group r')) (ddl_tag cfg)) else match g_columns b with [] => add_comment b (msg_no_columns short file' (group_line (s_group r')) (ddl_tag cfg)) | _ => b end) with [] => [] | _ => [GTable (if String.eqb (g_create b) "" then add_comment b (msg_no_table short file' (group_line (s_group r')) (ddl_tag cfg)) else match g_columns b with [] => add_comment b (msg_no_columns short file' (group_line (s_group r')) (ddl_tag cfg)) | _ => b end)] end)%list).
  { intros a b Q. rewrite !map_app, B. f_equal. pose proof Q as Q0. apply alike_parts in Q0. destruct Q0 as (C & D & _). rewrite C.
    destruct (g_columns a) as [|x xs] eqn:Ga, (g_columns b) as [|y ys] eqn:Gb; try discriminate D.
    - destruct (String.eqb (g_create b) ""); cbn [add_comment g_columns]; rewrite ?Ga, ?Gb; reflexivity.
    - destruct (String.eqb (g_create b) ""); cbn [add_comment g_columns]; rewrite ?Ga, ?Gb; cbn [map]; f_equal; [|exact Q]. change (alike (add_comment a (msg_no_table short file (group_line (s_group r)) (ddl_tag cfg))) (add_comment b (msg_no_table short file' (group_line (s_group r')) (ddl_tag cfg)))). clear - Q. parts. }
  destruct (s_struct r) as [fs|]; [|cbn [bind same_result]; apply F; exact A1].
  pose proof (fields_alike cfg look (match s_type r with Some n => n | None => "" end) fs t1 u1 A1) as H.
  destruct (read_fields cfg look _ fs t1) as [a| | |], (read_fields cfg look _ fs u1) as [b| | |]; try contradiction; try exact Logic.I. cbn [bind same_result]. apply F. exact H.
Qed.
Print Assumptions C50_only_notes_count.

(** ** Examples *)
Example C50_note_example : is_note "See: index: below" /\ is_note "pgddl: table CREATE TABLE t" /\ ~ is_note "pgddl: tables" /\ ~ is_note "an index: i ON t (a)" /\ ~ is_note "pgddl:".
Proof.
  split; [apply note_found; left; vm_compute; discriminate|]. split; [apply note_found; right; left; vm_compute; discriminate|].
  repeat split; apply remark_missed; repeat split; vm_compute; reflexivity.
Qed.
Example C50_groups_example : exists n, n = ["pgddl: table: users"; "pgddl: index: i ON users (a)"]
  /\ notes_of (texts [mkLine "// pgddl: table: users" 3; mkLine "// who: all of them" 4; mkLine "// pgddl: index: i ON users (a)" 5]) n
  /\ notes_of (texts [mkLine "// the table" 7; mkLine "//pgddl: table: users" 8; mkLine "/* pgddl: index: i ON users (a)" 9; mkLine "//" 10]) n.
Proof.
  assert (Y : forall c, match_index c <> None \/ match_table c <> None -> is_note c) by (intros c H; apply note_found; tauto).
  assert (X : forall c, match_index c = None -> match_table c = None -> match_constraint c = None -> match_option c = None -> ~ is_note c) by (intros c A B C D; apply remark_missed; auto).
  eexists. split; [reflexivity|]. split.
  - change (texts _) with ["pgddl: table: users"; "who: all of them"; "pgddl: index: i ON users (a)"].
    apply notes_note; [apply Y; right; vm_compute; discriminate|]. apply notes_remark; [apply X; vm_compute; reflexivity|]. apply notes_note; [apply Y; left; vm_compute; discriminate|]. constructor.
  - change (texts _) with ["the table"; "pgddl: table: users"; "pgddl: index: i ON users (a)"; ""].
    apply notes_remark; [apply X; vm_compute; reflexivity|]. apply notes_note; [apply Y; right; vm_compute; discriminate|]. apply notes_note; [apply Y; left; vm_compute; discriminate|].
    apply notes_remark; [apply X; vm_compute; reflexivity|]. constructor.
Qed.
