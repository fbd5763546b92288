(** Facts for C80. *)
From Coq Require Import Permutation Sorted Lia.
From Verif Require Import GoStr Token Lexer Ast Parser Lines IndexText LinesFacts ApplyFacts PlainSource Generate GenSpec GenFacts GenOrder GenText GenTold GenToldFacts WarnSpec.

Lemma contains_in : forall w s, (exists a b, s = a ++ w ++ b) -> contains w s = true.
Proof. intros w s (a & b & ->). apply contains_part. apply contains_self. Qed.

Ltac found a b := exists a, b; rewrite ?append_assoc; reflexivity.
Lemma said_ignored : forall ty name tag, remark "NOTE" [in_quotes ty; in_quotes name; tag ++ ":" ++ in_quotes "-"] (msg_ignored ty name tag).
Proof.
  intros ty name tag. split; [eexists; reflexivity|]. unfold msg_ignored, in_quotes. constructor; [|constructor; [|constructor; [|constructor]]]; apply contains_in.
  - found "NOTE: the " (" struct's """ ++ name ++ """ field has a tag for column name (`" ++ tag ++ ":""-""`), so the field is ignored.").
  - found ("NOTE: the """ ++ ty ++ """ struct's ") (" field has a tag for column name (`" ++ tag ++ ":""-""`), so the field is ignored.").
  - found ("NOTE: the """ ++ ty ++ """ struct's """ ++ name ++ """ field has a tag for column name (`") "`), so the field is ignored.".
Qed.
Lemma said_named : forall ty name tag, remark "WARN" [in_quotes ty; in_quotes name; tag ++ ":"] (msg_field_name ty name tag).
Proof.
  intros ty name tag. split; [eexists; reflexivity|]. unfold msg_field_name, in_quotes. constructor; [|constructor; [|constructor; [|constructor]]]; apply contains_in.
  - found "WARN: the " (" struct's """ ++ name ++ """ field does not have a tag for column name (`" ++ tag ++ ":""<ColumnName>""`), so the field name """ ++ name ++ """ is used as the column name.").
  - found ("WARN: the """ ++ ty ++ """ struct's ") (" field does not have a tag for column name (`" ++ tag ++ ":""<ColumnName>""`), so the field name """ ++ name ++ """ is used as the column name.").
  - found ("WARN: the """ ++ ty ++ """ struct's """ ++ name ++ """ field does not have a tag for column name (`") ("""<ColumnName>""`), so the field name """ ++ name ++ """ is used as the column name.").
Qed.
Lemma said_no_key : forall name tag, remark "WARN" [in_quotes name; tag ++ ":" ++ in_quotes "true"] (msg_primary name tag).
Proof.
  intros name tag. split; [eexists; reflexivity|]. unfold msg_primary, in_quotes. constructor; [|constructor; [|constructor]]; apply contains_in.
  - found "WARN: the field " (" does not have valid primary key tag (`" ++ tag ++ ":""true""`), so the column is not used as primary key.").
  - found ("WARN: the field """ ++ name ++ """ does not have valid primary key tag (`") "`), so the column is not used as primary key.".
Qed.
Lemma said_struct : forall short file n tag name, remark "WARN" [short file ++ ":" ++ itoa n; in_quotes name] (msg_struct_name short file n tag name).
Proof.
  intros short file n tag name. split; [eexists; reflexivity|]. unfold msg_struct_name, at_line, in_quotes. constructor; [|constructor; [|constructor]]; apply contains_in.
  - found "WARN: the comment (" (") does not have a key for table (" ++ tag ++ ": table: CREATE TABLE <table>), so the struct name """ ++ name ++ """ is used as the table name.").
  - found ("WARN: the comment (" ++ short file ++ ":" ++ itoa n ++ ") does not have a key for table (" ++ tag ++ ": table: CREATE TABLE <table>), so the struct name ") " is used as the table name.".
Qed.

(** * Fields *)

Definition grows (t t' : gtable) : Prop := incl (g_comments t) (g_comments t') /\ incl (g_columns t) (g_columns t').
Lemma grows_refl : forall t, grows t t.
Proof. intro t. split; apply incl_refl. Qed.
Lemma grows_trans : forall a b c, grows a b -> grows b c -> grows a c.
Proof. intros a b c [H1 H2] [H3 H4]. split; eapply incl_tran; eassumption. Qed.
Lemma field_trim : forall f tag, tag_of f tag -> exists v, f_tag f = Some v /\ trim_byte ch_bquote v = tag.
Proof. intros f tag [E B]. eexists. split; [exact E|]. apply trim_tag. exact B. Qed.

Lemma first_called : forall f n, first_name f = Ok n -> called f n.
Proof. intros f n H. unfold first_name in H. destruct (f_names f) as [|x l] eqn:E; [discriminate|]. injection H as <-. exists l. exact E. Qed.
Lemma called_eq : forall f n m, called f n -> called f m -> n = m.
Proof. intros f n m (l & E) (k & E'). congruence. Qed.

(** What reading a field does. *)
Inductive field_effect (cfg : settings) (look : string -> string -> string) (ty : string) (t : gtable) (f : field) (tag : string) (t' : gtable) : Prop :=
| eff_ignored : forall name, look tag (column_tag cfg) = "-" -> called f name -> t' = add_comment t (msg_ignored ty name (column_tag cfg)) -> field_effect cfg look ty t f tag t'
| eff_untyped : look tag (column_tag cfg) <> "-" -> void (look tag (ddl_tag cfg)) -> t' = t -> field_effect cfg look ty t f tag t'
| eff_column : forall column a b doc, look tag (column_tag cfg) <> "-" -> ~ void (look tag (ddl_tag cfg)) ->
    (look tag (column_tag cfg) <> "" /\ column = look tag (column_tag cfg) /\ a = []
     \/ look tag (column_tag cfg) = "" /\ called f column /\ a = [msg_field_name ty column (column_tag cfg)]) ->
    (understood (look tag (pk_tag cfg)) /\ b = [] \/ ~ understood (look tag (pk_tag cfg)) /\ exists name, called f name /\ b = [msg_primary name (pk_tag cfg)]) ->
    doc = trim_tail_empty (trim_has_prefix (split nl (trim_byte ch_nl (f_doc f))) (ddl_tag cfg)) ->
    g_comments t' = g_comments t -> g_columns t' = (g_columns t ++ [mkGColumn (a ++ b ++ doc) column (look tag (ddl_tag cfg))])%list ->
    field_effect cfg look ty t f tag t'.

Lemma understood_dec : forall s, String.eqb s "true" || String.eqb s "1" || String.eqb s "" || String.eqb s "-" = true <-> understood s.
Proof.
  intro s. unfold understood. cbn [In]. rewrite !orb_true_iff, !String.eqb_eq. intuition congruence.
Qed.
Lemma read_field_effect : forall cfg look ty t f tag t', tag_of f tag -> read_field cfg look ty t f = Ok t' -> field_effect cfg look ty t f tag t'.
Proof.
  intros cfg look ty t f tag t' T H. destruct (field_trim f tag T) as (v & E & Tv). unfold read_field in H. rewrite E, Tv in H. clear E Tv v.
  destruct (String.eqb (look tag (column_tag cfg)) "-") eqn:D.
  { apply String.eqb_eq in D. apply bind_Ok in H. destruct H as (n & N & H). injection H as <-. eapply eff_ignored; [exact D|apply first_called; exact N|reflexivity]. }
  apply String.eqb_neq in D. apply bind_Ok in H. destruct H as ((column & a) & N & H).
  destruct (String.eqb (look tag (ddl_tag cfg)) "" || String.eqb (look tag (ddl_tag cfg)) "-") eqn:V.
  { injection H as <-. apply eff_untyped; [exact D| |reflexivity]. unfold void. apply orb_true_iff in V. rewrite !String.eqb_eq in V. exact V. }
  assert (~ void (look tag (ddl_tag cfg))) as V'. { intros [X|X]; rewrite X in V; discriminate. }
  apply bind_Ok in H. destruct H as (cs & P & H). injection H as <-.
  assert (exists b, cs = (a ++ b)%list /\ (understood (look tag (pk_tag cfg)) /\ b = [] \/ ~ understood (look tag (pk_tag cfg)) /\ exists name, called f name /\ b = [msg_primary name (pk_tag cfg)])) as (b & -> & B).
  { destruct (String.eqb (look tag (pk_tag cfg)) "true" || String.eqb (look tag (pk_tag cfg)) "1" || String.eqb (look tag (pk_tag cfg)) "" || String.eqb (look tag (pk_tag cfg)) "-") eqn:U.
    - injection P as <-. exists []. split; [symmetry; apply app_nil_r|]. left. split; [apply understood_dec; exact U|reflexivity].
    - apply bind_Ok in P. destruct P as (n & N' & P). injection P as <-. eexists. split; [reflexivity|]. right. split; [rewrite <- understood_dec, U; discriminate|].
      exists n. split; [apply first_called; exact N'|reflexivity]. }
  eapply (eff_column _ _ _ _ _ _ _ column a b).
  - exact D.
  - exact V'.
  - destruct (String.eqb (look tag (column_tag cfg)) "") eqn:C.
    + right. apply bind_Ok in N. destruct N as (n & N & X). injection X as <- <-. apply String.eqb_eq in C. split; [exact C|]. split; [apply first_called; exact N|reflexivity].
    + left. injection N as <- <-. apply String.eqb_neq in C. repeat split. exact C.
  - exact B.
  - reflexivity.
  - destruct (String.eqb (look tag (pk_tag cfg)) "true" || _); reflexivity.
  - rewrite app_assoc. destruct (String.eqb (look tag (pk_tag cfg)) "true" || _); reflexivity.
Qed.

Lemma field_grows : forall cfg look ty t f t', read_field cfg look ty t f = Ok t' -> grows t t'.
Proof.
  intros cfg look ty t f t' H. unfold read_field in H. destruct (f_tag f) as [v|]; [|discriminate].
  destruct (String.eqb _ "-"). { apply bind_Ok in H. destruct H as (n & _ & H). injection H as <-. split; [apply incl_appl|]; apply incl_refl. }
  apply bind_Ok in H. destruct H as ((c & a) & _ & H). destruct (_ || _). { injection H as <-. apply grows_refl. }
  apply bind_Ok in H. destruct H as (cs & _ & H). injection H as <-. destruct (_ || _); split; cbn; try apply incl_appl; apply incl_refl.
Qed.
Lemma fields_grow : forall cfg look ty l t t', read_fields cfg look ty l t = Ok t' -> grows t t'.
Proof.
  induction l as [|f l IH]; intros t t' H; cbn [read_fields] in H.
  - injection H as <-. apply grows_refl.
  - apply bind_Ok in H. destruct H as (u & H1 & H). eapply grows_trans; [eapply field_grows; exact H1|apply IH; exact H].
Qed.

Lemma ignored_grows : forall cfg look ty t t' f, grows t t' -> says_ignored cfg look ty t f -> says_ignored cfg look ty t' f.
Proof. intros cfg look ty t t' f [G _] H tag name T N D. destruct (H tag name T N D) as (c & I & R). exists c. split; [apply G; exact I|exact R]. Qed.
Lemma named_grows : forall cfg look ty t t' f, grows t t' -> says_named cfg look ty t f -> says_named cfg look ty t' f.
Proof. intros cfg look ty t t' f [_ G] H tag name T N D V. destruct (H tag name T N D V) as (c & m & I & R). exists c, m. split; [apply G; exact I|exact R]. Qed.
Lemma no_key_grows : forall cfg look t t' f, grows t t' -> says_no_key cfg look t f -> says_no_key cfg look t' f.
Proof. intros cfg look t t' f [_ G] H tag name T N D V U. destruct (H tag name T N D V U) as (c & m & k & I & R). exists c, m, k. split; [apply G; exact I|exact R]. Qed.

Lemma field_said : forall cfg look ty t f t', read_field cfg look ty t f = Ok t' ->
  says_ignored cfg look ty t' f /\ says_named cfg look ty t' f /\ says_no_key cfg look t' f.
Proof.
  intros cfg look ty t f t' H. split; [|split].
  - intros tag name T N D. destruct (read_field_effect _ _ _ _ _ _ _ T H) as [n E C ->|E _ _|column a b doc E _ _ _ _ _ _]; [|contradiction|contradiction].
    rewrite (called_eq _ _ _ N C). eexists. split; [apply in_or_app; right; left; reflexivity|]. apply said_ignored.
  - intros tag name T N D V. destruct (read_field_effect _ _ _ _ _ _ _ T H) as [n E C ->|E V' _|column a b doc E _ A B _ _ G]; [congruence|contradiction|].
    destruct A as [(X & _)|(_ & C & ->)]; [contradiction|]. rewrite (called_eq _ _ _ N C). rewrite G. do 2 eexists. split; [apply in_or_app; right; left; reflexivity|]. apply said_named.
  - intros tag name T N D V U. destruct (read_field_effect _ _ _ _ _ _ _ T H) as [n E C ->|E V' _|column a b doc E _ A B _ _ G]; [congruence|contradiction|].
    destruct B as [(X & _)|(_ & n & C & ->)]; [contradiction|]. rewrite <- (called_eq _ _ _ N C) in G. rewrite G. do 3 eexists. split; [apply in_or_app; right; left; reflexivity|]. split; [|split].
    + apply in_or_app. right. left. reflexivity.
    + destruct A as [(_ & X & _)|(X & C' & _)]; [left; exact X|right; split; [exact X|]]. apply (called_eq _ _ _ C' N).
    + apply said_no_key.
Qed.
Lemma fields_said : forall cfg look ty l t t', read_fields cfg look ty l t = Ok t' ->
  Forall (says_ignored cfg look ty t') l /\ Forall (says_named cfg look ty t') l /\ Forall (says_no_key cfg look t') l.
Proof.
  induction l as [|f l IH]; intros t t' H; cbn [read_fields] in H; [repeat split; constructor|].
  apply bind_Ok in H. destruct H as (u & H1 & H). pose proof (fields_grow _ _ _ _ _ _ H) as G. destruct (IH _ _ H) as (A & B & C). destruct (field_said _ _ _ _ _ _ H1) as (A1 & B1 & C1).
  repeat split; constructor; try assumption.
  - eapply ignored_grows; eassumption.
  - eapply named_grows; eassumption.
  - eapply no_key_grows; eassumption.
Qed.

Lemma doc_lines : forall doc p c, In c (trim_tail_empty (trim_has_prefix (split nl (trim_byte ch_nl doc)) p)) -> contains c doc = true.
Proof.
  intros doc p c I. assert (In c (trim_has_prefix (split nl (trim_byte ch_nl doc)) p)) as I'.
  { destruct (trim_has_prefix (split nl (trim_byte ch_nl doc)) p) as [|x l] eqn:E; [exact I|]. unfold trim_tail_empty in I. destruct (String.eqb _ _); [|exact I].
    rewrite (app_removelast_last "" (l := x :: l)) by discriminate. apply in_or_app. left. exact I. }
  apply filter_In in I'. destruct I' as [I' _]. apply line_part in I'. destruct I' as (a & b & E). destruct (trim_byte_part ch_nl doc) as (a' & b' & E').
  apply contains_in. exists (a' ++ a), (b ++ b'). rewrite E' at 1. rewrite E. rewrite !append_assoc. reflexivity.
Qed.
Definition from_docs (l : list field) (col : gcolumn) : Prop := Forall (fun c => exists f, In f l /\ contains c (f_doc f) = true) (gc_comments col).
Lemma fields_silent : forall cfg look ty l t t', read_fields cfg look ty l t = Ok t' -> Forall (spelled_out cfg look) l ->
  g_comments t' = g_comments t /\ exists more, g_columns t' = (g_columns t ++ more)%list /\ Forall (from_docs l) more.
Proof.
  induction l as [|f l IH]; intros t t' H F; cbn [read_fields] in H.
  - injection H as <-. split; [reflexivity|]. exists []. split; [symmetry; apply app_nil_r|constructor].
  - apply bind_Ok in H. destruct H as (u & H1 & H). inversion F as [|? ? (tag & T & V & U) F']; subst.
    destruct (IH _ _ H F') as (E & more & G & D).
    assert (forall col, from_docs l col -> from_docs (f :: l) col) as W. { intros col. apply Forall_impl. intros c (x & I & X). exists x. split; [right; exact I|exact X]. }
    destruct (read_field_effect _ _ _ _ _ _ _ T H1) as [n X C ->|X Y ->|column a b doc X Y A B Z E1 G1].
    + exfalso. apply V. right. exact X.
    + split; [exact E|]. exists more. split; [exact G|]. eapply Forall_impl; [exact W|exact D].
    + split; [congruence|]. rewrite G, G1, <- app_assoc. eexists. split; [reflexivity|]. cbn [app]. constructor; [|eapply Forall_impl; [exact W|exact D]].
      destruct A as [(_ & _ & ->)|(A & _)]; [|exfalso; apply V; left; exact A]. destruct B as [(_ & ->)|(B & _)]; [|contradiction].
      unfold from_docs. cbn [gc_comments app]. apply Forall_forall. intros c I. exists f. split; [left; reflexivity|]. subst doc. eapply doc_lines. exact I.
Qed.

(** * Comment groups *)

Lemma comments_from : forall file g l t out t' out', read_comments file g l (t, out) = Ok (t', out') -> g_columns t = [] ->
  Forall (fun s => match s with GIndex _ => True | GTable _ => False end) out ->
  incl (g_comments t') (g_comments t ++ l) /\ g_columns t' = [] /\ Forall (fun s => match s with GIndex _ => True | GTable _ => False end) out'.
Proof.
  induction l as [|c l IH]; intros t out t' out' H C F; cbn [read_comments] in H.
  - injection H as <- <-. rewrite app_nil_r. split; [apply incl_refl|split; assumption].
  - apply bind_Ok in H. destruct H as ((u & o) & H1 & H).
    assert (incl (g_comments u) (g_comments t ++ [c]) /\ g_columns u = [] /\ Forall (fun s => match s with GIndex _ => True | GTable _ => False end) o) as (U & Cu & Fo).
    { unfold read_comment in H1. destruct (match_index c).
      - destruct (containing g c); [|discriminate]. injection H1 as <- <-. split; [apply incl_appl; apply incl_refl|]. split; [exact C|]. apply Forall_app. split; [exact F|]. repeat constructor.
      - injection H1 as <- <-. destruct (match_table c); [|destruct (match_constraint c); [|destruct (match_option c)]]; (split; [apply incl_refl|split; [exact C|exact F]]). }
    destruct (IH _ _ _ _ H Cu Fo) as (I & R). split; [|exact R]. intros x X. apply I in X. apply in_app_or in X. apply in_or_app. destruct X as [X|X]; [|right; right; exact X].
    apply U in X. apply in_app_or in X. destruct X as [X|[->|[]]]; [left; exact X|right; left; reflexivity].
Qed.

Lemma last_type_in : forall l ty, last_type l = Some ty -> In ty (map ts_name l).
Proof.
  intros l ty. unfold last_type. assert (forall acc, fold_left (fun acc t => Some (ts_name t)) l acc = Some ty -> acc = Some ty \/ In ty (map ts_name l)) as K.
  { induction l as [|x l IH]; intros acc H; cbn in *; [left; exact H|]. destruct (IH _ H) as [E|I]; [injection E as <-; right; left; reflexivity|right; right; exact I]. }
  intro H. destruct (K _ H) as [E|I]; [discriminate|exact I].
Qed.
Lemma last_struct_in : forall l fs, last_struct l = Some fs -> In (Some fs) (map ts_fields l).
Proof.
  intros l fs. unfold last_struct.
  assert (forall acc, fold_left (fun acc t => match ts_fields t with Some fs => Some fs | None => acc end) l acc = Some fs -> acc = Some fs \/ In (Some fs) (map ts_fields l)) as K.
  { induction l as [|x l IH]; intros acc H; cbn in *; [left; exact H|]. destruct (IH _ H) as [E|I]; [|right; right; exact I]. destruct (ts_fields x); [right; left; exact E|left; exact E]. }
  intro H. destruct (K _ H) as [E|I]; [discriminate|exact I].
Qed.

Lemma source_explained : forall cfg look short file r out t, good_tag (ddl_tag cfg) = true -> s_group r <> [] -> (s_struct r <> None -> s_type r <> None) ->
  read_source cfg look short file r = Ok out -> In (GTable t) out ->
  exists ty fields, s_type r = Some ty /\ s_struct r = Some fields /\ explains cfg look short file ty fields (s_group r) t.
Proof.
  intros cfg look short file r out t GT NE ST H I. unfold read_source in H. apply bind_Ok in H. destruct H as ((t0 & o) & R & H).
  set (g := s_group r) in *. set (l := map (fun l => clean (cl_text l)) g) in *.
  destruct (comments_from _ _ _ _ _ _ _ R eq_refl (Forall_nil _)) as (C0 & K0 & F0). cbn [g_comments app] in C0.
  destruct (read_comments_notes file g l (mkGTable file (s_line r) [] "" [] [] [] []) [] (clean_members g)) as (t1 & o1 & R1 & N1 & _).
  rewrite R in R1. injection R1 as <- <-. cbn [g_create] in N1.
  apply bind_Ok in H. destruct H as (u & Hu & H). injection H as <-.
  apply in_app_or in I. destruct I as [I|I]. { rewrite Forall_forall in F0. contradiction (F0 _ I). }
  destruct (s_struct r) as [fields|] eqn:Es.
  2: { exfalso. injection Hu as <-. assert (g_columns (match s_type r with Some name => if String.eqb (g_create t0) "" then set_table (add_comment t0 (msg_struct_name short file (group_line g) (ddl_tag cfg) name)) name else t0 | None => t0 end) = []) as K.
       { clear I. destruct (s_type r); [destruct (String.eqb (g_create t0) "")|]; exact K0. }
       match type of I with context [if String.eqb (g_create ?u) "" then add_comment _ (msg_no_table _ _ _ _) else _] => destruct (String.eqb (g_create u) "") end; [|rewrite K in I]; cbn [add_comment g_columns] in I; rewrite K in I; contradiction. }
  destruct (s_type r) as [ty|] eqn:Et; [|exfalso; apply ST; [discriminate|reflexivity]].
  exists ty, fields. split; [reflexivity|]. split; [reflexivity|].
  set (t2 := if String.eqb (g_create t0) "" then set_table (add_comment t0 (msg_struct_name short file (group_line g) (ddl_tag cfg) ty)) ty else t0) in *.
  assert (grows u t /\ (g_create u <> "" -> t = u)) as [Gu Tu].
  { destruct (String.eqb (g_create u) "") eqn:Z.
    - cbn [add_comment g_columns] in I. destruct (g_columns u) eqn:Q; [contradiction|]. destruct I as [I|[]]. injection I as <-.
      split; [split; cbn; [apply incl_appl; apply incl_refl|rewrite Q; apply incl_refl]|]. intro X. apply String.eqb_eq in Z. contradiction.
    - destruct (g_columns u) eqn:Q; [cbn [add_comment g_columns] in I; rewrite Q in I; contradiction|]. rewrite Q in I. destruct I as [I|[]]. injection I as <-. split; [apply grows_refl|reflexivity]. }
  destruct (fields_said _ _ _ _ _ _ Hu) as (A & B & C). pose proof (fields_grow _ _ _ _ _ _ Hu) as G2.
  assert (g_create u <> "") as NU.
  { pose proof (read_fields_keeps _ _ _ _ _ _ Hu) as (_ & _ & X & _). rewrite X. unfold t2. destruct (String.eqb (g_create t0) "") eqn:Z; [cbn [set_table g_create]; apply set_create_nonempty|apply String.eqb_neq; exact Z]. }
  constructor.
  - rewrite (Tu NU). exact NU.
  - eapply Forall_impl; [|exact A]. intros f. apply ignored_grows. exact Gu.
  - eapply Forall_impl; [|exact B]. intros f. apply named_grows. exact Gu.
  - eapply Forall_impl; [|exact C]. intros f. apply no_key_grows. exact Gu.
  - intros notes Gn Tn. pose proof (group_notes _ _ _ GT Gn) as En. fold l in En. rewrite En, Tn in N1. cbn [last] in N1.
    destruct g as [|l0 g0] eqn:Eg; [contradiction|]. exists (msg_struct_name short file (cl_line l0) (ddl_tag cfg) ty), l0, g0. split; [reflexivity|]. split; [|apply said_struct].
    apply Gu. apply G2. unfold t2. rewrite N1. cbn [String.eqb set_table add_comment g_comments group_line]. apply in_or_app. right. left. reflexivity.
  - intros notes Gn Tn F. pose proof (group_notes _ _ _ GT Gn) as En. fold l in En.
    assert (g_create t0 <> "") as NZ. { rewrite N1. apply (table_notes_nonempty l). rewrite En. apply last_member. exact Tn. }
    assert (t2 = t0) as T2. { unfold t2. destruct (String.eqb (g_create t0) "") eqn:Z; [apply String.eqb_eq in Z; contradiction|reflexivity]. }
    rewrite T2 in Hu. destruct (fields_silent _ _ _ _ _ _ Hu F) as (E & more & M & D). pose proof (read_fields_keeps _ _ _ _ _ _ Hu) as KP.
    assert (t = u) as ->. { apply Tu. destruct KP as (_ & _ & X & _). congruence. }
    split.
    + rewrite E. apply Forall_forall. intros c Ic. apply C0 in Ic. apply clean_members in Ic. destruct Ic as (x & Ix & ->). destruct (clean_suffix (cl_text x)) as (a & Ex). exists x, a. split; assumption.
    + rewrite M, K0. exact D.
Qed.

(** * The text *)

Lemma concat_part : forall l x, In x l -> exists a b, concat_str l = a ++ x ++ b.
Proof.
  induction l as [|y l IH]; intros x I; [contradiction|]. destruct I as [->|I]; cbn [concat_str].
  - exists "", (concat_str l). reflexivity.
  - destruct (IH x I) as (a & b & E). exists (y ++ a), b. rewrite E, append_assoc. reflexivity.
Qed.
Lemma comments_part : forall indent l c, c <> "" -> In c l -> exists a b, print_comments indent l = a ++ ("-- " ++ c ++ nl) ++ b.
Proof.
  intros indent l c N I. unfold print_comments. destruct (concat_part (map (print_comment indent) l) (print_comment indent c) (in_map _ _ _ I)) as (a & b & E).
  rewrite E. unfold print_comment. apply String.eqb_neq in N. rewrite N. exists (a ++ indent), b. rewrite !append_assoc. reflexivity.
Qed.
Lemma part_left : forall w s x, (exists a b, s = a ++ w ++ b) -> exists a b, x ++ s = a ++ w ++ b.
Proof. intros w s x (a & b & ->). exists (x ++ a), b. rewrite append_assoc. reflexivity. Qed.
Lemma part_right : forall w s x, (exists a b, s = a ++ w ++ b) -> exists a b, s ++ x = a ++ w ++ b.
Proof. intros w s x (a & b & ->). exists a, (b ++ x). rewrite !append_assoc. reflexivity. Qed.
Lemma columns_part : forall d indent w l tc col, In col l -> exists a b, print_columns d indent w l tc = a ++ print_comments indent (gc_comments col) ++ b.
Proof.
  induction l as [|x l IH]; intros tc col I; [contradiction|]. cbn [print_columns]. destruct I as [->|I].
  - eexists "", _. reflexivity.
  - do 6 apply part_left. apply IH. exact I.
Qed.
Lemma part_trans : forall w s t, (exists a b, t = a ++ s ++ b) -> (exists a b, s = a ++ w ++ b) -> exists a b, t = a ++ w ++ b.
Proof. intros w s t (a & b & ->) (a' & b' & ->). exists (a ++ a'), (b' ++ b). rewrite !append_assoc. reflexivity. Qed.
Lemma table_part : forall d short indent t col, g_create t <> "" -> In col (g_columns t) -> exists a b, print_table d short indent t = a ++ print_comments indent (gc_comments col) ++ b.
Proof.
  intros d short indent t col N I. unfold print_table. apply String.eqb_neq in N. rewrite N.
  do 5 apply part_left. apply part_right. destruct d; apply part_right; apply columns_part; exact I.
Qed.
Lemma head_part : forall d short indent t, exists a b, print_table d short indent t = a ++ print_comments "" (g_comments t) ++ b.
Proof. intros d short indent t. unfold print_table. eexists _, _. reflexivity. Qed.
Lemma stmt_part : forall d short l s, In s l -> exists a b, print_ddl d short l = a ++ print_stmt d short indent4 s ++ b.
Proof.
  intros d short l s I. unfold print_ddl. destruct (concat_part _ _ (in_map (fun s => nl ++ print_stmt d short indent4 s) l s I)) as (a & b & E). rewrite E.
  exists (print_comments "" header ++ a ++ nl), b. rewrite !append_assoc. reflexivity.
Qed.
Lemma remark_nonempty : forall kind words c, remark kind words c -> c <> "".
Proof. intros kind words c ((rest & ->) & _) E. destruct kind; discriminate. Qed.
