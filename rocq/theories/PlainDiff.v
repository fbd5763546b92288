(** The statements of a difference of plain schemas survive being cut out of the displayed text (for C69). *)
From Coq Require Import Lia Permutation.
From Verif Require Import GoStr Token Lexer Ast Parser Diff Tidy IndexText Lines LinesFacts Apply ApplySpec AppendFacts Plain PlainText PlainPrint.
Local Open Scope list_scope.

Definition calm (d : dialect) (s : stmt) : Prop := (forall q, text_of d s q -> ApplySpec.clean q = true) /\ clean_comment (comment_of s) = true.

Lemma cut_end : forall a b z : string, (a ++ z = b ++ z)%string -> a = b.
Proof.
  intros a b z E. assert (L : String.length a = String.length b) by (apply (f_equal String.length) in E; rewrite !length_app in E; lia).
  revert b E L. induction a as [|c a IH]; intros [|e b] E L; try discriminate L; [reflexivity|]. cbn [append] in E. inversion E. f_equal. apply IH; [assumption|]. cbn in L. lia.
Qed.
Lemma append_in : forall d srt, srt_ok srt -> forall new cs l x, append_constraints d srt cs new = Ok l -> In x l -> In x cs \/ In x new.
Proof.
  intros d srt Hs. induction new as [|c new IH]; intros cs l x H I; cbn [append_constraints] in H; [inversion H; subst; left; exact I|].
  destruct (append_constraint d srt cs c) as [cs'| | |] eqn:E; cbn [bind] in H; try discriminate H.
  destruct (IH cs' l x H I) as [J|J]; [|right; right; exact J]. unfold append_constraint in E. destruct (replace_constraint cs c) as [[cs2|]|] eqn:R; try discriminate E; inversion E; subst cs'.
  - clear - R J. revert cs2 R J. induction cs as [|y cs IHc]; intros cs2 R J; cbn [replace_constraint] in R; [discriminate R|].
    destruct (con_name y), (con_name c); try discriminate R.
    match type of R with (if ?b then _ else _) = _ => destruct b end.
    + inversion R; subst. destruct J as [J|J]; [right; left; exact J|left; right; exact J].
    + destruct (replace_constraint cs c) as [[z|]|]; try discriminate R. inversion R; subst. destruct J as [J|J]; [left; left; exact J|].
      destruct (IHc z eq_refl J) as [K|K]; [left; right; exact K|right; exact K].
  - assert (K : In x (cs ++ [c])) by (destruct d; try exact J; apply (Permutation_in _ (sort_constraints_perm srt Hs _) J)).
    apply in_app_or in K. destruct K as [K|[K|[]]]; [left; exact K|right; left; exact K].
Qed.

Section Calm.
Variable cap : nat.
Hypothesis Hcap : N.of_nat cap = 20000%N.
Definition within (l : list leaf) : Prop := plain l /\ weight l <= cap.
Lemma within_app : forall a b, within (a ++ b) -> within a /\ within b.
Proof. intros a b [P W]. rewrite weight_app in W. apply plain_app_l in P. destruct P as [A B]. split; split; auto; lia. Qed.
Lemma within_in : forall A (f : A -> list leaf) l x, within (flat_map f l) -> In x l -> within (f x).
Proof. intros A f l x [P W] I. destruct (flat_in A f l x I P) as [Q L]. split; [exact Q|lia]. Qed.
Lemma room : forall n, n <= 3 * cap + 1000 -> roomy n.
Proof. intros n H. unfold roomy. lia. Qed.
Lemma line_clean : forall n q, n <= 3 * cap + 1000 -> fine n q -> q <> ""%string -> ApplySpec.clean q = true.
Proof. intros n q L F N. apply (page_clean n); [apply room, L|apply page_line; assumption]. Qed.

Lemma comment_none : clean_comment "" = true.
Proof. reflexivity. Qed.

Variable d : dialect.
Lemma alter_calm : forall c n a k, within (objname_leaves n) -> fine k (action_string d a) -> k <= 2 * cap + 500 -> clean_comment c = true -> calm d (AlterTable c n a).
Proof.
  intros c n a k [P W] F L C. split; [|exact C]. intros q Q. unfold text_of in Q. cbn [uncommented stmt_string] in Q.
  assert (E : q = ("ALTER TABLE " ++ objname_string n ++ " " ++ action_string d a)%string).
  { symmetry. apply (cut_end _ _ (";" ++ nl)%string). rewrite <- Q. unfold comment_string. cbn [eqs String.eqb]. rewrite !append_assoc. reflexivity. }
  subst q. pose proof (objname_fine n P) as O. eapply line_clean; [|fin; fin; [exact O|fin; exact F]|discriminate]. cbn [String.length]. lia.
Qed.
Lemma drop_table_calm : forall c e n, within (objname_leaves n) -> clean_comment c = true -> calm d (DropTable c e n).
Proof.
  intros c e n [P W] C. split; [|exact C]. intros q Q. unfold text_of in Q. cbn [uncommented stmt_string] in Q.
  assert (E : q = ("DROP TABLE " ++ (if e then "IF EXISTS " else "") ++ objname_string n)%string).
  { symmetry. apply (cut_end _ _ (";" ++ nl)%string). rewrite <- Q. unfold comment_string. cbn [eqs String.eqb]. rewrite !append_assoc. reflexivity. }
  subst q. pose proof (objname_fine n P) as O. destruct e; [eapply line_clean; [|fin; fin; exact O|discriminate]|eapply line_clean; [|fin; exact O|discriminate]]; cbn [String.length]; lia.
Qed.
Lemma drop_index_calm : forall c e n k, fine k (objname_string n) -> k <= 2 * cap + 100 -> clean_comment c = true -> calm d (DropIndex c e n).
Proof.
  intros c e n k O W C. split; [|exact C]. intros q Q. unfold text_of in Q. cbn [uncommented stmt_string] in Q.
  assert (E : q = ("DROP INDEX " ++ (if e then "IF EXISTS " else "") ++ objname_string n)%string).
  { symmetry. apply (cut_end _ _ (";" ++ nl)%string). rewrite <- Q. unfold comment_string. cbn [eqs String.eqb]. rewrite !append_assoc. reflexivity. }
  subst q. destruct e; [eapply line_clean; [|fin; fin; exact O|discriminate]|eapply line_clean; [|fin; exact O|discriminate]]; cbn [String.length]; lia.
Qed.
Lemma create_index_calm : forall i, plain (index_leaves i) -> weight (index_leaves i) <= 3 * cap + 100 -> clean_comment (cx_comment i) = true -> calm d (CreateIndex i).
Proof.
  intros i P W C. split; [|exact C]. intros q Q. unfold text_of in Q. cbn [uncommented stmt_string] in Q. rewrite index_string_body in Q. assert (E : index_body d i = q) by (apply (cut_end _ _ (";" ++ nl)%string); exact Q). clear Q.
  pose proof (index_fine d i P) as F. subst q. eapply line_clean; [|exact F|discriminate]. lia.
Qed.
Lemma create_table_calm : forall t, within (table_leaves t) -> valued (CreateTable t) = true -> clean_comment (ct_comment t) = true -> calm d (CreateTable t).
Proof.
  intros t [P W] V C. split; [|exact C]. intros q Q. unfold text_of in Q. cbn [uncommented stmt_string] in Q. rewrite table_string_body in Q. assert (E : table_body d t = q) by (apply (cut_end _ _ (";" ++ nl)%string); exact Q). clear Q.
  pose proof (table_page d t P V) as F. subst q. eapply page_clean; [|exact F]. apply room. lia.
Qed.

Variable srt : list constraint -> list constraint.
Variable sdiff : string -> string -> string.
Hypothesis Hsrt : srt_ok srt.
Hypothesis Hsd : modest sdiff.
Lemma explained : forall x y, String.length x <= cap + 200 -> String.length y <= cap + 200 -> clean_comment (sdiff x y) = true.
Proof.
  intros x y X Y. unfold clean_comment. apply forallb_forall. intros l L. specialize (Hsd x y l L). unfold fits_buffer. apply N.ltb_lt. rewrite length_app. cbn [String.length]. lia.
Qed.

Section Table.
Variables tb ta : create_table.
Hypothesis Wb : within (table_leaves tb).
Hypothesis Wa : within (table_leaves ta).
Hypothesis Hn : objname_diff (ct_name tb) = objname_diff (ct_name ta).

Record bounds (t : create_table) : Prop := {
  bd_name : within (objname_leaves (ct_name t));
  bd_col : forall c, In c (ct_columns t) -> within (column_leaves c);
  bd_con : forall c, In c (ct_constraints t) -> within (constraint_leaves c);
  bd_opt : forall o, In o (ct_options t) -> within (option_leaves o);
  bd_opts : within (flat_map option_leaves (ct_options t));
  bd_rowdel : within (ooption_leaves (ct_rowdel t)) }.
Lemma table_bounds : forall t, within (table_leaves t) -> bounds t.
Proof.
  intros t W. unfold table_leaves in W. apply within_app in W. destruct W as [W1 W]. apply within_app in W. destruct W as [W2 W]. apply within_app in W. destruct W as [W3 W]. apply within_app in W. destruct W as [W4 W5].
  split; auto; intros x Hx; eapply within_in; eauto.
Qed.
Let Bb := table_bounds tb Wb.
Let Ba := table_bounds ta Wa.

Lemma column_length : forall c, within (column_leaves c) -> String.length (column_string d c) <= cap + 200.
Proof. intros c [P W]. destruct (column_fine d c P) as [_ L]. lia. Qed.
Lemma constraint_length : forall c, within (constraint_leaves c) -> String.length (constraint_string d c) <= cap + 200.
Proof. intros c [P W]. destruct (constraint_fine d c P) as [_ L]. lia. Qed.
Lemma constraint_diff_length : forall c, within (constraint_leaves c) -> String.length (constraint_diff d c) <= cap + 200.
Proof. intros c [P W]. destruct (constraint_diff_fine d c P) as [_ L]. lia. Qed.
Lemma option_length : forall o, within (option_leaves o) -> String.length (option_string d o) <= cap + 200.
Proof. intros o [P W]. destruct (option_fine d o P) as [_ L]. lia. Qed.
Lemma empty_length : String.length "" <= cap + 200.
Proof. cbn. lia. Qed.

Record column_bounds (c : column) : Prop := {
  cb_name : within (ident_leaves (c_name c)); cb_type : within (datatype_leaves (c_type c)); cb_default : within (default_leaves (c_default c));
  cb_options : within (expr_leaves (c_options c)) }.
Lemma column_parts : forall c, within (column_leaves c) -> column_bounds c.
Proof.
  intros c W. unfold column_leaves in W. apply within_app in W. destruct W as [W1 W]. apply within_app in W. destruct W as [W2 W]. apply within_app in W. destruct W as [W3 W].
  apply within_app in W. destruct W as [_ W]. apply within_app in W. destruct W as [_ W]. apply within_app in W. destruct W as [_ W]. apply within_app in W. destruct W as [_ W]. split; assumption.
Qed.
Definition short_action (x : action) : Prop := exists k, fine k (action_string d x) /\ k <= 2 * cap + 500.
Lemma alter_short : forall c x, short_action x -> clean_comment c = true -> calm d (AlterTable c (ct_name ta) x).
Proof. intros c x [k [F L]] C. exact (alter_calm c (ct_name ta) x k (bd_name ta Ba) F L C). Qed.
Lemma drop_column_short : forall c, within (column_leaves c) -> short_action (DropColumn (c_name c)).
Proof.
  intros c W. destruct (column_parts c W) as [[N1 N2] _ _ _]. pose proof (ident_raw _ N1) as F. eexists. split; [cbn [action_string]; fin; exact F|]. cbn [String.length]. lia.
Qed.
Lemma drop_default_short : forall c, within (column_leaves c) -> short_action (DropDefault (c_name c)).
Proof.
  intros c W. destruct (column_parts c W) as [[N1 N2] _ _ _]. pose proof (ident_raw _ N1) as F. unfold short_action. cbn [action_string].
  destruct d; (eexists; split; [do 2 fin; [exact F|repeat fin]|cbn [String.length]; lia]).
Qed.
Lemma set_notnull_short : forall c, within (column_leaves c) -> short_action (SetNotNull (c_name c)).
Proof.
  intros c W. destruct (column_parts c W) as [[N1 N2] _ _ _]. pose proof (ident_raw _ N1) as F. eexists. split; [cbn [action_string]; do 2 fin; [exact F|fin]|]. cbn [String.length]. lia.
Qed.
Lemma drop_notnull_short : forall c, within (column_leaves c) -> short_action (DropNotNull (c_name c)).
Proof.
  intros c W. destruct (column_parts c W) as [[N1 N2] _ _ _]. pose proof (ident_raw _ N1) as F. eexists. split; [cbn [action_string]; do 2 fin; [exact F|fin]|]. cbn [String.length]. lia.
Qed.
Lemma drop_options_short : forall c, within (column_leaves c) -> short_action (DropOptions (c_name c)).
Proof.
  intros c W. destruct (column_parts c W) as [[N1 N2] _ _ _]. pose proof (ident_raw _ N1) as F. eexists. split; [cbn [action_string]; do 2 fin; [exact F|fin]|]. cbn [String.length]. lia.
Qed.
Lemma set_type_short : forall c, within (column_leaves c) -> short_action (SetDataType (c_name c) (c_type c)).
Proof.
  intros c W. destruct (column_parts c W) as [[N1 N2] [T1 T2] _ _]. pose proof (ident_raw _ N1) as F. pose proof (datatype_fine d _ T1) as G.
  eexists. split; [cbn [action_string]; do 2 fin; [exact F|fin; exact G]|]. cbn [String.length]. lia.
Qed.
Lemma alter_type_short : forall c b, within (column_leaves c) -> short_action (AlterDataType (c_name c) (c_type c) b).
Proof.
  intros c b W. destruct (column_parts c W) as [[N1 N2] [T1 T2] _ _]. pose proof (ident_raw _ N1) as F. pose proof (datatype_fine d _ T1) as G.
  eexists. split; [cbn [action_string]; do 2 fin; [exact F|fin; fin; [exact G|instantiate (1 := 9); destruct b; [fin|apply tail_empty]]]|]. cbn [String.length]. lia.
Qed.
Lemma set_default_short : forall c, within (column_leaves c) -> short_action (SetDefault (c_name c) (c_default c)).
Proof.
  intros c W. destruct (column_parts c W) as [[N1 N2] _ [D1 D2] _]. pose proof (ident_raw _ N1) as F. pose proof (default_fine d _ D1) as G.
  eexists. split; [cbn [action_string]; do 2 fin; [exact F|fin; exact G]|]. cbn [String.length]. lia.
Qed.
Lemma set_options_short : forall c, within (column_leaves c) -> short_action (SetOptions (c_name c) (c_options c)).
Proof.
  intros c W. destruct (column_parts c W) as [[N1 N2] _ _ [O1 O2]]. pose proof (ident_raw _ N1) as F. pose proof (expr_fine d _ O1) as G.
  eexists. split; [cbn [action_string]; do 2 fin; [exact F|fin; exact G]|]. cbn [String.length]. lia.
Qed.
Lemma add_column_short : forall c, within (column_leaves c) -> short_action (AddColumn c).
Proof. intros c [W1 W2]. pose proof (column_fine d c W1) as F. eexists. split; [cbn [action_string]; fin; exact F|]. cbn [String.length]. lia. Qed.
Lemma modify_short : forall c, within (column_leaves c) -> short_action (ModifyColumn (modified_column c)).
Proof.
  intros c [W1 W2]. assert (PM : plain (column_leaves (modified_column c)) /\ weight (column_leaves (modified_column c)) <= cap).
  { unfold column_leaves, modified_column in *. cbn [c_name c_type c_default c_as c_charset c_collate c_onaction c_comment c_options as_leaves oident_leaves expr_leaves] in *.
    rewrite !weight_app in *. rewrite !forallb_app in *. rewrite !andb_true_iff in *. split; [|cbn [weight] in *; lia].
    destruct W1 as [K1 [K2 [K3 [K4 [K5 [K6 [K7 K8]]]]]]]. repeat split; assumption. }
  destruct PM as [P1 P2]. pose proof (modified_fine d _ P1) as F. eexists. split; [exact F|]. lia.
Qed.
Lemma add_constraint_short : forall c b, within (constraint_leaves c) -> short_action (AddConstraint c b).
Proof.
  intros c b [W1 W2]. pose proof (constraint_fine d c W1) as F. eexists. split; [cbn [action_string]; do 2 fin; [exact F|instantiate (1 := 10); destruct b; [fin|apply tail_empty]]|]. cbn [String.length]. lia.
Qed.
Lemma con_name_within : forall c, within (constraint_leaves c) -> within (oident_leaves (con_name c)).
Proof. intros c W. unfold constraint_leaves in W. apply within_app in W. apply W. Qed.
Lemma drop_constraint_short : forall c, within (constraint_leaves c) -> short_action (DropConstraint (con_name c)).
Proof.
  intros c W. destruct (con_name_within c W) as [N1 N2]. pose proof (oident_fine _ N1) as F. unfold short_action. cbn [action_string].
  destruct d; try (eexists; split; [fin; exact F|cbn [String.length]; lia]).
  exists (weight (oident_leaves (con_name c)) + 20). split; [|lia]. destruct (eqs _ _); [eapply fine_le; [fin; fin|cbn [String.length]; lia]|eapply fine_le; [fin; fin; exact F|cbn [String.length]; lia]].
Qed.
Lemma table_option_short : forall o, within (option_leaves o) -> short_action (TableOption (o_name o) (o_value o)).
Proof.
  intros o [W1 W2]. unfold option_leaves in *. cbn [forallb weight] in *. apply andb_true_iff in W1. destruct W1 as [N W1]. apply word_fine in N. pose proof (expr_fine d _ W1) as F.
  eexists. split; [cbn [action_string]; fin; [exact N|fin; exact F]|]. cbn [String.length]. lia.
Qed.
Lemma rowdel_short : forall o, within (option_leaves o) -> short_action (AddRowDeletion o) /\ short_action (ReplaceRowDeletion o).
Proof. intros o [W1 W2]. pose proof (option_fine d o W1) as F. split; (eexists; split; [cbn [action_string]; fin; exact F|cbn [String.length]; lia]). Qed.
Lemma drop_rowdel_short : short_action DropRowDeletion.
Proof. eexists. split; [cbn [action_string]; fin|cbn [String.length]; lia]. Qed.

Lemma common_calm : forall b a s, In b (ct_columns tb) -> In a (ct_columns ta) -> In s (diff_common_column d sdiff (ct_name ta) b a) -> calm d s.
Proof.
  intros b a s Hb Ha Hs. pose proof (bd_col ta Ba a Ha) as A. pose proof (bd_col tb Bb b Hb) as B.
  assert (C : clean_comment (sdiff (column_string d b) (column_string d a)) = true) by (apply explained; apply column_length; assumption).
  unfold diff_common_column, diff_default, diff_notnull, diff_options in Hs. destruct d eqn:Ed; rewrite <- Ed in *;
  repeat match type of Hs with
  | In _ (_ ++ _) => apply in_app_or in Hs; destruct Hs as [Hs|Hs]
  | In _ (if ?x then _ else _) => destruct x
  | In _ [] => destruct Hs
  | In _ [_] => destruct Hs as [Hs|[]]; subst s
  end; try contradiction; apply alter_short; try exact C; auto using drop_default_short, set_notnull_short, drop_notnull_short, drop_options_short, set_type_short, alter_type_short, set_default_short, set_options_short, modify_short.
Qed.
Lemma columns_calm : forall s, In s (diff_columns d sdiff (ct_name ta) (ct_columns tb) (ct_columns ta)) -> calm d s.
Proof.
  intros s Hs. unfold diff_columns in Hs. apply in_app_or in Hs. destruct Hs as [Hs|Hs].
  - apply in_flat_map in Hs. destruct Hs as [b [Hb Hs]]. unfold diff_before_column in Hs. pose proof (bd_col tb Bb b Hb) as B. destruct (find_column (id_name (c_name b)) (ct_columns ta)) as [a|] eqn:E.
    + apply find_some in E. destruct E as [Ha _]. exact (common_calm b a s Hb Ha Hs).
    + destruct (keep_hidden d b); [destruct Hs|]. destruct Hs as [Hs|[]]. subst s. apply alter_short; [apply drop_column_short, B|apply explained; [apply column_length, B|apply empty_length]].
  - apply in_map_iff in Hs. destruct Hs as [a [E Ha]]. subst s. apply filter_In in Ha. destruct Ha as [Ha _]. pose proof (bd_col ta Ba a Ha) as A.
    apply alter_short; [apply add_column_short, A|apply explained; [apply empty_length|apply column_length, A]].
Qed.

Lemma con_ident_within : forall c, within (constraint_leaves c) -> plain (ident_leaves (con_ident c)) /\ weight (ident_leaves (con_ident c)) <= cap + 32.
Proof.
  intros c W. apply con_name_within in W. unfold con_ident. destruct (con_name c) as [i|]; [destruct W as [W1 W2]; cbn [oident_leaves] in *; split; [exact W1|lia]|]. split; [reflexivity|cbn; lia].
Qed.
Lemma schema_within : forall t, bounds t -> within (oident_leaves (on_schema (ct_name t))).
Proof. intros t B. pose proof (bd_name t B) as W. unfold objname_leaves in W. apply within_app in W. apply W. Qed.
Lemma index_name_within : forall t c, bounds t -> within (constraint_leaves c) ->
  plain (objname_leaves (index_objname d (on_schema (ct_name t)) (con_ident c))) /\ weight (objname_leaves (index_objname d (on_schema (ct_name t)) (con_ident c))) <= 2 * cap + 32.
Proof.
  intros t c B W. destruct (con_ident_within c W) as [C1 C2]. destruct (schema_within t B) as [S1 S2]. unfold index_objname, objname_leaves.
  destruct d; cbn [on_schema on_name oident_leaves List.app]; rewrite ?weight_app, ?forallb_app; (split; [rewrite ?S1; exact C1|lia]).
Qed.
Lemma drop_con_index : forall cmt c, In c (ct_constraints tb) -> clean_comment cmt = true -> calm d (DropIndex cmt false (index_objname d (on_schema (ct_name tb)) (con_ident c))).
Proof.
  intros cmt c Hc C. destruct (index_name_within tb c Bb (bd_con tb Bb c Hc)) as [P W]. eapply drop_index_calm; [exact (objname_fine _ P)|lia|exact C].
Qed.
Lemma created_index : forall cmt c, In c (ct_constraints ta) -> clean_comment cmt = true -> calm d (index_of_constraint d cmt (ct_name ta) c).
Proof.
  intros cmt c Hc C. pose proof (bd_con ta Ba c Hc) as W. pose proof (con_ident_within c W) as [I1 I2]. destruct (schema_within ta Ba) as [S1 S2].
  assert (K : forall u pre cols post, plain (using_leaves pre ++ cols_leaves cols ++ using_leaves post) -> weight (ident_leaves (con_ident c)) + weight (using_leaves pre ++ cols_leaves cols ++ using_leaves post) <= cap + 32 ->
    calm d (CreateIndex (mkCX cmt u false (index_objname d (on_schema (ct_name ta)) (con_ident c)) (ct_name ta) [] pre cols post))).
  { intros u pre cols post P L. destruct (bd_name ta Ba) as [N1 N2].
    assert (X : plain (objname_leaves (index_objname d (on_schema (ct_name ta)) (con_ident c))) /\ weight (objname_leaves (index_objname d (on_schema (ct_name ta)) (con_ident c))) <= cap + weight (ident_leaves (con_ident c))).
    { unfold index_objname, objname_leaves. destruct d; cbn [on_schema on_name oident_leaves List.app]; rewrite ?weight_app, ?forallb_app; (split; [rewrite ?S1; exact I1|lia]). }
    destruct X as [X1 X2]. apply create_index_calm; [| |exact C]; unfold index_leaves; cbn [cx_name cx_table cx_using cx_pre cx_columns cx_post flat_map].
    - rewrite !forallb_app in *. rewrite X1, N1. exact P.
    - rewrite !weight_app in *. cbn [weight]. lia. }
  assert (E : calm d (CreateIndex (mkCX cmt false false (index_objname d (on_schema (ct_name ta)) (con_ident c)) (ct_name ta) [] None [] None))).
  { apply K; [reflexivity|]. cbn [using_leaves cols_leaves flat_map List.app weight]. lia. }
  destruct c as [n cols|n cols ref refcols on|n cols|n u pre cols post|n e]; try exact E. cbn [index_of_constraint]. unfold constraint_leaves in W. destruct W as [W1 W2]. cbn [con_name] in *.
  rewrite weight_app in W2. apply plain_app_l in W1. destruct W1 as [_ W1]. apply K; [exact W1|]. unfold con_ident in *. cbn [con_name] in *. destruct n; cbn [oident_leaves] in *; [lia|]. cbn [ident_leaves weight id_raw id_name id_quote String.length]. lia.
Qed.

Lemma tables_calm : forall nv l s, diff_tables d srt sdiff nv tb ta = Ok l -> In s l -> calm d s.
Proof.
  intros nv l s H Hs. unfold diff_tables in H.
  destruct (only_left_constraints d srt (ct_constraints ta) (ct_constraints tb)) as [added| | |] eqn:Eadd; cbn [bind] in H; try discriminate H.
  assert (R : renamed (ct_name tb) (ct_name ta) = false) by (unfold renamed, neqs, eqs; rewrite Hn, String.eqb_refl; reflexivity).
  assert (F : final_name (ct_name tb) (ct_name ta) = ct_name ta) by (unfold final_name; rewrite R; reflexivity).
  rewrite F in H. unfold diff_rename in H. rewrite R in H. cbn [List.app] in H. inversion H; subst l. clear H.
  apply in_app_or in Hs. destruct Hs as [Hs|Hs].
  { apply in_flat_map in Hs. destruct Hs as [b [Hb Hs]]. pose proof (bd_con tb Bb b Hb) as B. unfold drop_gone_constraint in Hs. destruct (find_constraint _ _); [destruct Hs|].
    destruct (is_index d b); destruct Hs as [Hs|[]]; subst s; [apply drop_con_index; [exact Hb|]|apply alter_short; [apply drop_constraint_short, B|]];
      apply explained; auto using empty_length, constraint_length, constraint_diff_length. }
  apply in_app_or in Hs. destruct Hs as [Hs|Hs]; [apply columns_calm, Hs|].
  apply in_app_or in Hs. destruct Hs as [Hs|Hs].
  { apply in_flat_map in Hs. destruct Hs as [b [Hb Hs]]. pose proof (bd_con tb Bb b Hb) as B. unfold change_constraint in Hs. destruct (find_constraint (con_key b) (ct_constraints ta)) as [a|] eqn:E; [|destruct Hs].
    apply find_some in E. destruct E as [Ha _]. pose proof (bd_con ta Ba a Ha) as A. destruct (neqs _ _); [|destruct Hs].
    destruct (is_index d a); destruct Hs as [Hs|[Hs|[]]]; subst s.
    - apply drop_con_index; [exact Hb|]. assert (X : clean_comment (sdiff (constraint_string d b) (constraint_string d a)) = true) by (apply explained; auto using constraint_length). destruct d; try exact X; reflexivity.
    - apply created_index; [exact Ha|reflexivity].
    - apply alter_short; [apply drop_constraint_short, B|apply explained; auto using empty_length, constraint_length].
    - apply alter_short; [apply add_constraint_short, A|apply explained; auto using empty_length, constraint_length]. }
  apply in_app_or in Hs. destruct Hs as [Hs|Hs].
  { apply in_map_iff in Hs. destruct Hs as [a [E Ha]]. subst s. unfold only_left_constraints in Eadd. apply (append_in d srt Hsrt _ _ _ _ Eadd) in Ha. destruct Ha as [[]|Ha]. apply filter_In in Ha. destruct Ha as [Ha _].
    pose proof (bd_con ta Ba a Ha) as A. unfold add_constraint. destruct (is_index d a); [apply created_index; [exact Ha|]|apply alter_short; [apply add_constraint_short, A|]]; apply explained; auto using empty_length, constraint_length, constraint_diff_length. }
  apply in_app_or in Hs. destruct Hs as [Hs|Hs].
  { unfold diff_table_options in Hs. destruct d eqn:Ed; try (destruct Hs; fail). rewrite <- Ed in *.
    apply in_app_or in Hs. destruct Hs as [Hs|Hs].
    - apply in_flat_map in Hs. destruct Hs as [b [Hb Hs]]. pose proof (bd_opt tb Bb b Hb) as B. destruct (is_auto_increment b); [destruct Hs|]. destruct (find_option _ _) as [a|] eqn:E; [|destruct Hs].
      apply find_some in E. destruct E as [Ha _]. pose proof (bd_opt ta Ba a Ha) as A. destruct (neqs _ _); [|destruct Hs]. destruct Hs as [Hs|[]]. subst s.
      apply alter_short; [apply table_option_short, A|apply explained; auto using option_length].
    - apply in_map_iff in Hs. destruct Hs as [o [E Ho]]. subst s. apply filter_In in Ho. destruct Ho as [Ho _]. apply filter_In in Ho. destruct Ho as [Ho _]. pose proof (bd_opt ta Ba o Ho) as A.
      apply alter_short; [apply table_option_short, A|apply explained; auto using option_length, empty_length]. }
  { unfold diff_row_deletion in Hs. destruct d eqn:Ed; try (destruct Hs; fail). rewrite <- Ed in *. destruct (neqs _ _); [|destruct Hs].
    pose proof (bd_rowdel ta Ba) as A. pose proof (bd_rowdel tb Bb) as B. destruct (ct_rowdel tb) as [b|], (ct_rowdel ta) as [a|]; try (destruct Hs; fail); destruct Hs as [Hs|[]]; subst s; cbn [ooption_leaves] in *;
      (apply alter_short; [first [apply (proj2 (rowdel_short a A))|apply drop_rowdel_short|apply (proj1 (rowdel_short a A))]|apply explained; auto using option_length, empty_length]). }
Qed.
End Table.

Lemma options_length : forall t, bounds t -> String.length (options_string d (ct_options t)) <= cap + 200.
Proof.
  intros t B. destruct (bd_opts t B) as [P W]. unfold options_string.
  assert (K : String.length (join (match d with My => " " | _ => "," ++ nl end)%string (map (option_string d) (ct_options t))) <= weight (flat_map option_leaves (ct_options t))).
  { clear W B. induction (ct_options t) as [|o l IH]; [cbn; lia|]. cbn [flat_map] in *. apply plain_app_l in P. destruct P as [P Q]. specialize (IH Q). rewrite weight_app.
    destruct (option_fine d o P) as [_ L]. pose proof (option_weight o) as X. destruct l as [|o' l]; [cbn [map join]; lia|].
    change (map (option_string d) (o :: o' :: l)) with (option_string d o :: map (option_string d) (o' :: l)). cbn [join]. cbn [map] in IH |- *. rewrite !length_app. destruct d; cbn [String.length nl append] in *; lia. }
  lia.
Qed.
Lemma schema_stmt : forall l s, plain_schema l = true -> In s l -> within (stmt_leaves s) /\ valued s = true /\ clean_comment (comment_of s) = true.
Proof.
  intros l s H Hs. unfold plain_schema in H. rewrite forallb_forall in H. specialize (H s Hs). rewrite !andb_true_iff in H. destruct H as [[[H1 H2] H3] H4].
  apply N.leb_le in H2. split; [split; [exact H1|lia]|auto].
Qed.

Section Ddl.
Variables before after : ddl.
Hypothesis Pb : plain_schema before = true.
Hypothesis Pa : plain_schema after = true.
Lemma created_calm : forall l s, plain_schema l = true -> In s l -> create_stmt s <> None -> calm d s.
Proof.
  intros l s H Hs N. destruct (schema_stmt l s H Hs) as [W [V C]]. destruct s; try (contradiction N; reflexivity).
  - apply create_table_calm; assumption.
  - apply create_index_calm; [apply W|destruct W; cbn [stmt_leaves] in *; lia|exact C].
Qed.
Lemma dropped_calm : forall l s x c, plain_schema l = true -> In s l -> clean_comment c = true ->
  match s with CreateTable t => x = DropTable c false (ct_name t) | CreateIndex i => x = DropIndex c false (cx_name i) | _ => False end -> calm d x.
Proof.
  intros l s x c H Hs C E. destruct (schema_stmt l s H Hs) as [W _]. destruct s as [t|i| | |]; try contradiction; subst x.
  - apply drop_table_calm; [|exact C]. apply (bd_name t (table_bounds t W)).
  - cbn [stmt_leaves] in W. unfold index_leaves in W. apply within_app in W. destruct W as [[W1 W2] _]. eapply drop_index_calm; [exact (objname_fine _ W1)|lia|exact C].
Qed.
Lemma stmt_changes_calm : forall s l x, In s before -> diff_stmt d srt sdiff s after = Ok l -> In x l -> calm d x.
Proof.
  intros s l x Hs H Hx. unfold diff_stmt in H. destruct s as [tb|ib| | |]; try (inversion H; subst l; destruct Hx; fail).
  - destruct (find_stmt (CreateTable tb) after) as [[ta| | | |]|] eqn:E; try (inversion H; subst l; destruct Hx; fail).
    apply find_some in E. destruct E as [Ha E]. apply andb_true_iff in E. destruct E as [_ E]. apply String.eqb_eq in E. cbn [stmt_name] in E.
    destruct (schema_stmt _ _ Pb Hs) as [Wb [Vb _]]. destruct (schema_stmt _ _ Pa Ha) as [Wa [Va _]].
    destruct (diff_create_table d srt sdiff false tb ta) as [k| | |] eqn:D; try discriminate H; [|inversion H; subst l; destruct Hx].
    inversion H; subst k. clear H. unfold diff_create_table in D.
    destruct (match d with Sp => neqs (options_diff d (ct_options tb)) (options_diff d (ct_options ta)) | _ => false end).
    + inversion D; subst l. destruct Hx as [Hx|[Hx|[]]]; subst x; [|apply (created_calm after _ Pa Ha); discriminate].
      eapply (dropped_calm before (CreateTable tb)); [exact Pb|exact Hs| |reflexivity]. apply explained; apply options_length; apply table_bounds; assumption.
    + destruct (eqs _ _); [discriminate D|]. destruct (all_named _ && all_named _); [|discriminate D].
      destruct (diff_tables d srt sdiff false tb ta) as [m| | |] eqn:T; try discriminate D. assert (m = l) by (destruct m; inversion D; reflexivity). subst m.
      apply (tables_calm tb ta Wb Wa E false l x T Hx).
  - destruct (find_stmt (CreateIndex ib) after) as [[|ia| | |]|] eqn:E; try (inversion H; subst l; destruct Hx; fail).
    apply find_some in E. destruct E as [Ha _]. destruct (neqs _ _); [|inversion H; subst l; destruct Hx]. inversion H; subst l.
    destruct Hx as [Hx|[Hx|[]]]; subst x; [|apply (created_calm after _ Pa Ha); discriminate].
    eapply (dropped_calm before (CreateIndex ib)); [exact Pb|exact Hs| |reflexivity].
    destruct (schema_stmt _ _ Pb Hs) as [[Wb1 Wb2] _]. destruct (schema_stmt _ _ Pa Ha) as [[Wa1 Wa2] _]. cbn [stmt_leaves] in *.
    apply explained; (eapply Nat.le_trans; [apply index_diff_length; assumption|lia]).
Qed.
Lemma changes_calm : forall bs l x, (forall s, In s bs -> In s before) -> diff_stmts d srt sdiff bs after = Ok l -> In x l -> calm d x.
Proof.
  intro bs. induction bs as [|s bs IH]; intros l x Hb H Hx; cbn [diff_stmts] in H; [inversion H; subst l; destruct Hx|].
  destruct (diff_stmt d srt sdiff s after) as [l1| | |] eqn:E1; cbn [bind] in H; try discriminate H.
  destruct (diff_stmts d srt sdiff bs after) as [l2| | |] eqn:E2; cbn [bind] in H; try discriminate H. inversion H; subst l. apply in_app_or in Hx. destruct Hx as [Hx|Hx].
  - exact (stmt_changes_calm s l1 x (Hb s (or_introl eq_refl)) E1 Hx).
  - apply (IH l2 x); auto. intros y Hy. apply Hb. right. exact Hy.
Qed.
Lemma drops_calm : forall bs l x, (forall s, In s bs -> In s before) -> map_opt drop_stmt bs = Some l -> In x l -> calm d x.
Proof.
  intro bs. induction bs as [|s bs IH]; intros l x Hb H Hx; cbn [map_opt] in H; [inversion H; subst l; destruct Hx|].
  destruct (drop_stmt s) as [y|] eqn:E1; [|discriminate H]. destruct (map_opt drop_stmt bs) as [ys|]; [|discriminate H]. inversion H; subst l.
  destruct Hx as [Hx|Hx]; [|apply (IH ys x); auto; intros z Hz; apply Hb; right; exact Hz]. subst y. pose proof (Hb s (or_introl eq_refl)) as Hs.
  apply (dropped_calm before s x "" Pb Hs comment_none). destruct s; try discriminate E1; inversion E1; reflexivity.
Qed.
Lemma creates_calm : forall bs l x, (forall s, In s bs -> In s after) -> map_opt create_stmt bs = Some l -> In x l -> calm d x.
Proof.
  intro bs. induction bs as [|s bs IH]; intros l x Hb H Hx; cbn [map_opt] in H; [inversion H; subst l; destruct Hx|].
  destruct (create_stmt s) as [y|] eqn:E1; [|discriminate H]. destruct (map_opt create_stmt bs) as [ys|]; [|discriminate H]. inversion H; subst l.
  destruct Hx as [Hx|Hx]; [|apply (IH ys x); auto; intros z Hz; apply Hb; right; exact Hz]. subst y. pose proof (Hb s (or_introl eq_refl)) as Hs.
  assert (x = s) by (destruct s; try discriminate E1; inversion E1; reflexivity). subst x. apply (created_calm after s Pa Hs). congruence.
Qed.
Theorem diff_calm : forall l s, diff_ddl d srt sdiff before after = DOk l -> In s l -> calm d s.
Proof.
  intros l s H Hs. unfold diff_ddl in H. destruct (eqs _ _); [discriminate H|].
  destruct (map_opt drop_stmt (only_left_stmts before after)) as [drops|] eqn:E1; [|discriminate H].
  destruct (map_opt create_stmt (only_left_stmts after before)) as [creates|] eqn:E2; [|discriminate H].
  destruct (diff_stmts d srt sdiff before after) as [changes| | |] eqn:E3; try discriminate H.
  assert (E : l = drops ++ creates ++ changes) by (destruct (drops ++ creates ++ changes); inversion H; reflexivity). subst l. clear H.
  apply in_app_or in Hs. destruct Hs as [Hs|Hs]; [|apply in_app_or in Hs; destruct Hs as [Hs|Hs]].
  - apply (drops_calm _ _ s (fun x Hx => proj1 (proj1 (filter_In _ _ _) Hx)) E1 Hs).
  - apply (creates_calm _ _ s (fun x Hx => proj1 (proj1 (filter_In _ _ _) Hx)) E2 Hs).
  - apply (changes_calm _ _ s (fun x Hx => Hx) E3 Hs).
Qed.
End Ddl.
End Calm.
