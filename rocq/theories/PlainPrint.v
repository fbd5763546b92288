(** The printed forms of plain parts are plain (for C69). *)
From Coq Require Import Lia.
From Verif Require Import GoStr Token Ast Tidy IndexText Lines LinesFacts ApplySpec Plain PlainText.
Local Open Scope string_scope.

Notation plain l := (forallb plain_leaf l = true).
Lemma weight_app : forall a b, weight (a ++ b)%list = weight a + weight b.
Proof. induction a as [|[s|s] a IH]; intro b; cbn [List.app weight]; [reflexivity| |]; rewrite IH; lia. Qed.
Lemma plain_app_l : forall a b, plain (a ++ b)%list -> plain a /\ plain b.
Proof. intros a b H. rewrite forallb_app in H. apply andb_true_iff in H. exact H. Qed.
Ltac parts := repeat match goal with
  | H : plain (_ ++ _)%list |- _ => apply plain_app_l in H; let K := fresh "P" in destruct H as [K H]
  end.

Lemma ident_raw : forall i, plain (ident_leaves i) -> fine (weight (ident_leaves i)) (ident_string i).
Proof.
  intros i H. cbn [ident_leaves forallb plain_leaf] in H. apply andb_true_iff in H. destruct H as [H _]. split; [exact H|]. cbn [ident_leaves weight]. unfold ident_string. lia.
Qed.
Lemma ident_named : forall i, plain (ident_leaves i) -> fine (weight (ident_leaves i)) (ident_diff i).
Proof.
  intros i H. cbn [ident_leaves forallb plain_leaf] in H. apply andb_true_iff in H. destruct H as [_ H]. apply andb_true_iff in H. destruct H as [H _]. split; [exact H|]. cbn [ident_leaves weight]. unfold ident_diff. lia.
Qed.
Lemma ident_weight : forall i, 32 <= weight (ident_leaves i).
Proof. intro i. cbn [ident_leaves weight]. lia. Qed.
Lemma no_dash : forall s, has_byte "-" s = false -> opens s = false /\ closes s = false.
Proof.
  intros s H. split.
  - destruct s as [|c s]; [reflexivity|]. cbn [has_byte] in H. apply orb_false_iff in H. destruct H as [H _]. unfold opens. cbn [has_prefix_byte]. rewrite Ascii.eqb_sym. exact H.
  - unfold closes. destruct (has_suffix_byte "-" s) eqn:E; [|reflexivity]. apply suffix_has in E. congruence.
Qed.

Lemma objname_fine : forall n, plain (objname_leaves n) -> fine (weight (objname_leaves n)) (objname_string n).
Proof.
  intros [sc n] H. unfold objname_leaves, objname_string in *. cbn [on_schema on_name] in *. parts. rename H into N. destruct sc as [sc|].
  - cbn [oident_leaves] in *. pose proof (ident_named sc P) as A. pose proof (ident_named n N) as B.
    cbn [ident_leaves forallb plain_leaf] in N. rewrite !andb_true_iff, negb_true_iff in N. destruct N as [_ [_ [[Q D] _]]]. apply no_dash in D. destruct D as [D1 D2].
    destruct A as [A1 A2]. destruct B as [B1 B2].
    assert (T : tail (1 + (String.length (ident_diff n) + String.length (id_quote n))) ("." ++ ident_diff n ++ id_quote n)).
    { apply (tail_pre "."); try reflexivity; [discriminate|]. apply fine_tail; [split; [exact B1|lia]|split; [split; [exact Q|lia]|exact D1]]. }
    split.
    + apply plain_app; [exact Q| |congruence]. apply plain_app; [exact A1|apply T|intros _; apply T].
    + destruct T as [[_ T] _]. rewrite !length_app in *. rewrite weight_app. cbn [ident_leaves weight String.length] in *. unfold ident_diff in *. lia.
  - cbn [oident_leaves List.app]. apply ident_raw, N.
Qed.

Lemma sep_tokens : forall d p c, expr_sep d p c = " " \/ expr_sep d p c = "" /\ (closes p = false \/ opens c = false /\ c <> "").
Proof.
  intros d p c. unfold expr_sep.
  destruct (match d with Pg | Crdb => eqs p "||" || eqs c "||" | _ => false end); [left; reflexivity|].
  destruct (eqs p "(" || eqs c "(" || eqs c ")" || eqs p "::" || eqs c "::" || match d with Pg => false | _ => eqs p ":::" || eqs c ":::" end || eqs c ",") eqn:E; [|left; reflexivity].
  right. split; [reflexivity|]. unfold eqs in E.
  repeat match type of E with _ || _ = true => apply orb_true_iff in E; destruct E as [E|E] | (match d with _ => _ end) = true => destruct d; try discriminate E end;
    apply String.eqb_eq in E; subst; auto; right; (split; [reflexivity|discriminate]).
Qed.
Lemma idents_from : forall d l p, plain (flat_map ident_leaves l) ->
  fine (weight (flat_map ident_leaves l)) (idents_string_from d p l) /\ (closes p = true -> opens (idents_string_from d p l) = false).
Proof.
  intros d. induction l as [|i l IH]; intros p H; [split; [apply fine_empty|reflexivity]|].
  cbn [flat_map idents_string_from] in *. parts. destruct (IH (ident_string i) H) as [F O]. pose proof (ident_raw i P) as I. rewrite weight_app.
  assert (B : fine (String.length (ident_string i) + weight (flat_map ident_leaves l)) (ident_string i ++ idents_string_from d (ident_string i) l)).
  { destruct I as [I _], F as [F1 F2]. split; [apply plain_app; assumption|]. rewrite length_app. lia. }
  assert (L : String.length (ident_string i) + 8 <= weight (ident_leaves i)) by (cbn [ident_leaves weight]; unfold ident_string; lia).
  destruct (sep_tokens d p (ident_string i)) as [E|[E S]]; rewrite E.
  - assert (T : tail (1 + (String.length (ident_string i) + weight (flat_map ident_leaves l))) (" " ++ ident_string i ++ idents_string_from d (ident_string i) l))
      by (apply (tail_pre " "); try reflexivity; [discriminate|exact B]).
    split; [apply (fine_le _ _ _ (tail_fine _ _ T)); lia|intros _; apply T].
  - cbn [append]. split; [apply (fine_le _ _ _ B); lia|]. intro C. destruct S as [S|[S N]]; [congruence|]. rewrite opens_app. destruct (ident_string i); [congruence|exact S].
Qed.
Lemma idents_fine : forall d l, plain (flat_map ident_leaves l) -> fine (weight (flat_map ident_leaves l)) (idents_string d l).
Proof.
  intros d [|i l] H; [apply fine_empty|]. cbn [flat_map idents_string] in *. parts. destruct (idents_from d l (ident_string i) H) as [[F1 F2] O]. destruct (ident_raw i P) as [I1 I2].
  split; [apply plain_app; assumption|]. rewrite length_app, weight_app. lia.
Qed.
Lemma expr_fine : forall d e, plain (expr_leaves e) -> fine (weight (expr_leaves e)) (expr_string d e).
Proof. intros d [l|] H; [apply idents_fine, H|apply fine_empty]. Qed.
Lemma named_fine : forall l, plain (flat_map ident_leaves l) -> fine (weight (flat_map ident_leaves l)) (idents_diff l).
Proof.
  unfold idents_diff. induction l as [|i l IH]; intro H; [apply fine_empty|]. cbn [flat_map map] in *. parts. specialize (IH H). pose proof (ident_named i P) as A.
  destruct l as [|j l]; [cbn [map join]; eapply fine_le; [exact A|rewrite weight_app; lia]|]. change (join " " (ident_diff i :: map ident_diff (j :: l))) with (ident_diff i ++ " " ++ join " " (map ident_diff (j :: l))).
  destruct A as [A _]. eapply fine_le; [apply fine_tail; [split; [exact A|apply le_n]|apply (tail_pre " "); try reflexivity; [discriminate|exact IH]]|]. rewrite weight_app. cbn [String.length]. cbn [ident_leaves weight] in *. unfold ident_diff. lia.
Qed.
Lemma expr_named : forall e, plain (expr_leaves e) -> fine (weight (expr_leaves e)) (expr_diff e).
Proof. intros [l|] H; [apply named_fine, H|apply fine_empty]. Qed.

(** Proofs that a text made of constants and plain parts is plain *)
Ltac bit := first [reflexivity | discriminate].
Ltac fin := match goal with
  | |- tail _ "" => apply (tail_empty 0)
  | |- tail _ (if ?b then _ else _) => destruct b
  | H : tail _ ?s |- tail _ ?s => exact H
  | |- tail _ (String ?a ?b) => apply (tail_const (String a b)); bit
  | |- tail _ (String.append (String ?a ?b) ?s) => apply (tail_pre (String a b)); [bit|bit|bit|bit|]
  | |- tail _ (nonempty_prefixed ?c ?s) => apply (tail_prefixed c); [bit|bit|bit|bit|]
  | |- tail _ (String.append ?a ?b) => apply tail_tail
  | H : fine _ ?s |- fine _ ?s => exact H
  | |- fine _ (String ?a ?b) => apply (fine_const (String a b)); bit
  | |- fine _ (String.append (String ?a ?b) ?s) => apply (fine_pre (String a b)); [bit|bit|]
  | |- fine _ (String.append ?a ?b) => apply fine_tail
  end.
Lemma word_fine : forall s, plain_leaf (Word s) = true -> fine (String.length s) s.
Proof. intros s H. apply fine_const, H. Qed.

Lemma datatype_fine : forall d t, plain (datatype_leaves t) -> fine (weight (datatype_leaves t)) (datatype_string d t).
Proof.
  intros d [n ty e] H. unfold datatype_leaves, datatype_string in *. cbn [dt_name dt_expr forallb] in *. apply andb_true_iff in H. destruct H as [N H]. apply word_fine in N.
  eapply fine_le; [apply fine_tail; [exact N|]|].
  - instantiate (1 := 2 + weight (expr_leaves e)). destruct e as [[|i l]|]; try apply tail_empty. pose proof (idents_fine d (i :: l) H) as F.
    eapply tail_le; [fin; fin; [exact F|fin]|]. cbn [String.length expr_leaves]. lia.
  - cbn [weight]. lia.
Qed.
Lemma default_fine : forall d v, plain (default_leaves v) -> fine (weight (default_leaves v) + 8) (default_string d v).
Proof.
  intros d [[l|]|] H; cbn [default_string]; try apply fine_empty. pose proof (idents_fine d l H) as F. eapply fine_le; [fin; exact F|]. cbn [String.length default_leaves expr_leaves]. lia.
Qed.
Lemma as_fine : forall d a, plain (as_leaves a) -> fine (weight (as_leaves a)) (as_string d a).
Proof.
  intros d [[e t]|] H; cbn [as_string as_value as_type as_leaves] in *; [|apply fine_empty]. parts. destruct e as [l|]; [|apply fine_empty].
  pose proof (idents_fine d l P) as F. cbn [forallb] in H. rewrite andb_true_r in H. apply word_fine in H. rewrite weight_app. cbn [expr_leaves weight].
  eapply fine_le; [fin; fin; [exact F|instantiate (1 := 1 + String.length t); destruct (eqs t ""); [apply tail_empty|fin; exact H]]|]. cbn [String.length]. lia.
Qed.
Lemma using_fine : forall d u, plain (using_leaves (Some u)) -> fine (weight (using_leaves (Some u)) + 12) (using_string d u).
Proof.
  intros d [e w] H. cbn [using_leaves us_value us_with] in *. parts. unfold using_string. cbn [us_value us_with]. pose proof (expr_fine d e P) as F. rewrite weight_app.
  eapply fine_le; [fin; fin; [exact F|instantiate (1 := 6 + weight match w with Some e => expr_leaves e | None => [] end)]|cbn [String.length]; lia].
  destruct w as [w|]; [|apply tail_empty]. pose proof (expr_fine d w H) as G. eapply tail_le; [fin; fin; exact G|]. cbn [String.length]. lia.
Qed.
Definition tail_using (d : dialect) (u : option usingdef) : string := match u with Some u => " " ++ using_string d u | None => "" end.
Lemma using_tail : forall d u, plain (using_leaves u) -> tail (weight (using_leaves u) + 13) (tail_using d u).
Proof.
  intros d [u|] H; [|apply tail_empty]. pose proof (using_fine d u H) as F. unfold tail_using. eapply tail_le; [fin; exact F|]. cbn [String.length]. lia.
Qed.
Lemma oident_fine : forall i, plain (oident_leaves i) -> fine (weight (oident_leaves i)) (oident_string i).
Proof. intros [i|] H; [apply ident_raw, H|apply fine_empty]. Qed.

Lemma order_tail : forall d o, tail 5 match d, o with Pg, _ => "" | My, Some true => " DESC" | My, _ => "" | _, Some true => " DESC" | _, Some false => " ASC" | _, None => "" end.
Proof. intros d [[|]|]; destruct d; try apply tail_empty; (eapply tail_le; [fin|cbn; lia]). Qed.
Lemma order_diff_tail : forall d o, tail 5 match d, o with Pg, _ => "" | My, Some true => " DESC" | My, _ => "" | _, Some true => " DESC" | _, _ => " ASC" end.
Proof. intros d [[|]|]; destruct d; try apply tail_empty; (eapply tail_le; [fin|cbn; lia]). Qed.
Lemma joined : forall (f : colident -> string) cs, (forall c, plain (ident_leaves (ci_ident c)) -> fine (weight (ident_leaves (ci_ident c)) - 2) (f c)) ->
  plain (cols_leaves cs) -> fine (weight (cols_leaves cs)) (join ", " (map f cs)).
Proof.
  intros f cs Hf. induction cs as [|c cs IH]; intro H; [apply fine_empty|]. unfold cols_leaves in *. cbn [flat_map] in *. parts. specialize (IH H). specialize (Hf c P).
  pose proof (ident_weight (ci_ident c)) as W. rewrite weight_app.
  destruct cs as [|c' cs]; [cbn [map join]; apply (fine_le _ _ _ Hf); lia|]. change (join ", " (map f (c :: c' :: cs))) with (f c ++ ", " ++ join ", " (map f (c' :: cs))).
  eapply fine_le; [fin; [exact Hf|fin; exact IH]|]. cbn [String.length]. lia.
Qed.
Lemma cols_tail : forall d cs, plain (cols_leaves cs) -> tail (weight (cols_leaves cs) + 2) (cols_string d cs).
Proof.
  intros d cs H. unfold cols_string. assert (F : fine (weight (cols_leaves cs)) (join ", " (map (colident_string d) cs))).
  { apply joined; [|exact H]. intros c P. pose proof (ident_raw _ P) as I. unfold colident_string. pose proof (order_tail d (ci_order c)) as T.
    destruct I as [I _]. eapply fine_le; [apply fine_tail; [apply fine_const, I|exact T]|]. cbn [ident_leaves weight]. unfold ident_string. lia. }
  eapply tail_le; [fin; fin; [exact F|fin]|]. cbn [String.length]. lia.
Qed.
Lemma cols_diff_tail : forall d cs, plain (cols_leaves cs) -> tail (weight (cols_leaves cs) + 2) (cols_diff d cs).
Proof.
  intros d cs H. unfold cols_diff. assert (F : fine (weight (cols_leaves cs)) (join ", " (map (colident_diff d) cs))).
  { apply joined; [|exact H]. intros c P. pose proof (ident_named _ P) as I. unfold colident_diff. pose proof (order_diff_tail d (ci_order c)) as T.
    destruct I as [I _]. eapply fine_le; [apply fine_tail; [apply fine_const, I|exact T]|]. cbn [ident_leaves weight]. unfold ident_diff. lia. }
  eapply tail_le; [fin; fin; [exact F|fin]|]. cbn [String.length]. lia.
Qed.

Lemma column_fine : forall d c, plain (column_leaves c) -> fine (weight (column_leaves c) + 120) (column_string d c).
Proof.
  intros d c H. unfold column_leaves in *. parts. rewrite !weight_app. cbn [forallb] in *. 
  match goal with K : plain_leaf (Word (c_onaction c)) && _ = true |- _ => rewrite !andb_true_iff in K; destruct K as [W1 [W2 _]] end. apply word_fine in W1. apply word_fine in W2.
  pose proof (ident_raw _ P) as A1. pose proof (datatype_fine d _ P0) as A2. pose proof (default_fine d _ P1) as A3. pose proof (as_fine d _ P2) as A4.
  pose proof (oident_fine _ P3) as A5. pose proof (oident_fine _ P4) as A6. pose proof (expr_fine d _ H) as A7. cbn [weight].
  unfold column_string. destruct d.
  - eapply fine_le; [fin; [exact A1|fin; fin; [exact A2|fin; [fin; exact A3|instantiate (1 := 9); destruct (c_notnull c); [fin|apply tail_empty]]]]|]. cbn [String.length]. lia.
  - eapply fine_le; [fin; [exact A1|fin; fin; [exact A2|fin; [instantiate (1 := 12); destruct (c_notvisible c); [fin|apply tail_empty]|fin; [instantiate (1 := 9); destruct (c_notnull c); [fin|apply tail_empty]|fin; [fin; exact A3|instantiate (1 := 1 + weight (as_leaves (c_as c)))]]]]]|cbn [String.length]; lia].
    destruct (c_as c) eqn:E; [fin; exact A4|apply tail_empty].
  - eapply fine_le; [fin; [exact A1|fin; fin; [exact A2|fin; [fin; exact A5|fin; [fin; exact A6|fin; [instantiate (1 := 9); destruct (c_notnull c); [fin|eapply tail_le; [fin|cbn; lia]]
      |fin; [fin; exact A3|fin; [instantiate (1 := 15); destruct (c_autoinc c); [fin|apply tail_empty]|fin; [fin; exact W1|fin; exact W2]]]]]]]]|]. cbn [String.length]. lia.
  - eapply fine_le; [fin; [exact A1|fin; fin; [exact A2|fin; [instantiate (1 := 9); destruct (c_notnull c); [fin|apply tail_empty]|fin; [fin; exact A3|fin; exact A7]]]]|]. cbn [String.length]. lia.
Qed.
Lemma modified_fine : forall d c, plain (column_leaves c) -> fine (weight (column_leaves c) + 160) (action_string d (ModifyColumn c)).
Proof.
  intros d c H. unfold column_leaves in *. parts. rewrite !weight_app. cbn [forallb] in *. 
  match goal with K : plain_leaf (Word (c_onaction c)) && _ = true |- _ => rewrite !andb_true_iff in K; destruct K as [W1 [W2 _]] end. apply word_fine in W1. apply word_fine in W2.
  pose proof (ident_raw _ P) as A1. pose proof (datatype_fine d _ P0) as A2. pose proof (default_fine d _ P1) as A3.
  cbn [weight]. cbn [action_string].
  eapply fine_le; [fin; fin; [exact A1|fin; fin; [exact A2|fin; [instantiate (1 := 15 + weight (oident_leaves (c_charset c)))|fin; [instantiate (1 := 9 + weight (oident_leaves (c_collate c)))|fin; [instantiate (1 := 9); destruct (c_notnull c); [fin|eapply tail_le; [fin|cbn; lia]]
      |fin; [instantiate (1 := 15); destruct (c_autoinc c); [fin|apply tail_empty]|fin; [instantiate (1 := 9 + weight (default_leaves (c_default c)))|fin; [fin; exact W1|fin; exact W2]]]]]]]]|cbn [String.length]; lia].
  - destruct (c_charset c) as [i|]; [|apply tail_empty]. pose proof (ident_raw _ P3) as F. cbn [oident_leaves]. fin. exact F.
  - destruct (c_collate c) as [i|]; [|apply tail_empty]. pose proof (ident_raw _ P4) as F. cbn [oident_leaves]. fin. exact F.
  - destruct (c_default c) as [v|]; [|apply tail_empty]. eapply tail_le; [fin; exact A3|]. cbn [String.length]. lia.
Qed.

Lemma prefix_fine : forall kw f n, plain_text kw = true -> closes kw = false -> (forall i, plain (ident_leaves i) -> fine (weight (ident_leaves i)) (f i)) -> plain (oident_leaves n) ->
  fine (String.length kw + weight (oident_leaves n) + 1) (name_prefix kw f n).
Proof.
  intros kw f [n|] K C F H; cbn [name_prefix]; [|apply fine_empty]. cbn [oident_leaves] in *. specialize (F n H). eapply fine_le; [apply fine_pre; [exact K|exact C|fin; [exact F|fin]]|]. cbn [String.length]. lia.
Qed.
Section Constraint.
Variable d : dialect.
Variable f : ident -> string.
Variable g : list colident -> string.
Variable h : expr -> string.
Hypothesis F : forall i, plain (ident_leaves i) -> fine (weight (ident_leaves i)) (f i).
Hypothesis G : forall cs, plain (cols_leaves cs) -> tail (weight (cols_leaves cs) + 2) (g cs).
Hypothesis H : forall e, plain (expr_leaves e) -> fine (weight (expr_leaves e)) (h e).
(** Both texts of a constraint have this form. *)
Definition constraint_text (c : constraint) : string :=
  match c with
  | CPrimary n cols => (match d with My => "" | _ => name_prefix "CONSTRAINT " f n end) ++ "PRIMARY KEY" ++ " " ++ g cols
  | CForeign n cols ref refcols onaction =>
      name_prefix "CONSTRAINT " f n ++ "FOREIGN KEY" ++ " " ++ g cols ++ " REFERENCES " ++ f ref ++ " " ++ g refcols
      ++ match d with Pg | Crdb => nonempty_prefixed " " onaction | _ => "" end
  | CUnique n cols => name_prefix "CONSTRAINT " f n ++ "UNIQUE " ++ g cols
  | CIndex n unique pre cols post =>
      (if unique then "UNIQUE " else "") ++ name_prefix (match d with My => "KEY " | _ => "INDEX " end) f n
      ++ tail_using d pre ++ g cols ++ tail_using d post
  | CCheck n e => name_prefix "CONSTRAINT " f n ++ "CHECK " ++ h e
  end.
Lemma constraint_text_fine : forall c, plain (constraint_leaves c) -> fine (weight (constraint_leaves c) + 100) (constraint_text c).
Proof.
  intros c K. unfold constraint_leaves in *. apply plain_app_l in K. destruct K as [N K]. rewrite weight_app.
  pose proof (prefix_fine "CONSTRAINT " f (con_name c) eq_refl eq_refl F N) as A.
  destruct c as [n cols|n cols ref refcols on|n cols|n u pre cols post|n e]; cbn [con_name constraint_text] in *.
  - pose proof (G cols K) as B. apply tail_fine in B.
    assert (A' : fine (11 + weight (oident_leaves n) + 1) match d with My => "" | _ => name_prefix "CONSTRAINT " f n end) by (destruct d; try exact A; apply fine_empty).
    eapply fine_le; [fin; [exact A'|fin; fin; exact B]|]. cbn [String.length]. lia.
  - parts. rename K into W. cbn [forallb] in W. rewrite andb_true_r in W. apply word_fine in W. pose proof (G cols P) as B. apply tail_fine in B. pose proof (G refcols P1) as C. apply tail_fine in C. pose proof (F ref P0) as R.
    rewrite !weight_app. cbn [weight].
    eapply fine_le; [fin; [exact A|fin; fin; fin; [exact B|fin; fin; [exact R|fin; fin; [exact C|instantiate (1 := 1 + String.length on)]]]]|cbn [String.length]; lia].
    destruct d; try apply tail_empty; fin; exact W.
  - pose proof (G cols K) as B. apply tail_fine in B. eapply fine_le; [fin; [exact A|fin; exact B]|]. cbn [String.length]. lia.
  - parts. pose proof (G cols P0) as B. pose proof (using_tail d pre P) as U. pose proof (using_tail d post K) as V. rewrite !weight_app.
    assert (A' : fine (6 + weight (oident_leaves n) + 1) (name_prefix (match d with My => "KEY " | _ => "INDEX " end) f n)).
    { destruct d; (eapply fine_le; [apply prefix_fine; [reflexivity|reflexivity|exact F|exact N]|cbn [String.length]; lia]). }
    assert (X : fine (weight (oident_leaves n) + weight (using_leaves pre) + weight (cols_leaves cols) + weight (using_leaves post) + 50)
      (name_prefix (match d with My => "KEY " | _ => "INDEX " end) f n ++ tail_using d pre ++ g cols ++ tail_using d post)).
    { eapply fine_le; [fin; [exact A'|fin; [exact U|fin; [exact B|exact V]]]|]. lia. }
    destruct u; [eapply fine_le; [fin; exact X|cbn [String.length]; lia]|]. cbn [append]. apply (fine_le _ _ _ X). lia.
  - pose proof (H e K) as B. eapply fine_le; [fin; [exact A|fin; exact B]|]. cbn [String.length]. lia.
Qed.
End Constraint.
Lemma constraint_fine : forall d c, plain (constraint_leaves c) -> fine (weight (constraint_leaves c) + 100) (constraint_string d c).
Proof.
  intros d c H. replace (constraint_string d c) with (constraint_text d ident_string (cols_string d) (expr_string d) c) by (destruct c; reflexivity).
  apply constraint_text_fine; [exact ident_raw|exact (cols_tail d)|exact (expr_fine d)|exact H].
Qed.
Lemma constraint_diff_fine : forall d c, plain (constraint_leaves c) -> fine (weight (constraint_leaves c) + 100) (constraint_diff d c).
Proof.
  intros d c H. replace (constraint_diff d c) with (constraint_text d ident_diff (cols_diff d) expr_diff c) by (destruct c; reflexivity).
  apply constraint_text_fine; [exact ident_named|exact (cols_diff_tail d)|exact expr_named|exact H].
Qed.
Lemma option_fine : forall d o, plain (option_leaves o) -> fine (weight (option_leaves o) - 4) (option_string d o).
Proof.
  intros d [n v] H. unfold option_leaves, option_string in *. cbn [o_name o_value forallb] in *. apply andb_true_iff in H. destruct H as [N H]. apply word_fine in N.
  destruct v as [l|]; [|apply fine_empty]. pose proof (idents_fine d l H) as F. cbn [weight expr_leaves].
  eapply fine_le; [fin; [exact N|instantiate (1 := 1 + weight (flat_map ident_leaves l)); destruct d; fin; exact F]|]. lia.
Qed.
Lemma option_nonempty : forall d o, o_value o <> None -> option_string d o <> "".
Proof. intros d [n [l|]] H E; [|apply H; reflexivity]. unfold option_string in E. cbn [o_value o_name] in E. apply app_empty in E. destruct E as [_ E]. destruct d; discriminate E. Qed.
Lemma objname_diff_fine : forall n, plain (objname_leaves n) -> fine (weight (objname_leaves n)) (objname_diff n).
Proof.
  intros [sc n] H. unfold objname_leaves, objname_diff in *. cbn [on_schema on_name] in *. parts. rewrite weight_app. pose proof (ident_named n H) as B. destruct sc as [sc|]; cbn [oident_leaves] in *.
  - destruct (ident_named sc P) as [A _]. eapply fine_le; [fin; [apply fine_const, A|fin; exact B]|]. cbn [String.length]. cbn [ident_leaves weight]. unfold ident_diff. lia.
  - apply (fine_le _ _ _ B). lia.
Qed.

(** The text of a statement in front of its semicolon *)
Definition index_body (d : dialect) (s : create_index) : string :=
  "CREATE " ++ (if cx_unique s then "UNIQUE " else "") ++ "INDEX " ++ (if cx_ifnotexists s then "IF NOT EXISTS " else "")
  ++ objname_string (cx_name s) ++ " ON " ++ objname_string (cx_table s)
  ++ match d, cx_using s with
     | Crdb, _ => match cx_pre s with Some u => " " ++ using_string d u | None => "" end
     | _, [] => ""
     | _, l => " USING " ++ join " " (map ident_string l)
     end
  ++ " " ++ cols_string d (cx_columns s)
  ++ match d, cx_post s with Crdb, Some u => " " ++ using_string d u | _, _ => "" end.
Lemma index_string_body : forall d s, create_index_string d s = (comment_string (cx_comment s) ++ index_body d s ++ ";" ++ nl)%string.
Proof. intros d s. unfold create_index_string, index_body. rewrite !append_assoc. reflexivity. Qed.
Lemma using_list : forall l, plain (flat_map ident_leaves l) -> fine (weight (flat_map ident_leaves l)) (join " " (map ident_string l)).
Proof.
  induction l as [|i l IH]; intro H; [apply fine_empty|]. cbn [flat_map map] in *. parts. specialize (IH H). destruct (ident_raw i P) as [A _]. rewrite weight_app.
  destruct l as [|j l]; [cbn [map join]; eapply fine_le; [apply fine_const, A|cbn [ident_leaves weight flat_map]; unfold ident_string; lia]|].
  change (join " " (ident_string i :: map ident_string (j :: l))) with (ident_string i ++ " " ++ join " " (map ident_string (j :: l))).
  eapply fine_le; [fin; [apply fine_const, A|fin; exact IH]|]. cbn [String.length ident_leaves weight]. unfold ident_string. lia.
Qed.
Lemma index_fine : forall d s, plain (index_leaves s) -> fine (weight (index_leaves s) + 100) (index_body d s).
Proof.
  intros d s H. unfold index_leaves in *. parts. rewrite !weight_app. pose proof (objname_fine _ P) as A. pose proof (objname_fine _ P0) as B.
  pose proof (using_list _ P1) as U. pose proof (using_tail d _ P2) as V. pose proof (cols_tail d _ P3) as C. apply tail_fine in C. pose proof (using_tail d _ H) as W. unfold index_body.
  assert (X : fine (weight (objname_leaves (cx_name s)) + weight (objname_leaves (cx_table s)) + weight (flat_map ident_leaves (cx_using s)) + weight (using_leaves (cx_pre s)) + weight (cols_leaves (cx_columns s)) + weight (using_leaves (cx_post s)) + 50)
    (objname_string (cx_name s) ++ " ON " ++ objname_string (cx_table s)
     ++ match d, cx_using s with Crdb, _ => match cx_pre s with Some u => " " ++ using_string d u | None => "" end | _, [] => "" | _, l => " USING " ++ join " " (map ident_string l) end
     ++ " " ++ cols_string d (cx_columns s) ++ match d, cx_post s with Crdb, Some u => " " ++ using_string d u | _, _ => "" end)).
  { eapply fine_le; [fin; [exact A|fin; fin; [exact B|fin; [instantiate (1 := weight (flat_map ident_leaves (cx_using s)) + weight (using_leaves (cx_pre s)) + 20)|fin; fin; [exact C|instantiate (1 := weight (using_leaves (cx_post s)) + 13)]]]]|cbn [String.length]; lia].
    - assert (U' : cx_using s <> [] -> tail (weight (flat_map ident_leaves (cx_using s)) + weight (using_leaves (cx_pre s)) + 20) (" USING " ++ join " " (map ident_string (cx_using s)))).
      { intros _. eapply tail_le; [fin; exact U|]. cbn [String.length]. lia. }
      destruct d; try (destruct (cx_using s); [apply tail_empty|apply U'; discriminate]). apply (tail_le _ _ _ V). lia.
    - destruct d; try apply tail_empty. exact W. }
  destruct (cx_unique s), (cx_ifnotexists s); repeat match goal with |- context [String.append "" ?x] => change (String.append "" x) with x end.
  - eapply fine_le; [do 4 fin; exact X|cbn [String.length]; lia].
  - eapply fine_le; [do 3 fin; exact X|cbn [String.length]; lia].
  - eapply fine_le; [do 3 fin; exact X|cbn [String.length]; lia].
  - eapply fine_le; [do 2 fin; exact X|cbn [String.length]; lia].
Qed.
Lemma index_diff_length : forall d s, plain (index_leaves s) -> String.length (create_index_diff d s) <= weight (index_leaves s) + 100.
Proof.
  intros d s H. unfold index_leaves in *. parts. rewrite !weight_app. pose proof (objname_diff_fine _ P) as [_ A]. pose proof (objname_diff_fine _ P0) as [_ B].
  pose proof (using_tail d _ P2) as [[_ V] _]. pose proof (cols_diff_tail d _ P3) as [[_ C] _]. pose proof (using_tail d _ H) as [[_ W] _]. unfold create_index_diff.
  assert (X : String.length match d, cx_pre s with Crdb, Some u => " " ++ using_string d u | _, _ => "" end <= weight (using_leaves (cx_pre s)) + 13) by (destruct d; cbn; try lia; exact V).
  assert (Y : String.length match d, cx_post s with Crdb, Some u => " " ++ using_string d u | _, _ => "" end <= weight (using_leaves (cx_post s)) + 13) by (destruct d; cbn; try lia; exact W).
  assert (Z : String.length (if cx_unique s then "UNIQUE " else "") <= 7) by (destruct (cx_unique s); cbn; lia).
  rewrite !length_app. cbn [String.length nl]. lia.
Qed.

(** CREATE TABLE *)
Definition table_body (d : dialect) (t : create_table) : string :=
  "CREATE TABLE " ++ (if ct_ifnotexists t then "IF NOT EXISTS " else "") ++ objname_string (ct_name t) ++ " (" ++ nl
  ++ lines_string (map (column_string d) (ct_columns t) ++ map (constraint_string d) (ct_constraints t))
  ++ ")"
  ++ match ct_options t with [] => "" | l => match d with My | Sp => " " | _ => nl end ++ options_string d l end
  ++ match d, ct_rowdel t with Sp, Some o => "," ++ nl ++ option_string d o | _, _ => "" end.
Lemma table_string_body : forall d t, create_table_string d t = (comment_string (ct_comment t) ++ table_body d t ++ ";" ++ nl)%string.
Proof. intros d t. unfold create_table_string, table_body. rewrite !append_assoc. reflexivity. Qed.
Lemma lines_page : forall n items z, Forall (fine n) items -> page (n + 10) z -> page (n + 10) (lines_string items ++ z).
Proof.
  intros n items z F Z. induction F as [|x items X F IH]; [exact Z|].
  assert (N : forall r, ((Indent ++ x) ++ r)%string <> "") by (intros r E; discriminate E).
  destruct items as [|y items].
  - cbn [lines_string]. rewrite !append_assoc. rewrite <- append_assoc. apply page_nl; [|exact Z]. apply page_line; [|specialize (N ""); rewrite append_nil_r in N; exact N].
    eapply fine_le; [apply (fine_pre Indent); [reflexivity|reflexivity|exact X]|]. cbn [String.length Indent]. lia.
  - change (lines_string (x :: y :: items)) with (Indent ++ x ++ "," ++ nl ++ lines_string (y :: items))%string.
    replace ((Indent ++ x ++ "," ++ nl ++ lines_string (y :: items)) ++ z)%string with (((Indent ++ x) ++ ",") ++ nl ++ (lines_string (y :: items) ++ z))%string by (rewrite !append_assoc; reflexivity).
    apply page_nl; [|exact IH]. apply page_line; [|apply N]. rewrite append_assoc. eapply fine_le; [apply (fine_pre Indent); [reflexivity|reflexivity|fin; [exact X|fin]]|]. cbn [String.length Indent]. lia.
Qed.
Lemma option_weight : forall o, 8 <= weight (option_leaves o).
Proof. intro o. unfold option_leaves. cbn [weight]. lia. Qed.
Lemma options_page : forall d l, l <> [] -> plain (flat_map option_leaves l) -> (forall o, In o l -> o_value o <> None) -> page (weight (flat_map option_leaves l)) (options_string d l).
Proof.
  intros d l N H V. unfold options_string.
  assert (K : fine (weight (flat_map option_leaves l)) (join " " (map (option_string d) l)) /\ join " " (map (option_string d) l) <> ""
    /\ page (weight (flat_map option_leaves l)) (join ("," ++ nl) (map (option_string d) l))).
  { induction l as [|o l IH]; [congruence|]. clear N. cbn [flat_map map] in *. parts. rewrite weight_app.
    pose proof (option_fine d o P) as F. pose proof (option_nonempty d o (V o (or_introl eq_refl))) as E. pose proof (option_weight o) as W.
    destruct l as [|o' l].
    { cbn [map join]. split; [apply (fine_le _ _ _ F); lia|]. split; [exact E|]. apply page_line; [apply (fine_le _ _ _ F); lia|exact E]. }
    destruct (IH ltac:(discriminate) H (fun x I => V x (or_intror I))) as [I1 [I2 I3]]. clear IH.
    change (join " " (option_string d o :: map (option_string d) (o' :: l))) with (option_string d o ++ " " ++ join " " (map (option_string d) (o' :: l))).
    change (join ("," ++ nl) (option_string d o :: map (option_string d) (o' :: l))) with (option_string d o ++ ("," ++ nl) ++ join ("," ++ nl) (map (option_string d) (o' :: l))).
    split; [eapply fine_le; [fin; [exact F|fin; exact I1]|cbn [String.length]; lia]|]. split; [intro Z; apply app_empty in Z; tauto|].
    replace (option_string d o ++ ("," ++ nl) ++ join ("," ++ nl) (map (option_string d) (o' :: l)))%string with ((option_string d o ++ ",") ++ nl ++ join ("," ++ nl) (map (option_string d) (o' :: l)))%string by (rewrite !append_assoc; reflexivity).
    apply page_nl; [|apply (page_le _ _ _ I3); lia]. apply page_line; [eapply fine_le; [fin; [exact F|fin]|cbn [String.length]; lia]|]. intro Z. apply app_empty in Z. tauto. }
  destruct K as [K1 [K2 K3]]. destruct d; try exact K3. apply page_line; assumption.
Qed.
Lemma flat_in : forall A (f : A -> list leaf) l x, In x l -> plain (flat_map f l) -> plain (f x) /\ weight (f x) <= weight (flat_map f l).
Proof.
  intros A f l x. induction l as [|y l IH]; intros I H; [destruct I|]. cbn [flat_map] in *. parts. rewrite weight_app. destruct I as [I|I]; [subst y; split; [assumption|lia]|].
  destruct (IH I H) as [J1 J2]. split; [exact J1|lia].
Qed.
Lemma table_page : forall d t, plain (table_leaves t) -> valued (CreateTable t) = true -> page (weight (table_leaves t) + 200) (table_body d t).
Proof.
  intros d t H V. unfold table_leaves in *. parts. rewrite !weight_app. pose proof (objname_fine _ P) as A. cbn [valued] in V. apply andb_true_iff in V. destruct V as [V1 V2].
  set (w := weight (flat_map column_leaves (ct_columns t)) + (weight (flat_map constraint_leaves (ct_constraints t)) + (weight (flat_map option_leaves (ct_options t)) + weight (ooption_leaves (ct_rowdel t))))).
  unfold table_body.
  assert (I : Forall (fine (w + 120)) (map (column_string d) (ct_columns t) ++ map (constraint_string d) (ct_constraints t))).
  { apply Forall_forall. intros x Hx. apply in_app_or in Hx. destruct Hx as [Hx|Hx]; apply in_map_iff in Hx; destruct Hx as [c [E Hc]]; subst x.
    - destruct (flat_in _ _ _ _ Hc P0) as [Q L]. apply (fine_le _ _ _ (column_fine d c Q)). unfold w. lia.
    - destruct (flat_in _ _ _ _ Hc P1) as [Q L]. apply (fine_le _ _ _ (constraint_fine d c Q)). unfold w. lia. }
  assert (O : page (w + 10) (")" ++ match ct_options t with [] => "" | l => match d with My | Sp => " " | _ => nl end ++ options_string d l end)).
  { destruct (ct_options t) as [|o l] eqn:Eo; [apply page_line; [eapply fine_le; [fin; apply (fine_empty 0)|cbn [String.length]; lia]|discriminate]|].
    assert (K := options_page d (o :: l) ltac:(discriminate) P2). rewrite forallb_forall in V1.
    assert (K' : page (weight (flat_map option_leaves (o :: l))) (options_string d (o :: l))) by (apply K; intros x Hx; specialize (V1 x Hx); destruct (o_value x); [discriminate|discriminate V1]).
    clear K. assert (B : page (w + 8) (options_string d (o :: l))) by (apply (page_le _ _ _ K'); unfold w; lia).
    destruct d.
    - apply (page_le (w + 8)); [|lia]. apply page_nl; [|exact B]. apply page_line; [eapply fine_le; [fin|cbn; lia]|discriminate].
    - apply (page_le (w + 8)); [|lia]. apply page_nl; [|exact B]. apply page_line; [eapply fine_le; [fin|cbn; lia]|discriminate].
    - eapply page_le; [apply (page_pre ")"); [reflexivity|reflexivity|apply (page_pre " "); [reflexivity|reflexivity|exact B]]|cbn [String.length]; lia].
    - eapply page_le; [apply (page_pre ")"); [reflexivity|reflexivity|apply (page_pre " "); [reflexivity|reflexivity|exact B]]|cbn [String.length]; lia]. }
  assert (Z : page (w + 120 + 10) (")" ++ match ct_options t with [] => "" | l => match d with My | Sp => " " | _ => nl end ++ options_string d l end
    ++ match d, ct_rowdel t with Sp, Some o => "," ++ nl ++ option_string d o | _, _ => "" end)).
  { rewrite <- append_assoc. set (z := (")" ++ match ct_options t with [] => "" | l => _ end)%string) in *. clearbody z.
    assert (O' : page (w + 120 + 10) (z ++ "")) by (rewrite append_nil_r; apply (page_le _ _ _ O); lia).
    destruct d; try exact O'. destruct (ct_rowdel t) as [o|] eqn:Er; [|exact O'].
    rewrite <- append_assoc. apply page_nl; [eapply page_le; [apply page_tail; [exact O|fin]|cbn [String.length]; lia]|].
    cbn [ooption_leaves] in *. apply page_line; [apply (fine_le _ _ _ (option_fine Sp o H)); unfold w; lia|]. apply option_nonempty. destruct (o_value o); [discriminate|discriminate V2]. }
  pose proof (lines_page _ _ _ I Z) as L.
  assert (X : page (weight (objname_leaves (ct_name t)) + w + 140) ((objname_string (ct_name t) ++ " (") ++ nl ++ lines_string (map (column_string d) (ct_columns t) ++ map (constraint_string d) (ct_constraints t))
    ++ ")" ++ match ct_options t with [] => "" | l => match d with My | Sp => " " | _ => nl end ++ options_string d l end
    ++ match d, ct_rowdel t with Sp, Some o => "," ++ nl ++ option_string d o | _, _ => "" end)).
  { apply page_nl; [|apply (page_le _ _ _ L); lia]. apply page_line; [eapply fine_le; [fin; [exact A|fin]|cbn [String.length]; lia]|]. intro E. apply app_empty in E. destruct E as [_ E]. discriminate E. }
  rewrite append_assoc in X.
  destruct (ct_ifnotexists t).
  - eapply page_le; [apply (page_pre "CREATE TABLE "); [reflexivity|reflexivity|apply (page_pre "IF NOT EXISTS "); [reflexivity|reflexivity|exact X]]|cbn [String.length]; lia].
  - eapply page_le; [apply (page_pre "CREATE TABLE "); [reflexivity|reflexivity|exact X]|cbn [String.length]; lia].
Qed.
