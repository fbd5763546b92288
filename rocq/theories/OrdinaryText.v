(** Of ordinary pieces, columns, constraints, indexes and options (Ordinary.v) the texts
    that Diff compares determine the meaning. *)
From Coq Require Import Lia.
From Verif Require Import GoStr Token Ast Diff Db DbFacts DiffTable Tidy TidyFacts DiffSame DiffSpec IndexText
  Reconcile ReconcileFacts Printable Ordinary.
Local Open Scope list_scope.

(** * Pieces *)
Lemma closed_inj : forall q s s' r r', closed_by q s = true -> closed_by q s' = true -> (s ++ r)%string = (s' ++ r')%string -> s = s' /\ r = r'.
Proof.
  intros q. induction s as [|c s IH]; intros s' r r' H H' E; [discriminate H|]. destruct s' as [|c' s']; [discriminate H'|].
  cbn [append] in E. inversion E as [[E1 E2]]. subst c'. cbn [closed_by] in H, H'. destruct s as [|x s], s' as [|x' s'].
  - auto.
  - rewrite H in H'. cbn in H'. discriminate H'.
  - rewrite H' in H. cbn in H. discriminate H.
  - apply andb_true_iff in H. apply andb_true_iff in H'. destruct (IH (String x' s') r r') as [F1 F2]; try tauto. rewrite F1. auto.
Qed.

Definition ends (stop : string) (r : string) : bool := match r with EmptyString => true | String c _ => has_byte c stop end.
Lemma split_end_inj : forall stop a a' r r', avoids stop a = true -> avoids stop a' = true -> ends stop r = true -> ends stop r' = true ->
  (a ++ r)%string = (a' ++ r')%string -> a = a' /\ r = r'.
Proof.
  induction a as [|x a IH]; intros a' r r' Ha Ha' Hr Hr' E; destruct a' as [|y a']; cbn [append] in E.
  - auto.
  - subst r. cbn [ends] in Hr. cbn [avoids] in Ha'. rewrite Hr in Ha'. discriminate Ha'.
  - subst r'. cbn [ends] in Hr'. cbn [avoids] in Ha. rewrite Hr' in Ha. discriminate Ha.
  - inversion E; subst. cbn [avoids] in *. apply andb_true_iff in Ha. apply andb_true_iff in Ha'.
    destruct (IH a' r r') as [E1 E2]; try tauto. subst. auto.
Qed.
Lemma has_byte_eq : forall c s, has_byte c s = true <-> In c (list_ascii_of_string s).
Proof.
  intros c. induction s as [|x s IH]; cbn [has_byte list_ascii_of_string In]; [split; [discriminate|contradiction]|].
  rewrite orb_true_iff, IH, Ascii.eqb_eq. reflexivity.
Qed.
Lemma avoids_less : forall s' s t, (forall c, has_byte c s' = true -> has_byte c s = true) -> avoids s t = true -> avoids s' t = true.
Proof.
  intros s' s t H. induction t as [|x t IH]; [reflexivity|]. cbn [avoids]. rewrite !andb_true_iff. intros [A B]. split; [|exact (IH B)].
  destruct (has_byte x s') eqn:F; [|reflexivity]. rewrite (H x F) in A. discriminate A.
Qed.
Lemma ends_more : forall s s' r, (forall c, has_byte c s = true -> has_byte c s' = true) -> ends s r = true -> ends s' r = true.
Proof. intros s s' [|c r] H E; [reflexivity|]. exact (H c E). Qed.

(** A piece is followed by nothing or by a byte of [stop]. *)
Definition stops (stop : string) (s : string) : bool := own_text s && (quote_first s || avoids stop s).
Lemma own_inj : forall stop a a' r r', stops stop a = true -> stops stop a' = true -> ends stop r = true -> ends stop r' = true ->
  (a ++ r)%string = (a' ++ r')%string -> a = a' /\ r = r'.
Proof.
  intros stop a a' r r' Ha Ha' Hr Hr' E. unfold stops in *. apply andb_true_iff in Ha. apply andb_true_iff in Ha'.
  destruct Ha as [O Q], Ha' as [O' Q']. unfold own_text, quote_first in *. destruct a as [|c a]; [discriminate O|]. destruct a' as [|c' a']; [discriminate O'|].
  assert (Z : c = c') by (cbn [append] in E; congruence). subst c'. destruct (Ascii.eqb c ch_quote).
  - cbn [append] in E. inversion E as [E1]. destruct (closed_inj _ _ _ _ _ O O' E1) as [F1 F2]. subst. auto.
  - cbn [orb] in Q, Q'. exact (split_end_inj stop _ _ _ _ Q Q' Hr Hr' E).
Qed.
Lemma own_stops : forall s, own_text s = true -> stops " " s = true.
Proof.
  intros s O. unfold stops. rewrite O. cbn [andb]. unfold own_text, quote_first in *. destruct s as [|c s]; [reflexivity|].
  destruct (Ascii.eqb c ch_quote); [reflexivity|]. cbn [orb]. apply (avoids_less " " " '"); [|exact O].
  intros x H. cbn [has_byte] in *. rewrite !orb_true_iff in *. destruct H as [H|H]; [left; exact H|discriminate H].
Qed.

Lemma join_cons : forall a b l, join " " (a :: b :: l) = (a ++ String " " (join " " (b :: l)))%string.
Proof. reflexivity. Qed.
Lemma own_nonempty : forall s, own_text s = true -> s <> ""%string.
Proof. intros [|c s] H; [discriminate H|discriminate]. Qed.
Lemma append_nil : forall s, (s ++ "")%string = s.
Proof. induction s as [|c s IH]; [reflexivity|]. cbn. rewrite IH. reflexivity. Qed.
Lemma join_nonempty : forall a l, own_text a = true -> join " " (a :: l) <> ""%string.
Proof. intros [|c a] [|b l] H; try discriminate H; discriminate. Qed.

Lemma join_inj : forall l l', forallb own_text l = true -> forallb own_text l' = true -> join " " l = join " " l' -> l = l'.
Proof.
  induction l as [|a l IH]; intros l' H H' E.
  - destruct l' as [|a' l']; [reflexivity|]. cbn [forallb] in H'. apply andb_true_iff in H'. symmetry in E. exfalso.
    exact (join_nonempty a' l' (proj1 H') E).
  - destruct l' as [|a' l']; [cbn [forallb] in H; apply andb_true_iff in H; exfalso; exact (join_nonempty a l (proj1 H) E)|].
    cbn [forallb] in H, H'. apply andb_true_iff in H. apply andb_true_iff in H'. destruct H as [H1 H2], H' as [H1' H2'].
    assert (Sh : forall x m, exists r, join " " (x :: m) = (x ++ r)%string /\ ends " " r = true /\ (r = ""%string <-> m = []) /\ (forall y n, m = y :: n -> r = String " " (join " " m))).
    { intros x [|y m]; [exists ""%string|exists (String " " (join " " (y :: m)))].
      - cbn [join]. rewrite append_nil. repeat split; try reflexivity. intros y n Z. discriminate Z.
      - repeat split; try reflexivity; intro Z; discriminate Z. }
    destruct (Sh a l) as [r [R1 [R2 [R3 R4]]]]. destruct (Sh a' l') as [r' [R1' [R2' [R3' R4']]]]. rewrite R1, R1' in E.
    destruct (own_inj " " a a' r r' (own_stops _ H1) (own_stops _ H1') R2 R2' E) as [Ea Er]. subst a' r'. f_equal.
    destruct l as [|x l]; [symmetry; apply R3'; apply R3; reflexivity|]. destruct l' as [|x' l']; [apply R3; apply R3'; reflexivity|].
    apply IH; try assumption. pose proof (R4 x l eq_refl) as F1. pose proof (R4' x' l' eq_refl) as F2. rewrite F1 in F2.
    exact (f_equal (fun s => match s with String _ r => r | EmptyString => s end) F2).
Qed.

Lemma pieces_names : forall lit l, pieces lit l = true -> forallb own_text (map ident_diff l) = true.
Proof.
  intros lit l H. unfold pieces in H. rewrite forallb_forall in *. intros s Hs. apply in_map_iff in Hs. destruct Hs as [i [F Hi]]. subst s.
  specialize (H i Hi). unfold piece in H. apply andb_true_iff in H. apply H.
Qed.
Lemma piece_tok : forall lit i, piece lit i = true -> tok_of i = (lit (id_name i), id_name i).
Proof. intros lit i H. unfold piece in H. apply andb_true_iff in H. destruct H as [_ H]. apply Bool.eqb_prop in H. unfold tok_of. rewrite H. reflexivity. Qed.
Lemma pieces_toks : forall lit l l', pieces lit l = true -> pieces lit l' = true -> map ident_diff l = map ident_diff l' -> toks l = toks l'.
Proof.
  intros lit. induction l as [|i l IH]; intros [|i' l'] H H' E; try discriminate E; [reflexivity|]. unfold pieces in H, H'. cbn [forallb] in H, H'.
  apply andb_true_iff in H. apply andb_true_iff in H'. cbn [map] in E. inversion E as [[E1 E2]]. unfold toks. cbn [map].
  rewrite (piece_tok lit i), (piece_tok lit i') by tauto. unfold ident_diff in E1. rewrite E1. f_equal. apply IH; tauto.
Qed.
Lemma idents_inj : forall lit l l', pieces lit l = true -> pieces lit l' = true -> idents_diff l = idents_diff l' -> toks l = toks l'.
Proof.
  intros lit l l' H H' E. apply (pieces_toks lit); try assumption. apply join_inj; try exact (pieces_names _ _ H); try exact (pieces_names _ _ H'). exact E.
Qed.
Lemma idents_nonempty : forall lit l, pieces lit l = true -> l <> [] -> idents_diff l <> ""%string.
Proof.
  intros lit [|i l] H N; [contradiction|]. pose proof (pieces_names _ _ H) as K. cbn [map forallb] in K. apply andb_true_iff in K.
  unfold idents_diff. cbn [map]. apply join_nonempty. apply K.
Qed.

(** * Types and defaults *)
Lemma argument_stops : forall d i, argument d i = true -> stops "," (id_name i) = true.
Proof. intros d i H. unfold argument in H. apply andb_true_iff in H. destruct H as [H1 H2]. unfold piece in H1. apply andb_true_iff in H1. unfold stops. rewrite (proj1 H1), H2. reflexivity. Qed.
Lemma argument_tok : forall d i, argument d i = true -> tok_of i = (argument_literal d (id_name i), id_name i).
Proof. intros d i H. unfold argument in H. apply andb_true_iff in H. apply piece_tok. apply H. Qed.

Lemma comma_tok : forall c, comma_piece c = true -> tok_of c = (false, ","%string).
Proof. intros c H. unfold comma_piece in H. apply andb_true_iff in H. destruct H as [H1 H2]. apply String.eqb_eq in H1. apply negb_true_iff in H2. unfold tok_of. rewrite H1, H2. reflexivity. Qed.
Lemma comma_name : forall c, comma_piece c = true -> id_name c = ","%string.
Proof. intros c H. unfold comma_piece in H. apply andb_true_iff in H. apply String.eqb_eq. apply H. Qed.

Lemma arguments_inj : forall d n l l', List.length l <= n -> arguments d l = true -> arguments d l' = true ->
  concat_str (map ident_diff l) = concat_str (map ident_diff l') -> toks l = toks l'.
Proof.
  intros d. induction n as [|n IH]; intros l l' L H H' E; destruct l as [|i l]; try discriminate H; [inversion L|].
  destruct l' as [|i' l']; [discriminate H'|]. cbn [arguments] in H, H'. apply andb_true_iff in H. apply andb_true_iff in H'.
  destruct H as [H1 H2], H' as [H1' H2']. cbn [map concat_str] in E. unfold ident_diff at 1 3 in E.
  assert (Sh : forall m, match m with [] => true | c :: r' => comma_piece c && arguments d r' end = true -> ends "," (concat_str (map ident_diff m)) = true).
  { intros [|c m] Z; [reflexivity|]. apply andb_true_iff in Z. cbn [map concat_str]. unfold ident_diff at 1. rewrite (comma_name c (proj1 Z)). reflexivity. }
  destruct (own_inj "," _ _ _ _ (argument_stops d i H1) (argument_stops d i' H1') (Sh l H2) (Sh l' H2') E) as [E1 E2].
  unfold toks. cbn [map]. rewrite (argument_tok d i H1), (argument_tok d i' H1'), E1. f_equal.
  destruct l as [|c l], l' as [|c' l'].
  - reflexivity.
  - exfalso. apply andb_true_iff in H2'. cbn [map concat_str] in E2. unfold ident_diff at 1 in E2. rewrite (comma_name c' (proj1 H2')) in E2. discriminate E2.
  - exfalso. apply andb_true_iff in H2. cbn [map concat_str] in E2. unfold ident_diff at 1 in E2. rewrite (comma_name c (proj1 H2)) in E2. discriminate E2.
  - apply andb_true_iff in H2. apply andb_true_iff in H2'. destruct H2 as [C A], H2' as [C' A']. cbn [map concat_str] in E2. unfold ident_diff at 1 3 in E2.
    rewrite (comma_name c C), (comma_name c' C') in E2. cbn [append] in E2. cbn [map]. rewrite (comma_tok c C), (comma_tok c' C'). f_equal.
    apply IH; try assumption; [cbn [List.length] in L; lia|].
    exact (f_equal (fun s => match s with String _ r => r | EmptyString => s end) E2).
Qed.

Lemma tail_inj : forall (x : ascii) s s', (s ++ String x "")%string = (s' ++ String x "")%string -> s = s'.
Proof.
  intros x. induction s as [|c s IH]; intros [|c' s'] E; [reflexivity| | |].
  - cbn [append] in E. inversion E as [[E1 E2]]. destruct s'; discriminate E2.
  - cbn [append] in E. inversion E as [[E1 E2]]. destruct s; discriminate E2.
  - cbn [append] in E. inversion E as [[E1 E2]]. f_equal. exact (IH s' E2).
Qed.

Lemma type_inj : forall d b a, ordinary_type d b = true -> ordinary_type d a = true -> datatype_diff b = datatype_diff a ->
  (dt_type b, etoks (dt_expr b)) = (dt_type a, etoks (dt_expr a)).
Proof.
  intros d b a Hb Ha E. unfold ordinary_type in *. rewrite !andb_true_iff in Hb, Ha. destruct Hb as [[N1 V1] X1], Ha as [[N2 V2] X2].
  apply negb_true_iff in N1. apply negb_true_iff in N2. unfold datatype_diff, eqs in E. rewrite N1, N2 in E.
  apply split_end_inj with (stop := "("%string) in E; try assumption;
    [|destruct (dt_expr b) as [[|]|]; reflexivity|destruct (dt_expr a) as [[|]|]; reflexivity].
  destruct E as [E1 E2]. rewrite E1. f_equal.
  destruct (dt_expr b) as [[|i l]|], (dt_expr a) as [[|i' l']|]; try reflexivity; try discriminate E2.
  cbn [append] in E2. pose proof (f_equal (fun s => match s with String _ r => r | EmptyString => s end) E2) as E3. cbv beta iota in E3.
  apply tail_inj in E3. cbn [etoks]. exact (arguments_inj d _ _ _ (le_n _) X1 X2 E3).
Qed.

Lemma default_inj : forall d b a, ordinary_default d b = true -> ordinary_default d a = true -> default_diff d b = default_diff d a ->
  sem_default b = sem_default a.
Proof.
  intros d [[l|]|] [[l'|]|] Hb Ha E; try reflexivity; cbn [default_diff ordinary_default sem_default] in *;
    try (exfalso; destruct d; discriminate E).
  f_equal. apply (idents_inj (default_literal d)); try assumption. destruct d; apply app_inj_head in E; try exact E.
  exact (tail_inj _ _ _ E).
Qed.

Lemma column_told : forall d b a, ordinary_column d b = true -> ordinary_column d a = true -> safe_column d b a = true -> col_ok d b a = true.
Proof.
  intros d b a Hb Ha S. unfold ordinary_column in *. rewrite !andb_true_iff in Hb, Ha. destruct Hb as [[B1 B2] B3], Ha as [[A1 A2] A3].
  assert (T : forall A (dec : forall x y : A, {x = y} + {x <> y}) tb ta vb va, (tb = ta -> vb = va) -> told dec tb ta vb va = true).
  { intros A dec tb ta vb va H. unfold told. destruct (String.eqb tb ta) eqn:E; [|reflexivity]. apply String.eqb_eq in E. unfold same. rewrite (H E). destruct (dec va va); [reflexivity|contradiction]. }
  unfold col_ok. rewrite !andb_true_iff. split; [split|].
  - apply T. apply (type_inj d); assumption.
  - apply T. apply default_inj; assumption.
  - destruct d; try reflexivity; [exact S| |].
    + apply andb_true_iff in B3. apply andb_true_iff in A3. destruct B3 as [B3 B4], A3 as [A3 A4]. rewrite B3, A3. cbn [andb]. apply T.
      destruct (c_collate b) as [i|], (c_collate a) as [i'|]; cbn [oident_diff option_map]; unfold ident_diff; intro E; try reflexivity.
      * rewrite E. reflexivity.
      * exfalso. rewrite E in B4. discriminate B4.
      * exfalso. rewrite <- E in A4. discriminate A4.
    + destruct (c_options a) as [l'|] eqn:Ea; [|reflexivity]. cbn [present]. apply T. destruct l' as [|i' l']; [discriminate A3|].
      destruct (c_options b) as [l|]; [|intro E; exfalso; symmetry in E; cbn [expr_diff] in E; exact (idents_nonempty _ _ A3 ltac:(discriminate) E)].
      destruct l as [|i l]; [discriminate B3|]. intro E. cbn [expr_diff option_map] in *. f_equal. exact (idents_inj _ _ _ B3 A3 E).
Qed.

(** * Constraints and indexes *)
Lemma cols_rest_inj : forall d l l' r r', plain_columns l = true -> plain_columns l' = true ->
  (cols_diff d l ++ r)%string = (cols_diff d l' ++ r')%string -> sem_keycols d l = sem_keycols d l' /\ r = r'.
Proof.
  intros d l l' r r' H H' E. unfold cols_diff in E. cbn [append] in E. inversion E as [E1]. clear E. rewrite !append_assoc in E1. cbn [append] in E1.
  revert l' r r' H' E1. induction l as [|c l IH]; intros l' r r' H' E; [discriminate H|]. destruct l' as [|c' l']; [discriminate H'|].
  cbn [plain_columns forallb] in H, H'. apply andb_true_iff in H. apply andb_true_iff in H'. destruct H as [Hc Hl], H' as [Hc' Hl'].
  destruct l as [|c1 l], l' as [|c1' l'].
  - cbn [map join] in E. apply colident_inj in E; try assumption; try reflexivity. destruct E as [E E2]. inversion E2. unfold sem_keycols. cbn [map]. rewrite E. auto.
  - rewrite (join_two d c' c1' l') in E. cbn [map join] in E.
    rewrite append_assoc in E. apply colident_inj in E; try assumption; try reflexivity. destruct E as [_ E]. discriminate E.
  - rewrite (join_two d c c1 l) in E. cbn [map join] in E.
    rewrite append_assoc in E. apply colident_inj in E; try assumption; try reflexivity. destruct E as [_ E]. discriminate E.
  - rewrite (join_two d c c1 l), (join_two d c' c1' l') in E.
    rewrite !append_assoc in E. apply colident_inj in E; try assumption; try reflexivity. destruct E as [E1 E2].
    cbn [append] in E2. inversion E2 as [E3].
    destruct (IH Hl (c1' :: l') r r' Hl' E3) as [K1 K2]. split; [|exact K2].
    unfold sem_keycols in *. cbn [map] in *. rewrite E1, K1. reflexivity.
Qed.
Lemma cols_end_inj : forall d l l', plain_columns l = true -> plain_columns l' = true -> cols_diff d l = cols_diff d l' -> sem_keycols d l = sem_keycols d l'.
Proof. intros d l l' H H' E. apply (cols_rest_inj d l l' "" ""); try assumption. rewrite E. reflexivity. Qed.
Lemma prefixed_inj : forall a a', nonempty_prefixed " " a = nonempty_prefixed " " a' -> a = a'.
Proof.
  intros a a' E. unfold nonempty_prefixed, eqs in E. destruct (String.eqb a "") eqn:F, (String.eqb a' "") eqn:F'.
  - apply String.eqb_eq in F, F'. congruence.
  - discriminate E.
  - discriminate E.
  - cbn [append] in E. inversion E. reflexivity.
Qed.

Lemma constraint_inj : forall d t u b a, tidy_con d b = true -> tidy_con d a = true -> con_label b = con_label a -> qname t = qname u ->
  is_inner_index b = is_inner_index a -> ordinary_constraint d b = true -> ordinary_constraint d a = true ->
  constraint_diff d b = constraint_diff d a -> con_value d t b = con_value d u a.
Proof.
  intros d t u b a Tb Ta K Q I Ob Oa E. unfold tidy_con in Tb, Ta. apply andb_true_iff in Tb. apply andb_true_iff in Ta. destruct Tb as [Tb _], Ta as [Ta _].
  unfold con_label in K. destruct b as [n cs|n cs ref rcs act|n cs|n un pre cs post|n e], a as [n' cs'|n' cs' ref' rcs' act'|n' cs'|n' un' pre' cs' post'|n' e'];
    try discriminate I; cbn [con_name] in *; destruct n as [n|]; try discriminate Tb; destruct n' as [n'|]; try discriminate Ta;
    cbn [constraint_diff name_prefix ordinary_constraint con_value sem_con option_map] in *; unfold ident_diff in E; rewrite <- ?K in E;
    rewrite ?append_assoc in E; try (destruct d; discriminate E); try (destruct d; cbn [append] in E; do 2 apply app_inj_head in E; discriminate E);
    try (destruct d; do 3 apply app_inj_head in E; discriminate E).
  - apply app_inj_head in E. do 2 apply app_inj_head in E. rewrite (cols_end_inj d cs cs') by assumption. reflexivity.
  - exfalso. destruct d; rewrite ?append_assoc in E; try discriminate E; do 3 apply app_inj_head in E; discriminate E.
  - exfalso. destruct d; rewrite ?append_assoc in E; try discriminate E; do 3 apply app_inj_head in E; discriminate E.
  - exfalso. destruct d; rewrite ?append_assoc in E; try discriminate E; do 3 apply app_inj_head in E; discriminate E.
  - exfalso. destruct d; rewrite ?append_assoc in E; try discriminate E; do 3 apply app_inj_head in E; discriminate E.
  - rewrite !andb_true_iff in Ob, Oa. destruct Ob as [[[O1 O2] O3] O4], Oa as [[[P1 P2] P3] P4].
    do 5 apply app_inj_head in E. destruct (cols_rest_inj d cs cs' _ _ O1 P1 E) as [F1 F2]. apply app_inj_head in F2.
    apply split_inj with (stop := " "%string) in F2; try assumption; try reflexivity. destruct F2 as [F2 F3]. apply app_inj_head in F3.
    destruct (cols_rest_inj d rcs rcs' _ _ O3 P3 F3) as [F4 F5]. rewrite F1, F2, F4. do 3 f_equal.
    destruct d; try reflexivity; try (exact (prefixed_inj _ _ F5)). apply String.eqb_eq in O4. apply String.eqb_eq in P4. congruence.
  - exfalso. destruct d; rewrite ?append_assoc in E; try discriminate E; do 3 apply app_inj_head in E; discriminate E.
  - do 4 apply app_inj_head in E. rewrite (cols_end_inj d cs cs') by assumption. reflexivity.
  - rewrite !andb_true_iff in Ob, Oa. destruct Ob as [[O1 O2] O3], Oa as [[P1 P2] P3].
    destruct pre; [discriminate O1|]. destruct post; [discriminate O3|]. destruct pre'; [discriminate P1|]. destruct post'; [discriminate P3|].
    assert (U : un = un') by (destruct un, un'; try reflexivity; destruct d; discriminate E). subst un'. do 5 apply app_inj_head in E.
    destruct (cols_rest_inj d cs cs' _ _ O2 P2 E) as [F1 _]. unfold sem_intable. rewrite F1, Q. reflexivity.
  - exfalso. destruct d; rewrite ?append_assoc in E; try discriminate E; do 3 apply app_inj_head in E; discriminate E.
  - do 4 apply app_inj_head in E. do 3 f_equal.
    destruct e as [l|], e' as [l'|]; cbn [expr_diff etoks] in *; try reflexivity.
    + exact (idents_inj _ _ _ Ob Oa E).
    + destruct l as [|i l]; [reflexivity|]. exfalso. exact (idents_nonempty _ _ Ob ltac:(discriminate) E).
    + destruct l' as [|i l']; [reflexivity|]. exfalso. symmetry in E. exact (idents_nonempty _ _ Oa ltac:(discriminate) E).
Qed.

Lemma index_inj : forall d b a, ordinary_index b = true -> ordinary_index a = true -> qname (cx_name b) = qname (cx_name a) ->
  noticed_index d b a = true -> create_index_diff d b = create_index_diff d a -> sem_index d b = sem_index d a.
Proof.
  intros d b a Hb Ha N U E. unfold ordinary_index in *. rewrite !andb_true_iff in Hb, Ha. destruct Hb as [[[B1 B2] B3] B4], Ha as [[[A1 A2] A3] A4].
  assert (P : forall i, avoids " " (qname (cx_table i)) = true -> plain_columns (cx_columns i) = true -> no_using (cx_pre i) = true -> plain_index i = true).
  { intros i H1 H2 H3. unfold plain_index. unfold plain_columns in H2. rewrite H1. destruct (cx_columns i); [discriminate H2|]. rewrite H2. destruct (cx_pre i); [discriminate H3|reflexivity]. }
  destruct (index_text_inj d b a (P b B1 B2 B3) (P a A1 A2 A3) N E) as [E1 [E2 E3]]. unfold sem_index. rewrite E1, E2, E3.
  destruct (cx_pre b); [discriminate B3|]. destruct (cx_pre a); [discriminate A3|]. destruct (cx_post b); [discriminate B4|]. destruct (cx_post a); [discriminate A4|].
  destruct d; try reflexivity; cbn [noticed_index] in U; rewrite E1, E2, E3, eqb_reflx, String.eqb_refl in U; unfold same in U at 1;
    (destruct (list_dec keycol_eq_dec _ _) as [Z|Z]; [|contradiction]); cbn [andb] in U; rewrite (same_eq _ _ _ _ U); reflexivity.
Qed.

(** * Options *)
Lemma my_option_inj : forall b a, my_option b = true -> my_option a = true -> o_name b = o_name a -> option_diff My b = option_diff My a ->
  etoks (o_value b) = etoks (o_value a).
Proof.
  intros b a Hb Ha N E. unfold my_option, option_diff in *. rewrite N in *. destruct (o_value b) as [l|]; [|discriminate Hb]. destruct (o_value a) as [l'|]; [|discriminate Ha].
  do 2 apply app_inj_head in E. cbn [etoks]. exact (idents_inj _ _ _ Hb Ha E).
Qed.
Lemma row_inj : forall b a, tidy_row Sp b = true -> tidy_row Sp a = true -> ordinary_row Sp b = true -> ordinary_row Sp a = true ->
  ooption_diff Sp b = ooption_diff Sp a -> option_map (fun o => etoks (o_value o)) b = option_map (fun o => etoks (o_value o)) a.
Proof.
  intros b a Tb Ta Hb Ha E. destruct b as [b|], a as [a|]; cbn [tidy_row ordinary_row ooption_diff option_map] in *; try reflexivity; unfold option_diff in E;
    try (apply andb_true_iff in Tb; destruct Tb as [Tb _]; apply String.eqb_eq in Tb; rewrite Tb in E);
    try (apply andb_true_iff in Ta; destruct Ta as [Ta _]; apply String.eqb_eq in Ta; rewrite Ta in E);
    try (destruct (o_value b) as [l|]; [|discriminate Hb]); try (destruct (o_value a) as [l'|]; [|discriminate Ha]); try discriminate E.
  do 2 apply app_inj_head in E. cbn [etoks]. f_equal. exact (idents_inj _ _ _ Hb Ha E).
Qed.

(** The text of a key ends with its only closing parenthesis. *)
Lemma sign_tok : forall s i, sign_piece s i = true -> id_name i = s /\ tok_of i = (false, s).
Proof. intros s i H. unfold sign_piece in H. apply andb_true_iff in H. destruct H as [H1 H2]. apply String.eqb_eq in H1. apply negb_true_iff in H2. unfold tok_of. rewrite H1, H2. auto. Qed.
Lemma key_piece_facts : forall i, key_piece i = true -> stops " " (id_name i) = true /\ tok_of i = (false, id_name i)
  /\ exists c r, id_name i = String c r /\ Ascii.eqb c ")" = false.
Proof.
  intros i H. unfold key_piece in H. apply andb_true_iff in H. destruct H as [H1 H2]. pose proof (piece_tok _ _ H1) as T. unfold piece in H1. apply andb_true_iff in H1. destruct H1 as [H1 _].
  split; [exact (own_stops _ H1)|]. split; [exact T|]. destruct (id_name i) as [|c r]; [discriminate H1|]. exists c, r. split; [reflexivity|].
  cbn [avoids has_byte] in H2. apply andb_true_iff in H2. destruct H2 as [H2 _]. rewrite !negb_orb, !andb_true_iff, !negb_true_iff in H2. rewrite Ascii.eqb_sym. apply H2.
Qed.
Lemma key_rest_inj : forall r r' s s', key_rest r = true -> key_rest r' = true ->
  (join " " (map ident_diff r) ++ s)%string = (join " " (map ident_diff r') ++ s')%string -> toks r = toks r' /\ s = s'.
Proof.
  induction r as [|i r IH]; intros [|i' r'] s s' H H' E; try discriminate H; try discriminate H'. cbn [key_rest] in H, H'.
  assert (J : forall x y m, join " " (map ident_diff (x :: y :: m)) = (id_name x ++ String " " (join " " (map ident_diff (y :: m))))%string) by reflexivity.
  destruct r as [|j r], r' as [|j' r'].
  - destruct (sign_tok _ _ H) as [N T]. destruct (sign_tok _ _ H') as [N' T']. cbn [map join] in E. unfold ident_diff in E. rewrite N, N' in E. apply app_inj_head in E.
    unfold toks. cbn [map]. rewrite T, T'. auto.
  - exfalso. destruct (sign_tok _ _ H) as [N T]. apply andb_true_iff in H'. destruct (key_piece_facts _ (proj1 H')) as [_ [_ [c [w [F1 F2]]]]].
    rewrite J, append_assoc in E. cbn [map join] in E. unfold ident_diff at 1 in E. rewrite N, F1 in E. cbn [append] in E. inversion E as [[E1 E2]]. subst c. discriminate F2.
  - exfalso. destruct (sign_tok _ _ H') as [N T]. apply andb_true_iff in H. destruct (key_piece_facts _ (proj1 H)) as [_ [_ [c [w [F1 F2]]]]].
    rewrite J, append_assoc in E. cbn [map join] in E. unfold ident_diff in E. rewrite N, F1 in E. cbn [append] in E. inversion E as [[E1 E2]]. subst c. discriminate F2.
  - apply andb_true_iff in H. apply andb_true_iff in H'. destruct H as [H1 H2], H' as [H1' H2'].
    destruct (key_piece_facts _ H1) as [S1 [T1 _]]. destruct (key_piece_facts _ H1') as [S1' [T1' _]]. rewrite !J, !append_assoc in E. cbn [append] in E.
    apply own_inj with (stop := " "%string) in E; try assumption; try reflexivity. destruct E as [E1 E2].
    pose proof (f_equal (fun s => match s with String _ r => r | EmptyString => s end) E2) as E3. cbv beta iota in E3.
    destruct (IH (j' :: r') s s' H2 H2' E3) as [K1 K2]. split; [|exact K2]. unfold toks in *. cbn [map] in *. rewrite T1, T1', E1, K1. reflexivity.
Qed.
Lemma key_inj : forall b a s s', key_option b = true -> key_option a = true -> (option_diff Sp b ++ s)%string = (option_diff Sp a ++ s')%string ->
  etoks (o_value b) = etoks (o_value a) /\ s = s'.
Proof.
  intros b a s s' Hb Ha E. unfold key_option in *. apply andb_true_iff in Hb. apply andb_true_iff in Ha. destruct Hb as [N H], Ha as [N' H'].
  apply String.eqb_eq in N. apply String.eqb_eq in N'. unfold option_diff in E. rewrite N, N' in E.
  destruct (o_value b) as [[|i r]|]; try discriminate H. destruct (o_value a) as [[|i' r']|]; try discriminate H'.
  apply andb_true_iff in H. apply andb_true_iff in H'. destruct H as [H1 H2], H' as [H1' H2']. destruct (sign_tok _ _ H1) as [M T]. destruct (sign_tok _ _ H1') as [M' T'].
  rewrite !append_assoc in E. do 2 apply app_inj_head in E. unfold idents_diff in E.
  assert (J : forall x m, key_rest m = true -> join " " (map ident_diff (x :: m)) = (id_name x ++ String " " (join " " (map ident_diff m)))%string) by (intros x [|y m] Z; [discriminate Z|reflexivity]).
  rewrite !J, M, M' in E by assumption. rewrite !append_assoc in E. apply app_inj_head in E. cbn [append] in E.
  pose proof (f_equal (fun s => match s with String _ r => r | EmptyString => s end) E) as E3. cbv beta iota in E3.
  destruct (key_rest_inj _ _ _ _ H2 H2' E3) as [K1 K2]. split; [|exact K2]. cbn [etoks]. unfold toks in *. cbn [map]. rewrite T, T', K1. reflexivity.
Qed.
Lemma parent_inj : forall b a, parent_option b = true -> parent_option a = true -> option_diff Sp b = option_diff Sp a -> etoks (o_value b) = etoks (o_value a).
Proof.
  intros b a Hb Ha E. unfold parent_option in *. apply andb_true_iff in Hb. apply andb_true_iff in Ha. destruct Hb as [N H], Ha as [N' H'].
  apply String.eqb_eq in N. apply String.eqb_eq in N'. unfold option_diff in E. rewrite N, N' in E. clear N N'.
  assert (F : forall v, match v with Some [t] => piece (value_literal Sp) t && avoids "'" (id_name t)
                                 | Some [t; on] => piece (value_literal Sp) t && avoids "'" (id_name t) && negb (literal on) | _ => false end = true ->
     exists t m, v = Some (t :: m) /\ stops " " (id_name t) = true /\ tok_of t = (false, id_name t) /\ (m = [] \/ exists o, m = [o] /\ tok_of o = (false, id_name o))).
  { intros v Hv. destruct v as [[|t [|o [|x m]]]|]; try discriminate Hv.
    - apply andb_true_iff in Hv. destruct Hv as [P V]. exists t, []. split; [reflexivity|]. split; [|split; [exact (piece_tok _ _ P)|left; reflexivity]].
      unfold piece in P. apply andb_true_iff in P. exact (own_stops _ (proj1 P)).
    - rewrite !andb_true_iff in Hv. destruct Hv as [[P V] L]. exists t, [o]. split; [reflexivity|]. split; [|split; [exact (piece_tok _ _ P)|right; exists o; split; [reflexivity|]]].
      + unfold piece in P. apply andb_true_iff in P. exact (own_stops _ (proj1 P)).
      + apply negb_true_iff in L. unfold tok_of. rewrite L. reflexivity. }
  destruct (F _ H) as [t [m [V [S1 [T1 M]]]]]. destruct (F _ H') as [t' [m' [V' [S1' [T1' M']]]]]. rewrite V, V' in *. clear F H H' V V'.
  do 2 apply app_inj_head in E. unfold idents_diff in E.
  assert (J : forall x l, (l = [] \/ exists o, l = [o] /\ tok_of o = (false, id_name o)) ->
     join " " (map ident_diff (x :: l)) = (id_name x ++ match l with [] => "" | o :: _ => String " " (id_name o) end)%string).
  { intros x l [Z|[o [Z _]]]; subst l; [cbn [map join]; unfold ident_diff; rewrite append_nil; reflexivity|reflexivity]. }
  rewrite !J in E by assumption.
  assert (En : forall l : list ident, ends " " match l with [] => "" | o :: _ => String " " (id_name o) end = true) by (intros [|o l]; reflexivity).
  destruct (own_inj " " _ _ _ _ S1 S1' (En m) (En m') E) as [E1 E2]. cbn [etoks]. unfold toks. cbn [map]. rewrite T1, T1', E1. f_equal.
  destruct M as [M|[o [M To]]], M' as [M'|[o' [M' To']]]; subst m m'; try discriminate E2; [reflexivity|]. cbn [map]. rewrite To, To'. inversion E2. reflexivity.
Qed.

Lemma sp_options_inj : forall b a, ordinary_options Sp b = true -> ordinary_options Sp a = true -> options_diff Sp b = options_diff Sp a ->
  map (fun o => (o_name o, etoks (o_value o))) b = map (fun o => (o_name o, etoks (o_value o))) a.
Proof.
  intros b a Hb Ha E.
  assert (Nk : forall o, key_option o = true -> o_name o = "PRIMARY KEY"%string) by (intros o H; unfold key_option in H; apply andb_true_iff in H; apply String.eqb_eq; apply H).
  assert (Np : forall o, parent_option o = true -> o_name o = "INTERLEAVE IN PARENT"%string) by (intros o H; unfold parent_option in H; apply andb_true_iff in H; apply String.eqb_eq; apply H).
  assert (Fk : forall o s, key_option o = true -> (option_diff Sp o ++ s)%string = ""%string -> False).
  { intros o s H F. pose proof (Nk o H) as N. unfold key_option in H. apply andb_true_iff in H. destruct H as [_ H]. unfold option_diff in F. destruct (o_value o) as [l|]; [|discriminate H]. rewrite N in F. discriminate F. }
  assert (J2 : forall k p, options_diff Sp [k; p] = (option_diff Sp k ++ ", " ++ option_diff Sp p)%string) by reflexivity.
  assert (J1 : forall k, options_diff Sp [k] = (option_diff Sp k ++ "")%string) by (intro k; rewrite append_nil; reflexivity).
  assert (Sh : forall l, ordinary_options Sp l = true -> l = [] \/ (exists k, l = [k] /\ key_option k = true) \/ (exists k p, l = [k; p] /\ key_option k = true /\ parent_option p = true)).
  { intros [|k [|p [|x l]]] H; [auto|right; left; exists k; auto| |discriminate H]. right. right. exists k, p. cbn [ordinary_options] in H. apply andb_true_iff in H. tauto. }
  destruct (Sh b Hb) as [Zb|[[k [Zb Hk]]|[k [p [Zb [Hk Hp]]]]]]; destruct (Sh a Ha) as [Za|[[k' [Za Hk']]|[k' [p' [Za [Hk' Hp']]]]]]; subst b a; rewrite ?J1, ?J2 in E.
  - reflexivity.
  - symmetry in E. destruct (Fk _ _ Hk' E).
  - symmetry in E. destruct (Fk _ _ Hk' E).
  - destruct (Fk _ _ Hk E).
  - destruct (key_inj _ _ _ _ Hk Hk' E) as [K _]. cbn [map]. rewrite (Nk k Hk), (Nk k' Hk'), K. reflexivity.
  - destruct (key_inj _ _ _ _ Hk Hk' E) as [_ K]. discriminate K.
  - destruct (Fk _ _ Hk E).
  - destruct (key_inj _ _ _ _ Hk Hk' E) as [_ K]. discriminate K.
  - destruct (key_inj _ _ _ _ Hk Hk' E) as [K1 K2]. apply app_inj_head in K2. cbn [map]. rewrite (Nk k Hk), (Nk k' Hk'), (Np p Hp), (Np p' Hp'), K1, (parent_inj p p' Hp Hp' K2). reflexivity.
Qed.
