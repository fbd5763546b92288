(** The text by which two indexes are compared determines uniqueness, table and columns. *)
From Verif Require Import GoStr Token Ast Diff Db DbFacts DiffTable Tidy TidyFacts DiffSame DiffSpec.

Definition starts (stop : string) (r : string) : bool :=
  match r with String c _ => has_byte c stop | EmptyString => false end.

Lemma split_inj : forall stop a a' r r', avoids stop a = true -> avoids stop a' = true -> starts stop r = true -> starts stop r' = true ->
  (a ++ r)%string = (a' ++ r')%string -> a = a' /\ r = r'.
Proof.
  induction a as [|x a IH]; intros a' r r' Ha Ha' Hr Hr' E; destruct a' as [|y a']; cbn [append] in E.
  - auto.
  - subst r. cbn [starts] in Hr. cbn [avoids] in Ha'. rewrite Hr in Ha'. discriminate Ha'.
  - subst r'. cbn [starts] in Hr'. cbn [avoids] in Ha. rewrite Hr' in Ha. discriminate Ha.
  - inversion E; subst. cbn [avoids] in *. apply andb_true_iff in Ha. apply andb_true_iff in Ha'.
    destruct (IH a' r r') as [E1 E2]; try tauto. subst. auto.
Qed.

Lemma app_inj_head : forall a b c, (a ++ b)%string = (a ++ c)%string -> b = c.
Proof. induction a as [|x a IH]; intros b c H; [exact H|]. cbn in H. inversion H. auto. Qed.

Lemma append_assoc : forall a b c : string, ((a ++ b) ++ c)%string = (a ++ b ++ c)%string.
Proof. induction a as [|x a IH]; intros b c; [reflexivity|]. cbn. rewrite IH. reflexivity. Qed.

Definition cont (r : string) : bool := starts ",)" r.

Lemma colident_inj : forall d c c' r r', avoids " ,)" (id_name (ci_ident c)) = true -> avoids " ,)" (id_name (ci_ident c')) = true ->
  cont r = true -> cont r' = true -> (colident_diff d c ++ r)%string = (colident_diff d c' ++ r')%string ->
  sem_keycol d c = sem_keycol d c' /\ r = r'.
Proof.
  intros d [i o] [i' o'] r r' Hc Hc' Hr Hr' E. unfold colident_diff in E. cbn [ci_ident ci_order] in *. unfold ident_diff in E.
  rewrite !append_assoc in E.
  assert (St : forall s, cont s = true -> starts " ,)" s = true).
  { intros [|x s] H; [discriminate H|]. unfold cont in H. cbn [starts has_byte] in *. rewrite orb_true_iff. right. exact H. }
  unfold sem_keycol. cbn [ci_ident ci_order].
  assert (Hd : forall s u, String " "%char s = u -> cont u = true -> False) by (intros s u F G; subst u; discriminate G).
  destruct d; destruct o as [[|]|]; destruct o' as [[|]|]; apply split_inj with (stop := " ,)") in E; try assumption;
    try (apply St; assumption); try reflexivity; destruct E as [E1 E2]; rewrite E1; cbn [append] in E2;
    try (exfalso; discriminate E2); try (exfalso; eapply Hd; [exact E2|assumption]);
    try (exfalso; symmetry in E2; eapply Hd; [exact E2|assumption]); (split; [reflexivity|]); congruence.
Qed.

Lemma join_two : forall d c c1 l, join ", " (map (colident_diff d) (c :: c1 :: l)) =
  (colident_diff d c ++ ", " ++ join ", " (map (colident_diff d) (c1 :: l)))%string.
Proof. reflexivity. Qed.

Lemma cols_inj : forall d l l' r r', l <> [] -> l' <> [] ->
  forallb (fun c => avoids " ,)" (id_name (ci_ident c))) l = true -> forallb (fun c => avoids " ,)" (id_name (ci_ident c))) l' = true ->
  (join ", " (map (colident_diff d) l) ++ String ")" r)%string = (join ", " (map (colident_diff d) l') ++ String ")" r')%string ->
  sem_keycols d l = sem_keycols d l'.
Proof.
  intros d. induction l as [|c l IH]; intros l' r r' N N' H H' E; [contradiction|]. destruct l' as [|c' l']; [contradiction|].
  cbn [forallb] in H, H'. apply andb_true_iff in H. apply andb_true_iff in H'. destruct H as [Hc Hl], H' as [Hc' Hl'].
  destruct l as [|c1 l], l' as [|c1' l'].
  - cbn [map join] in E. apply colident_inj in E; try assumption; try reflexivity. destruct E as [E _]. unfold sem_keycols. cbn [map]. rewrite E. reflexivity.
  - rewrite (join_two d c' c1' l') in E. cbn [map join] in E.
    rewrite append_assoc in E. apply colident_inj in E; try assumption; try reflexivity. destruct E as [_ E]. discriminate E.
  - rewrite (join_two d c c1 l) in E. cbn [map join] in E.
    rewrite append_assoc in E. apply colident_inj in E; try assumption; try reflexivity. destruct E as [_ E]. discriminate E.
  - rewrite (join_two d c c1 l), (join_two d c' c1' l') in E.
    rewrite !append_assoc in E. apply colident_inj in E; try assumption; try reflexivity. destruct E as [E1 E2].
    cbn [append] in E2. inversion E2 as [E3].
    assert (IH' : sem_keycols d (c1 :: l) = sem_keycols d (c1' :: l')).
    { apply (IH (c1' :: l') r r'); try assumption; discriminate. }
    unfold sem_keycols in *. cbn [map] in *. rewrite E1, IH'. reflexivity.
Qed.

Theorem index_text_inj : forall d b a, plain_index b = true -> plain_index a = true -> qname (cx_name b) = qname (cx_name a) ->
  create_index_diff d b = create_index_diff d a ->
  cx_unique b = cx_unique a /\ qname (cx_table b) = qname (cx_table a) /\ sem_keycols d (cx_columns b) = sem_keycols d (cx_columns a).
Proof.
  intros d b a Pb Pa Hn E. unfold plain_index in *. rewrite !andb_true_iff in Pb, Pa.
  destruct Pb as [[[B1 B2] B3] B4], Pa as [[[A1 A2] A3] A4].
  unfold create_index_diff in E.
  rewrite (objname_diff_qname (cx_name b)), (objname_diff_qname (cx_table b)), (objname_diff_qname (cx_name a)), (objname_diff_qname (cx_table a)) in E.
  destruct (cx_pre b); [discriminate B4|]. destruct (cx_pre a); [discriminate A4|].
  replace (match d with Crdb => "" | _ => ""%string end) with ""%string in E by (destruct d; reflexivity).
  apply app_inj_head in E. rewrite Hn in E.
  assert (U : cx_unique b = cx_unique a) by (destruct (cx_unique b), (cx_unique a); try reflexivity; cbn in E; discriminate E).
  split; [exact U|]. rewrite U in E. apply app_inj_head in E. apply app_inj_head in E. apply app_inj_head in E. apply app_inj_head in E.
  apply split_inj with (stop := " ") in E; try assumption; try reflexivity. destruct E as [E1 E2]. split; [exact E1|].
  unfold cols_diff in E2. cbn [append] in E2. inversion E2 as [E3]. rewrite !append_assoc in E3. cbn [append] in E3.
  eapply cols_inj; try exact E3; try assumption; intro Z; rewrite Z in *; discriminate.
Qed.
