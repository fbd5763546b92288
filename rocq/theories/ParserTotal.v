(** Parsing terminates: the loops never run out of fuel (C01), and every parsing
    function returns a shorter or equal rest. *)
From Coq Require Import Lia.
From Verif Require Import GoStr Token Lexer Ast Parser.

Definition short {A} (g : A -> ps) (n : nat) (r : res A) : Prop :=
  match r with OutOfFuel => False | Ok a => List.length (g a) <= n | _ => True end.
Definition ends {A} (r : res A) : Prop := match r with OutOfFuel => False | _ => True end.

Lemma short_bind : forall {A B} (g : A -> ps) (h : B -> ps) m n (r : res A) (f : A -> res B),
  short g m r -> (forall a, List.length (g a) <= m -> short h n (f a)) -> short h n (bind r f).
Proof. intros A B g h m n [a| | |] f H K; cbn in *; auto. Qed.
Lemma ends_bind : forall {A B} (h : B -> ps) n (r : res A) (f : A -> res B),
  ends r -> (forall a, short h n (f a)) -> short h n (bind r f).
Proof. intros A B h n [a| | |] f H K; cbn in *; auto. Qed.
Lemma short_le : forall {A} (g : A -> ps) m n (r : res A), short g m r -> m <= n -> short g n r.
Proof. intros A g m n [a| | |] H K; cbn in *; auto. lia. Qed.
Lemma short_next : forall p, short (fun q => q) (List.length p - 1) (next p).
Proof. intro p. unfold next. destruct (eqs _ _); cbn; [exact I|]. destruct p; cbn; lia. Qed.

Section Total.
Variable d : dialect.
Variable srt : list constraint -> list constraint.

Lemma append_constraint_ends : forall cs c, ends (append_constraint d srt cs c).
Proof. intros cs c. unfold append_constraint. destruct (replace_constraint cs c) as [[l|]|]; exact I. Qed.
Lemma append_constraints_ends : forall new cs, ends (append_constraints d srt cs new).
Proof.
  induction new as [|c r IH]; intro cs; [exact I|]. cbn. pose proof (append_constraint_ends cs c) as H.
  destruct (append_constraint d srt cs c); cbn in *; auto.
Qed.

Ltac pos p :=
  assert (0 < List.length p) by
    (destruct p; [exfalso; match goal with H : _ = true |- _ => discriminate H || (destruct d; discriminate H) end | cbn; lia]).
(* every state whose current token is known to be a certain one is not empty *)
Ltac poses :=
  repeat match goal with
  | H : context [curT ?p] |- _ =>
      match type of H with
      | _ = true => lazymatch goal with K : 0 < List.length p |- _ => fail | _ => idtac end; pos p
      end
  end.
Ltac sh1 :=
  match goal with
  | |- short _ _ (bind (next ?p) _) => eapply (short_bind (fun q => q)); [apply short_next | intros ? ?]
  | |- short _ _ (bind (guard ?b) _) => destruct b eqn:?; cbn [guard bind]
  | |- short _ _ (bind (Ok _) _) => cbn [bind]
  | |- short _ _ (bind Err _) => exact I
  | |- short _ _ (bind (append_constraint _ _ _ _) _) => apply ends_bind; [apply append_constraint_ends | intros ?]
  | |- short _ _ (bind (append_constraints _ _ _ _) _) => apply ends_bind; [apply append_constraints_ends | intros ?]
  | |- short _ _ (if ?b then _ else _) => destruct b eqn:?
  | |- short _ _ (Ok _) => cbn; poses; lia
  | |- short _ _ Err => exact I
  | |- short (fun q => q) _ (next _) => eapply short_le; [apply short_next | poses; lia]
  | |- short _ _ Panic => exact I
  end.
Ltac sh := repeat sh1.
Ltac use l := eapply short_bind; [apply l; poses; lia | intros ? ?].

Lemma parseIdents_loop_short : forall f acc p, List.length p < f -> short snd (List.length p) (parseIdents_loop d f acc p).
Proof.
  induction f as [|f IH]; intros acc p H; [lia|]. cbn [parseIdents_loop]. sh.
  - poses. eapply short_le; [apply IH; lia|lia].
  - destruct p; [discriminate|]. cbn [List.length] in *. eapply short_le; [apply IH; lia|lia].
Qed.
Lemma parseIdents_short : forall p, short snd (List.length p) (parseIdents d p).
Proof. intro p. apply parseIdents_loop_short. lia. Qed.

Lemma parseColumnIdents_loop_short : forall f acc p, List.length p < f -> short snd (List.length p) (parseColumnIdents_loop d f acc p).
Proof.
  induction f as [|f IH]; intros acc p H; [lia|]. cbn [parseColumnIdents_loop]. sh; poses.
  - eapply short_le; [apply IH; lia|lia].
  - eapply (short_bind snd _ (List.length p)).
    + destruct d; sh.
    + intros [o p1] Hp. cbn [snd] in Hp. sh. eapply short_le; [apply IH; lia|lia].
  - eapply short_le; [apply IH; lia|lia].
Qed.
Lemma parseColumnIdents_short : forall p, short snd (List.length p) (parseColumnIdents d p).
Proof. intro p. apply parseColumnIdents_loop_short. lia. Qed.

Lemma parseExpr_loop_short : forall f acc p, List.length p < f -> short snd (List.length p) (parseExpr_loop d f acc p).
Proof.
  induction f as [|f IH]; intros acc p H; [lia|]. cbn [parseExpr_loop]. sh; poses.
  - eapply short_bind; [apply IH; lia|]. intros [ids p2] Hp. cbn [snd] in Hp. eapply short_le; [apply IH; lia|lia].
  - eapply short_le; [apply IH; lia|lia].
  - eapply short_le; [apply IH; lia|lia].
  - destruct p; [discriminate|]. cbn [List.length] in *. eapply short_le; [apply IH; lia|lia].
Qed.
Lemma parseExpr_short : forall p, short snd (List.length p - 1) (parseExpr d p).
Proof. intro p. unfold parseExpr. sh. poses. eapply short_le; [apply parseExpr_loop_short; lia|lia]. Qed.

Lemma parseDataTypeName_short : forall p, short snd (List.length p) (parseDataTypeName d p).
Proof. intro p. unfold parseDataTypeName. destruct d; sh. Qed.
Lemma parseDataType_short : forall p, short snd (List.length p) (parseDataType d p).
Proof.
  intro p. unfold parseDataType. eapply short_bind; [apply parseDataTypeName_short|]. intros [[[n t] e] p1] Hp. cbn [snd] in Hp. sh.
  eapply short_bind; [apply parseIdents_short|]. intros [ids p3] Hq. cbn [snd] in *. sh.
Qed.

Lemma parseDefault_loop_short : forall f v p, List.length p < f -> short snd (List.length p) (parseDefault_loop d f v p).
Proof.
  induction f as [|f IH]; intros v p H; [lia|]. cbn [parseDefault_loop]. cbv zeta. sh1; [|sh1].
  - sh. assert (0 < List.length p) by (destruct p; [exfalso; destruct d; discriminate|cbn; lia]). eapply short_le; [apply IH; lia|lia].
  - poses. eapply short_bind; [apply parseExpr_short|]. intros [ids p1] Hp. cbn [snd] in Hp. eapply short_le; [apply IH; lia|lia].
  - sh1; [sh|]. sh1; [sh; poses; eapply short_le; [apply IH; lia|lia]|].
    sh1. { sh. assert (0 < List.length p) by (destruct p; [exfalso; destruct d; discriminate|cbn; lia]). eapply short_le; [apply IH; lia|lia]. }
    sh1; [|sh]. destruct v; [|exact I].
    sh. assert (0 < List.length p) by (destruct p; [exfalso; destruct d; discriminate|cbn; lia]). eapply short_le; [apply IH; lia|lia].
Qed.
Lemma parseColumnDefault_short : forall p, short snd (List.length p) (parseColumnDefault d p).
Proof. intro p. apply parseDefault_loop_short. lia. Qed.

Lemma parseAs_loop_short : forall f v ty p, List.length p < f -> short snd (List.length p) (parseAs_loop d f v ty p).
Proof.
  induction f as [|f IH]; intros v ty p H; [lia|]. cbn [parseAs_loop]. cbv zeta.
  sh1. { sh. poses. eapply short_le; [apply IH; lia|lia]. }
  sh1. { poses. eapply short_bind; [apply parseExpr_short|]. intros [ids p1] Hp. cbn [snd] in Hp. eapply short_le; [apply IH; lia|lia]. }
  sh1. { sh. poses. eapply short_le; [apply IH; lia|lia]. }
  sh1; [sh|].
  sh1. { sh. poses. eapply short_le; [apply IH; lia|lia]. }
  sh1. { sh. poses. eapply short_le; [apply IH; lia|lia]. }
  sh1; [|sh]. destruct v; [|exact I]. sh. poses. eapply short_le; [apply IH; lia|lia].
Qed.
Lemma parseColumnAs_short : forall p, short snd (List.length p) (parseColumnAs d p).
Proof. intro p. apply parseAs_loop_short. lia. Qed.

Lemma parseUsing_loop_short : forall f v w p, List.length p < f -> short snd (List.length p) (parseUsing_loop d f v w p).
Proof.
  induction f as [|f IH]; intros v w p H; [lia|]. cbn [parseUsing_loop]. cbv zeta. sh; poses.
  - eapply short_le; [apply IH; lia|lia].
  - eapply short_le; [apply IH; lia|lia].
  - eapply short_bind; [apply parseExpr_short|]. intros [ids p1] Hp. cbn [snd] in Hp. eapply short_le; [apply IH; lia|lia].
Qed.
Lemma parseUsing_short : forall p, short snd (List.length p) (parseUsing d p).
Proof. intro p. apply parseUsing_loop_short. lia. Qed.

Lemma parseOn_short : forall b p, short snd (List.length p) (parseOn b p).
Proof. intros b p. unfold parseOn. cbv zeta. sh. Qed.
Lemma parseOnAction_short : forall p, short snd (List.length p) (parseOnAction p).
Proof. intro p. unfold parseOnAction. eapply short_bind; [apply parseOn_short|]. intros [s p1] Hp. cbn [snd] in *. sh. Qed.
Lemma parseColumnOn_short : forall p, short snd (List.length p) (parseColumnOn d p).
Proof.
  intro p. unfold parseColumnOn.
  assert (G : short snd (List.length p) (let! (s, p1) := if eqs (curT p) TOKEN_ON then parseOnAction p else Ok ("", p) in
      if eqs (curT p1) TOKEN_ON then parseOnAction p1 else Ok (s, p1))).
  { eapply (short_bind snd _ (List.length p)).
    - destruct (eqs (curT p) TOKEN_ON); [apply parseOnAction_short|cbn; lia].
    - intros [s p1] Hp. cbn [snd] in *. destruct (eqs (curT p1) TOKEN_ON); [eapply short_le; [apply parseOnAction_short|lia]|cbn; lia]. }
  destruct d; try exact G; try (destruct (eqs (curT p) TOKEN_ON); [apply parseOn_short|cbn; lia]). cbn. lia.
Qed.
Lemma parseTableOn_short : forall p, short snd (List.length p) (parseTableOn d p).
Proof.
  intro p. unfold parseTableOn. destruct d; try (destruct (eqs (curT p) TOKEN_ON); [apply parseOn_short|cbn; lia]).
  - eapply (short_bind snd _ (List.length p)).
    + destruct (eqs (curT p) TOKEN_ON); [apply parseOnAction_short|cbn; lia].
    + intros [s p1] Hp. cbn [snd] in *. destruct (eqs (curT p1) TOKEN_ON); [|cbn; lia].
      eapply short_bind; [apply parseOnAction_short|]. intros [s2 p2] Hq. cbn in *. lia.
  - cbn. lia.
Qed.

Lemma parseColumnConstraints_loop_short : forall f tbl col cs p, List.length p < f ->
  short snd (List.length p) (parseColumnConstraints_loop d srt f tbl col cs p).
Proof.
  induction f as [|f IH]; intros tbl col cs p H; [lia|]. cbn [parseColumnConstraints_loop]. cbv zeta.
  sh1. { assert (0 < List.length p) by (destruct p; [exfalso; destruct d; discriminate|cbn; lia]). sh. eapply short_le; [apply IH; lia|lia]. }
  sh1. { poses. sh. eapply short_bind; [apply parseColumnIdents_short|]. intros [ids p3] Hp. cbn [snd] in Hp.
         eapply short_bind; [apply parseColumnOn_short|]. intros [on p4] Hq. cbn [snd] in Hq. sh. eapply short_le; [apply IH; lia|lia]. }
  sh1. { assert (0 < List.length p) by (destruct p; [exfalso; destruct d; discriminate|cbn; lia]). sh. eapply short_le; [apply IH; lia|lia]. }
  sh1. { poses. sh. eapply short_bind; [apply parseExpr_short|]. intros [ids p3] Hp. cbn [snd] in Hp. sh. eapply short_le; [apply IH; lia|lia]. }
  sh.
Qed.
Lemma parseColumnConstraints_short : forall tbl col p, short snd (List.length p) (parseColumnConstraints d srt tbl col p).
Proof. intros tbl col p. apply parseColumnConstraints_loop_short. lia. Qed.

Lemma parseAttrs_loop_short : forall f c p, List.length p < f -> short snd (List.length p) (parseAttrs_loop d f c p).
Proof.
  induction f as [|f IH]; intros c p H; [lia|]. cbn [parseAttrs_loop]. cbv zeta.
  sh1. { poses. destruct d; sh; (eapply short_le; [apply IH; lia|lia]). }
  sh1. { poses. sh. eapply short_le; [apply IH; lia|lia]. }
  sh1. { poses. sh. eapply short_bind; [apply parseColumnDefault_short|]. intros [v p2] Hp. cbn [snd] in Hp. eapply short_le; [apply IH; lia|lia]. }
  pose proof parseColumnAs_short as PA. destruct d; sh; poses.
  - eapply short_bind; [apply PA|]. intros [v p2] Hp. cbn [snd] in Hp. eapply short_le; [apply IH; lia|lia].
  - eapply short_le; [apply IH; lia|lia].
  - eapply short_le; [apply IH; lia|lia].
  - eapply short_le; [apply IH; lia|lia].
  - eapply short_le; [apply IH; lia|lia].
Qed.

Lemma parseColumn_short : forall tbl p, short snd (List.length p - 1) (parseColumn d srt tbl p).
Proof.
  intros tbl p. unfold parseColumn. cbv zeta. sh. poses.
  eapply short_bind; [apply parseDataType_short|]. intros [dt p2] K2. cbn [snd] in K2. sh.
  eapply short_bind; [apply parseAttrs_loop_short; lia|]. intros [c p4] K4. cbn [snd] in K4.
  eapply short_bind; [apply parseColumnConstraints_short|]. intros [cs p5] K5. cbn [snd] in K5. sh.
  pose proof parseExpr_short as PE. destruct d; sh.
  eapply short_bind; [apply PE|]. intros [ids p7] K7. cbn [snd] in K7. cbn. lia.
Qed.

Lemma parseTableConstraint_short : forall tbl p, isConstraint d (curT p) = true ->
  short snd (List.length p - 1) (parseTableConstraint d tbl p).
Proof.
  intros tbl p H. unfold parseTableConstraint. assert (Hpos : 0 < List.length p) by (destruct p; [destruct d; discriminate|cbn; lia]).
  eapply (short_bind snd _ (List.length p)).
  { sh. }
  intros [name p0] K0. cbn [snd] in K0. cbv zeta.
  sh1. { assert (0 < List.length p0) by (destruct p0; [exfalso; destruct d; discriminate|cbn; lia]). sh.
         eapply short_bind; [apply parseColumnIdents_short|]. intros [ids p3] K3. cbn [snd] in K3. cbn. lia. }
  sh1. { poses. sh. eapply short_bind; [apply parseColumnIdents_short|]. intros [ids p3] K3. cbn [snd] in K3. sh.
         eapply short_bind; [apply parseColumnIdents_short|]. intros [ids2 p6] K6. cbn [snd] in K6.
         eapply short_bind; [apply parseTableOn_short|]. intros [on p7] K7. cbn in *. lia. }
  pose proof parseColumnIdents_short as PC. pose proof parseUsing_short as PU. pose proof parseExpr_short as PE. destruct d; sh; poses.
  - eapply short_bind; [apply PC|]. intros [ids p3] K3. cbn in *. lia.
  - eapply (short_bind (fun q => q) _ (List.length p0)).
    { sh. }
    intros p1 K1. cbv zeta. sh. eapply short_bind; [apply PC|]. intros [ids p4] K4. cbn [snd] in K4. sh.
    eapply short_bind; [apply PU|]. intros [u p5] K5. cbn [snd] in K5. sh.
  - eapply (short_bind (fun q => q) _ (List.length p0)).
    { sh. }
    intros p1 K1. cbv zeta. sh. eapply short_bind; [apply PC|]. intros [ids p4] K4. cbn [snd] in *. sh.
  - eapply short_bind; [apply PE|]. intros [ids p4] K4. cbn in *. lia.
  - eapply short_bind; [apply PE|]. intros [ids p4] K4. cbn in *. lia.
Qed.

Lemma parseIfNotExists_short : forall p, short snd (List.length p) (parseIfNotExists p).
Proof. intro p. unfold parseIfNotExists. sh. Qed.

Lemma parseColumns_loop_short : forall f tbl cols cs p, List.length p < f ->
  short snd (List.length p) (parseColumns_loop d srt f tbl cols cs p).
Proof.
  induction f as [|f IH]; intros tbl cols cs p H; [lia|]. cbn [parseColumns_loop].
  sh1. { poses. eapply short_bind; [apply parseColumn_short|]. intros [[c ccs] p1] K1. cbn [snd] in K1. sh. eapply short_le; [apply IH; lia|lia]. }
  sh1. { assert (0 < List.length p) by (destruct p; [exfalso; destruct d; discriminate|cbn; lia]).
         eapply short_bind; [apply parseTableConstraint_short; assumption|]. intros [c p1] K1. cbn [snd] in K1. sh. eapply short_le; [apply IH; lia|lia]. }
  sh1. { poses. sh. eapply short_le; [apply IH; lia|lia]. }
  sh1; [sh|]. sh1; [|sh]. destruct d; sh.
Qed.

Lemma parseOptionValue_short : forall p, short snd (List.length p) (parseOptionValue d p).
Proof. intro p. unfold parseOptionValue. sh. Qed.
Lemma parseOptionsMy_loop_short : forall f opts p, List.length p < f -> short snd (List.length p) (parseOptionsMy_loop d f opts p).
Proof.
  induction f as [|f IH]; intros opts p H; [lia|]. cbn [parseOptionsMy_loop]. cbv zeta.
  sh1; [|sh]. poses. eapply (short_bind (fun q => q) _ (List.length p)).
  { sh. }
  intros p1 K1. eapply short_bind; [apply parseOptionValue_short|]. intros [v p2] K2. cbn [snd] in K2. sh.
  eapply short_le; [apply IH; lia|lia].
Qed.

Lemma step_short : forall t p, short snd (List.length p - 1) (step d t p).
Proof. intros t p. unfold step. sh. Qed.
Lemma steps_short : forall ts p, short snd (List.length p) (steps d ts p).
Proof.
  induction ts as [|t r IH]; intro p; [cbn; lia|]. cbn [steps]. eapply short_bind; [apply step_short|]. intros [i p1] K1. cbn [snd] in K1.
  eapply short_bind; [apply IH|]. intros [is p2] K2. cbn in *. lia.
Qed.
Lemma parseOptionsSp_loop_short : forall f opts rdp p, List.length p < f -> short snd (List.length p) (parseOptionsSp_loop d f opts rdp p).
Proof.
  induction f as [|f IH]; intros opts rdp p H; [lia|]. cbn [parseOptionsSp_loop]. cbv zeta.
  sh1. { poses. eapply short_bind; [apply step_short|]. intros [i p1] K1. cbn [snd] in K1. sh.
         eapply short_bind; [apply parseExpr_short|]. intros [ids p3] K3. cbn [snd] in K3. eapply short_le; [apply IH; lia|lia]. }
  sh1. { poses. eapply short_bind; [apply step_short|]. intros [i1 p1] K1. cbn [snd] in K1.
         eapply short_bind; [apply step_short|]. intros [i2 p2] K2. cbn [snd] in K2.
         eapply short_bind; [apply step_short|]. intros [i3 p3] K3. cbn [snd] in K3.
         eapply (short_bind snd _ (List.length p3)).
         { sh. eapply short_bind; [apply step_short|]. intros [i4 q2] K4. cbn [snd] in K4. sh.
           eapply short_bind; [apply step_short|]. intros [i5 q4] K5. cbn in *. lia. }
         intros [on p4] K4. cbn [snd] in K4. sh. eapply short_le; [apply IH; lia|lia]. }
  sh1. { poses. eapply short_bind; [apply step_short|]. intros [i1 p1] K1. cbn [snd] in K1.
         eapply short_bind; [apply step_short|]. intros [i2 p2] K2. cbn [snd] in K2.
         eapply short_bind; [apply steps_short|]. intros [ids p3] K3. cbn [snd] in K3. sh. eapply short_le; [apply IH; lia|lia]. }
  sh. poses. eapply short_le; [apply IH; lia|lia].
Qed.

Lemma parseCreateTable_short : forall p, short snd (List.length p) (parseCreateTable d srt p).
Proof.
  intro p. unfold parseCreateTable. eapply short_bind; [apply parseIfNotExists_short|]. intros [ine p1] K1. cbn [snd] in K1. cbv zeta. sh.
  eapply short_bind; [apply parseColumns_loop_short; lia|]. intros [[cols cs] p5] K5. cbn [snd] in K5.
  pose proof parseOptionsMy_loop_short as PM. pose proof parseOptionsSp_loop_short as PS. destruct d; sh.
  - eapply short_bind; [apply PM; lia|]. intros [opts p6] K6. cbn in *. lia.
  - eapply short_bind; [apply PS; lia|]. intros [[opts rdp] p6] K6. cbn in *. lia.
Qed.
Lemma parseCreateIndex_short : forall p, short snd (List.length p) (parseCreateIndex d p).
Proof.
  intro p. unfold parseCreateIndex. cbv zeta. eapply (short_bind (fun q => q) _ (List.length p)).
  { sh. }
  intros p0 K0. eapply short_bind; [apply parseIfNotExists_short|]. intros [ine p1] K1. cbn [snd] in K1. sh.
  eapply (short_bind snd _ (List.length p)).
  { sh. pose proof parseUsing_short as PU. destruct d; sh. eapply short_bind; [apply PU|]. intros [u q1] K6. cbn [snd] in K6. sh. }
  intros [[usg pre] p6] K6. cbn [snd] in K6. sh.
  eapply short_bind; [apply parseColumnIdents_short|]. intros [ids p7] K7. cbn [snd] in K7.
  eapply (short_bind snd _ (List.length p)).
  { sh1; [|sh]. eapply short_bind; [apply parseUsing_short|]. intros [u q1] K8. cbn [snd] in K8. sh. }
  intros [post p8] K8. cbn [snd] in *. sh.
Qed.
Lemma parseCreate_short : forall p, short snd (List.length p) (parseCreate d srt p).
Proof.
  intro p. unfold parseCreate. sh.
  - eapply short_le; [apply parseCreateTable_short|lia].
  - eapply short_le; [apply parseCreateIndex_short|lia].
Qed.

Lemma parse_loop_ends : forall f acc p, List.length p < f -> ends (parse_loop d srt f acc p).
Proof.
  assert (G : forall f acc p, List.length p < f -> short (fun _ : ddl => @nil token) 0 (parse_loop d srt f acc p)).
  { induction f as [|f IH]; intros acc p H; [lia|]. cbn [parse_loop]. sh; poses.
    - eapply short_bind; [apply parseCreate_short|]. intros [s p1] K1. cbn [snd] in K1. sh. apply IH. lia.
    - apply IH. lia. }
  intros f acc p H. specialize (G f acc p H). destruct (parse_loop d srt f acc p); exact I || exact G.
Qed.

Lemma parse_tokens_ends : forall ts, ends (parse_tokens d srt ts).
Proof. intro ts. unfold parse_tokens. destruct (_ || _); [exact I|]. apply parse_loop_ends. lia. Qed.
Lemma parse_ends : forall s, ends (parse d srt s).
Proof. intro s. apply parse_tokens_ends. Qed.
End Total.
