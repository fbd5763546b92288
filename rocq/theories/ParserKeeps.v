(** The parser only drops tokens from the front: every predicate on the remaining tokens
    that survives dropping the first one survives parsing. *)
From Verif Require Import GoStr Token Lexer Ast Parser.

Section Keeps.
Variable d : dialect.
Variable srt : list constraint -> list constraint.
Variable P : ps -> Prop.
Hypothesis Ptl : forall p, P p -> P (tl p).

Definition kp {A} (r : res (A * ps)) : Prop := match r with Ok x => P (snd x) | _ => True end.
Lemma kp_bind : forall {A B} (r : res (A * ps)) (f : A * ps -> res (B * ps)),
  kp r -> (forall a p, P p -> kp (f (a, p))) -> kp (bind r f).
Proof. intros A B [[a p]| | |] f H K; cbn in *; auto. Qed.
Lemma kp_pure : forall {A B} (r : res A) (f : A -> res (B * ps)), (forall a, kp (f a)) -> kp (bind r f).
Proof. intros A B [a| | |] f K; cbn in *; auto. Qed.
Lemma kp_next : forall {B} p (f : ps -> res (B * ps)), P p -> (forall p, P p -> kp (f p)) -> kp (bind (next p) f).
Proof. intros B p f H K. unfold next. destruct (eqs (peekT (tl p)) TOKEN_BOOM); cbn; auto. Qed.
Lemma kp_if_next : forall {B} (b : bool) p (f : ps -> res (B * ps)), P p -> (forall p, P p -> kp (f p)) -> kp (bind (if b then next p else Ok p) f).
Proof. intros B [|] p f H K; [apply kp_next; assumption|apply K; exact H]. Qed.
Lemma kp_if_gnext : forall {B} (b c : bool) p (f : ps -> res (B * ps)), P p -> (forall p, P p -> kp (f p)) ->
  kp (bind (if b then let! _ := guard c in next p else Ok p) f).
Proof. intros B [|] [|] p f H K; cbn; auto; apply kp_next; assumption. Qed.

Ltac k1 :=
  match goal with
  | |- kp (bind (next _) _) => apply kp_next; [assumption|intros ? ?]
  | |- kp (bind (if _ then next _ else Ok _) _) => apply kp_if_next; [assumption|intros ? ?]
  | |- kp (bind (if _ then (bind (guard _) _) else Ok _) _) => apply kp_if_gnext; [assumption|intros ? ?]
  | |- kp (bind (guard _) _) => apply kp_pure; intros _
  | |- kp (bind (append_constraint _ _ _ _) _) => apply kp_pure; intro
  | |- kp (bind (append_constraints _ _ _ _) _) => apply kp_pure; intro
  | |- kp (bind (Ok _) _) => cbn [bind]
  | |- kp (bind Err _) => exact I
  | |- kp (bind Panic _) => exact I
  | |- kp (Ok _) => cbn; assumption
  | |- kp Err => exact I
  | |- kp Panic => exact I
  | |- kp OutOfFuel => exact I
  | |- kp (if ?b then _ else _) => destruct b
  | IH : _ |- kp _ => apply IH; assumption
  | |- kp (bind _ _) => apply kp_bind; [|intros ? ? ?]
  | |- kp (match ?x with (_, _) => _ end) => destruct x
  end.
Ltac ks := repeat k1.

Lemma parseIdents_kp : forall f acc p, P p -> kp (parseIdents_loop d f acc p).
Proof. induction f as [|f IH]; intros acc p H; cbn [parseIdents_loop]; ks. Qed.
Lemma parseColumnIdents_kp : forall f acc p, P p -> kp (parseColumnIdents_loop d f acc p).
Proof. induction f as [|f IH]; intros acc p H; cbn [parseColumnIdents_loop]; ks. destruct d; ks. Qed.
Lemma parseColumnIdents_kp' : forall p, P p -> kp (parseColumnIdents d p).
Proof. intros p H. apply parseColumnIdents_kp. exact H. Qed.
Lemma parseExpr_loop_kp : forall f acc p, P p -> kp (parseExpr_loop d f acc p).
Proof. induction f as [|f IH]; intros acc p H; cbn [parseExpr_loop]; ks. Qed.
Lemma parseExpr_kp : forall p, P p -> kp (parseExpr d p).
Proof. intros p H. unfold parseExpr. ks. apply parseExpr_loop_kp. assumption. Qed.
Lemma parseDataTypeName_kp : forall p, P p -> kp (parseDataTypeName d p).
Proof. intros p H. unfold parseDataTypeName. cbv zeta. destruct d; ks. Qed.
Lemma parseDataType_kp : forall p, P p -> kp (parseDataType d p).
Proof. intros p H. unfold parseDataType. apply kp_bind; [apply parseDataTypeName_kp; exact H|]. intros [[n t] e] p1 H1. ks. apply parseIdents_kp. assumption. Qed.
Lemma parseDefault_kp : forall f v p, P p -> kp (parseDefault_loop d f v p).
Proof.
  pose proof parseExpr_kp as PE. induction f as [|f IH]; intros v p H; cbn [parseDefault_loop]; cbv zeta; ks. destruct v; ks.
Qed.
Lemma parseAs_kp : forall f v ty p, P p -> kp (parseAs_loop d f v ty p).
Proof.
  pose proof parseExpr_kp as PE. induction f as [|f IH]; intros v ty p H; cbn [parseAs_loop]; cbv zeta; ks. destruct v; ks.
Qed.
Lemma parseUsing_kp : forall f v w p, P p -> kp (parseUsing_loop d f v w p).
Proof. pose proof parseExpr_kp as PE. induction f as [|f IH]; intros v w p H; cbn [parseUsing_loop]; cbv zeta; ks. Qed.
Lemma parseOn_kp : forall b p, P p -> kp (parseOn b p).
Proof. intros b p H. unfold parseOn. cbv zeta. ks. Qed.
Lemma parseOnAction_kp : forall p, P p -> kp (parseOnAction p).
Proof. pose proof parseOn_kp as PO. intros p H. unfold parseOnAction. ks. Qed.
Lemma parseColumnOn_kp : forall p, P p -> kp (parseColumnOn d p).
Proof. pose proof parseOn_kp as PO. pose proof parseOnAction_kp as PA. intros p H. unfold parseColumnOn. destruct d; ks. Qed.
Lemma parseTableOn_kp : forall p, P p -> kp (parseTableOn d p).
Proof. pose proof parseOn_kp as PO. pose proof parseOnAction_kp as PA. intros p H. unfold parseTableOn. destruct d; ks. Qed.
Lemma parseColumnConstraints_kp : forall f tbl col cs p, P p -> kp (parseColumnConstraints_loop d srt f tbl col cs p).
Proof.
  pose proof parseExpr_kp as PE. pose proof parseColumnIdents_kp' as PC. pose proof parseColumnOn_kp as PO.
  induction f as [|f IH]; intros tbl col cs p H; cbn [parseColumnConstraints_loop]; cbv zeta; ks.
Qed.
Lemma parseAttrs_kp : forall f c p, P p -> kp (parseAttrs_loop d f c p).
Proof.
  pose proof (fun p => parseDefault_kp (S (List.length p)) None p) as PD. fold (parseColumnDefault d) in PD.
  pose proof (fun p => parseAs_kp (S (List.length p)) None "" p) as PA. fold (parseColumnAs d) in PA.
  induction f as [|f IH]; intros c p H; cbn [parseAttrs_loop]; cbv zeta; ks; destruct d; ks.
Qed.
Lemma parseColumn_kp : forall tbl p, P p -> kp (parseColumn d srt tbl p).
Proof.
  intros tbl p H. pose proof parseExpr_kp as PE. unfold parseColumn. cbv zeta. ks. { apply parseDataType_kp. assumption. }
  { apply parseAttrs_kp. assumption. } { apply parseColumnConstraints_kp. assumption. } destruct d; ks.
Qed.
Lemma parseTableConstraint_kp : forall tbl p, P p -> kp (parseTableConstraint d tbl p).
Proof.
  intros tbl p H. pose proof parseExpr_kp as PE. pose proof parseColumnIdents_kp' as PC. pose proof parseTableOn_kp as PO.
  pose proof (fun p => parseUsing_kp (S (List.length p)) None None p) as PU. fold (parseUsing d) in PU.
  unfold parseTableConstraint. cbv zeta. ks. destruct d; ks.
Qed.
Lemma parseIfNotExists_kp : forall p, P p -> kp (parseIfNotExists p).
Proof. intros p H. unfold parseIfNotExists. ks. Qed.
Lemma parseColumns_kp : forall f tbl cols cs p, P p -> kp (parseColumns_loop d srt f tbl cols cs p).
Proof.
  pose proof parseColumn_kp as PC. pose proof parseTableConstraint_kp as PT.
  induction f as [|f IH]; intros tbl cols cs p H; cbn [parseColumns_loop]; ks. destruct d; ks.
Qed.
Lemma parseOptionsMy_kp : forall f o p, P p -> kp (parseOptionsMy_loop d f o p).
Proof. induction f as [|f IH]; intros o p H; cbn [parseOptionsMy_loop]; cbv zeta; unfold parseOptionValue; ks. Qed.
Lemma step_kp : forall t p, P p -> kp (step d t p).
Proof. intros t p H. unfold step. ks. Qed.
Lemma steps_kp : forall ts p, P p -> kp (steps d ts p).
Proof. pose proof step_kp as PS. induction ts as [|t r IH]; intros p H; cbn [steps]; ks. Qed.
Lemma parseOptionsSp_kp : forall f o r p, P p -> kp (parseOptionsSp_loop d f o r p).
Proof.
  pose proof step_kp as PS. pose proof steps_kp as PT. pose proof parseExpr_kp as PE.
  induction f as [|f IH]; intros o r p H; cbn [parseOptionsSp_loop]; cbv zeta; ks.
Qed.
Lemma parseCreateTable_kp : forall p, P p -> kp (parseCreateTable d srt p).
Proof.
  intros p H. pose proof parseIfNotExists_kp as PI. pose proof parseColumns_kp as PC. pose proof parseOptionsMy_kp as PM. pose proof parseOptionsSp_kp as PS.
  unfold parseCreateTable. cbv zeta. ks. destruct d; ks.
Qed.
Lemma parseCreateIndex_kp : forall p, P p -> kp (parseCreateIndex d p).
Proof.
  intros p H. pose proof parseIfNotExists_kp as PI. pose proof parseColumnIdents_kp' as PC.
  pose proof (fun p => parseUsing_kp (S (List.length p)) None None p) as PU. fold (parseUsing d) in PU.
  unfold parseCreateIndex. cbv zeta. ks. destruct d; ks.
Qed.
Lemma parseCreate_kp : forall p, P p -> kp (parseCreate d srt p).
Proof. intros p H. pose proof parseCreateTable_kp as PT. pose proof parseCreateIndex_kp as PX. unfold parseCreate. ks. Qed.
End Keeps.
