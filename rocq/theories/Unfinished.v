(** What nextToken keeps, the whole parser keeps; and so no text with an unfinished literal is
    accepted (for C90). *)
From Coq Require Import Lia.
From Verif Require Import GoStr Token Lexer LexerFacts LexSpec LexLayout LexKeyword LexPanic Ast Parser.

Section Keep.
Variable d : dialect.
Variable srt : list constraint -> list constraint.
Variable J : ps -> Prop.
Hypothesis step : forall p q, J p -> next p = Ok q -> J q.

Definition keeps {A} (g : A -> ps) (r : res A) : Prop := match r with Ok a => J (g a) | _ => True end.
Lemma keeps_bind : forall {A B} (g : A -> ps) (h : B -> ps) (r : res A) (f : A -> res B),
  keeps g r -> (forall a, J (g a) -> keeps h (f a)) -> keeps h (bind r f).
Proof. intros A B g h [a| | |] f H K; cbn in *; auto. Qed.
Lemma keeps_any : forall {A B} (h : B -> ps) (r : res A) (f : A -> res B), (forall a, keeps h (f a)) -> keeps h (bind r f).
Proof. intros A B h [a| | |] f K; cbn in *; auto. Qed.
Lemma keeps_next : forall p, J p -> keeps (fun q => q) (next p).
Proof. intros p H. destruct (next p) as [q| | |] eqn:E; try exact I. exact (step p q H E). Qed.

Create HintDb kp.
Hint Resolve keeps_next : kp.
Ltac parts := repeat match goal with x : (_ * _)%type |- _ => destruct x end; cbn [fst snd] in *.
Ltac kp1 :=
  match goal with
  | |- keeps _ (bind (guard ?b) _) => destruct b eqn:?; cbn [guard bind]
  | |- keeps _ (bind (Ok _) _) => cbn [bind]
  | |- keeps _ (bind Err _) => exact I
  | |- keeps _ (bind Panic _) => exact I
  | |- keeps _ (bind (append_constraint _ _ _ _) _) => apply keeps_any; intros ?
  | |- keeps _ (bind (append_constraints _ _ _ _) _) => apply keeps_any; intros ?
  | |- keeps _ (if ?b then _ else _) => destruct b eqn:?
  | |- keeps _ (Ok _) => cbn; assumption
  | |- keeps _ Err => exact I
  | |- keeps _ Panic => exact I
  | |- keeps _ OutOfFuel => exact I
  | |- keeps _ (bind _ _) => eapply keeps_bind; [solve [eauto with kp]|intros ? ?; parts]
  | |- keeps _ _ => solve [eauto with kp]
  end.
Ltac kp := repeat kp1.

Lemma parseIdents_loop_keeps : forall f acc p, J p -> keeps snd (parseIdents_loop d f acc p).
Proof. induction f as [|f IH]; intros acc p H; [exact I|]. cbn [parseIdents_loop]. kp. Qed.
Lemma parseIdents_keeps : forall p, J p -> keeps snd (parseIdents d p).
Proof. intros p H. apply parseIdents_loop_keeps. exact H. Qed.
Hint Resolve parseIdents_keeps : kp.
Lemma parseColumnIdents_loop_keeps : forall f acc p, J p -> keeps snd (parseColumnIdents_loop d f acc p).
Proof.
  induction f as [|f IH]; intros acc p H; [exact I|]. cbn [parseColumnIdents_loop]. kp1; [kp|]. kp1; [|kp].
  eapply (keeps_bind snd); [destruct d; kp|]. intros ? ?. parts. kp.
Qed.
Lemma parseColumnIdents_keeps : forall p, J p -> keeps snd (parseColumnIdents d p).
Proof. intros p H. apply parseColumnIdents_loop_keeps. exact H. Qed.
Hint Resolve parseColumnIdents_keeps : kp.
Lemma parseExpr_loop_keeps : forall f acc p, J p -> keeps snd (parseExpr_loop d f acc p).
Proof. induction f as [|f IH]; intros acc p H; [exact I|]. cbn [parseExpr_loop]. kp. Qed.
Hint Resolve parseExpr_loop_keeps : kp.
Lemma parseExpr_keeps : forall p, J p -> keeps snd (parseExpr d p).
Proof. intros p H. unfold parseExpr. kp. Qed.
Hint Resolve parseExpr_keeps : kp.
Lemma parseDataTypeName_keeps : forall p, J p -> keeps snd (parseDataTypeName d p).
Proof. intros p H. unfold parseDataTypeName. destruct d; kp. Qed.
Hint Resolve parseDataTypeName_keeps : kp.
Lemma parseDataType_keeps : forall p, J p -> keeps snd (parseDataType d p).
Proof. intros p H. unfold parseDataType. kp. Qed.
Hint Resolve parseDataType_keeps : kp.
Lemma parseDefault_loop_keeps : forall f v p, J p -> keeps snd (parseDefault_loop d f v p).
Proof. induction f as [|f IH]; intros v p H; [exact I|]. cbn [parseDefault_loop]. cbv zeta. kp. destruct v; kp. Qed.
Lemma parseColumnDefault_keeps : forall p, J p -> keeps snd (parseColumnDefault d p).
Proof. intros p H. apply parseDefault_loop_keeps. exact H. Qed.
Hint Resolve parseColumnDefault_keeps : kp.
Lemma parseAs_loop_keeps : forall f v ty p, J p -> keeps snd (parseAs_loop d f v ty p).
Proof. induction f as [|f IH]; intros v ty p H; [exact I|]. cbn [parseAs_loop]. cbv zeta. kp. destruct v; kp. Qed.
Lemma parseColumnAs_keeps : forall p, J p -> keeps snd (parseColumnAs d p).
Proof. intros p H. apply parseAs_loop_keeps. exact H. Qed.
Hint Resolve parseColumnAs_keeps : kp.
Lemma parseUsing_loop_keeps : forall f v w p, J p -> keeps snd (parseUsing_loop d f v w p).
Proof. induction f as [|f IH]; intros v w p H; [exact I|]. cbn [parseUsing_loop]. cbv zeta. kp. Qed.
Lemma parseUsing_keeps : forall p, J p -> keeps snd (parseUsing d p).
Proof. intros p H. apply parseUsing_loop_keeps. exact H. Qed.
Hint Resolve parseUsing_keeps : kp.
Lemma parseOn_keeps : forall b p, J p -> keeps snd (parseOn b p).
Proof. intros b p H. unfold parseOn. cbv zeta. kp. Qed.
Hint Resolve parseOn_keeps : kp.
Lemma parseOnAction_keeps : forall p, J p -> keeps snd (parseOnAction p).
Proof. intros p H. unfold parseOnAction. kp. Qed.
Hint Resolve parseOnAction_keeps : kp.
Lemma parseColumnOn_keeps : forall p, J p -> keeps snd (parseColumnOn d p).
Proof.
  intros p H. unfold parseColumnOn. destruct d; kp. eapply (keeps_bind snd); [kp|]. intros ? ?. parts. kp.
Qed.
Hint Resolve parseColumnOn_keeps : kp.
Lemma parseTableOn_keeps : forall p, J p -> keeps snd (parseTableOn d p).
Proof.
  intros p H. unfold parseTableOn. destruct d; kp. eapply (keeps_bind snd); [kp|]. intros ? ?. parts. kp.
Qed.
Hint Resolve parseTableOn_keeps : kp.
Lemma parseColumnConstraints_loop_keeps : forall f tbl col cs p, J p -> keeps snd (parseColumnConstraints_loop d srt f tbl col cs p).
Proof. induction f as [|f IH]; intros tbl col cs p H; [exact I|]. cbn [parseColumnConstraints_loop]. cbv zeta. kp. Qed.
Lemma parseColumnConstraints_keeps : forall tbl col p, J p -> keeps snd (parseColumnConstraints d srt tbl col p).
Proof. intros tbl col p H. apply parseColumnConstraints_loop_keeps. exact H. Qed.
Hint Resolve parseColumnConstraints_keeps : kp.
Lemma parseAttrs_loop_keeps : forall f c p, J p -> keeps snd (parseAttrs_loop d f c p).
Proof.
  induction f as [|f IH]; intros c p H; [exact I|]. cbn [parseAttrs_loop]. cbv zeta. pose proof parseColumnAs_keeps as PA. pose proof parseColumnDefault_keeps as PD.
  kp; destruct d; kp.
Qed.
Hint Resolve parseAttrs_loop_keeps : kp.
Lemma parseColumn_keeps : forall tbl p, J p -> keeps snd (parseColumn d srt tbl p).
Proof.
  intros tbl p H. unfold parseColumn. cbv zeta. pose proof parseExpr_keeps as PE. kp; destruct d; kp.
Qed.
Hint Resolve parseColumn_keeps : kp.
Lemma parseTableConstraint_keeps : forall tbl p, J p -> keeps snd (parseTableConstraint d tbl p).
Proof.
  intros tbl p H. unfold parseTableConstraint. eapply (keeps_bind snd); [kp|]. intros [name p0] K0. cbn [snd] in K0. cbv zeta.
  pose proof parseColumnIdents_keeps as PC. pose proof parseUsing_keeps as PU. pose proof parseExpr_keeps as PE.
  kp; destruct d; kp; (eapply (keeps_bind (fun q => q)); [kp|intros ? ?; cbv zeta; kp]).
Qed.
Hint Resolve parseTableConstraint_keeps : kp.
Lemma parseIfNotExists_keeps : forall p, J p -> keeps snd (parseIfNotExists p).
Proof. intros p H. unfold parseIfNotExists. kp. Qed.
Hint Resolve parseIfNotExists_keeps : kp.
Lemma parseColumns_loop_keeps : forall f tbl cols cs p, J p -> keeps snd (parseColumns_loop d srt f tbl cols cs p).
Proof. induction f as [|f IH]; intros tbl cols cs p H; [exact I|]. cbn [parseColumns_loop]. kp; destruct d; kp. Qed.
Hint Resolve parseColumns_loop_keeps : kp.
Lemma parseOptionValue_keeps : forall p, J p -> keeps snd (parseOptionValue d p).
Proof. intros p H. unfold parseOptionValue. kp. Qed.
Hint Resolve parseOptionValue_keeps : kp.
Lemma parseOptionsMy_loop_keeps : forall f opts p, J p -> keeps snd (parseOptionsMy_loop d f opts p).
Proof.
  induction f as [|f IH]; intros opts p H; [exact I|]. cbn [parseOptionsMy_loop]. cbv zeta. kp1; [|kp].
  eapply (keeps_bind (fun q => q)); [kp|]. intros ? ?. kp.
Qed.
Hint Resolve parseOptionsMy_loop_keeps : kp.
Lemma step_keeps : forall t p, J p -> keeps snd (Parser.step d t p).
Proof. intros t p H. unfold Parser.step. kp. Qed.
Hint Resolve step_keeps : kp.
Lemma steps_keeps : forall ts p, J p -> keeps snd (steps d ts p).
Proof. induction ts as [|t r IH]; intros p H; [exact H|]. cbn [steps]. kp. Qed.
Hint Resolve steps_keeps : kp.
Lemma parseOptionsSp_loop_keeps : forall f opts rdp p, J p -> keeps snd (parseOptionsSp_loop d f opts rdp p).
Proof.
  induction f as [|f IH]; intros opts rdp p H; [exact I|]. cbn [parseOptionsSp_loop]. cbv zeta. kp1; [kp|]. kp1; [|kp].
  do 3 kp1. eapply (keeps_bind snd); [kp|]. intros ? ?. parts. kp.
Qed.
Hint Resolve parseOptionsSp_loop_keeps : kp.
Lemma parseCreateTable_keeps : forall p, J p -> keeps snd (parseCreateTable d srt p).
Proof.
  intros p H. unfold parseCreateTable. cbv zeta. pose proof parseOptionsMy_loop_keeps as PM. pose proof parseOptionsSp_loop_keeps as PS. kp; destruct d; kp.
Qed.
Hint Resolve parseCreateTable_keeps : kp.
Lemma parseCreateIndex_keeps : forall p, J p -> keeps snd (parseCreateIndex d p).
Proof.
  intros p H. unfold parseCreateIndex. cbv zeta. pose proof parseUsing_keeps as PU.
  eapply (keeps_bind (fun q => q)); [kp|]. intros p0 K0. kp.
  eapply (keeps_bind snd); [kp; destruct d; kp|]. intros [[usg pre] p6] K6. cbn [snd] in K6. kp.
  eapply (keeps_bind snd); [kp|]. intros [post p8] K8. cbn [snd] in *. kp.
Qed.
Hint Resolve parseCreateIndex_keeps : kp.
Lemma parseCreate_keeps : forall p, J p -> keeps snd (parseCreate d srt p).
Proof. intros p H. unfold parseCreate. kp. Qed.

(** Parsing succeeds only in a state whose current token is EOF. *)
Lemma parse_loop_reaches : forall f acc p l, J p -> parse_loop d srt f acc p = Ok l -> exists q, J q /\ curT q = TOKEN_EOF.
Proof.
  induction f as [|f IH]; intros acc p l H E; [discriminate E|]. cbn [parse_loop] in E.
  destruct (eqs (curT p) TOKEN_CREATE).
  - pose proof (parseCreate_keeps p H) as K. destruct (parseCreate d srt p) as [[s p1]| | |]; try discriminate E. cbn [bind keeps snd] in *.
    destruct (next p1) as [p2| | |] eqn:N; try discriminate E. exact (IH _ _ _ (step _ _ K N) E).
  - destruct (isin (curT p) [TOKEN_CLOSE_PAREN; TOKEN_SEMICOLON]).
    + destruct (next p) as [p2| | |] eqn:N; try discriminate E. exact (IH _ _ _ (step _ _ H N) E).
    + destruct (eqs (curT p) TOKEN_EOF) eqn:F; [|discriminate E]. exists p. split; [exact H|]. apply String.eqb_eq. exact F.
Qed.
End Keep.

(** A literal that is not finished lies ahead. *)
Definition ahead (p : ps) : Prop := exists a b r, p = a :: b :: r /\ Exists is_boom r /\ Forall (fun t => tk_type t <> TOKEN_EOF) p.
Lemma ahead_step : forall p q, ahead p -> next p = Ok q -> ahead q.
Proof.
  intros p q [a [b [r [-> [X F]]]]] N. unfold next in N. cbn [tl] in N. destruct r as [|c r]; [inversion X|].
  destruct (eqs (peekT (b :: c :: r)) TOKEN_BOOM) eqn:B; [discriminate N|]. injection N as <-. exists b, c, r. split; [reflexivity|]. split; [|inversion F; assumption].
  inversion X as [? ? Y|? ? Y]; subst; [|exact Y]. exfalso. unfold is_boom in Y. change (peekT (b :: c :: r)) with (tk_type c) in B. rewrite Y in B. discriminate B.
Qed.

(** Texts without NUL have no EOF token inside. *)
Lemma lex_no_end : forall d s, no_nul s = true -> Forall (fun t => tk_type t <> TOKEN_EOF) (lex d s).
Proof.
  intros d s. remember (String.length s) as n eqn:En. revert s En. induction n as [n IH] using lt_wf_ind. intros s En Hz. subst n.
  destruct s as [|c s]; [constructor|].
  assert (Hz' : no_nul s = true) by (unfold no_nul in Hz; cbn [all_bytes] in Hz; apply andb_true_iff in Hz; apply Hz).
  destruct (isSpace c) eqn:Hs; [rewrite lex_space by exact Hs; apply (IH (String.length s)); [cbn; lia|reflexivity|exact Hz']|].
  destruct (String.prefix "--" (String c s)) eqn:Hp.
  { destruct (prefix_dashes _ Hp) as [r Hr]. inversion Hr; subst c s. assert (Hzr : no_nul r = true) by (cbn in Hz'; exact Hz').
    rewrite lex_comment by exact Hp. change (skipComment (String "-" (String "-" r))) with (skipComment r).
    pose proof (skipComment_mode d r Hzr) as K. destruct (skipComment r) as [|c' r']; [constructor|].
    destruct K as [K1 [K2 [K3 K4]]]. subst c'. rewrite lex_space by reflexivity. apply (IH (String.length r')); [cbn; lia|reflexivity|exact K3]. }
  pose proof (scan_mode d c s Hz Hs Hp) as K. destruct (scan d (String c s)) as [t r|] eqn:E.
  - destruct K as [_ [K2 [_ K3]]]. pose proof (scan_length _ _ _ _ _ E) as L. rewrite (lex_scan d c s t r Hs Hp E). constructor; [exact K3|].
    apply (IH (String.length r)); [cbn; lia|reflexivity|exact K2].
  - rewrite lex_eq. fold (trim (String c s)). rewrite (trim_stop c s Hs Hp), E. constructor; [discriminate|constructor].
Qed.
Theorem unfinished : forall d srt s l, no_nul s = true -> parse d srt s = Ok l -> forall q, mode d Outside s <> InQuote q.
Proof.
  intros d srt s l Z E q M. destruct (lex_mode d s Z) as [[_ X]|[N _]]; [|exact (N q M)]. pose proof (lex_no_end d s Z) as F. unfold parse, parse_tokens in E.
  destruct (lex d s) as [|a [|b r]]; [inversion X| |].
  - inversion X as [? ? Y|? ? Y]; subst; [|inversion Y]. unfold is_boom in Y. change (curT [a]) with (tk_type a) in E. rewrite Y in E. discriminate E.
  - change (curT (a :: b :: r)) with (tk_type a) in E. change (peekT (a :: b :: r)) with (tk_type b) in E.
    destruct (eqs (tk_type a) TOKEN_BOOM) eqn:B1; [discriminate E|]. destruct (eqs (tk_type b) TOKEN_BOOM) eqn:B2; [discriminate E|]. cbn [orb] in E.
    assert (A : ahead (a :: b :: r)).
    { exists a, b, r. split; [reflexivity|]. split; [|exact F]. unfold is_boom in X. inversion X as [? ? Y|? ? Y]; subst; [rewrite Y in B1; discriminate B1|].
      inversion Y as [? ? Y2|? ? Y2]; subst; [rewrite Y2 in B2; discriminate B2|exact Y2]. }
    destruct (parse_loop_reaches d srt ahead ahead_step _ _ _ _ A E) as [p [[x [y [z [-> [_ Fx]]]]] C]]. inversion Fx as [|? ? G1 G2]; subst. exact (G1 C).
Qed.

(** The token behind the columns of an index *)
Lemma next_ok : forall p, eqs (peekT (tl p)) TOKEN_BOOM = false -> next p = Ok (tl p).
Proof. intros p H. unfold next. rewrite H. reflexivity. Qed.
Lemma one_column : forall d f x y z ty tx u r, eqs ty TOKEN_BOOM = false -> eqs (tk_type u) TOKEN_BOOM = false ->
  parseColumnIdents_loop d (S (S (S f))) [] (mkTok TOKEN_OPEN_PAREN x :: mkTok TOKEN_IDENT y :: mkTok TOKEN_CLOSE_PAREN z :: mkTok ty tx :: u :: r) = Ok ([mkCI (NewRawIdent d y) None], mkTok ty tx :: u :: r).
Proof.
  intros d f x y z ty tx u r B B2. cbn [parseColumnIdents_loop].
  rewrite next_ok by reflexivity. cbn [tl bind]. change (eqs (curT (mkTok TOKEN_IDENT y :: mkTok TOKEN_CLOSE_PAREN z :: mkTok ty tx :: u :: r)) TOKEN_OPEN_PAREN) with false. cbv iota.
  change (eqs (curT (mkTok TOKEN_OPEN_PAREN x :: mkTok TOKEN_IDENT y :: mkTok TOKEN_CLOSE_PAREN z :: mkTok ty tx :: u :: r)) TOKEN_OPEN_PAREN) with true. cbv iota.
  change (eqs (curT (mkTok TOKEN_IDENT y :: mkTok TOKEN_CLOSE_PAREN z :: mkTok ty tx :: u :: r)) TOKEN_IDENT) with true. cbv iota.
  assert (O : match d with My | Pg | Crdb | Sp => True end) by (destruct d; exact I).
  assert (N : next (mkTok TOKEN_IDENT y :: mkTok TOKEN_CLOSE_PAREN z :: mkTok ty tx :: u :: r) = Ok (mkTok TOKEN_CLOSE_PAREN z :: mkTok ty tx :: u :: r)) by (apply next_ok; exact B).
  assert (N2 : next (mkTok TOKEN_CLOSE_PAREN z :: mkTok ty tx :: u :: r) = Ok (mkTok ty tx :: u :: r)) by (apply next_ok; exact B2).
  destruct d; cbn [peekT tk_type eqs String.eqb Ascii.eqb Bool.eqb TOKEN_CLOSE_PAREN TOKEN_ASC TOKEN_DESC hd tl]; cbn -[next parseColumnIdents_loop NewRawIdent]; rewrite N; cbn -[next parseColumnIdents_loop NewRawIdent]; rewrite N2; reflexivity.
Qed.
Lemma behind_index : forall d srt ty tx, eqs ty TOKEN_BOOM = false -> eqs ty TOKEN_USING = false ->
  parse_tokens d srt (lex d "CREATE INDEX i ON t (a)" ++ mkTok ty tx :: lex d ";")%list = parse d srt "CREATE INDEX i ON t (a);".
Proof.
intros d srt ty tx B U.
assert (L : (lex d "CREATE INDEX i ON t (a)" ++ mkTok ty tx :: lex d ";")%list =
 [mkTok TOKEN_CREATE "CREATE"; mkTok TOKEN_INDEX "INDEX"; mkTok TOKEN_IDENT "i"; mkTok TOKEN_ON "ON"; mkTok TOKEN_IDENT "t"; mkTok TOKEN_OPEN_PAREN "("; mkTok TOKEN_IDENT "a"; mkTok TOKEN_CLOSE_PAREN ")"; mkTok ty tx; mkTok TOKEN_SEMICOLON ";"])
 by (destruct d; vm_compute; reflexivity).
rewrite L. unfold parse_tokens. change (List.length _) with 10.
change (eqs (curT _) TOKEN_BOOM || eqs (peekT _) TOKEN_BOOM) with false.
set (n := 8). change (S 10) with (S (S (S n))). assert (Hn : n = S (S 6)) by reflexivity. clearbody n.
change (parse_loop d srt (S (S (S n))) [] ?p) with (let! (s, p1) := parseCreate d srt p in let! p2 := next p1 in parse_loop d srt (S (S n)) ([] ++ [s])%list p2).
assert (C : parseCreate d srt [mkTok TOKEN_CREATE "CREATE"; mkTok TOKEN_INDEX "INDEX"; mkTok TOKEN_IDENT "i"; mkTok TOKEN_ON "ON"; mkTok TOKEN_IDENT "t"; mkTok TOKEN_OPEN_PAREN "("; mkTok TOKEN_IDENT "a"; mkTok TOKEN_CLOSE_PAREN ")"; mkTok ty tx; mkTok TOKEN_SEMICOLON ";"]
 = Ok (CreateIndex (mkCX "" false false (match d with Pg | Crdb => mkON None (NewRawIdent d "i") | _ => NewObjectName d "i" end) (NewObjectName d "t") [] None [mkCI (NewRawIdent d "a") None] None), [mkTok ty tx; mkTok TOKEN_SEMICOLON ";"])).
{ unfold parseCreate. rewrite next_ok by reflexivity. cbn [tl bind]. change (eqs (curT (mkTok TOKEN_INDEX _ :: _)) TOKEN_TABLE) with false. cbv iota.
  change (isin (curT (mkTok TOKEN_INDEX _ :: _)) _) with true. cbv iota.
  unfold parseCreateIndex, parseIfNotExists.
  repeat first [rewrite next_ok by reflexivity | progress cbn -[next parseColumnIdents parseUsing NewRawIdent NewObjectName]].
  unfold parseColumnIdents. change (List.length _) with 5.
  change "OPEN_PAREN"%string with TOKEN_OPEN_PAREN. 
  rewrite (one_column d 3 "(" "a" ")" ty tx (mkTok TOKEN_SEMICOLON ";") [] B eq_refl).
  cbn -[NewRawIdent NewObjectName parseUsing eqs]. change (curT (mkTok ty tx :: _)) with ty. rewrite ?U. destruct d; reflexivity. }
rewrite C. cbn [bind]. rewrite next_ok by reflexivity. cbn [bind tl app]. subst n. destruct d; vm_compute; reflexivity.
Qed.

(** A NUL byte is read as the end. *)
Lemma nul_ends : forall d srt b, no_nul b = true -> (forall q, mode d Outside b <> InQuote q) -> parse d srt (String ch_nul b) = Ok [].
Proof.
  intros d srt b Z M. assert (E : exists t, tk_type t = TOKEN_EOF /\ scan d (String ch_nul b) = LTok t b) by (destruct d; eexists; (split; [|reflexivity]); reflexivity).
  destruct E as [t [T E]]. unfold parse. rewrite (lex_scan d ch_nul b t b eq_refl eq_refl E). pose proof (lex_no_boom d b Z M) as F. unfold parse_tokens. change (curT (t :: lex d b)) with (tk_type t). rewrite T.
  assert (P : eqs (peekT (t :: lex d b)) TOKEN_BOOM = false).
  { destruct (lex d b) as [|u r]; [reflexivity|]. cbn [forallb] in F. apply andb_true_iff in F. destruct F as [F _]. apply negb_true_iff in F. exact F. }
  rewrite P. change (eqs TOKEN_EOF TOKEN_BOOM || false) with false. cbv iota. cbn [parse_loop]. change (curT (t :: lex d b)) with (tk_type t). rewrite T. reflexivity.
Qed.
