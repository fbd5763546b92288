(** Parsing a text and parsing it followed by a semicolon and more text (C10). *)
From Coq Require Import Lia.
From Verif Require Import GoStr Token Lexer Ast Parser ParserKeeps LexerFacts LexSpec LexLayout LexPanic.

Section Concat.
Variable d : dialect.
Variable srt : list constraint -> list constraint.
(** What follows: a semicolon and tokens that do not start with a lexer panic. *)
Variable semi : token.
Variable q : list token.
Hypothesis Hsemi : tk_type semi = TOKEN_SEMICOLON.
Hypothesis Hq : eqs (curT q) TOKEN_BOOM = false.
Definition ext (p : ps) : ps := (p ++ semi :: q)%list.

(** If the first parse succeeds (with [e = true]: leaving tokens) then the second one
    does, with the same result and the additional tokens left. *)
Definition loc {A} (e : bool) (r1 r2 : res (A * ps)) : Prop :=
  forall x p, r1 = Ok (x, p) -> (e = true -> p <> []) -> r2 = Ok (x, ext p).
(** A result of a parse that has run out of tokens. *)
Definition dead {A} (e : bool) (r : res (A * ps)) : Prop :=
  forall x p, r = Ok (x, p) -> e = true /\ p = [].

Lemma loc_weak : forall {A} e (r1 r2 : res (A * ps)), loc false r1 r2 -> loc e r1 r2.
Proof. intros A e r1 r2 H x p E _. apply H; [exact E|discriminate]. Qed.
Lemma loc_ok : forall {A} e (x : A) p, loc e (Ok (x, p)) (Ok (x, ext p)).
Proof. intros A e x p y p' E _. inversion E; subst. reflexivity. Qed.
Lemma loc_err : forall {A} e (r : res (A * ps)), loc e Err r.
Proof. intros A e r x p E. discriminate. Qed.
Lemma loc_panic : forall {A} e (r : res (A * ps)), loc e Panic r.
Proof. intros A e r x p E. discriminate. Qed.
Lemma loc_fuel : forall {A} e (r : res (A * ps)), loc e OutOfFuel r.
Proof. intros A e r x p E. discriminate. Qed.
Lemma loc_dead : forall {A} e (r1 r2 : res (A * ps)), dead e r1 -> loc e r1 r2.
Proof. intros A e r1 r2 H x p E N. destruct (H _ _ E) as [H1 H2]. exfalso. apply (N H1). exact H2. Qed.
Lemma loc_bind : forall {A B} e (r1 r2 : res (A * ps)) (f g : A * ps -> res (B * ps)),
  loc false r1 r2 -> (forall x p, loc e (f (x, p)) (g (x, ext p))) -> loc e (bind r1 f) (bind r2 g).
Proof.
  intros A B e r1 r2 f g H K y p E N. destruct r1 as [[x p1]| | |]; cbn in E; try discriminate.
  rewrite (H x p1 eq_refl) by discriminate. cbn. apply (K x p1); assumption.
Qed.
Lemma loc_bind_nz : forall {A B} e (r1 r2 : res (A * ps)) (f g : A * ps -> res (B * ps)),
  loc true r1 r2 -> (forall x, dead e (f (x, []))) -> (forall x p, p <> [] -> loc e (f (x, p)) (g (x, ext p))) ->
  loc e (bind r1 f) (bind r2 g).
Proof.
  intros A B e r1 r2 f g H D K y p E N. destruct r1 as [[x p1]| | |]; cbn in E; try discriminate.
  destruct p1 as [|t p1]; [destruct (D _ _ _ E) as [D1 D2]; exfalso; apply (N D1 D2)|].
  rewrite (H x (t :: p1) eq_refl) by discriminate. cbn. apply (K x (t :: p1)); [discriminate|assumption|assumption].
Qed.
Lemma loc_pure : forall {A B} e (r : res A) (f g : A -> res (B * ps)),
  (forall x, loc e (f x) (g x)) -> loc e (bind r f) (bind r g).
Proof. intros A B e [x| | |] f g H; cbn; [apply H|apply loc_err|apply loc_panic|apply loc_fuel]. Qed.

Lemma next_app : forall p, p <> [] -> next p = Ok (tl p) -> next (ext p) = Ok (ext (tl p)).
Proof.
  intros [|t [|u [|v r]]] N E; [contradiction| | |].
  - unfold next, ext. cbn [app tl]. replace (peekT (semi :: q)) with (curT q) by (destruct q; reflexivity). rewrite Hq. reflexivity.
  - unfold next, ext. cbn [app tl]. unfold peekT, peek. rewrite Hsemi. reflexivity.
  - unfold next, ext in *. cbn [app tl] in *. unfold peekT, peek in *. destruct (eqs (tk_type v) TOKEN_BOOM); [discriminate|reflexivity].
Qed.
Lemma loc_next : forall {B} e p (f g : ps -> res (B * ps)), p <> [] -> loc e (f (tl p)) (g (ext (tl p))) ->
  loc e (bind (next p) f) (bind (next (ext p)) g).
Proof.
  intros B e p f g N H. destruct (next p) as [p1| | |] eqn:E; [|apply loc_err|apply loc_panic|apply loc_fuel].
  assert (p1 = tl p) by (unfold next in E; destruct (eqs (peekT (tl p)) TOKEN_BOOM); congruence). subst p1. rewrite (next_app p N E). exact H.
Qed.
Lemma loc_guard : forall {B} e b b' (f g : unit -> res (B * ps)), (b = true -> b' = true) -> (b = true -> loc e (f tt) (g tt)) ->
  loc e (bind (guard b) f) (bind (guard b') g).
Proof. intros B e [|] b' f g H K; [rewrite H by reflexivity; cbn; apply K; reflexivity|apply loc_err]. Qed.

Lemma curT_app : forall p, p <> [] -> curT (ext p) = curT p.
Proof. intros [|t p] H; [contradiction|reflexivity]. Qed.
Lemma curL_app : forall p, p <> [] -> curL (ext p) = curL p.
Proof. intros [|t p] H; [contradiction|reflexivity]. Qed.
Lemma peekT_eqs : forall p k, p <> [] -> isin k [TOKEN_EOF; TOKEN_SEMICOLON] = false -> eqs (peekT (ext p)) k = eqs (peekT p) k.
Proof.
  intros [|t [|u p]] k N H; [contradiction| |reflexivity]. unfold ext. cbn [app]. unfold peekT, peek. cbn [eof_token tk_type]. rewrite Hsemi.
  cbn [isin existsb] in H. apply orb_false_iff in H. destruct H as [H1 H2]. rewrite orb_false_r in H2.
  unfold eqs in *. rewrite String.eqb_sym, H2, (String.eqb_sym _ k), H1. reflexivity.
Qed.
Lemma peekT_isin : forall p l, p <> [] -> isin TOKEN_EOF l = isin TOKEN_SEMICOLON l -> isin (peekT (ext p)) l = isin (peekT p) l.
Proof.
  intros [|t [|u p]] l N H; [contradiction| |reflexivity]. unfold ext. cbn [app]. unfold peekT, peek. cbn [eof_token tk_type]. rewrite Hsemi. symmetry. exact H.
Qed.
Lemma nonempty : forall (p : ps) (f : tokentype -> bool), f (curT p) = true -> f TOKEN_EOF = false -> p <> [].
Proof. intros [|t p] f H K E; [cbn in H; congruence|discriminate]. Qed.
Lemma tl_nonempty : forall (p : ps) (f : tokentype -> bool), f (peekT p) = true -> f TOKEN_EOF = false -> tl p <> [].
Proof. intros [|t [|u p]] f H K E; try (cbn in H; congruence). discriminate. Qed.

Lemma loc_refl : forall {A} e (r1 r2 : res (A * ps)), loc false r1 r2 -> loc e r1 r2.
Proof. intros. apply loc_weak. assumption. Qed.
Ltac ne :=
  match goal with
  | H : ?p <> [] |- ?p <> [] => exact H
  | H : eqs (curT ?p) ?k = true |- ?p <> [] => apply (nonempty p (fun t => eqs t k) H); reflexivity
  | H : isin (curT ?p) ?k = true |- ?p <> [] => apply (nonempty p (fun t => isin t k) H); reflexivity
  | H : eqs (peekT ?p) ?k = true |- tl ?p <> [] => apply (tl_nonempty p (fun t => eqs t k) H); reflexivity
  | H : isin (peekT ?p) ?k = true |- tl ?p <> [] => apply (tl_nonempty p (fun t => isin t k) H); reflexivity
  end.
Ltac rw :=
  repeat (rewrite curT_app by ne); repeat (rewrite curL_app by ne);
  repeat (rewrite peekT_eqs by (ne || reflexivity)); repeat (rewrite peekT_isin by (ne || reflexivity)).
Ltac lc1 :=
  match goal with
  | |- loc _ Err _ => apply loc_err
  | |- loc _ Panic _ => apply loc_panic
  | |- loc _ (Ok (_, ?p)) (Ok (_, ext ?p)) => apply loc_ok
  | |- loc _ (bind (next ?p) _) (bind (next (ext ?p)) _) => apply loc_next; [ne|]
  | |- loc _ (bind (guard ?b) _) (bind (guard ?b) _) => destruct b eqn:?; cbn [guard bind]; [|apply loc_err]
  | |- loc _ (bind (Ok _) _) (bind (Ok _) _) => cbn [bind]
  | |- loc _ (bind Err _) _ => apply loc_err
  | |- loc _ (bind (append_constraint _ _ _ _) _) (bind (append_constraint _ _ _ _) _) => apply loc_pure; intro
  | |- loc _ (bind (append_constraints _ _ _ _) _) (bind (append_constraints _ _ _ _) _) => apply loc_pure; intro
  | |- loc _ (if ?b then _ else _) (if ?b then _ else _) => destruct b eqn:?
  end.
Ltac lc := repeat (lc1; rw).
(* the first parse has no tokens left *)
Ltac dd := apply loc_dead; intros ? ? E; cbn in E; solve [discriminate | inversion E; subst; split; reflexivity | destruct d; cbn in E; first [discriminate | inversion E; subst; split; reflexivity]].
Ltac sp p := destruct p as [|?t ?p'] eqn:?; [dd | let H := fresh "N" in assert (H : p <> []) by (subst p; discriminate)].

Lemma parseIdents_loc : forall n m acc p, n <= m -> loc false (parseIdents_loop d n acc p) (parseIdents_loop d m acc (ext p)).
Proof.
  induction n as [|n IH]; intros [|m] acc p H; try lia; [apply loc_fuel|apply loc_fuel|].
  destruct p as [|t r]; [dd|]. assert (N : t :: r <> []) by discriminate. set (p := t :: r) in *. clearbody p.
  cbn [parseIdents_loop]. rw. lc; apply IH; lia.
Qed.
Ltac start p := destruct p as [|?t ?r]; [dd|]; match goal with |- context [?t :: ?r] => let N := fresh "N" in assert (N : t :: r <> []) by discriminate; set (p := t :: r) in *; clearbody p end.
(* the state after [next] *)
Ltac st := match goal with
  | |- context [ext (tl ?p)] =>
     let N := fresh "N" in let p1 := fresh "p" in
     generalize (tl p); intro p1; destruct p1 as [|?t ?r]; [dd|];
     match goal with |- context [?t :: ?r] => assert (N : t :: r <> []) by discriminate; set (p1 := t :: r) in *; clearbody p1 end
  end.

Lemma parseColumnIdents_loc : forall n m acc p, n <= m -> loc false (parseColumnIdents_loop d n acc p) (parseColumnIdents_loop d m acc (ext p)).
Proof.
  induction n as [|n IH]; intros [|m] acc p H; try lia; [apply loc_fuel|apply loc_fuel|].
  start p. cbn [parseColumnIdents_loop]. rw. lc; try (apply IH; lia).
  apply loc_bind_nz.
  - destruct d; rw; lc.
  - intros x. intros y p1 E. cbn in E. destruct n; discriminate E.
  - intros o p1 N1. lc. apply IH. lia.
Qed.
Lemma parseColumnIdents_ext : forall p, loc false (parseColumnIdents d p) (parseColumnIdents d (ext p)).
Proof. intro p. apply parseColumnIdents_loc. unfold ext. rewrite app_length. lia. Qed.
Lemma parseIdents_ext : forall p, loc false (parseIdents d p) (parseIdents d (ext p)).
Proof. intro p. apply parseIdents_loc. unfold ext. rewrite app_length. lia. Qed.

Lemma peekL_app : forall p, tl p <> [] -> peekL (ext p) = peekL p.
Proof. intros [|t [|u p]] H; cbn in H; try contradiction. reflexivity. Qed.
Lemma parseExpr_loop_loc : forall n m acc p, n <= m -> loc false (parseExpr_loop d n acc p) (parseExpr_loop d m acc (ext p)).
Proof.
  induction n as [|n IH]; intros [|m] acc p H; try lia; [apply loc_fuel|apply loc_fuel|].
  start p. cbn [parseExpr_loop]. unfold isCmp. rw. lc.
  - apply loc_bind; [apply IH; lia|]. intros ids p2. apply IH. lia.
  - assert (N1 : tl p <> []) by ne. lc. rewrite (peekL_app p N1). apply IH. lia.
  - apply IH. lia.
  - apply IH. lia.
Qed.
Lemma parseExpr_ext : forall p, loc false (parseExpr d p) (parseExpr d (ext p)).
Proof. intro p. start p. unfold parseExpr. rw. lc. apply parseExpr_loop_loc. unfold ext. rewrite app_length. lia. Qed.

Lemma parseDataTypeName_ext : forall p, p <> [] -> loc false (parseDataTypeName d p) (parseDataTypeName d (ext p)).
Proof.
  intros p N. unfold parseDataTypeName. cbv zeta. rw.
  destruct d; lc; try (st; lc; st; lc); try (match goal with |- context [tl ?p] => assert (tl p <> []) by ne end; lc).
  all: try (match goal with |- context [tl (tl ?p)] => assert (tl (tl p) <> []) by ne end; lc).
  all: try (match goal with |- context [tl (tl (tl ?p))] => assert (tl (tl (tl p)) <> []) by ne end; lc).
Qed.
Definition left_over {A} (r : res (A * ps)) : Prop := forall x p, r = Ok (x, p) -> p <> [].
Lemma lo_next : forall {A} p (f : ps -> res (A * ps)), left_over (f (tl p)) -> left_over (bind (next p) f).
Proof. intros A p f H. unfold next. destruct (eqs (peekT (tl p)) TOKEN_BOOM); cbn; [discriminate|exact H]. Qed.
Lemma lo_ok : forall {A} (x : A) p, p <> [] -> left_over (Ok (x, p)).
Proof. intros A x p N y p' E. inversion E; subst. exact N. Qed.
Lemma lo_err : forall {A}, left_over (@Err (A * ps)).
Proof. discriminate. Qed.
Ltac lo1 :=
  match goal with
  | |- left_over (bind (next _) _) => apply lo_next
  | |- left_over (bind (guard ?b) _) => destruct b eqn:?; cbn [guard bind]; [|apply lo_err]
  | |- left_over (if ?b then _ else _) => destruct b eqn:?
  | |- left_over (Ok _) => apply lo_ok; ne
  | |- left_over Err => apply lo_err
  end.
Lemma parseDataTypeName_rest : forall p, p <> [] -> left_over (parseDataTypeName d p).
Proof. intros p N. unfold parseDataTypeName. cbv zeta. destruct d; repeat lo1. Qed.
Lemma parseOn_rest : forall b p, left_over (parseOn b p).
Proof.
  intros b p. unfold parseOn. cbv zeta. repeat lo1.
  match goal with H : _ && _ = true |- _ => apply andb_true_iff in H; destruct H end. repeat lo1.
Qed.
Lemma loc_bind_lo : forall {A B} e (r1 r2 : res (A * ps)) (f g : A * ps -> res (B * ps)),
  loc false r1 r2 -> left_over r1 -> (forall x p, p <> [] -> loc e (f (x, p)) (g (x, ext p))) -> loc e (bind r1 f) (bind r2 g).
Proof.
  intros A B e r1 r2 f g H L K y p E N. destruct r1 as [[x p1]| | |]; cbn in E; try discriminate.
  rewrite (H x p1 eq_refl) by discriminate. cbn. apply (K x p1); [apply (L x p1 eq_refl)|exact E|exact N].
Qed.

Lemma parseDataType_ext : forall p, p <> [] -> loc false (parseDataType d p) (parseDataType d (ext p)).
Proof.
  intros p N. unfold parseDataType. apply loc_bind_lo; [apply parseDataTypeName_ext; exact N|apply parseDataTypeName_rest; exact N|].
  intros [[n t] e] p1 N1. rw. lc. apply loc_bind; [apply parseIdents_ext|]. intros ids p3. lc.
Qed.
Lemma parseDefault_loc : forall n m v p, n <= m -> loc false (parseDefault_loop d n v p) (parseDefault_loop d m v (ext p)).
Proof.
  induction n as [|n IH]; intros [|m] v p H; try lia; [apply loc_fuel|apply loc_fuel|].
  start p. cbn [parseDefault_loop]. cbv zeta. rw. lc; try (apply IH; lia).
  - apply loc_bind; [apply parseExpr_ext|]. intros ids p1. apply IH. lia.
  - destruct v; lc. apply IH. lia.
Qed.
Lemma parseColumnDefault_ext : forall p, loc false (parseColumnDefault d p) (parseColumnDefault d (ext p)).
Proof. intro p. apply parseDefault_loc. unfold ext. rewrite app_length. lia. Qed.
Lemma parseAs_loc : forall n m v ty p, n <= m -> loc false (parseAs_loop d n v ty p) (parseAs_loop d m v ty (ext p)).
Proof.
  induction n as [|n IH]; intros [|m] v ty p H; try lia; [apply loc_fuel|apply loc_fuel|].
  start p. cbn [parseAs_loop]. cbv zeta. rw. lc; try (apply IH; lia).
  - apply loc_bind; [apply parseExpr_ext|]. intros ids p1. apply IH. lia.
  - destruct v; lc. apply IH. lia.
Qed.
Lemma parseColumnAs_ext : forall p, loc false (parseColumnAs d p) (parseColumnAs d (ext p)).
Proof. intro p. apply parseAs_loc. unfold ext. rewrite app_length. lia. Qed.
Lemma parseUsing_loc : forall n m v w p, n <= m -> loc false (parseUsing_loop d n v w p) (parseUsing_loop d m v w (ext p)).
Proof.
  induction n as [|n IH]; intros [|m] v w p H; try lia; [apply loc_fuel|apply loc_fuel|].
  start p. cbn [parseUsing_loop]. cbv zeta. rw. lc; try (apply IH; lia).
  apply loc_bind; [apply parseExpr_ext|]. intros ids p1. apply IH. lia.
Qed.
Lemma parseUsing_ext : forall p, loc false (parseUsing d p) (parseUsing d (ext p)).
Proof. intro p. apply parseUsing_loc. unfold ext. rewrite app_length. lia. Qed.
Lemma parseUsing_loop_rest : forall n v w p, left_over (parseUsing_loop d n v w p).
Proof.
  induction n as [|n IH]; intros v w p; [discriminate|]. cbn [parseUsing_loop]. cbv zeta. repeat lo1; try apply IH.
  destruct (parseExpr d (tl p)) as [[ids p2]| | |]; cbn; try discriminate. apply IH.
Qed.

Lemma parseOn_ext : forall b p, p <> [] -> loc false (parseOn b p) (parseOn b (ext p)).
Proof.
  intros b p N. unfold parseOn. cbv zeta. lc. st. rw. lc1. lc1. lc1. assert (N2 : tl p0 <> []) by ne. rw. destruct b.
  - lc.
  - destruct (eqs (curT (tl p0)) TOKEN_NO); cbn [andb]; lc.
Qed.
Lemma parseOnAction_ext : forall p, p <> [] -> loc false (parseOnAction p) (parseOnAction (ext p)).
Proof.
  intros p N. unfold parseOnAction. apply loc_bind_lo; [apply parseOn_ext; exact N|apply parseOn_rest|]. intros s p1 N1. lc.
Qed.
Lemma curT_ext_eqs : forall p k, isin k [TOKEN_EOF; TOKEN_SEMICOLON] = false -> eqs (curT (ext p)) k = eqs (curT p) k.
Proof.
  intros [|t p] k H; [|reflexivity]. unfold ext. cbn [app]. unfold curT. cbn [cur eof_token tk_type]. rewrite Hsemi.
  cbn [isin existsb] in H. apply orb_false_iff in H. destruct H as [H1 H2]. rewrite orb_false_r in H2.
  unfold eqs in *. rewrite String.eqb_sym, H2, (String.eqb_sym _ k), H1. reflexivity.
Qed.
Lemma parseColumnOn_ext : forall p, loc false (parseColumnOn d p) (parseColumnOn d (ext p)).
Proof.
  intro p. unfold parseColumnOn. repeat rewrite curT_ext_eqs by reflexivity.
  destruct d; lc; try (apply parseOn_ext; ne). apply loc_bind.
  - lc. apply parseOnAction_ext. ne.
  - intros s p1. rewrite curT_ext_eqs by reflexivity. lc. apply parseOnAction_ext. ne.
Qed.
Lemma parseTableOn_ext : forall p, loc false (parseTableOn d p) (parseTableOn d (ext p)).
Proof.
  intro p. unfold parseTableOn. repeat rewrite curT_ext_eqs by reflexivity.
  destruct d; lc; try (apply parseOn_ext; ne). apply loc_bind.
  - lc. apply parseOnAction_ext. ne.
  - intros s p1. rewrite curT_ext_eqs by reflexivity. lc. apply loc_bind; [apply parseOnAction_ext; ne|]. intros s2 p2. lc.
Qed.

Lemma cc_dead : forall n tbl col cs, dead false (parseColumnConstraints_loop d srt n tbl col cs []).
Proof. intros n tbl col cs x p E. destruct n; [discriminate|]. cbn in E. destruct d; discriminate. Qed.
Lemma parseColumnConstraints_loc : forall n m tbl col cs p, n <= m ->
  loc false (parseColumnConstraints_loop d srt n tbl col cs p) (parseColumnConstraints_loop d srt m tbl col cs (ext p)).
Proof.
  induction n as [|n IH]; intros [|m] tbl col cs p H; try lia; [apply loc_fuel|apply loc_fuel|].
  start p. cbn [parseColumnConstraints_loop]. cbv zeta. rw. lc; try (apply IH; lia).
  - apply loc_bind; [apply parseColumnIdents_ext|]. intros ids p3.
    apply loc_bind; [apply parseColumnOn_ext|]. intros on p4. lc. destruct p4 as [|t4 r4].
    + apply loc_dead. cbn. apply cc_dead.
    + assert (t4 :: r4 <> []) by discriminate. lc. apply IH. lia.
  - apply loc_bind; [apply parseExpr_ext|]. intros ids p3. lc. destruct p3 as [|t4 r4].
    + apply loc_dead. cbn. apply cc_dead.
    + assert (t4 :: r4 <> []) by discriminate. lc. apply IH. lia.
Qed.
Lemma parseColumnConstraints_ext : forall tbl col p, loc false (parseColumnConstraints d srt tbl col p) (parseColumnConstraints d srt tbl col (ext p)).
Proof. intros tbl col p. apply parseColumnConstraints_loc. unfold ext. rewrite app_length. lia. Qed.

Lemma attrs_dead : forall n c, dead true (parseAttrs_loop d n c []).
Proof. intros n c x p E. destruct n; [discriminate|]. cbn in E. destruct d; inversion E; auto. Qed.
Lemma parseAttrs_loc : forall n m c p, n <= m -> loc true (parseAttrs_loop d n c p) (parseAttrs_loop d m c (ext p)).
Proof.
  induction n as [|n IH]; intros [|m] c p H; try lia; [apply loc_fuel|apply loc_fuel|].
  destruct p as [|t r]; [apply loc_dead, (attrs_dead (S n))|]. assert (N : t :: r <> []) by discriminate. set (p := t :: r) in *. clearbody p.
  pose proof attrs_dead as AD. pose proof parseColumnDefault_ext as PD. pose proof parseColumnAs_ext as PA.
  cbn [parseAttrs_loop]. cbv zeta. rw. lc1; [|lc1; [|lc1]].
  - destruct d; lc; try (assert (tl p <> []) by ne); lc; apply IH; lia.
  - lc. apply IH. lia.
  - lc. apply loc_bind; [apply PD|]. intros v p2. apply IH. lia.
  - destruct d; lc.
    + apply loc_bind; [apply PA|]. intros v p2. apply IH. lia.
    + st. rw. lc. st. rw. lc. apply IH. lia.
    + st. rw. lc. generalize (tl p0). intros [|t4 r4]; [apply loc_dead; cbn; apply AD|]. assert (t4 :: r4 <> []) by discriminate. lc. apply IH. lia.
    + generalize (tl p). intros [|t4 r4]; [apply loc_dead; cbn; apply AD|]. assert (t4 :: r4 <> []) by discriminate. lc. apply IH. lia.
    + apply IH. lia.
Qed.

Lemma parseColumn_ext : forall tbl p, loc true (parseColumn d srt tbl p) (parseColumn d srt tbl (ext p)).
Proof.
  intros tbl p. pose proof attrs_dead as AD. pose proof cc_dead as CD. pose proof parseExpr_ext as PE. start p. unfold parseColumn. cbv zeta. rw. lc.
  generalize (tl p). intros [|t1 r1]; [dd|]. assert (N1 : t1 :: r1 <> []) by discriminate. set (p1 := t1 :: r1) in *. clearbody p1. rw. lc.
  assert (CD2 : forall n tbl2, match parseColumnConstraints d srt tbl2 n [] with Ok _ => False | _ => True end).
  { intros n tbl2. destruct (parseColumnConstraints d srt tbl2 n []) as [[cs p5]| | |] eqn:F; auto. destruct (CD _ _ _ _ _ _ F). discriminate. }
  apply loc_bind; [apply parseDataType_ext; exact N1|]. intros dt p2. destruct p2 as [|t2 r2].
  { apply loc_dead. intros x p9 E. cbn [next tl bind] in E. unfold next in E. cbn [tl peekT peek] in E.
    exfalso. cbn -[parseAttrs_loop parseColumnConstraints] in E.
    destruct (parseAttrs_loop d 1 (column0 (NewRawIdent d (curL p)) dt) []) as [[c p4]| | |] eqn:F; cbn -[parseColumnConstraints] in E; try discriminate.
    destruct (AD _ _ _ _ F) as [_ E4]. subst p4. specialize (CD2 (NewRawIdent d (curL p)) tbl).
    destruct (parseColumnConstraints d srt tbl (NewRawIdent d (curL p)) []); [contradiction| | |]; discriminate. }
  assert (N2 : t2 :: r2 <> []) by discriminate. set (p2 := t2 :: r2) in *. clearbody p2. lc.
  apply loc_bind_nz.
  - apply parseAttrs_loc. unfold ext. rewrite app_length. lia.
  - intros c x p9 E. exfalso. specialize (CD2 (NewRawIdent d (curL p)) tbl). 
    destruct (parseColumnConstraints d srt tbl (NewRawIdent d (curL p)) []); [contradiction| | |]; discriminate.
  - intros c p4 N4. apply loc_bind_nz.
    + apply loc_weak, parseColumnConstraints_ext.
    + intros cs x p9 E. destruct (append_constraints d srt [] cs); cbn in E; try discriminate. destruct d; inversion E; auto.
    + intros cs p5 N5. lc. rw. destruct d; lc.
      * generalize (tl p5). intros [|t6 r6]; [apply loc_dead; intros z0 z1 E; inversion E; auto|]. assert (t6 :: r6 <> []) by discriminate. lc.
      * apply loc_bind; [apply loc_weak, PE|]. intros ids p7. lc.
Qed.

Lemma parseTableConstraint_ext : forall tbl p, p <> [] -> loc false (parseTableConstraint d tbl p) (parseTableConstraint d tbl (ext p)).
Proof.
  intros tbl p N. pose proof parseExpr_ext as PE. pose proof parseColumnIdents_ext as PC. pose proof parseUsing_ext as PU.
  pose proof (fun p => parseUsing_loop_rest (S (List.length p)) None None p) as PR.
  unfold parseTableConstraint. apply loc_bind_nz.
  - rw. lc. st. rw. lc.
  - intros x y p1 E. exfalso. cbn in E. destruct d; discriminate.
  - intros name p1 N1. cbv zeta. rw. lc1; [|lc1].
    + lc1; rw. lc. apply loc_bind; [apply PC|]. intros ids p3. lc.
    + lc. apply loc_bind; [apply PC|]. intros ids p3. destruct p3 as [|t3 r3]; [dd|].
      assert (N3 : t3 :: r3 <> []) by discriminate. set (p3 := t3 :: r3) in *. clearbody p3. rw. lc. st. rw. lc.
      apply loc_bind; [apply PC|]. intros ids2 p6. apply loc_bind; [apply parseTableOn_ext|]. intros on p7. lc.
    + destruct d; lc.
      * apply loc_bind; [apply PC|]. intros ids p3. lc.
      * assert (G : forall u p2, p2 <> [] ->
          loc false
            (let! p2 := next p2 in let! _ := guard (eqs (curT p2) TOKEN_IDENT) in let! _ := guard (eqs (peekT p2) TOKEN_OPEN_PAREN) in
             let! p3 := next p2 in let! (ids, p4) := parseColumnIdents Crdb p3 in
             if eqs (curT p4) TOKEN_USING then let! (us, p5) := parseUsing Crdb p4 in let! p6 := next p5 in
               Ok (CIndex (Some (NewRawIdent Crdb (curL p2))) u None ids (Some us), p6)
             else Ok (CIndex (Some (NewRawIdent Crdb (curL p2))) u None ids None, p4))
            (let! p2 := next (ext p2) in let! _ := guard (eqs (curT p2) TOKEN_IDENT) in let! _ := guard (eqs (peekT p2) TOKEN_OPEN_PAREN) in
             let! p3 := next p2 in let! (ids, p4) := parseColumnIdents Crdb p3 in
             if eqs (curT p4) TOKEN_USING then let! (us, p5) := parseUsing Crdb p4 in let! p6 := next p5 in
               Ok (CIndex (Some (NewRawIdent Crdb (curL p2))) u None ids (Some us), p6)
             else Ok (CIndex (Some (NewRawIdent Crdb (curL p2))) u None ids None, p4))).
        { intros u p2 N2. lc. st. rw. lc. apply loc_bind; [apply PC|]. intros ids p4. rewrite curT_ext_eqs by reflexivity. lc.
          apply loc_bind_lo; [apply PU|apply PR|]. intros us p5 N5. lc. }
        destruct (eqs (curT p1) TOKEN_UNIQUE) eqn:Eu.
        -- destruct (eqs (peekT p1) TOKEN_INDEX) eqn:Ei; cbn [guard bind]; [|apply loc_err]. lc1. apply G. ne.
        -- cbn [bind]. apply G. exact N1.
      * assert (G : forall u p2, p2 <> [] ->
          loc false
            (let! _ := guard (isin (curT p2) [TOKEN_INDEX; TOKEN_KEY]) in
             let! p2 := next p2 in let! _ := guard (eqs (curT p2) TOKEN_IDENT) in let! _ := guard (eqs (peekT p2) TOKEN_OPEN_PAREN) in
             let! p3 := next p2 in let! (ids, p4) := parseColumnIdents My p3 in
             Ok (CIndex (Some (NewRawIdent My (curL p2))) u None ids None, p4))
            (let! _ := guard (isin (curT (ext p2)) [TOKEN_INDEX; TOKEN_KEY]) in
             let! p2 := next (ext p2) in let! _ := guard (eqs (curT p2) TOKEN_IDENT) in let! _ := guard (eqs (peekT p2) TOKEN_OPEN_PAREN) in
             let! p3 := next p2 in let! (ids, p4) := parseColumnIdents My p3 in
             Ok (CIndex (Some (NewRawIdent My (curL p2))) u None ids None, p4))).
        { intros u p2 N2. rw. lc. st. rw. lc. apply loc_bind; [apply PC|]. intros ids p4. lc. }
        destruct (eqs (curT p1) TOKEN_UNIQUE) eqn:Eu.
        -- lc1. generalize (tl p1). intros [|t2 r2]; [apply loc_dead; intros ? ? E; discriminate E|]. apply G. discriminate.
        -- cbn [bind]. apply G. exact N1.
      * apply loc_bind; [apply PE|]. intros ids p3. lc.
      * apply loc_bind; [apply PE|]. intros ids p3. lc.
Qed.

Lemma parseIfNotExists_ext : forall p, p <> [] -> loc false (parseIfNotExists p) (parseIfNotExists (ext p)).
Proof. intros p N. unfold parseIfNotExists. rw. lc. Qed.
Lemma parseIfNotExists_rest : forall p, p <> [] -> left_over (parseIfNotExists p).
Proof. intros p N. unfold parseIfNotExists. repeat lo1. Qed.

Lemma parseColumns_loc : forall n m tbl cols cs p, n <= m ->
  loc false (parseColumns_loop d srt n tbl cols cs p) (parseColumns_loop d srt m tbl cols cs (ext p)).
Proof.
  induction n as [|n IH]; intros [|m] tbl cols cs p H; try lia; [apply loc_fuel|apply loc_fuel|].
  start p. cbn [parseColumns_loop]. rw. lc1; [|lc1; [|lc1; [|lc1; [|lc1]]]].
  - apply loc_bind_nz; [apply parseColumn_ext| |].
    + intros [c ccs] x p1 E. exfalso. destruct (append_constraints d srt cs ccs); cbn in E; try discriminate. destruct n; [discriminate|].
      cbn in E. destruct d; discriminate.
    + intros [c ccs] p1 N1. lc. apply IH. lia.
  - apply loc_bind; [apply parseTableConstraint_ext; exact N|]. intros c p1. lc. apply IH. lia.
  - lc. apply IH. lia.
  - lc.
  - destruct d; lc.
  - lc.
Qed.

Lemma parseOptionValue_ext : forall p, p <> [] -> loc false (parseOptionValue d p) (parseOptionValue d (ext p)).
Proof. intros p N. unfold parseOptionValue. lc. st. rw. lc. st. rw. lc. Qed.
Lemma parseOptionValue_rest : forall p, left_over (parseOptionValue d p).
Proof. intros p. unfold parseOptionValue. repeat lo1. Qed.
Lemma curT_ext_isin : forall p l, isin TOKEN_EOF l = isin TOKEN_SEMICOLON l -> isin (curT (ext p)) l = isin (curT p) l.
Proof. intros [|t p] l H; [|reflexivity]. unfold ext. cbn [app]. unfold curT. cbn [cur eof_token tk_type]. rewrite Hsemi. symmetry. exact H. Qed.
Lemma parseOptionsMy_loc : forall n m o p, n <= m -> loc false (parseOptionsMy_loop d n o p) (parseOptionsMy_loop d m o (ext p)).
Proof.
  induction n as [|n IH]; intros [|m] o p H; try lia; [apply loc_fuel|apply loc_fuel|].
  cbn [parseOptionsMy_loop]. cbv zeta. rewrite !curT_ext_isin by reflexivity. rewrite !curT_ext_eqs by reflexivity. lc1; [|lc].
  assert (N : p <> []) by ne. rw. 
  assert (G : forall p2, p2 <> [] -> forall nm,
     loc false (let! (v, p2) := parseOptionValue d p2 in let! p3 := next p2 in parseOptionsMy_loop d n (o ++ [mkOpt nm (Some [v])])%list p3)
       (let! (v, p2) := parseOptionValue d (ext p2) in let! p3 := next p2 in parseOptionsMy_loop d m (o ++ [mkOpt nm (Some [v])])%list p3)).
  { intros p2 N2 nm. apply loc_bind_lo; [apply parseOptionValue_ext; exact N2|apply parseOptionValue_rest|]. intros v p3 N3. lc. apply IH. lia. }
  destruct (eqs (curT p) TOKEN_DEFAULT) eqn:Ed.
  - destruct (eqs (peekT p) TOKEN_CHARSET) eqn:Ec; cbn [guard bind]; [|apply loc_err]. lc1. apply G. ne.
  - cbn [bind]. apply G. exact N.
Qed.

Lemma step_ext : forall t p, p <> [] -> isin t [TOKEN_EOF; TOKEN_SEMICOLON] = false -> loc false (step d t p) (step d t (ext p)).
Proof.
  intros t p N H. unfold step. lc. rewrite curT_ext_eqs by exact H. lc1. assert (N1 : tl p <> []).
  { apply (nonempty (tl p) (fun k => eqs k t) Heqb). cbn [isin existsb] in H. apply orb_false_iff in H. unfold eqs in *.
    rewrite String.eqb_sym. apply H. }
  rw. lc.
Qed.
Lemma step_rest : forall t p, eqs TOKEN_EOF t = false -> left_over (step d t p).
Proof. intros t p H. unfold step. apply lo_next. lo1. apply lo_ok. apply (nonempty (tl p) (fun k => eqs k t) Heqb). exact H. Qed.
Lemma steps_ext : forall ts p, p <> [] -> forallb (fun t => negb (isin t [TOKEN_EOF; TOKEN_SEMICOLON]) && negb (eqs TOKEN_EOF t)) ts = true ->
  loc false (steps d ts p) (steps d ts (ext p)).
Proof.
  induction ts as [|t r IH]; intros p N H; cbn [steps]; [lc|]. cbn [forallb] in H. apply andb_true_iff in H. destruct H as [H1 H2].
  apply andb_true_iff in H1. destruct H1 as [H1 H3]. apply negb_true_iff in H1, H3.
  apply loc_bind_lo; [apply step_ext; assumption|apply step_rest; exact H3|]. intros i p1 N1.
  apply loc_bind; [apply IH; assumption|]. intros is p2. lc.
Qed.
Lemma steps_rest : forall ts p, p <> [] -> forallb (fun t => negb (eqs TOKEN_EOF t)) ts = true -> left_over (steps d ts p).
Proof.
  induction ts as [|t r IH]; intros p N H; cbn [steps]; [apply lo_ok; exact N|]. cbn [forallb] in H. apply andb_true_iff in H. destruct H as [H1 H2].
  apply negb_true_iff in H1. pose proof (step_rest t p H1) as S. destruct (step d t p) as [[i p1]| | |]; cbn; try discriminate.
  specialize (IH p1 (S i p1 eq_refl) H2). destruct (steps d r p1) as [[is p2]| | |]; cbn; try discriminate. apply lo_ok. apply (IH is p2 eq_refl).
Qed.
Lemma parseOptionsSp_loc : forall n m o rdp p, n <= m -> loc false (parseOptionsSp_loop d n o rdp p) (parseOptionsSp_loop d m o rdp (ext p)).
Proof.
  induction n as [|n IH]; intros [|m] o rdp p H; try lia; [apply loc_fuel|apply loc_fuel|].
  cbn [parseOptionsSp_loop]. cbv zeta. rewrite !curT_ext_isin by reflexivity. rewrite !curT_ext_eqs by reflexivity. lc1; [|lc1; [|lc1; [|lc1; [|lc]]]].
  - assert (N : p <> []) by ne. apply loc_bind_lo; [apply step_ext; [exact N|reflexivity]|apply step_rest; reflexivity|]. intros i p1 N1. lc.
    apply loc_bind; [apply parseExpr_ext|]. intros ids p3. apply IH. lia.
  - assert (N : p <> []) by ne. apply loc_bind_lo; [apply step_ext; [exact N|reflexivity]|apply step_rest; reflexivity|]. intros i1 p1 N1.
    apply loc_bind_lo; [apply step_ext; [exact N1|reflexivity]|apply step_rest; reflexivity|]. intros i2 p2 N2.
    apply loc_bind_lo; [apply step_ext; [exact N2|reflexivity]|apply step_rest; reflexivity|]. intros i3 p3 N3.
    apply loc_bind_lo.
    + rw. lc. apply loc_bind_lo; [apply step_ext; [ne|reflexivity]|apply step_rest; reflexivity|]. intros i4 q2 N4. lc. st. rw. lc.
      apply loc_bind; [apply step_ext; [ne|reflexivity]|]. intros i5 q4. lc.
    + repeat lo1. pose proof (step_rest TOKEN_DELETE (tl p3) eq_refl) as S. destruct (step d TOKEN_DELETE (tl p3)) as [[i q2]| | |]; cbn; try discriminate.
      repeat lo1. pose proof (step_rest TOKEN_ACTION (tl q2) eq_refl) as S2. destruct (step d TOKEN_ACTION (tl q2)) as [[i5 q4]| | |]; cbn; try discriminate.
      apply lo_ok. apply (S2 i5 q4 eq_refl).
    + intros on p4 N4. lc. apply IH. lia.
  - assert (N : p <> []) by ne. apply loc_bind_lo; [apply step_ext; [exact N|reflexivity]|apply step_rest; reflexivity|]. intros i1 p1 N1.
    apply loc_bind_lo; [apply step_ext; [exact N1|reflexivity]|apply step_rest; reflexivity|]. intros i2 p2 N2.
    apply loc_bind_lo; [apply steps_ext; [exact N2|reflexivity]|apply steps_rest; [exact N2|reflexivity]|]. intros ids p3 N3. lc. apply IH. lia.
  - lc. apply IH. lia.
Qed.

Lemma len_ext : forall p, S (List.length p) <= S (List.length (ext p)).
Proof. intro p. unfold ext. rewrite app_length. lia. Qed.
Lemma parseCreateTable_ext : forall p, p <> [] -> loc false (parseCreateTable d srt p) (parseCreateTable d srt (ext p)).
Proof.
  intros p N. unfold parseCreateTable. apply loc_bind_lo; [apply parseIfNotExists_ext; exact N|apply parseIfNotExists_rest; exact N|].
  intros ine p1 N1. cbv zeta. lc. st. rw. lc. st. rw. lc.
  apply loc_bind; [apply parseColumns_loc, len_ext|]. intros [cols cs] p5.
  pose proof parseOptionsMy_loc as PM. pose proof parseOptionsSp_loc as PS. destruct d; lc.
  - apply loc_bind; [apply PM, len_ext|]. intros opts p6. lc.
  - apply loc_bind; [apply PS, len_ext|]. intros [opts rdp] p6. lc.
Qed.
Lemma parseCreateIndex_ext : forall p, p <> [] -> loc false (parseCreateIndex d p) (parseCreateIndex d (ext p)).
Proof.
  intros p N. unfold parseCreateIndex. cbv zeta. rw.
  assert (G : forall p0, p0 <> [] -> loc false
    (let! (ine, p1) := parseIfNotExists p0 in
  let! p2 := next p1 in
  let! _ := guard (eqs (curT p2) TOKEN_IDENT) in
  let! p3 := next p2 in
  let! _ := guard (eqs (curT p3) TOKEN_ON) in
  let! p4 := next p3 in
  let! _ := guard (eqs (curT p4) TOKEN_IDENT) in
  let! p5 := next p4 in
  let! (usg, pre, p6) :=
    if eqs (curT p5) TOKEN_USING then
      match d with
      | Crdb =>
          let! (u, q1) := parseUsing d p5 in
          let! q2 := next q1 in Ok ([], Some u, q2)
      | _ =>
          let! q1 := next p5 in
          let! q2 := next q1 in Ok ([mkIdent (curL q1) "" (curL q1)], None, q2)
      end
    else Ok ([], None, p5) in
  let! _ := guard (eqs (curT p6) TOKEN_OPEN_PAREN) in
  let! (ids, p7) := parseColumnIdents d p6 in
  let! (post, p8) :=
    if match d with Crdb => eqs (curT p7) TOKEN_USING | _ => false end then
      let! (u, q1) := parseUsing d p7 in
      let! q2 := next q1 in Ok (Some u, q2)
    else Ok (None, p7) in
  Ok (CreateIndex (mkCX "" (eqs (curT p) TOKEN_UNIQUE) ine (match d with
              | Pg | Crdb => mkON None (NewRawIdent d (curL p2))
              | _ => NewObjectName d (curL p2)
              end) (NewObjectName d (curL p4)) usg pre ids post), p8))
    (let! (ine, p1) := parseIfNotExists (ext p0) in
  let! p2 := next p1 in
  let! _ := guard (eqs (curT p2) TOKEN_IDENT) in
  let! p3 := next p2 in
  let! _ := guard (eqs (curT p3) TOKEN_ON) in
  let! p4 := next p3 in
  let! _ := guard (eqs (curT p4) TOKEN_IDENT) in
  let! p5 := next p4 in
  let! (usg, pre, p6) :=
    if eqs (curT p5) TOKEN_USING then
      match d with
      | Crdb =>
          let! (u, q1) := parseUsing d p5 in
          let! q2 := next q1 in Ok ([], Some u, q2)
      | _ =>
          let! q1 := next p5 in
          let! q2 := next q1 in Ok ([mkIdent (curL q1) "" (curL q1)], None, q2)
      end
    else Ok ([], None, p5) in
  let! _ := guard (eqs (curT p6) TOKEN_OPEN_PAREN) in
  let! (ids, p7) := parseColumnIdents d p6 in
  let! (post, p8) :=
    if match d with Crdb => eqs (curT p7) TOKEN_USING | _ => false end then
      let! (u, q1) := parseUsing d p7 in
      let! q2 := next q1 in Ok (Some u, q2)
    else Ok (None, p7) in
  Ok (CreateIndex (mkCX "" (eqs (curT p) TOKEN_UNIQUE) ine (match d with
              | Pg | Crdb => mkON None (NewRawIdent d (curL p2))
              | _ => NewObjectName d (curL p2)
              end) (NewObjectName d (curL p4)) usg pre ids post), p8))).
  { intros p0 N0. apply loc_bind_lo; [apply parseIfNotExists_ext; exact N0|apply parseIfNotExists_rest; exact N0|].
    intros ine p1 N1. lc. st. rw. lc. st. rw. lc. st. rw. lc.
    pose proof parseUsing_ext as PU. pose proof (fun p => parseUsing_loop_rest (S (List.length p)) None None p) as PR.
    apply (loc_bind_nz (A := list ident * option usingdef)).
    - rewrite curT_ext_eqs by reflexivity. lc.
      assert (Q : loc true (let! q1 := next (tl p4) in let! q2 := next q1 in Ok ([mkIdent (curL q1) "" (curL q1)], None, q2) : res (list ident * option usingdef * ps))
              (let! q1 := next (ext (tl p4)) in let! q2 := next q1 in Ok ([mkIdent (curL q1) "" (curL q1)], None, q2))).
      { lc. generalize (tl (tl p4)). intros [|t6 r6]; [apply loc_dead; intros ? ? E; inversion E; auto|]. assert (t6 :: r6 <> []) by discriminate. lc. }
      destruct d; try exact Q. apply loc_bind_lo; [apply PU|apply PR|]. intros u q1 Nq. lc.
    - intros [usg pre] x p9 E. discriminate E.
    - intros [usg pre] p6 N6. rw. lc. apply loc_bind; [apply parseColumnIdents_ext|]. intros ids p7. rewrite curT_ext_eqs by reflexivity.
      apply loc_bind; [|intros post p8; lc]. lc. apply loc_bind_lo; [apply PU|apply PR|]. intros u q1 Nq. lc. }
  destruct (eqs (curT p) TOKEN_UNIQUE) eqn:Eu.
  - lc1. generalize (tl p). intros [|t2 r2]; [apply loc_dead; intros ? ? E; discriminate E|]. apply G. discriminate.
  - cbn [bind]. apply G. exact N.
Qed.
Lemma parseCreate_ext : forall p, p <> [] -> loc false (parseCreate d srt p) (parseCreate d srt (ext p)).
Proof.
  intros p N. unfold parseCreate. lc. st. rw. lc.
  - apply parseCreateTable_ext. ne.
  - apply parseCreateIndex_ext. ne.
Qed.

Lemma parse_loop_acc : forall n k a acc p l, parse_loop d srt n acc p = Ok l -> n <= k -> parse_loop d srt k (a ++ acc)%list p = Ok (a ++ l)%list.
Proof.
  induction n as [|n IH]; intros [|k] a acc p l E H; try lia; try discriminate. cbn [parse_loop] in *.
  destruct (eqs (curT p) TOKEN_CREATE).
  - destruct (parseCreate d srt p) as [[s p1]| | |]; cbn [bind] in *; try discriminate. destruct (next p1) as [p2| | |]; cbn [bind] in *; try discriminate.
    rewrite <- app_assoc. apply IH; [exact E|lia].
  - destruct (isin (curT p) [TOKEN_CLOSE_PAREN; TOKEN_SEMICOLON]).
    + destruct (next p) as [p2| | |]; cbn [bind] in *; try discriminate. apply IH; [exact E|lia].
    + destruct (eqs (curT p) TOKEN_EOF); [|discriminate]. inversion E; subst. reflexivity.
Qed.

Hypothesis Hq2 : eqs (peekT q) TOKEN_BOOM = false.
Lemma next_z : next (ext []) = Ok q.
Proof. unfold next, ext. cbn [app tl]. rewrite Hq2. reflexivity. Qed.
Lemma parse_loop_z : forall k acc, parse_loop d srt (S k) acc (ext []) = parse_loop d srt k acc q.
Proof.
  intros k acc. cbn [parse_loop]. assert (E : curT (ext []) = TOKEN_SEMICOLON) by exact Hsemi. rewrite E. cbn -[next parse_loop ext].
  rewrite next_z. reflexivity.
Qed.
Definition no_eof (p : ps) : bool := forallb (fun t => negb (eqs (tk_type t) TOKEN_EOF)) p.
Lemma no_eof_tl : forall p, no_eof p = true -> no_eof (tl p) = true.
Proof. intros [|t p] H; [reflexivity|]. cbn in *. apply andb_true_iff in H. apply H. Qed.
Lemma parse_loop_ext : forall n k acc p l, no_eof p = true -> parse_loop d srt n acc p = Ok l ->
  exists k', k <= k' /\ parse_loop d srt (n + k) acc (ext p) = parse_loop d srt k' l q.
Proof.
  induction n as [|n IH]; intros k acc p l Z E; [discriminate|]. destruct p as [|t r].
  - cbn in E. inversion E; subst. exists (n + k). split; [lia|]. apply parse_loop_z.
  - assert (N : t :: r <> []) by discriminate. set (p := t :: r) in *. clearbody p.
    cbn [Nat.add]. cbn [parse_loop] in E |- *. rewrite (curT_app p N). destruct (eqs (curT p) TOKEN_CREATE).
    + pose proof (parseCreate_ext p N) as C. pose proof (parseCreate_kp d srt (fun p => no_eof p = true) no_eof_tl p Z) as K. destruct (parseCreate d srt p) as [[s p1]| | |]; cbn [bind] in E; try discriminate.
      rewrite (C s p1 eq_refl) by discriminate. cbn [bind]. destruct p1 as [|t1 r1].
      * cbn in E. rewrite next_z. cbn [bind]. destruct n; [discriminate|]. cbn in E. inversion E; subst. exists (S n + k). split; [lia|reflexivity].
      * destruct (next (t1 :: r1)) as [p2| | |] eqn:Nx; cbn [bind] in E; try discriminate.
        assert (p2 = tl (t1 :: r1)) by (unfold next in Nx; destruct (eqs (peekT (tl (t1 :: r1))) TOKEN_BOOM); congruence). subst p2.
        rewrite (next_app (t1 :: r1)) by (discriminate || exact Nx). cbn [bind]. apply IH; [apply no_eof_tl; exact K|exact E].
    + destruct (isin (curT p) [TOKEN_CLOSE_PAREN; TOKEN_SEMICOLON]).
      * destruct (next p) as [p2| | |] eqn:Nx; cbn [bind] in E; try discriminate.
        assert (p2 = tl p) by (unfold next in Nx; destruct (eqs (peekT (tl p)) TOKEN_BOOM); congruence). subst p2.
        rewrite (next_app p N Nx). cbn [bind]. apply IH; [apply no_eof_tl; exact Z|exact E].
      * destruct (eqs (curT p) TOKEN_EOF) eqn:Ee; [|discriminate]. destruct p as [|t' r']; [contradiction|]. cbn in Z, Ee. unfold curT in Ee. cbn in Ee. rewrite Ee in Z. discriminate.
Qed.
End Concat.

Lemma parse_tokens_concat : forall d srt semi p q l1 l2, tk_type semi = TOKEN_SEMICOLON -> no_eof p = true ->
  parse_tokens d srt p = Ok l1 -> parse_tokens d srt q = Ok l2 -> parse_tokens d srt (p ++ semi :: q)%list = Ok (l1 ++ l2)%list.
Proof.
  intros d srt semi p q l1 l2 Hs Z E1 E2. unfold parse_tokens in *.
  destruct (eqs (curT q) TOKEN_BOOM) eqn:B1; [discriminate|]. destruct (eqs (peekT q) TOKEN_BOOM) eqn:B2; [discriminate|]. cbn [orb] in E2.
  destruct (eqs (curT p) TOKEN_BOOM || eqs (peekT p) TOKEN_BOOM) eqn:B3; [discriminate|].
  assert (B4 : eqs (curT (p ++ semi :: q)%list) TOKEN_BOOM || eqs (peekT (p ++ semi :: q)%list) TOKEN_BOOM = false).
  { destruct p as [|t [|u p]]; cbn [app].
    - unfold curT. cbn [cur]. rewrite Hs. replace (peekT (semi :: q)) with (curT q) by (destruct q; reflexivity). rewrite B1. reflexivity.
    - unfold curT, peekT in *. cbn [cur peek] in *. rewrite Hs. apply orb_false_iff in B3. destruct B3 as [B3 _]. rewrite B3. reflexivity.
    - exact B3. }
  rewrite B4. rewrite app_length. cbn [List.length].
  destruct (parse_loop_ext d srt semi q Hs B1 B2 _ (S (List.length q)) _ _ _ Z E1) as [k [Hk E]]. unfold ext in E. cbn [Nat.add] in E. rewrite E.
  pose proof (parse_loop_acc d srt _ k l1 _ _ _ E2 Hk) as E3. rewrite app_nil_r in E3. exact E3.
Qed.

Lemma semi_no_join : forall a b, no_join a (";" ++ b)%string.
Proof.
  intros a b. unfold no_join. destruct (last_byte a) as [l|]; [|exact I]. cbn [append first_byte]. unfold joins.
  replace (isLiteral ";") with false by reflexivity. rewrite !andb_false_r. reflexivity.
Qed.
Lemma lex_semicolon : forall d b, lex d (";" ++ b) = mkTok TOKEN_SEMICOLON ";" :: lex d b.
Proof. intros d b. apply (lex_scan d ";" b); [reflexivity|reflexivity|]. destruct d; reflexivity. Qed.
Lemma lex_newline : forall d b, lex d (nl ++ b) = lex d b.
Proof. intros d b. apply (lex_space d ch_nl b). reflexivity. Qed.
Lemma parse_concat : forall d srt a b l1 l2, no_nul a = true -> outside d a ->
  parse d srt a = Ok l1 -> parse d srt b = Ok l2 -> parse d srt (a ++ ";" ++ nl ++ b) = Ok (l1 ++ l2)%list.
Proof.
  intros d srt a b l1 l2 Z O E1 E2. unfold parse in *. rewrite (lex_outside_app d a) by (exact Z || exact O || apply semi_no_join).
  rewrite lex_semicolon, lex_newline. apply parse_tokens_concat; [reflexivity| |exact E1|exact E2].
  apply lex_no_eof; [exact Z|]. rewrite O. discriminate.
Qed.
(** The statements of a text do not change when it is ended by a semicolon. *)
Lemma parse_terminated : forall d srt a l, no_nul a = true -> outside d a -> parse d srt a = Ok l -> parse d srt (a ++ ";" ++ nl) = Ok l.
Proof.
  intros d srt a l Z O E. pose proof (parse_concat d srt a "" l [] Z O E eq_refl) as H. rewrite app_nil_r in H. exact H.
Qed.
