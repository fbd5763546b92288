(** Constraint names of parsed tables (C07) and absence of panics (C02). *)
From Coq Require Import Lia Permutation.
From Verif Require Import GoStr Token Lexer Ast Parser Diff AppendFacts.

(** Two neighbouring tokens related by [f]. *)
Fixpoint has_pair (f : tokentype -> tokentype -> bool) (ts : list token) : bool :=
  match ts with
  | t :: ((u :: _) as r) => f (tk_type t) (tk_type u) || has_pair f r
  | _ => false
  end.
(** postgres, cockroachdb: DEFAULT (or AS, or the STORED / VIRTUAL that may follow AS)
    followed by the name of a data type. *)
Definition default_type (d : dialect) (t u : tokentype) : bool :=
  match d with Pg | Crdb => isin t [TOKEN_DEFAULT; TOKEN_AS; TOKEN_STORED; TOKEN_VIRTUAL] && isDataType d u | _ => false end.
(** spanner: a CHECK that may be a table constraint without a name. *)
Definition unnamed_check (d : dialect) (t u : tokentype) : bool :=
  match d with Sp => isin t [TOKEN_OPEN_PAREN; TOKEN_COMMA; TOKEN_CLOSE_PAREN] && eqs u TOKEN_CHECK | _ => false end.
Definition no_boom (ts : list token) : bool := forallb (fun t => negb (eqs (tk_type t) TOKEN_BOOM)) ts.
Definition clean (d : dialect) (ts : list token) : bool :=
  no_boom ts && negb (has_pair (default_type d) ts) && negb (has_pair (unnamed_check d) ts).

Section Safe.
Variable d : dialect.
Variable srt : list constraint -> list constraint.
Hypothesis Hsrt : srt_ok srt.
(** [strict = true]: the token list is clean and nothing may panic. *)
Variable strict : bool.

(** States, constraints and results. *)
Definition SI (p : ps) : Prop := strict = true -> clean d p = true.
Definition nocheck (p : ps) : Prop := strict = true -> d = Sp -> curT p <> TOKEN_CHECK.
Definition namedok : Prop := strict = true \/ d <> Sp.
Definition CI (cs : list constraint) : Prop := namedok -> forallb named cs = true /\ NoDup (map con_key cs).
Definition post {A} (Q : A -> Prop) (r : res A) : Prop :=
  match r with Ok a => Q a | Panic => strict = false | _ => True end.

Lemma post_bind : forall {A B} (Q : A -> Prop) (Q' : B -> Prop) r f,
  post Q r -> (forall a, Q a -> post Q' (f a)) -> post Q' (bind r f).
Proof. intros A B Q Q' [a| | |] f H K; cbn in *; auto. Qed.
Lemma post_weaken : forall {A} (Q Q' : A -> Prop) r, post Q r -> (forall a, Q a -> Q' a) -> post Q' r.
Proof. intros A Q Q' [a| | |] H K; cbn in *; auto. Qed.

Lemma clean_tl : forall p, clean d p = true -> clean d (tl p) = true.
Proof.
  intros [|t p] H; [reflexivity|]. cbn [tl]. unfold clean in *. apply andb_true_iff in H. destruct H as [H H3].
  apply andb_true_iff in H. destruct H as [H1 H2]. cbn [no_boom forallb] in H1. apply andb_true_iff in H1. destruct H1 as [_ H1].
  fold (no_boom p) in H1. rewrite H1. apply negb_true_iff in H2, H3. cbn [andb].
  destruct p as [|u p]; [reflexivity|]. cbn [has_pair] in H2, H3. apply orb_false_iff in H2, H3. destruct H2 as [_ H2], H3 as [_ H3].
  cbn [has_pair] in *. rewrite H2, H3. reflexivity.
Qed.
Lemma SI_tl : forall p, SI p -> SI (tl p).
Proof. intros p H E. apply clean_tl, H, E. Qed.
Lemma no_boom_peek : forall p, no_boom p = true -> eqs (peekT p) TOKEN_BOOM = false.
Proof.
  intros [|t [|u p]] H; try reflexivity. cbn in H. apply andb_true_iff in H. destruct H as [_ H]. apply andb_true_iff in H. destruct H as [H _].
  apply negb_true_iff in H. exact H.
Qed.
Lemma next_post : forall p, SI p -> post (fun q => q = tl p /\ SI q) (next p).
Proof.
  intros p H. unfold next. destruct (eqs (peekT (tl p)) TOKEN_BOOM) eqn:E; cbn.
  - destruct strict eqn:S; [|reflexivity]. exfalso. pose proof (SI_tl p H S) as K. unfold clean in K. apply andb_true_iff in K. destruct K as [K _].
    apply andb_true_iff in K. destruct K as [K _]. rewrite no_boom_peek in E by exact K. discriminate.
  - split; [reflexivity|apply SI_tl; exact H].
Qed.

(** After an opening or closing parenthesis or a comma there is no CHECK. *)
Lemma tl_nocheck : forall p t, SI p -> eqs (curT p) t = true -> isin t [TOKEN_OPEN_PAREN; TOKEN_COMMA; TOKEN_CLOSE_PAREN] = true -> nocheck (tl p).
Proof.
  intros p t H E Et Hs Hd F. apply String.eqb_eq in E. specialize (H Hs). unfold clean in H. apply andb_true_iff in H. destruct H as [_ H].
  apply negb_true_iff in H. destruct p as [|x [|y p]]; [cbn in F; discriminate|cbn in F; discriminate|].
  cbn [has_pair] in H. apply orb_false_iff in H. destruct H as [H _]. unfold unnamed_check in H. rewrite Hd in H.
  unfold curT, cur in E. unfold curT, cur in F. cbn [tl] in F. rewrite E, Et, F in H. discriminate H.
Qed.
Lemma tl_default : forall p, SI p -> isin (curT p) [TOKEN_DEFAULT; TOKEN_AS; TOKEN_STORED; TOKEN_VIRTUAL] = true ->
  strict = true -> match d with Pg | Crdb => isDataType d (curT (tl p)) = false | _ => True end.
Proof.
  intros p H E Hs. specialize (H Hs). unfold clean in H. apply andb_true_iff in H. destruct H as [H _]. apply andb_true_iff in H. destruct H as [_ H].
  apply negb_true_iff in H. destruct p as [|x [|y p]]; [discriminate E|destruct d; (exact I || reflexivity)|].
  cbn [has_pair] in H. apply orb_false_iff in H. destruct H as [H _]. unfold default_type in H. unfold curT, cur in *. cbn [tl].
  destruct d; try exact I; rewrite E in H; exact H.
Qed.

Definition PS {A} (x : A * ps) : Prop := SI (snd x).

Ltac po1 :=
  match goal with
  | |- post _ (bind (next ?p) _) =>
      let a := fresh "q" in let E := fresh "Eq" in let S := fresh "SI" in
      eapply post_bind; [apply next_post; unfold PS in *; cbn [snd] in *; assumption | intros a [E S]]
  | |- post _ (next ?p) => eapply post_weaken; [apply next_post; assumption | intros ? [? ?]]
  | |- post _ (bind (guard ?b) _) => destruct b eqn:?; cbn [guard bind]
  | |- post _ (bind (Ok _) _) => cbn [bind]
  | |- post _ (bind Err _) => exact I
  | |- post _ (if ?b then _ else _) => destruct b eqn:?
  | |- post _ Err => exact I
  | |- post PS (Ok _) => cbn [post]; unfold PS; cbn [snd]; assumption
  end.
Ltac po := repeat po1.

Lemma parseIdents_post : forall f acc p, SI p -> post PS (parseIdents_loop d f acc p).
Proof. induction f as [|f IH]; intros acc p H; [exact I|]. cbn [parseIdents_loop]. po; apply IH; assumption. Qed.

(** A rest that starts behind a closing parenthesis. *)
Definition PN {A} (x : A * ps) : Prop := SI (snd x) /\ nocheck (snd x).
Lemma parseColumnIdents_post : forall f acc p, SI p -> post PN (parseColumnIdents_loop d f acc p).
Proof.
  induction f as [|f IH]; intros acc p H; [exact I|]. cbn [parseColumnIdents_loop]. po; try (apply IH; assumption).
  - eapply (post_bind PS); [destruct d; po|]. intros [o p1] Hp. po. apply IH. assumption.
  - cbn. subst. split; [assumption|]. cbn [snd]. eapply tl_nocheck; [eassumption|eassumption|reflexivity].
Qed.
Lemma parseExpr_loop_post : forall f acc p, SI p -> post PN (parseExpr_loop d f acc p).
Proof.
  induction f as [|f IH]; intros acc p H; [exact I|]. cbn [parseExpr_loop]. po; try (apply IH; assumption).
  - eapply post_bind; [apply IH; assumption|]. intros [ids p2] [Hp _]. apply IH. exact Hp.
  - cbn. subst. split; [assumption|]. cbn [snd]. eapply tl_nocheck; [eassumption|eassumption|reflexivity].
Qed.
Lemma parseExpr_post : forall p, SI p -> post PN (parseExpr d p).
Proof. intros p H. unfold parseExpr. po. apply parseExpr_loop_post. assumption. Qed.
Lemma parseDataTypeName_post : forall p, SI p -> post PS (parseDataTypeName d p).
Proof. intros p H. unfold parseDataTypeName. cbv zeta. destruct d; po. Qed.
Lemma parseDataType_post : forall p, SI p -> post PS (parseDataType d p).
Proof.
  intros p H. unfold parseDataType. eapply post_bind; [apply parseDataTypeName_post; exact H|]. intros [[[n t] e] p1] Hp. cbn [snd] in Hp. po.
  eapply post_bind; [apply parseIdents_post; assumption|]. intros [ids p3] Hq. po.
Qed.

Lemma parseDefault_post : forall f v p, SI p ->
  (strict = true -> v = None -> match d with Pg | Crdb => isDataType d (curT p) = false | _ => True end) ->
  post PS (parseDefault_loop d f v p).
Proof.
  induction f as [|f IH]; intros v p H Hv; [exact I|]. cbn [parseDefault_loop]. cbv zeta.
  assert (N : forall ids, strict = true -> expr_append v ids = None -> match d with Pg | Crdb => isDataType d (curT p) = false | _ => True end).
  { intros ids _ F. destruct v; discriminate F. }
  po1. { po. apply IH; [assumption|]. intros _ F. destruct v; discriminate F. }
  po1. { eapply post_bind; [apply parseExpr_post; exact H|]. intros [ids p1] [Hp _]. apply IH; [exact Hp|]. intros _ F. destruct v; discriminate F. }
  po1; [po|].
  po1. { po. apply IH; [assumption|]. intros _ F. destruct v; discriminate F. }
  po1. { po. apply IH; [assumption|]. intros _ F. destruct v; discriminate F. }
  po1. { destruct v as [l|].
         - po. apply IH; [assumption|]. intros _ F. discriminate F.
         - cbn. destruct strict; [|reflexivity]. exfalso. specialize (Hv eq_refl eq_refl). destruct d; congruence. }
  po.
Qed.
Lemma parseAs_post : forall f v ty p, SI p ->
  (strict = true -> v = None -> match d with Pg | Crdb => isDataType d (curT p) = false | _ => False end) ->
  post PS (parseAs_loop d f v ty p).
Proof.
  induction f as [|f IH]; intros v ty p H Hv; [exact I|]. cbn [parseAs_loop]. cbv zeta.
  po1. { po. apply IH; [assumption|]. intros _ F. destruct v; discriminate F. }
  po1. { eapply post_bind; [apply parseExpr_post; exact H|]. intros [ids p1] [Hp _]. apply IH; [exact Hp|]. intros _ F. destruct v; discriminate F. }
  po1. { po. apply IH; [assumption|]. intros Hs F. specialize (Hv Hs F). subst q. pose proof (tl_default p H) as K.
         assert (E : isin (curT p) [TOKEN_DEFAULT; TOKEN_AS; TOKEN_STORED; TOKEN_VIRTUAL] = true).
         { unfold isin in *. cbn [existsb] in *. rewrite orb_false_r in Heqb1. rewrite orb_false_r.
           apply orb_true_iff in Heqb1. destruct Heqb1 as [X|X]; rewrite X, ?orb_true_r; reflexivity. }
         specialize (K E Hs). destruct d; (exact K || contradiction). }
  po1; [po|].
  po1. { po. apply IH; [assumption|]. intros _ F. destruct v; discriminate F. }
  po1. { po. apply IH; [assumption|]. intros _ F. destruct v; discriminate F. }
  po1. { destruct v as [l|].
         - po. apply IH; [assumption|]. intros _ F. discriminate F.
         - cbn. destruct strict; [|reflexivity]. exfalso. specialize (Hv eq_refl eq_refl). destruct d; congruence. }
  po.
Qed.
Lemma parseUsing_post : forall f v w p, SI p -> post PS (parseUsing_loop d f v w p).
Proof.
  induction f as [|f IH]; intros v w p H; [exact I|]. cbn [parseUsing_loop]. cbv zeta. po; try (apply IH; assumption).
  eapply post_bind; [apply parseExpr_post; assumption|]. intros [ids p1] [Hp _]. apply IH. exact Hp.
Qed.
(** These keep "no CHECK next" when they do not move. *)
Lemma parseOn_post : forall b p, SI p -> post PS (parseOn b p).
Proof. intros b p H. unfold parseOn. cbv zeta. po. Qed.
Lemma parseOnAction_post : forall p, SI p -> post PS (parseOnAction p).
Proof. intros p H. unfold parseOnAction. eapply post_bind; [apply parseOn_post; exact H|]. intros [s p1] Hp. po. Qed.
Lemma parseColumnOn_post : forall p, SI p -> post PS (parseColumnOn d p).
Proof.
  intros p H. unfold parseColumnOn. destruct d.
  - po. apply parseOn_post. exact H.
  - po. apply parseOn_post. exact H.
  - eapply (post_bind PS); [po; apply parseOnAction_post; exact H|]. intros [s p1] Hp. cbn in Hp. po. apply parseOnAction_post. exact Hp.
  - po.
Qed.
Lemma parseTableOn_post : forall p, SI p -> nocheck p -> post PN (parseTableOn d p).
Proof.
  intros p H Hn. unfold parseTableOn.
  assert (W : d <> Sp -> forall A (r : res (A * ps)), post PS r -> post PN r).
  { intros Hd A r Hr. eapply post_weaken; [exact Hr|]. intros a Ha. split; [exact Ha|]. intros _ E. contradiction. }
  destruct d.
  - apply W; [discriminate|]. po. apply parseOn_post. exact H.
  - apply W; [discriminate|]. po. apply parseOn_post. exact H.
  - apply W; [discriminate|]. eapply (post_bind PS); [po; apply parseOnAction_post; exact H|]. intros [s p1] Hp. cbn in Hp. po.
    eapply post_bind; [apply parseOnAction_post; exact Hp|]. intros [s2 p2] Hp2. po.
  - cbn. split; assumption.
Qed.

(** * Constraint lists *)
Lemma CI_nil : CI [].
Proof. intros _. split; [reflexivity|constructor]. Qed.
Lemma NoDup_app_perm : forall (A B : Type) (f : A -> B) l l', Permutation l l' -> NoDup (map f l') -> NoDup (map f l).
Proof. intros A B f l l' P H. eapply Permutation_NoDup; [apply Permutation_sym, Permutation_map; exact P|exact H]. Qed.
Lemma append_post : forall cs c, CI cs -> (namedok -> named c = true) -> post CI (append_constraint d srt cs c).
Proof.
  intros cs c Hc Hn.
  assert (G : namedok -> exists cs', append_constraint d srt cs c = Ok cs' /\ (forallb named cs' = true /\ NoDup (map con_key cs'))).
  { intro K. destruct (Hc K) as [H1 H2]. specialize (Hn K). destruct (replace_spec cs c H1 Hn) as [[E F]|[l1 [x [l2 [E1 [E2 [E3 E4]]]]]]].
    - destruct (append_fresh d srt Hsrt cs c H1 Hn F) as [cs' [Ea P]]. exists cs'. split; [exact Ea|]. split.
      + apply (forallb_perm _ _ _ _ (Permutation_sym P)). rewrite forallb_app, H1. cbn. rewrite Hn. reflexivity.
      + eapply NoDup_app_perm; [exact P|]. rewrite map_app. cbn. apply (Permutation_NoDup (Permutation_cons_append _ _)). constructor; assumption.
    - exists (l1 ++ c :: l2)%list. unfold append_constraint. rewrite E4. split; [reflexivity|]. subst cs. split.
      + rewrite forallb_app in *. cbn [forallb] in *. rewrite Hn. apply andb_true_iff in H1. destruct H1 as [H1 H1']. apply andb_true_iff in H1'.
        rewrite H1. cbn. apply H1'.
      + rewrite map_app in *. cbn [map] in *. rewrite E2 in H2. exact H2. }
  unfold namedok in G. destruct strict eqn:S.
  - destruct (G (or_introl eq_refl)) as [cs' [E K]]. rewrite E. cbn. intros _. exact K.
  - destruct (append_constraint d srt cs c) as [cs'| | |] eqn:E; cbn; try exact I; [|exact S].
    intro K. unfold namedok in K. rewrite S in K. destruct (G K) as [cs2 [E2 K2]]. inversion E2; subst. exact K2.
Qed.
Lemma append_all_post : forall new cs, CI cs -> (namedok -> forallb named new = true) -> post CI (append_constraints d srt cs new).
Proof.
  induction new as [|c r IH]; intros cs Hc Hn; [exact Hc|]. cbn [append_constraints].
  eapply post_bind; [apply append_post; [exact Hc|]|].
  - intro K. specialize (Hn K). cbn in Hn. apply andb_true_iff in Hn. apply Hn.
  - intros cs' Hcs'. apply IH; [exact Hcs'|]. intro K. specialize (Hn K). cbn in Hn. apply andb_true_iff in Hn. apply Hn.
Qed.

(** The rest of a column: no CHECK where a table constraint could start. *)
Definition PC (x : list constraint * ps) : Prop := CI (fst x) /\ SI (snd x) /\ nocheck (snd x).
Lemma parseColumnConstraints_post : forall f tbl col cs p, SI p -> CI cs -> post PC (parseColumnConstraints_loop d srt f tbl col cs p).
Proof.
  induction f as [|f IH]; intros tbl col cs p H Hc; [exact I|]. cbn [parseColumnConstraints_loop]. cbv zeta.
  po1. { po. eapply post_bind; [apply append_post; [exact Hc|reflexivity]|]. intros cs' Hc'. po. apply IH; assumption. }
  po1. { po. eapply post_bind; [apply parseColumnIdents_post; assumption|]. intros [ids p3] [Hp3 _]. cbn [snd] in Hp3.
         eapply post_bind; [apply parseColumnOn_post; assumption|]. intros [on p4] Hp4.
         eapply post_bind; [apply append_post; [exact Hc|reflexivity]|]. intros cs' Hc'. po. apply IH; assumption. }
  po1. { eapply post_bind; [apply append_post; [exact Hc|destruct d; reflexivity]|]. intros cs' Hc'. po. apply IH; assumption. }
  po1. { po. eapply post_bind; [apply parseExpr_post; assumption|]. intros [ids p3] [Hp3 _]. cbn [snd] in Hp3.
         eapply post_bind; [apply append_post; [exact Hc|reflexivity]|]. intros cs' Hc'. po. apply IH; assumption. }
  po1; [|exact I]. cbn. split; [exact Hc|]. split; [exact H|]. cbn [snd]. intros _ _ F. unfold eqs in Heqb2. rewrite F in Heqb2. discriminate Heqb2.
Qed.

Lemma parseAttrs_post : forall f c p, SI p -> post PS (parseAttrs_loop d f c p).
Proof.
  induction f as [|f IH]; intros c p H; [exact I|]. cbn [parseAttrs_loop]. cbv zeta.
  po1. { destruct d; po; apply IH; assumption. }
  po1. { po; apply IH; assumption. }
  po1. { po. eapply post_bind; [apply parseDefault_post; [assumption|]|].
         - intros Hs _. subst q. apply tl_default; [exact H| |exact Hs]. unfold isin. cbn [existsb]. rewrite Heqb1. reflexivity.
         - intros [v p2] Hp. apply IH. exact Hp. }
  pose proof parseAs_post as PA. pose proof (tl_default p H) as TD.
  destruct d; po; try (apply IH; assumption).
  eapply post_bind; [apply PA; [assumption|]|].
  - intros Hs _. subst q. apply TD; [|exact Hs]. unfold isin. cbn [existsb]. rewrite Heqb2. rewrite orb_true_r. reflexivity.
  - intros [v p2] Hp. apply IH. exact Hp.
Qed.

Definition PCol (x : column * list constraint * ps) : Prop := CI (snd (fst x)) /\ SI (snd x) /\ nocheck (snd x).
Lemma parseColumn_post : forall tbl p, SI p -> post PCol (parseColumn d srt tbl p).
Proof.
  intros tbl p H. unfold parseColumn. cbv zeta. po.
  eapply post_bind; [apply parseDataType_post; assumption|]. intros [dt p2] Hp2. po.
  eapply post_bind; [apply parseAttrs_post; assumption|]. intros [c p4] Hp4.
  eapply post_bind; [apply parseColumnConstraints_post; [exact Hp4|apply CI_nil]|]. intros [cs p5] [Hc [Hp5 Hn5]]. cbn [fst snd] in *.
  eapply post_bind; [apply append_all_post; [apply CI_nil|intro K; apply (Hc K)]|]. intros cs' Hc'.
  pose proof parseExpr_post as PE.
  assert (W : forall q : ps, d <> Sp -> nocheck q) by (intros q' Hd _ E; contradiction).
  destruct d; po; try (cbn; refine (conj _ (conj _ _)); assumption).
  - cbn. split; [exact Hc'|]. split; [assumption|]. apply W. discriminate.
  - eapply post_bind; [apply PE; assumption|]. intros [ids p7] [Hp7 Hn7]. cbn. refine (conj _ (conj _ _)); try assumption; try (intros _; reflexivity).
Qed.

Definition PT (x : constraint * ps) : Prop := (namedok -> named (fst x) = true) /\ SI (snd x) /\ nocheck (snd x).
Lemma parseTableConstraint_post : forall tbl p, SI p -> nocheck p -> post PT (parseTableConstraint d tbl p).
Proof.
  intros tbl p H Hn. unfold parseTableConstraint.
  eapply (post_bind (fun x : option ident * ps => SI (snd x) /\ (fst x = None -> nocheck (snd x)))).
  { po; cbn; split; try assumption; [discriminate|intros _; assumption]. }
  intros [name p0] [H0 N0]. cbn [fst snd] in *. cbv zeta.
  assert (PC' : forall q, SI q -> post PN (parseColumnIdents d q)) by (intros q Hq; apply parseColumnIdents_post; exact Hq).
  assert (PU : forall q, SI q -> post PS (parseUsing d q)) by (intros q Hq; apply parseUsing_post; exact Hq).
  po1. { po. eapply post_bind; [apply PC'; assumption|]. intros [ids p3] [Hp3 Hn3]. cbn. refine (conj _ (conj _ _)); try assumption. intros _. destruct d, name; reflexivity. }
  po1. { po. eapply post_bind; [apply PC'; assumption|]. intros [ids p3] [Hp3 Hn3]. cbn [snd] in *. po.
         eapply post_bind; [apply PC'; assumption|]. intros [ids2 p6] [Hp6 Hn6]. cbn [snd] in *.
         eapply post_bind; [apply parseTableOn_post; assumption|]. intros [on p7] [Hp7 Hn7]. cbn. refine (conj _ (conj _ _)); try assumption. intros _. destruct name; reflexivity. }
  assert (W : forall q : ps, d <> Sp -> nocheck q) by (intros q' Hd _ E; contradiction).
  pose proof parseExpr_post as PE.
  assert (NS : name = None -> eqs (curT p0) TOKEN_CHECK = true -> d = Sp -> ~ namedok).
  { intros En Et Ed [K|K]; [|contradiction]. apply (N0 En K Ed). apply String.eqb_eq. exact Et. }
  destruct d.
  - po. eapply post_bind; [apply PC'; assumption|]. intros [ids p3] [Hp3 Hn3]. cbn. refine (conj _ (conj _ _)); try assumption. intros _. destruct name; reflexivity.
  - po. eapply (post_bind SI).
    { po; assumption. }
    intros p1 H1. po. eapply post_bind; [apply PC'; assumption|]. intros [ids p4] [Hp4 Hn4]. cbn [snd] in *. po.
    + eapply post_bind; [apply PU; assumption|]. intros [u p5] Hp5. po. cbn. refine (conj _ (conj _ _)); try assumption; [intros _; reflexivity|]. apply W. discriminate.
    + cbn. refine (conj _ (conj _ _)); try assumption; try (intros _; reflexivity).
  - po.
    + eapply (post_bind SI).
      { po; assumption. }
      intros p1 H1. po. eapply post_bind; [apply PC'; assumption|]. intros [ids p4] [Hp4 Hn4]. cbn. refine (conj _ (conj _ _)); try assumption; try (intros _; reflexivity).
    + eapply post_bind; [apply PE; assumption|]. intros [ids p2] [Hp2 Hn2]. cbn. refine (conj _ (conj _ _)); try assumption. intros _. destruct name; reflexivity.
  - po. eapply post_bind; [apply PE; assumption|]. intros [ids p2] [Hp2 Hn2]. cbn. refine (conj _ (conj _ _)); try assumption.
    intro K. destruct name as [n|]; [reflexivity|]. exfalso. exact (NS eq_refl eq_refl eq_refl K).
Qed.

Lemma parseIfNotExists_post : forall p, SI p -> post PS (parseIfNotExists p).
Proof. intros p H. unfold parseIfNotExists. po. Qed.

Definition PCols (x : list column * list constraint * ps) : Prop := CI (snd (fst x)) /\ SI (snd x).
Lemma parseColumns_post : forall f tbl cols cs p, SI p -> nocheck p -> CI cs -> post PCols (parseColumns_loop d srt f tbl cols cs p).
Proof.
  induction f as [|f IH]; intros tbl cols cs p H Hn Hc; [exact I|]. cbn [parseColumns_loop].
  po1. { eapply post_bind; [apply parseColumn_post; exact H|]. intros [[c ccs] p1] [Hcc [Hp1 Hn1]]. cbn [fst snd] in *.
         eapply post_bind; [apply append_all_post; [exact Hc|intro K; apply (Hcc K)]|]. intros cs' Hc'. apply IH; assumption. }
  po1. { eapply post_bind; [apply parseTableConstraint_post; assumption|]. intros [c p1] [Hcc [Hp1 Hn1]]. cbn [fst snd] in *.
         eapply post_bind; [apply append_post; assumption|]. intros cs' Hc'. apply IH; assumption. }
  po1. { po. apply IH; try assumption. subst q. eapply tl_nocheck; [exact H|eassumption|reflexivity]. }
  po1; [cbn; split; assumption|]. po1; [|exact I]. destruct d; po; cbn; split; assumption.
Qed.

Lemma parseOptionValue_post : forall p, SI p -> post PS (parseOptionValue d p).
Proof. intros p H. unfold parseOptionValue. po. Qed.
Lemma parseOptionsMy_post : forall f o p, SI p -> post PS (parseOptionsMy_loop d f o p).
Proof.
  induction f as [|f IH]; intros o p H; [exact I|]. cbn [parseOptionsMy_loop]. cbv zeta. po1; [|po].
  eapply (post_bind SI); [po; assumption|]. intros p1 H1. eapply post_bind; [apply parseOptionValue_post; exact H1|]. intros [v p2] Hp2. po.
  apply IH. assumption.
Qed.
Lemma step_post : forall t p, SI p -> post PS (step d t p).
Proof. intros t p H. unfold step. po. Qed.
Lemma steps_post : forall ts p, SI p -> post PS (steps d ts p).
Proof.
  induction ts as [|t r IH]; intros p H; [exact H|]. cbn [steps]. eapply post_bind; [apply step_post; exact H|]. intros [i p1] Hp1.
  eapply post_bind; [apply IH; exact Hp1|]. intros [l p2] Hp2. po.
Qed.
Lemma parseOptionsSp_post : forall f o r p, SI p -> post PS (parseOptionsSp_loop d f o r p).
Proof.
  induction f as [|f IH]; intros o r p H; [exact I|]. cbn [parseOptionsSp_loop]. cbv zeta.
  Ltac spo := eapply post_bind; [apply step_post; unfold PS in *; cbn [snd] in *; assumption|]; intros [? ?] ?.
  po1. { spo. po. eapply post_bind; [apply parseExpr_post; assumption|]. intros [ids p9] [Hp9 _]. apply IH. exact Hp9. }
  po1. { spo. spo. spo. eapply (post_bind PS).
         { po. spo. po. spo. po. }
         intros [on p9] Hp9. po. apply IH. assumption. }
  po1. { spo. spo. eapply post_bind; [apply steps_post; assumption|]. intros [ids p9] Hp9. po. apply IH. assumption. }
  po. apply IH. assumption.
Qed.

Definition good_stmt (s : stmt) : Prop :=
  match s with CreateTable t => CI (ct_constraints t) | CreateIndex _ => True | _ => False end.
Definition PStmt (x : stmt * ps) : Prop := good_stmt (fst x) /\ SI (snd x).
Lemma parseCreateTable_post : forall p, SI p -> post PStmt (parseCreateTable d srt p).
Proof.
  intros p H. unfold parseCreateTable. eapply post_bind; [apply parseIfNotExists_post; exact H|]. intros [ine p1] Hp1. cbv zeta. po.
  eapply post_bind; [apply parseColumns_post; [assumption| |apply CI_nil]|].
  { subst. eapply tl_nocheck; [|eassumption|reflexivity]. assumption. }
  intros [[cols cs] p5] [Hc Hp5]. cbn [fst snd] in *.
  pose proof parseOptionsMy_post as PM. pose proof parseOptionsSp_post as PSp.
  destruct d.
  - cbn. split; assumption.
  - cbn. split; assumption.
  - eapply post_bind; [apply PM; exact Hp5|]. intros [o p6] Hp6. cbn. split; assumption.
  - eapply post_bind; [apply PSp; exact Hp5|]. intros [[o r] p6] Hp6. cbn. split; assumption.
Qed.
Lemma parseCreateIndex_post : forall p, SI p -> post PStmt (parseCreateIndex d p).
Proof.
  intros p H. unfold parseCreateIndex. cbv zeta. eapply (post_bind SI); [po; assumption|]. intros p0 H0.
  eapply post_bind; [apply parseIfNotExists_post; exact H0|]. intros [ine p1] Hp1. po.
  assert (PU : forall q, SI q -> post PS (parseUsing d q)) by (intros q' Hq; apply parseUsing_post; exact Hq).
  eapply (post_bind PS).
  { po. destruct d; po. eapply post_bind; [apply PU; assumption|]. intros [u r1] Hr1. po. }
  intros [[usg pre] p6] Hp6. cbn [snd] in Hp6. po.
  eapply post_bind; [apply parseColumnIdents_post; exact Hp6|]. intros [ids p7] [Hp7 _]. cbn [snd] in Hp7.
  eapply (post_bind PS).
  { po1; [|po]. eapply post_bind; [apply PU; assumption|]. intros [u r1] Hr1. po. }
  intros [post' p8] Hp8. cbn. split; [exact I|exact Hp8].
Qed.
Lemma parse_loop_post : forall f acc p, SI p -> Forall good_stmt acc -> post (Forall good_stmt) (parse_loop d srt f acc p).
Proof.
  induction f as [|f IH]; intros acc p H Ha; [exact I|]. cbn [parse_loop]. po.
  - eapply post_bind.
    { instantiate (1 := PStmt). unfold parseCreate. po; [apply parseCreateTable_post|apply parseCreateIndex_post]; assumption. }
    intros [s p1] [Hs Hp]. cbn [fst snd] in *. po. apply IH; [assumption|]. apply Forall_app. split; [exact Ha|]. constructor; [exact Hs|constructor].
  - apply IH; assumption.
  - exact Ha.
Qed.
Lemma parse_tokens_post : forall ts, SI ts -> post (Forall good_stmt) (parse_tokens d srt ts).
Proof.
  intros ts H. unfold parse_tokens. destruct (eqs (curT ts) TOKEN_BOOM || eqs (peekT ts) TOKEN_BOOM) eqn:E.
  - cbn. destruct strict eqn:S; [|reflexivity]. exfalso. specialize (H S). unfold clean in H. apply andb_true_iff in H. destruct H as [H _].
    apply andb_true_iff in H. destruct H as [H _]. rewrite (no_boom_peek _ H), orb_false_r in E. destruct ts as [|t ts]; [discriminate E|].
    cbn in H. apply andb_true_iff in H. destruct H as [H _]. apply negb_true_iff in H. unfold curT, cur in E. congruence.
  - apply parse_loop_post; [exact H|constructor].
Qed.
End Safe.
