(** What the parser makes of quiet tokens: every text of the schema is quiet. *)
From Coq Require Import Lia Permutation.
From Verif Require Import GoStr Token Lexer Ast Parser AppendFacts Tidy Lines LinesFacts ApplySpec Plain PlainText PlainDiff.
Local Open Scope list_scope.

Lemma quiet_parts : forall s, quiet s = true <-> contains "--" s = false /\ has_byte ch_nl s = false /\ has_byte ch_cr s = false /\ has_byte ";" s = false.
Proof. intro s. unfold quiet. destruct (contains "--" s), (has_byte ch_nl s), (has_byte ch_cr s), (has_byte ";" s); cbn; intuition congruence. Qed.
Lemma suffix_byte : forall c s, has_byte c s = false -> has_suffix_byte c s = false.
Proof.
  intros c s. induction s as [|x s IH]; [reflexivity|]. intro H. cbn [has_byte] in H. apply orb_false_iff in H. destruct H as [A B].
  destruct s as [|y s]; [cbn [has_suffix_byte]; rewrite Ascii.eqb_sym; exact A|]. cbn [has_suffix_byte]. exact (IH B).
Qed.
Lemma quiet_plain : forall s, quiet s = true -> plain_text s = true.
Proof. intros s H. apply quiet_parts in H. destruct H as [A [B [C D]]]. apply plain_parts. rewrite A, B, C, (suffix_byte _ _ D). auto. Qed.
Lemma quiet_sub : forall a x b, quiet (a ++ x ++ b)%string = true -> quiet x = true.
Proof.
  intros a x b H. apply quiet_parts in H. destruct H as [A [B [C D]]]. apply contains_shrink in A. rewrite !has_byte_app in B, C, D.
  apply quiet_parts. destruct (has_byte ch_nl x), (has_byte ch_cr x), (has_byte ";" x); rewrite ?orb_true_r in *; try discriminate; auto.
Qed.
Lemma quiet_app : forall a b, quiet a = true -> quiet b = true -> (closes a = true -> opens b = false) -> quiet (a ++ b)%string = true.
Proof.
  intros a b A B S. apply quiet_parts in A. apply quiet_parts in B. destruct A as [A1 [A2 [A3 A4]]], B as [B1 [B2 [B3 B4]]]. apply quiet_parts.
  rewrite two_bytes_app, !has_byte_app, A1, A2, A3, A4, B1, B2, B3, B4. cbn [orb]. repeat split; auto.
  fold (closes a). fold (opens b). destruct (closes a); [rewrite S; reflexivity|reflexivity].
Qed.
(** A constant in the middle that neither begins nor ends with a dash *)
Lemma quiet_mid : forall c a b, quiet a = true -> quiet b = true -> quiet c = true -> c <> ""%string -> opens c = false -> closes c = false -> quiet (a ++ c ++ b)%string = true.
Proof.
  intros c a b A B C N O K. apply quiet_app; [exact A|apply quiet_app; [exact C|exact B|congruence]|]. intros _. rewrite opens_app. destruct c; [congruence|exact O].
Qed.
Lemma quiet_space : forall a b, quiet a = true -> quiet b = true -> quiet (a ++ " " ++ b)%string = true.
Proof. intros a b A B. apply (quiet_mid " "); auto. discriminate. Qed.
Lemma quiet_tail : forall c a, quiet a = true -> quiet c = true -> opens c = false -> quiet (a ++ c)%string = true.
Proof. intros c a A C O. apply quiet_app; auto. Qed.

(** Trimming and cutting *)
Lemma trim_left_part : forall c s, exists a, s = (a ++ trim_left_byte c s)%string.
Proof. intros c s. induction s as [|x s [a IH]]; [exists ""%string; reflexivity|]. cbn [trim_left_byte]. destruct (Ascii.eqb c x); [exists (String x a); cbn [append]; congruence|exists ""%string; reflexivity]. Qed.
Lemma trim_right_part : forall c s, exists b, s = (trim_right_byte c s ++ b)%string.
Proof.
  intros c s. induction s as [|x s [b IH]]; [exists ""%string; reflexivity|]. cbn [trim_right_byte]. destruct (trim_right_byte c s) as [|y r].
  - destruct (Ascii.eqb c x); [exists (String x s); reflexivity|exists s; reflexivity].
  - exists b. cbn [append] in *. congruence.
Qed.
Lemma trim_byte_part : forall c s, exists a b, s = (a ++ trim_byte c s ++ b)%string.
Proof.
  intros c s. unfold trim_byte. destruct (trim_left_part c s) as [a A]. destruct (trim_right_part c (trim_left_byte c s)) as [b B]. exists a, b. rewrite <- B. exact A.
Qed.
Lemma quiet_trim : forall c s, quiet s = true -> quiet (trim_byte c s) = true.
Proof. intros c s H. destruct (trim_byte_part c s) as [a [b E]]. rewrite E in H. apply quiet_sub in H. exact H. Qed.

(** Names *)
Definition mark_ok (q : string) : Prop := q = ""%string \/ q = dquote \/ q = bquote \/ q = squote.
Lemma mark_quiet : forall q, mark_ok q -> quiet q = true /\ opens q = false /\ closes q = false.
Proof. intros q [E|[E|[E|E]]]; subst q; repeat split; reflexivity. Qed.
(** quiet, or a lone semicolon *)
Definition qs (s : string) : Prop := quiet s = true \/ s = ";"%string.
Record iok (i : ident) : Prop := { iok_raw : quiet (id_raw i) = true; iok_name : quiet (id_name i) = true; iok_mark : mark_ok (id_quote i) }.
Record iqs (i : ident) : Prop := { iqs_raw : qs (id_raw i); iqs_name : qs (id_name i); iqs_mark : mark_ok (id_quote i) }.
Lemma iok_iqs : forall i, iok i -> iqs i.
Proof. intros i [A B C]. split; [left; exact A|left; exact B|exact C]. Qed.

Section Parser.
Variable d : dialect.
Variable srt : list constraint -> list constraint.
Hypothesis Hsrt : srt_ok srt.

Lemma raw_ok : forall s, quiet s = true -> iok (NewRawIdent d s).
Proof.
  intros s H. unfold NewRawIdent. assert (M : forall q, In q (quotationMarks d) -> mark_ok (String q "")).
  { unfold quotationMarks. intros q I. unfold mark_ok. destruct d; cbn [In] in I; intuition (subst; auto). }
  induction (quotationMarks d) as [|q l IH]; cbn [raw_ident_with]; [split; [exact H|exact H|left; reflexivity]|].
  destruct (_ && _); [split; [exact H|apply quiet_trim, H|apply M; left; reflexivity]|apply IH; intros x I; apply M; right; exact I].
Qed.
Lemma raw_qs : forall s, qs s -> iqs (NewRawIdent d s).
Proof.
  intros s [H|H]; [apply iok_iqs, raw_ok, H|subst s]. split; try (right; destruct d; reflexivity). left. destruct d; reflexivity.
Qed.
Lemma marked_quiet : forall q s, mark_ok q -> quiet s = true -> quiet (q ++ s ++ q)%string = true.
Proof.
  intros q s Q H. apply mark_quiet in Q. destruct Q as [A [B C]]. apply quiet_app; [exact A| |congruence]. apply quiet_tail; auto.
Qed.
Definition ook (n : objname) : Prop := match on_schema n with Some i => iok i | None => True end /\ iok (on_name n).
Lemma split_parts : forall sep s k x, In x (split_skip sep k s) -> exists a b, s = (a ++ x ++ b)%string.
Proof.
  intros sep s. assert (G : forall k, exists h t, split_skip sep k s = h :: t /\ (exists a b, s = (a ++ h ++ b)%string /\ (k = O -> a = ""%string)) /\ forall x, In x t -> exists a b, s = (a ++ x ++ b)%string).
  { induction s as [|c s IH]; intro k; cbn [split_skip].
    - exists ""%string, []. split; [reflexivity|]. split; [exists ""%string, ""%string; auto|intros x []].
    - assert (X : forall x, (exists a b, s = (a ++ x ++ b)%string) -> exists a b, String c s = (a ++ x ++ b)%string) by (intros x [a [b E]]; exists (String c a), b; subst s; reflexivity).
      destruct k as [|k].
      + destruct (String.prefix sep (String c s)).
        * destruct (IH (String.length sep - 1)) as [h [t [E [[a [b [E1 _]]] E2]]]]. exists ""%string, (h :: t). split; [rewrite E; reflexivity|]. split; [exists ""%string, (String c s); auto|].
          intros x [I|I]; apply X; [subst h; eauto|apply E2, I].
        * destruct (IH O) as [h [t [E [[a [b [E1 E0]]] E2]]]]. rewrite E. exists (String c h), t. split; [reflexivity|]. split; [|intros x I; apply X, E2, I].
          specialize (E0 eq_refl). subst a. exists ""%string, b. split; [cbn [append] in *; rewrite E1 at 1; reflexivity|reflexivity].
      + destruct (IH k) as [h [t [E [[a [b [E1 _]]] E2]]]]. rewrite E. exists h, t. split; [reflexivity|]. split; [|intros x I; apply X, E2, I].
        exists (String c a), b. split; [subst s; reflexivity|discriminate]. }
  intros k x I. destruct (G k) as [h [t [E [[a [b [E1 _]]] E2]]]]. rewrite E in I. destruct I as [I|I]; [subst h; eauto|apply E2, I].
Qed.
Lemma objname_ok : forall s, quiet s = true -> ook (NewObjectName d s).
Proof.
  intros s H. pose proof (raw_ok s H) as R. unfold NewObjectName. cbv zeta. set (t := NewRawIdent d s) in *. clearbody t. destruct R as [A B C].
  destruct (split "." (id_name t)) as [|x [|y [|z l]]] eqn:E; try (split; [exact I|split; assumption]).
  assert (X : forall p, In p [x; y] -> quiet p = true).
  { intros p I. rewrite <- E in I. destruct (split_parts "." (id_name t) 0 p I) as [a [b Ep]]. rewrite Ep in B. apply quiet_sub in B. exact B. }
  split; cbn [on_schema on_name]; apply raw_ok, marked_quiet; try assumption; apply X; [left; reflexivity|right; left; reflexivity].
Qed.

(** The tokens *)
Definition tok_ok (t : token) : Prop :=
  (quiet (tk_lit t) = true /\ opens (tk_lit t) = false /\ closes (tk_lit t) = false)
  \/ (tk_type t = TOKEN_MINUS /\ tk_lit t = "-"%string) \/ (tk_type t = TOKEN_SEMICOLON /\ tk_lit t = ";"%string).
Definition P (p : ps) : Prop := Forall tok_ok p.
Lemma P_tl : forall p, P p -> P (tl p).
Proof. intros [|t p] H; [exact H|inversion H; assumption]. Qed.
Lemma P_cur : forall p, P p -> tok_ok (cur p).
Proof. intros [|t p] H; [left; repeat split|inversion H; assumption]. Qed.
Lemma cur_qs : forall p, P p -> qs (curL p).
Proof. intros p H. apply P_cur in H. unfold curL. destruct H as [[A _]|[[_ A]|[_ A]]]; [left; exact A|rewrite A; left; reflexivity|right; exact A]. Qed.
Lemma cur_quiet : forall p, P p -> curT p <> TOKEN_SEMICOLON -> quiet (curL p) = true.
Proof. intros p H N. apply P_cur in H. unfold curL, curT in *. destruct H as [[A _]|[[_ A]|[A _]]]; [exact A|rewrite A; reflexivity|congruence]. Qed.
Lemma cur_calm : forall p, P p -> curT p <> TOKEN_SEMICOLON -> curT p <> TOKEN_MINUS -> quiet (curL p) = true /\ opens (curL p) = false /\ closes (curL p) = false.
Proof. intros p H N M. apply P_cur in H. unfold curL, curT in *. destruct H as [A|[[A _]|[A _]]]; [exact A|congruence|congruence]. Qed.
Lemma curT_is : forall p t, eqs (curT p) t = true -> curT p = t.
Proof. intros p t H. apply String.eqb_eq. exact H. Qed.
Lemma isin_not : forall t l x, isin t l = true -> isin x l = false -> t <> x.
Proof. intros t l x A B E. subst. congruence. Qed.
Lemma quiet_at : forall p t, P p -> eqs (curT p) t = true -> eqs t TOKEN_SEMICOLON = false -> quiet (curL p) = true.
Proof. intros p t H E N. apply cur_quiet; [exact H|]. apply curT_is in E. rewrite E. intro X. subst t. rewrite X in N. vm_compute in N. discriminate N. Qed.
Lemma quiet_in : forall p l, P p -> isin (curT p) l = true -> isin TOKEN_SEMICOLON l = false -> quiet (curL p) = true.
Proof. intros p l H E N. apply cur_quiet; [exact H|]. exact (isin_not _ _ _ E N). Qed.
Lemma peek_cur : forall p, peekT p = curT (tl p) /\ peekL p = curL (tl p).
Proof. intros [|a [|b p]]; split; reflexivity. Qed.

(** Results *)
Definition rq {A} (R : A -> Prop) (r : res (A * ps)) : Prop := match r with Ok (a, p) => R a /\ P p | _ => True end.
Definition rr {A} (R : A -> Prop) (r : res A) : Prop := match r with Ok a => R a | _ => True end.
Lemma rq_bind : forall {A B} (R : A -> Prop) (Q : B -> Prop) (r : res (A * ps)) (f : A * ps -> res (B * ps)),
  rq R r -> (forall a p, R a -> P p -> rq Q (f (a, p))) -> rq Q (bind r f).
Proof. intros A B R Q [[a p]| | |] f H K; cbn in *; auto. destruct H. auto. Qed.
Lemma rq_pure : forall {A B} (R : A -> Prop) (Q : B -> Prop) (r : res A) (f : A -> res (B * ps)), rr R r -> (forall a, R a -> rq Q (f a)) -> rq Q (bind r f).
Proof. intros A B R Q [a| | |] f H K; cbn in *; auto. Qed.
Lemma rq_next : forall {B} (Q : B -> Prop) p (f : ps -> res (B * ps)), P p -> (P (tl p) -> rq Q (f (tl p))) -> rq Q (bind (next p) f).
Proof. intros B Q p f H K. unfold next. destruct (eqs (peekT (tl p)) TOKEN_BOOM); cbn [bind]; [exact I|apply K, P_tl, H]. Qed.
Lemma rq_guard : forall {B} (Q : B -> Prop) b (f : unit -> res (B * ps)), (b = true -> rq Q (f tt)) -> rq Q (bind (guard b) f).
Proof. intros B Q [|] f K; cbn; auto. Qed.
Lemma rq_if : forall {B} (Q : B -> Prop) (b : bool) (x y : res (B * ps)), (b = true -> rq Q x) -> (b = false -> rq Q y) -> rq Q (if b then x else y).
Proof. intros B Q [|] x y A C; auto. Qed.
Lemma rq_if_next : forall {B} (Q : B -> Prop) (b : bool) p (f : ps -> res (B * ps)), P p -> (forall q, P q -> rq Q (f q)) -> rq Q (bind (if b then next p else Ok p) f).
Proof. intros B Q [|] p f H K; [apply rq_next; [exact H|apply K]|apply K, H]. Qed.
Lemma rq_if_gnext : forall {B} (Q : B -> Prop) (b c : bool) p (f : ps -> res (B * ps)), P p -> (forall q, P q -> rq Q (f q)) ->
  rq Q (bind (if b then let! _ := guard c in next p else Ok p) f).
Proof. intros B Q [|] [|] p f H K; cbn [guard bind]; try exact I; try (apply rq_next; [exact H|apply K]); apply K, H. Qed.

Ltac r1 :=
  match goal with
  | |- rq _ (bind (if _ then next _ else Ok _) _) => apply rq_if_next; [assumption|intros ? ?]
  | |- rq _ (bind (if _ then (bind (guard _) _) else Ok _) _) => apply rq_if_gnext; [assumption|intros ? ?]
  | |- rq _ (bind (next _) _) => apply rq_next; [assumption|intros ?]
  | |- rq _ (bind (guard _) _) => apply rq_guard; intros ?
  | |- rq _ (bind (Ok _) _) => cbn [bind]
  | |- rq _ (bind Err _) => exact I
  | |- rq _ (bind Panic _) => exact I
  | |- rq _ Err => exact I
  | |- rq _ Panic => exact I
  | |- rq _ OutOfFuel => exact I
  | |- rq _ (if _ then _ else _) => apply rq_if; intros ?
  | |- rq _ (Ok _) => split; [|assumption]
  end.
Ltac rs := repeat r1.

Lemma Forall_snoc : forall {A} (Q : A -> Prop) l x, Forall Q l -> Q x -> Forall Q (l ++ [x]).
Proof. intros A Q l x H X. apply Forall_app. split; [exact H|constructor; [exact X|constructor]]. Qed.

Lemma parseIdents_q : forall f acc p, P p -> Forall iqs acc -> rq (Forall iqs) (parseIdents_loop d f acc p).
Proof.
  induction f as [|f IH]; intros acc p H A; cbn [parseIdents_loop]; rs; try (apply IH; assumption); try assumption.
  apply IH; [assumption|]. apply Forall_snoc; [exact A|apply raw_qs, cur_qs, H].
Qed.
Definition ciok (c : colident) : Prop := iok (ci_ident c).
Lemma parseColumnIdents_q : forall f acc p, P p -> Forall ciok acc -> rq (Forall ciok) (parseColumnIdents_loop d f acc p).
Proof.
  induction f as [|f IH]; intros acc p H A; cbn [parseColumnIdents_loop]; rs; try (apply IH; assumption); try assumption.
  apply (rq_bind (fun _ => True)); [destruct d; rs; exact I|]. intros o p1 _ Hp1. rs. apply IH; [assumption|]. apply Forall_snoc; [exact A|]. apply raw_ok. eapply quiet_at; [exact H|eassumption|reflexivity].
Qed.
Lemma parseColumnIdents_q' : forall p, P p -> rq (Forall ciok) (parseColumnIdents d p).
Proof. intros p H. apply parseColumnIdents_q; [exact H|constructor]. Qed.

Lemma reserved_quiet : forall t, isReservedValue t = true -> quiet t = true.
Proof. intros t H. unfold isReservedValue, isin in H. cbn [existsb] in H. repeat (apply orb_true_iff in H; destruct H as [H|H]); try (apply String.eqb_eq in H; subst t; reflexivity). discriminate H. Qed.
Lemma cmp_not : forall p, isCmp (curT p) = true -> curT p <> TOKEN_SEMICOLON /\ curT p <> TOKEN_MINUS.
Proof. intros p H. split; apply (isin_not _ _ _ H); reflexivity. Qed.
Lemma parseExpr_loop_q : forall f acc p, P p -> Forall iqs acc -> rq (Forall iqs) (parseExpr_loop d f acc p).
Proof.
  induction f as [|f IH]; intros acc p H A; cbn [parseExpr_loop]; rs; try (apply IH; assumption); try assumption.
  - apply (rq_bind (Forall iqs)); [apply IH; [assumption|constructor; [apply raw_qs, cur_qs, H|constructor]]|]. intros ids p2 I2 H2. apply IH; [exact H2|apply Forall_app; split; assumption].
  - apply Forall_snoc; [exact A|apply raw_qs, cur_qs, H].
  - apply IH; [assumption|]. apply Forall_snoc; [exact A|]. apply iok_iqs, raw_ok. destruct (peek_cur p) as [E1 E2]. rewrite E2 in *. rewrite E1 in *.
    destruct (cmp_not p) as [N1 N2]; [assumption|]. destruct (cmp_not (tl p)) as [N3 N4]; [assumption|].
    destruct (cur_calm p H N1 N2) as [Q1 [_ Q2]]. destruct (cur_calm (tl p) (P_tl _ H) N3 N4) as [Q3 [Q4 _]]. apply quiet_app; auto.
  - apply IH; [assumption|]. apply Forall_snoc; [exact A|apply raw_qs, cur_qs, H].
  - apply IH; [assumption|]. apply Forall_snoc; [exact A|]. destruct (isReservedValue (curT p)) eqn:E; [apply iok_iqs, raw_ok, reserved_quiet, E|apply raw_qs, cur_qs, H].
Qed.
Lemma parseExpr_q : forall p, P p -> rq (Forall iqs) (parseExpr d p).
Proof. intros p H. unfold parseExpr. rs. apply parseExpr_loop_q; [assumption|]. constructor; [apply raw_qs, cur_qs, H|constructor]. Qed.

Definition eq_ok (e : expr) : Prop := match e with Some l => Forall iqs l | None => True end.
Lemma expr_append_ok : forall e l, eq_ok e -> Forall iqs l -> eq_ok (expr_append e l).
Proof. intros [l0|] l A B; cbn; [apply Forall_app; split; assumption|exact B]. Qed.
Definition dtok (t : datatype) : Prop := qs (dt_name t) /\ eq_ok (dt_expr t).
Ltac qat := first [eapply quiet_at; [eassumption|eassumption|reflexivity]|eapply quiet_in; [eassumption|eassumption|reflexivity]].
Ltac pk := repeat match goal with
  | H : context [peekT ?p] |- _ => rewrite (proj1 (peek_cur p)) in H
  end.
Lemma parseDataTypeName_q : forall p, P p -> rq (fun x => qs (fst (fst x)) /\ eq_ok (snd x)) (parseDataTypeName d p).
Proof.
  intros p H. pose proof (cur_qs p H) as C. assert (K : Forall iqs [NewRawIdent d "1"]) by (constructor; [apply iok_iqs, raw_ok; reflexivity|constructor]). revert K.
  unfold parseDataTypeName. cbv zeta.
  destruct d; intro K; rs; cbn [fst snd eq_ok]; (split; [|first [exact I|exact K]]); try exact C; try (left; reflexivity);
    pk; left; repeat apply quiet_space; try qat.
Qed.
Lemma parseDataType_q : forall p, P p -> rq dtok (parseDataType d p).
Proof.
  intros p H. unfold parseDataType. apply (rq_bind _ _ _ _ (parseDataTypeName_q p H)). intros [[n t] e] p1 [A B] Hp1. cbn [fst snd] in *. rs.
  - apply (rq_bind (Forall iqs)); [apply parseIdents_q; [assumption|constructor]|]. intros ids p3 I3 Hp3. rs. split; [exact A|apply expr_append_ok; assumption].
  - split; assumption.
Qed.
Lemma parseDefault_q : forall f v p, P p -> eq_ok v -> rq eq_ok (parseDefault_loop d f v p).
Proof.
  induction f as [|f IH]; intros v p H A; cbn [parseDefault_loop]; cbv zeta; rs; try assumption.
  - apply IH; [assumption|]. apply expr_append_ok; [exact A|]. constructor; [apply raw_qs, cur_qs, H|constructor].
  - apply (rq_bind _ _ _ _ (parseExpr_q p H)). intros ids p1 Ii Hp1. apply IH; [exact Hp1|apply expr_append_ok; assumption].
  - apply IH; [assumption|]. apply expr_append_ok; [exact A|]. constructor; [|constructor]. split; cbn; [apply cur_qs, H|left; apply reserved_quiet; assumption|left; reflexivity].
  - apply IH; [assumption|]. apply expr_append_ok; [exact A|]. constructor; [apply raw_qs, cur_qs, H|constructor].
  - destruct v as [l|]; [|exact I]. rs. apply IH; [assumption|]. apply Forall_snoc; [exact A|apply raw_qs, cur_qs, H].
Qed.
Definition asok (a : asdef) : Prop := eq_ok (as_value a) /\ qs (as_type a).
Lemma parseAs_q : forall f v ty p, P p -> eq_ok v -> qs ty -> rq asok (parseAs_loop d f v ty p).
Proof.
  induction f as [|f IH]; intros v ty p H A T; cbn [parseAs_loop]; cbv zeta; rs; try (split; assumption).
  - apply IH; [assumption| |exact T]. apply expr_append_ok; [exact A|]. constructor; [apply raw_qs, cur_qs, H|constructor].
  - apply (rq_bind _ _ _ _ (parseExpr_q p H)). intros ids p1 Ii Hp1. apply IH; [exact Hp1|apply expr_append_ok; assumption|exact T].
  - apply IH; [assumption|exact A|]. match goal with E : isin (curT p) _ = true |- _ => unfold isin in E; cbn [existsb] in E; rename E into J end.
    repeat (apply orb_true_iff in J; destruct J as [J|J]); try (apply String.eqb_eq in J; rewrite J; left; reflexivity). discriminate J.
  - apply IH; [assumption| |exact T]. apply expr_append_ok; [exact A|]. constructor; [|constructor]. split; cbn; [apply cur_qs, H|left; apply reserved_quiet; assumption|left; reflexivity].
  - apply IH; [assumption| |exact T]. apply expr_append_ok; [exact A|]. constructor; [apply raw_qs, cur_qs, H|constructor].
  - destruct v as [l|]; [|exact I]. rs. apply IH; [assumption| |exact T]. apply Forall_snoc; [exact A|apply raw_qs, cur_qs, H].
Qed.
Definition usok (u : usingdef) : Prop := eq_ok (us_value u) /\ match us_with u with Some e => eq_ok e | None => True end.
Lemma parseUsing_q : forall f v w p, P p -> eq_ok v -> match w with Some e => eq_ok e | None => True end -> rq usok (parseUsing_loop d f v w p).
Proof.
  induction f as [|f IH]; intros v w p H A W; cbn [parseUsing_loop]; cbv zeta; rs; try (split; assumption); try (apply IH; assumption).
  - apply IH; [assumption| |exact W]. apply expr_append_ok; [exact A|]. constructor; [apply raw_qs, cur_qs, H|constructor].
  - apply (rq_bind _ _ _ _ (parseExpr_q _ (P_tl _ H))). intros ids p2 Ii Hp2. apply IH; [exact Hp2|exact A|exact Ii].
Qed.
Lemma parseOn_q : forall b p, P p -> eqs (curT p) TOKEN_ON = true -> rq (fun s => quiet s = true) (parseOn b p).
Proof.
  intros b p H E. unfold parseOn. rs; pk; repeat apply quiet_space; try qat.
  - match goal with G : _ && _ = true |- _ => apply andb_true_iff in G; destruct G end. qat.
Qed.
Lemma parseOnAction_q : forall p, P p -> eqs (curT p) TOKEN_ON = true -> rq (fun s => quiet s = true) (parseOnAction p).
Proof. intros p H E. unfold parseOnAction. apply (rq_bind _ _ _ _ (parseOn_q true p H E)). intros s p1 Q Hp1. rs. exact Q. Qed.
Lemma parseColumnOn_q : forall p, P p -> rq (fun s => quiet s = true) (parseColumnOn d p).
Proof.
  intros p H. unfold parseColumnOn. destruct d; rs; try reflexivity; try (apply parseOn_q; assumption).
  apply (rq_bind (fun s => quiet s = true)); [rs; [apply parseOnAction_q; assumption|reflexivity]|]. intros s p1 Q Hp1. rs; [apply parseOnAction_q; assumption|exact Q].
Qed.
Lemma parseTableOn_q : forall p, P p -> rq (fun s => quiet s = true) (parseTableOn d p).
Proof.
  intros p H. unfold parseTableOn. destruct d; rs; try reflexivity; try (apply parseOn_q; assumption).
  apply (rq_bind (fun s => quiet s = true)); [rs; [apply parseOnAction_q; assumption|reflexivity]|]. intros s p1 Q Hp1. rs; [|exact Q].
  apply (rq_bind (fun s => quiet s = true)); [apply parseOnAction_q; assumption|]. intros s2 p2 Q2 Hp2. rs. apply quiet_space; assumption.
Qed.

(** Constraints *)
Definition oiok (i : option ident) : Prop := match i with Some i => iok i | None => True end.
Definition oqs (u : option usingdef) : Prop := match u with Some u => usok u | None => True end.
Definition cok (c : constraint) : Prop := oiok (con_name c) /\
  match c with
  | CPrimary _ cols | CUnique _ cols => Forall ciok cols
  | CForeign _ cols ref refcols on => Forall ciok cols /\ iok ref /\ Forall ciok refcols /\ quiet on = true
  | CIndex _ _ pre cols post => oqs pre /\ Forall ciok cols /\ oqs post
  | CCheck _ e => eq_ok e
  end.
Lemma appends_q : forall cs new, Forall cok cs -> Forall cok new -> rr (Forall cok) (append_constraints d srt cs new).
Proof.
  intros cs new A B. destruct (append_constraints d srt cs new) as [l| | |] eqn:E; try exact I. cbn. apply Forall_forall. intros x Hx.
  rewrite Forall_forall in *. destruct (append_in d srt Hsrt _ _ _ _ E Hx); auto.
Qed.
Lemma append_q : forall cs c, Forall cok cs -> cok c -> rr (Forall cok) (append_constraint d srt cs c).
Proof.
  intros cs c A B. pose proof (appends_q cs [c] A) as K. cbn [append_constraints] in K.
  assert (X : Forall cok [c]) by (constructor; [exact B|constructor]). specialize (K X). destruct (append_constraint d srt cs c); cbn in *; auto.
Qed.
Lemma pkey_ok : forall t, iok t -> iok (pkey_name d t).
Proof. intros t [A B C]. unfold pkey_name. assert (K1 : iok (NewRawIdent d "PRIMARY KEY")) by (apply raw_ok; reflexivity). assert (K2 : iok (NewRawIdent d (ident_diff t ++ "_pkey"))) by (apply raw_ok, quiet_tail; [exact B|reflexivity|reflexivity]). destruct d; assumption. Qed.
Lemma fkey_ok : forall t c, iok t -> iok c -> iok (col_fkey_name d t c).
Proof. intros t c [A B C] [D E F]. apply raw_ok. apply (quiet_mid "_"); try reflexivity; try discriminate; [exact B|apply quiet_tail; [exact E|reflexivity|reflexivity]]. Qed.
Lemma unique_ok : forall t c, iok t -> iok c -> iok (col_unique_name d t c).
Proof. intros t c [A B C] [D E F]. apply raw_ok. apply (quiet_mid "_unique_"); try reflexivity; try discriminate; assumption. Qed.
Lemma check_ok : forall t c, iok t -> iok c -> iok (col_check_name d t c).
Proof. intros t c [A B C] [D E F]. apply raw_ok. apply (quiet_mid "_"); try reflexivity; try discriminate; [exact B|apply quiet_tail; [exact E|reflexivity|reflexivity]]. Qed.
Lemma colident_diff_quiet : forall c, ciok c -> quiet (colident_diff d c) = true.
Proof. intros c [A B C]. unfold colident_diff. apply quiet_tail; [exact B| |]; destruct d; destruct (ci_order c) as [[|]|]; reflexivity. Qed.
Lemma underscore_ok : forall cs, Forall ciok cs -> quiet (underscore_cols d cs) = true /\ opens (underscore_cols d cs) = false.
Proof.
  intros cs H. induction H as [|c cs A F [I1 I2]]; [split; reflexivity|]. cbn [underscore_cols]. split; [|reflexivity].
  apply quiet_app; [reflexivity| |discriminate]. apply quiet_tail; [apply colident_diff_quiet, A|exact I1|exact I2].
Qed.
Lemma tbl_fkey_ok : forall t cs, iok t -> Forall ciok cs -> iok (tbl_fkey_name d t cs).
Proof.
  intros t cs [A B C] F. destruct (underscore_ok cs F) as [U V]. apply raw_ok. apply quiet_tail; [exact B|apply quiet_tail; [exact U|reflexivity|reflexivity]|].
  rewrite opens_app. destruct (underscore_cols d cs); [reflexivity|exact V].
Qed.
Lemma tbl_unique_ok : forall t cs, iok t -> Forall ciok cs -> iok (tbl_unique_name d t cs).
Proof. intros t cs [A B C] F. destruct (underscore_ok cs F) as [U V]. apply raw_ok. apply (quiet_mid "_unique"); try reflexivity; try discriminate; assumption. Qed.

Lemma one_ci : forall col o, iok col -> Forall ciok [mkCI col o].
Proof. intros col o H. constructor; [exact H|constructor]. Qed.
Lemma parseColumnConstraints_q : forall f tbl col cs p, P p -> iok tbl -> iok col -> Forall cok cs -> rq (Forall cok) (parseColumnConstraints_loop d srt f tbl col cs p).
Proof.
  induction f as [|f IH]; intros tbl col cs p H T C A; cbn [parseColumnConstraints_loop]; cbv zeta; rs; try assumption.
  - apply (rq_pure (Forall cok)); [apply append_q; [exact A|split; [apply pkey_ok, T|apply one_ci, C]]|]. intros cs' A'. rs. apply IH; assumption.
  - apply (rq_bind (Forall ciok)); [apply parseColumnIdents_q'; assumption|]. intros ids p3 Ii Hp3.
    apply (rq_bind (fun s => quiet s = true)); [apply parseColumnOn_q; assumption|]. intros on p4 Q Hp4.
    apply (rq_pure (Forall cok)).
    + apply append_q; [exact A|]. split; [apply fkey_ok; assumption|]. split; [apply one_ci, C|]. split; [|split; assumption]. apply raw_ok. pk. qat.
    + intros cs' A'. rs. apply IH; assumption.
  - apply (rq_pure (Forall cok)).
    + apply append_q; [exact A|]. pose proof (unique_ok tbl col T C) as K. destruct d; (split; [exact K|]); first [apply one_ci, C|split; [exact I|split; [apply one_ci, C|exact I]]].
    + intros cs' A'. rs. apply IH; assumption.
  - apply (rq_bind (Forall iqs)); [apply parseExpr_q; assumption|]. intros ids p2 Ii Hp2. apply (rq_pure (Forall cok)).
    + apply append_q; [exact A|]. split; [apply check_ok; assumption|exact Ii].
    + intros cs' A'. rs. apply IH; assumption.
Qed.

(** Columns *)
Record colok (c : column) : Prop := {
  col_name : iok (c_name c); col_type : dtok (c_type c); col_default : match c_default c with Some e => eq_ok e | None => True end;
  col_as : match c_as c with Some a => asok a | None => True end; col_charset : match c_charset c with Some i => iqs i | None => True end;
  col_collate : match c_collate c with Some i => iqs i | None => True end; col_onaction : quiet (c_onaction c) = true;
  col_comment : qs (c_comment c); col_options : eq_ok (c_options c) }.
Ltac cset := match goal with K : colok _ |- colok _ => destruct K; split; cbn; assumption end.
Lemma parseAttrs_q : forall f c p, P p -> colok c -> rq colok (parseAttrs_loop d f c p).
Proof.
  induction f as [|f IH]; intros c p H K; cbn [parseAttrs_loop]; cbv zeta; rs; try exact K.
  - destruct d; rs; (apply IH; [assumption|cset]).
  - apply IH; [assumption|cset].
  - apply (rq_bind eq_ok); [apply parseDefault_q; [assumption|exact I]|]. intros v p2 V Hp2. apply IH; [exact Hp2|]. destruct K; split; cbn; assumption.
  - assert (AS : forall q, P q -> rq asok (parseColumnAs d q)) by (intros q Hq; apply parseAs_q; [exact Hq|exact I|left; reflexivity]).
    assert (NI : forall q, P q -> iqs (NewRawIdent d (curL q))) by (intros q Hq; apply raw_qs, cur_qs, Hq).
    revert IH AS NI. destruct d; intros IH AS NI; rs; try exact K.
    + apply (rq_bind asok); [apply AS; assumption|]. intros a p2 V Hp2. apply IH; [exact Hp2|]. destruct K; split; cbn; assumption.
    + apply IH; [assumption|]. assert (Q : quiet ("ON " ++ curL (tl p) ++ " " ++ curL (tl (tl p)))%string = true).
      { apply quiet_app; [reflexivity| |discriminate]. apply quiet_space; qat. }
      destruct K; split; cbn [set_onaction c_name c_type c_default c_as c_charset c_collate c_onaction c_comment c_options]; try assumption.
    + apply IH; [assumption|]. assert (Q : iqs (NewRawIdent My (curL (tl (tl p))))) by (apply NI; assumption). destruct K; split; cbn [set_charset c_name c_type c_default c_as c_charset c_collate c_onaction c_comment c_options]; try assumption.
    + apply IH; [assumption|]. assert (Q : iqs (NewRawIdent My (curL (tl p)))) by (apply NI; assumption). destruct K; split; cbn [set_collate c_name c_type c_default c_as c_charset c_collate c_onaction c_comment c_options]; try assumption.
    + apply IH; [assumption|cset].
Qed.
Lemma column0_ok : forall n t, iok n -> dtok t -> colok (column0 n t).
Proof. intros n t A B. split; cbn; try exact I; try assumption; try reflexivity. left. reflexivity. Qed.
Lemma parseColumn_q : forall tbl p, P p -> iok tbl -> rq (fun x => colok (fst x) /\ Forall cok (snd x)) (parseColumn d srt tbl p).
Proof.
  intros tbl p H T. unfold parseColumn. rs. assert (N : iok (NewRawIdent d (curL p))) by (apply raw_ok; qat).
  apply (rq_bind dtok); [apply parseDataType_q; assumption|]. intros dt p2 D Hp2. rs.
  apply (rq_bind colok); [apply parseAttrs_q; [assumption|apply column0_ok; assumption]|]. intros c p4 C Hp4.
  apply (rq_bind (Forall cok)); [apply parseColumnConstraints_q; try assumption; constructor|]. intros cs p5 Cs Hp5.
  apply (rq_pure (Forall cok)); [apply appends_q; [constructor|exact Cs]|]. intros cs' Cs'.
  assert (EX : forall q, P q -> rq (Forall iqs) (parseExpr d q)) by (intros q Hq; apply parseExpr_q; exact Hq). revert EX.
  destruct d; intro EX; rs; cbn [fst snd]; try (split; assumption).
  - split; [|assumption]. match goal with K : P (tl p5) |- _ => pose proof (cur_qs _ K) as Q end. destruct C; split; cbn [set_comment c_name c_type c_default c_as c_charset c_collate c_onaction c_comment c_options]; assumption.
  - apply (rq_bind (Forall iqs)); [apply EX; assumption|]. intros ids p7 Ii Hp7. rs. cbn [fst snd]. split; [|assumption]. destruct C; split; cbn [set_options c_name c_type c_default c_as c_charset c_collate c_onaction c_comment c_options]; assumption.
Qed.
Lemma parseTableConstraint_q : forall tbl p, P p -> iok tbl -> rq cok (parseTableConstraint d tbl p).
Proof.
  intros tbl p H T. unfold parseTableConstraint.
  apply (rq_bind oiok). { rs; [|exact I]. apply raw_ok. qat. }
  intros name p0 N H0. cbv zeta. rs.
  - apply (rq_bind (Forall ciok)); [apply parseColumnIdents_q'; assumption|]. intros ids p3 Ii Hp3. rs. pose proof (pkey_ok tbl T) as K. split; [|exact Ii]. cbn [con_name]. destruct d, name; first [exact K|exact N].
  - apply (rq_bind (Forall ciok)); [apply parseColumnIdents_q'; assumption|]. intros ids p3 Ii Hp3. rs.
    apply (rq_bind (Forall ciok)); [apply parseColumnIdents_q'; assumption|]. intros ids2 p6 I2 Hp6.
    apply (rq_bind (fun s => quiet s = true)); [apply parseTableOn_q; assumption|]. intros on p7 Q Hp7. rs.
    split; [cbn [con_name]; destruct name; [exact N|apply tbl_fkey_ok; assumption]|]. split; [exact Ii|]. split; [apply raw_ok; qat|]. split; assumption.
  - assert (EX : forall q, P q -> rq (Forall iqs) (parseExpr d q)) by (intros q Hq; apply parseExpr_q; exact Hq).
    assert (CI : forall q, P q -> rq (Forall ciok) (parseColumnIdents d q)) by (intros q Hq; apply parseColumnIdents_q'; exact Hq).
    assert (US : forall q, P q -> rq usok (parseUsing d q)) by (intros q Hq; apply parseUsing_q; [exact Hq|exact I|exact I]).
    assert (TU : forall cs, Forall ciok cs -> iok (tbl_unique_name d tbl cs)) by (intros cs F; apply tbl_unique_ok; assumption).
    assert (NI : forall s, quiet s = true -> iok (NewRawIdent d s)) by (intros s Hq; apply raw_ok, Hq).
    revert EX CI US TU NI. destruct d; intros EX CI US TU NI; rs.
    + apply (rq_bind (Forall ciok)); [apply CI; assumption|]. intros ids p2 Ii Hp2. rs. split; [cbn [con_name]; destruct name; [exact N|apply TU, Ii]|exact Ii].
    + apply (rq_bind (Forall ciok)); [apply CI; assumption|]. intros ids p4 Ii Hp4. rs.
      * apply (rq_bind usok); [apply US; assumption|]. intros u p5 U Hp5. rs. split; [apply NI; qat|]. split; [exact I|]. split; [exact Ii|exact U].
      * split; [apply NI; qat|]. split; [exact I|]. split; [exact Ii|exact I].
    + apply (rq_bind (Forall ciok)); [apply CI; assumption|]. intros ids p4 Ii Hp4. rs. split; [apply NI; qat|]. split; [exact I|]. split; [exact Ii|exact I].
    + apply (rq_bind (Forall iqs)); [apply EX; assumption|]. intros ids p2 Ii Hp2. rs. split; [|exact Ii]. cbn [con_name]. destruct name; [exact N|]. apply NI. destruct T as [_ T _]. apply quiet_tail; [exact T|reflexivity|reflexivity].
    + apply (rq_bind (Forall iqs)); [apply EX; assumption|]. intros ids p2 Ii Hp2. rs. split; [exact N|exact Ii].
Qed.
Lemma parseColumns_q : forall f tbl cols cs p, P p -> iok tbl -> Forall colok cols -> Forall cok cs ->
  rq (fun x => Forall colok (fst x) /\ Forall cok (snd x)) (parseColumns_loop d srt f tbl cols cs p).
Proof.
  induction f as [|f IH]; intros tbl cols cs p H T A C; cbn [parseColumns_loop]; rs; try (apply IH; assumption); try (cbn [fst snd]; split; assumption).
  - apply (rq_bind (fun x => colok (fst x) /\ Forall cok (snd x))); [apply parseColumn_q; assumption|]. intros [c ccs] p1 [K1 K2] Hp1. cbn [fst snd] in *.
    apply (rq_pure (Forall cok)); [apply appends_q; assumption|]. intros cs' C'. apply IH; try assumption. apply Forall_snoc; assumption.
  - apply (rq_bind cok); [apply parseTableConstraint_q; assumption|]. intros c p1 K Hp1. apply (rq_pure (Forall cok)); [apply append_q; assumption|]. intros cs' C'. apply IH; assumption.
  - destruct d; rs; cbn [fst snd]; split; assumption.
Qed.

(** Options *)
Definition optok (o : option_) : Prop := quiet (o_name o) = true /\ (exists l, o_value o = Some l /\ Forall iqs l).
Lemma parseOptionsMy_q : forall f o p, P p -> Forall optok o -> rq (Forall optok) (parseOptionsMy_loop d f o p).
Proof.
  induction f as [|f IH]; intros o p H A; cbn [parseOptionsMy_loop]; cbv zeta; rs; try assumption.
  unfold parseOptionValue. apply (rq_bind iqs). { rs. apply raw_qs, cur_qs. assumption. }
  intros v p2 V Hp2. rs. apply IH; [assumption|]. apply Forall_snoc; [exact A|]. split; cbn [o_name o_value].
  - repeat match goal with |- quiet (if ?b then _ else _) = true => destruct b end; reflexivity.
  - exists [v]. split; [reflexivity|constructor; [exact V|constructor]].
Qed.
Lemma step_q : forall t p, P p -> rq iqs (step d t p).
Proof. intros t p H. unfold step. rs. apply raw_qs, cur_qs. assumption. Qed.
Lemma steps_q : forall ts p, P p -> rq (Forall iqs) (steps d ts p).
Proof.
  induction ts as [|t ts IH]; intros p H; cbn [steps]; [rs; constructor|]. apply (rq_bind iqs); [apply step_q, H|]. intros i p1 A Hp1.
  apply (rq_bind (Forall iqs)); [apply IH, Hp1|]. intros l p2 B Hp2. rs. constructor; assumption.
Qed.
Definition ooptok (o : option option_) : Prop := match o with Some o => optok o | None => True end.
Ltac st := apply (rq_bind iqs); [apply step_q; assumption|intros ? ? ? ?].
Lemma parseOptionsSp_q : forall f o r p, P p -> Forall optok o -> ooptok r -> rq (fun x => Forall optok (fst x) /\ ooptok (snd x)) (parseOptionsSp_loop d f o r p).
Proof.
  induction f as [|f IH]; intros o r p H A R; cbn [parseOptionsSp_loop]; cbv zeta; rs; try (apply IH; assumption); try (split; assumption).
  - st. rs. apply (rq_bind (Forall iqs)); [apply parseExpr_q; assumption|]. intros ids p3 Ii Hp3. apply IH; [assumption| |assumption]. apply Forall_snoc; [exact A|]. split; [reflexivity|]. exists ids. auto.
  - st. st. st. apply (rq_bind (Forall iqs)).
    + rs; [|constructor]. st. rs; [|].
      * constructor; [apply iok_iqs, raw_ok; reflexivity|constructor].
      * st. rs. constructor; [apply iok_iqs, raw_ok; reflexivity|constructor].
    + intros on p4 On Hp4. rs. apply IH; [assumption| |assumption]. apply Forall_snoc; [exact A|]. split; [reflexivity|]. eexists. split; [reflexivity|]. constructor; assumption.
  - st. st. apply (rq_bind (Forall iqs)); [apply steps_q; assumption|]. intros ids p3 Ii Hp3. rs. apply IH; [assumption|assumption|]. split; [reflexivity|]. exists ids. auto.
Qed.

(** Statements *)
Definition tabok (t : create_table) : Prop := ct_comment t = ""%string /\ ook (ct_name t) /\ Forall colok (ct_columns t) /\ Forall cok (ct_constraints t) /\ Forall optok (ct_options t) /\ ooptok (ct_rowdel t).
Definition idxok (i : create_index) : Prop := cx_comment i = ""%string /\ ook (cx_name i) /\ ook (cx_table i) /\ Forall iqs (cx_using i) /\ oqs (cx_pre i) /\ Forall ciok (cx_columns i) /\ oqs (cx_post i).
Definition stok (s : stmt) : Prop := match s with CreateTable t => tabok t | CreateIndex i => idxok i | _ => False end.
Lemma parseIfNotExists_q : forall p, P p -> rq (fun _ => True) (parseIfNotExists p).
Proof. intros p H. unfold parseIfNotExists. rs; exact I. Qed.
Lemma parseCreateTable_q : forall p, P p -> rq stok (parseCreateTable d srt p).
Proof.
  intros p H. unfold parseCreateTable. apply (rq_bind (fun _ => True)); [apply parseIfNotExists_q, H|]. intros ine p1 _ Hp1. rs.
  assert (N : ook (NewObjectName d (curL (tl p1)))) by (apply objname_ok; qat). cbv zeta. rs.
  apply (rq_bind (fun x => Forall colok (fst x) /\ Forall cok (snd x))); [apply parseColumns_q; [assumption|apply N|constructor|constructor]|]. intros [cols cs] p5 [A B] Hp5. cbn [fst snd] in *.
  assert (OM : forall f q, P q -> rq (Forall optok) (parseOptionsMy_loop d f [] q)) by (intros f q Hq; apply parseOptionsMy_q; [exact Hq|constructor]).
  assert (OS : forall f q, P q -> rq (fun x => Forall optok (fst x) /\ ooptok (snd x)) (parseOptionsSp_loop d f [] None q)) by (intros f q Hq; apply parseOptionsSp_q; [exact Hq|constructor|exact I]).
  revert N OM OS. destruct d; intros N OM OS; rs.
  - repeat (split; [first [reflexivity|assumption|constructor]|]). exact I.
  - repeat (split; [first [reflexivity|assumption|constructor]|]). exact I.
  - apply (rq_bind (Forall optok)); [apply OM; assumption|]. intros o p6 O Hp6. rs. repeat (split; [first [reflexivity|assumption|constructor]|]). exact I.
  - apply (rq_bind (fun x => Forall optok (fst x) /\ ooptok (snd x))); [apply OS; assumption|]. intros [o r] p6 [O R] Hp6. rs. repeat (split; [first [reflexivity|assumption|constructor]|]). exact R.
Qed.
Lemma parseCreateIndex_q : forall p, P p -> rq stok (parseCreateIndex d p).
Proof.
  intros p H. unfold parseCreateIndex. cbv zeta. rs. apply (rq_bind (fun _ => True)); [apply parseIfNotExists_q; assumption|]. intros ine p1 _ Hp1. rs.
  assert (Q : quiet (curL (tl p1)) = true) by qat.
  assert (N : ook (match d with Pg | Crdb => mkON None (NewRawIdent d (curL (tl p1))) | _ => NewObjectName d (curL (tl p1)) end)).
  { pose proof (objname_ok _ Q) as A. pose proof (raw_ok _ Q) as B. destruct d; first [exact A|split; [exact I|exact B]]. }
  assert (M : ook (NewObjectName d (curL (tl (tl (tl p1)))))) by (apply objname_ok; qat).
  assert (US : forall q, P q -> rq usok (parseUsing d q)) by (intros z Hq; apply parseUsing_q; [exact Hq|exact I|exact I]).
  assert (CI : forall q, P q -> rq (Forall ciok) (parseColumnIdents d q)) by (intros z Hq; apply parseColumnIdents_q'; exact Hq).
  apply (rq_bind (fun x => Forall iqs (fst x) /\ oqs (snd x))).
  { clear N M. revert US. destruct d; intro US; rs; cbn [fst snd]; try (split; [apply Forall_nil|exact I]);
      try (split; [|exact I]; constructor; [|constructor]; match goal with K : P ?q |- iqs (mkIdent (curL ?q) _ _) => pose proof (cur_qs q K) as C end; split; cbn; [exact C|exact C|left; reflexivity]).
    apply (rq_bind usok); [apply US; assumption|]. intros u q1 U Hq1. rs. cbn [fst snd]. split; [constructor|exact U]. }
  intros [usg pre] p6 [A B] Hp6. cbn [fst snd] in *. rs. apply (rq_bind (Forall ciok)); [apply CI; assumption|]. intros ids p7 Ii Hp7.
  apply (rq_bind oqs). { rs; [|exact I]. apply (rq_bind usok); [apply US; assumption|]. intros u q1 U Hq1. rs. exact U. }
  intros post p8 Po Hp8. rs. repeat (split; [first [reflexivity|assumption|constructor]|]). exact Po.
Qed.
Lemma parse_loop_q : forall f acc p, P p -> Forall stok acc -> rr (Forall stok) (parse_loop d srt f acc p).
Proof.
  induction f as [|f IH]; intros acc p H A; [exact I|]. cbn [parse_loop].
  assert (X : forall {B} (r : res (B * ps)) (Q : B -> Prop) (g : B * ps -> res ddl), rq Q r -> (forall b q, Q b -> P q -> rr (Forall stok) (g (b, q))) -> rr (Forall stok) (bind r g)).
  { intros B [[b q]| | |] Q g K1 K2; cbn in *; auto. destruct K1. auto. }
  assert (Y : forall q (g : ps -> res ddl), P q -> (P (tl q) -> rr (Forall stok) (g (tl q))) -> rr (Forall stok) (bind (next q) g)).
  { intros q g K1 K2. unfold next. destruct (eqs (peekT (tl q)) TOKEN_BOOM); cbn [bind]; [exact I|apply K2, P_tl, K1]. }
  destruct (eqs (curT p) TOKEN_CREATE).
  - apply (X stmt _ stok).
    + unfold parseCreate. rs; [apply parseCreateTable_q; assumption|apply parseCreateIndex_q; assumption].
    + intros s q K Hq. apply Y; [exact Hq|]. intro Hq'. apply IH; [exact Hq'|apply Forall_snoc; assumption].
  - destruct (isin (curT p) _); [apply Y; [exact H|]; intro Hq'; apply IH; assumption|]. destruct (eqs (curT p) TOKEN_EOF); [exact A|exact I].
Qed.
Lemma parse_q : forall ts, P ts -> rr (Forall stok) (parse_tokens d srt ts).
Proof. intros ts H. unfold parse_tokens. destruct (_ || _); [exact I|]. apply parse_loop_q; [exact H|constructor]. Qed.
End Parser.

(** The tokens of a text *)
Lemma word_quiet : forall s w r, readIdentifier s = (w, r) -> quiet w = true /\ opens w = false /\ closes w = false.
Proof.
  intros s. induction s as [|c s IH]; intros w r H; cbn [readIdentifier] in H; [inversion H; subst; repeat split|].
  destruct (isLiteral c) eqn:L; [|inversion H; subst; repeat split]. destruct (readIdentifier s) as [w' r'] eqn:E. inversion H; subst. destruct (IH _ _ eq_refl) as [A [B C]].
  assert (K : c <> "-"%char /\ c <> ch_nl /\ c <> ch_cr /\ c <> ";"%char) by (repeat split; intro X; subst c; vm_compute in L; discriminate L). destruct K as [K1 [K2 [K3 K4]]].
  assert (D : Ascii.eqb "-" c = false) by (apply Ascii.eqb_neq; congruence).
  split; [|split; [exact D|]].
  - apply quiet_parts in A. destruct A as [A1 [A2 [A3 A4]]]. apply quiet_parts. rewrite two_bytes. cbn [has_byte].
    rewrite (proj2 (Ascii.eqb_neq c ch_nl) K2), (proj2 (Ascii.eqb_neq c ch_cr) K3), (proj2 (Ascii.eqb_neq c ";") K4). rewrite A2, A3, A4. cbn [orb]. repeat split; try assumption.
    rewrite A1. try rewrite D. try rewrite (Ascii.eqb_sym c "-"), D. destruct w'; reflexivity.
  - destruct w' as [|y w'']; [exact D|exact C].
Qed.
Lemma quoted_ends : forall q s b r, readQuoted q s = Some (b, r) -> has_suffix_byte q b = true \/ has_suffix_byte ch_nul b = true.
Proof.
  intros q s. induction s as [|c s IH]; intros b r H; cbn [readQuoted] in H; [discriminate H|].
  destruct (Ascii.eqb c q || Ascii.eqb c ch_nul) eqn:E.
  - inversion H; subst. apply orb_true_iff in E. cbn [has_suffix_byte]. rewrite !(Ascii.eqb_sym _ c). destruct E as [E|E]; rewrite E; auto.
  - destruct (readQuoted q s) as [[b' r']|]; [|discriminate H]. inversion H; subst. destruct (IH _ _ eq_refl) as [A|A]; [left|right]; (destruct b'; [discriminate A|exact A]).
Qed.
Lemma suffix_unique : forall a b s, has_suffix_byte a s = true -> has_suffix_byte b s = true -> a = b.
Proof.
  intros a b s. induction s as [|c s IH]; [discriminate|]. destruct s as [|e s]; [|exact IH]. cbn [has_suffix_byte]. intros A B. apply Ascii.eqb_eq in A. apply Ascii.eqb_eq in B. congruence.
Qed.
Lemma byte_text : forall c, c <> "-"%char -> opens (string_of_byte c) = false /\ closes (string_of_byte c) = false.
Proof.
  intros c H. assert (D : Ascii.eqb "-" c = false) by (apply Ascii.eqb_neq; congruence). unfold string_of_byte. destruct (N.ltb (N_of_ascii c) 128) eqn:E; [split; exact D|].
  apply N.ltb_ge in E. assert (B : (N_of_ascii c < 256)%N) by (apply N_ascii_bounded). clear - E B. destruct c as [[|] [|] [|] [|] [|] [|] [|] [|]]; vm_compute in E |- *; try (exfalso; apply E; reflexivity); split; reflexivity.
Qed.
Lemma quote_not_dash : forall d c, isQuote d c = true -> c <> "-"%char /\ c <> ";"%char.
Proof. intros d c H. split; intro E; subst c; destruct d; discriminate H. Qed.
Definition quietly (t : token) : bool := quiet (tk_lit t) || String.eqb (tk_lit t) ";".
Lemma scan_tok : forall d s t r, scan d s = LTok t r -> quietly t = true -> tok_ok t.
Proof.
  intros d s t r H Q. destruct s as [|c s]; cbn [scan] in H; [inversion H; subst; left; repeat split|].
  destruct (isQuote d c) eqn:Eq.
  { destruct (readQuoted c s) as [[b rest]|] eqn:R; [|discriminate H]. inversion H; subst. destruct (quote_not_dash d c Eq) as [N1 N2]. unfold quietly in Q. cbn [tk_lit] in Q. apply orb_true_iff in Q.
    assert (D : Ascii.eqb "-" c = false) by (apply Ascii.eqb_neq; congruence).
    destruct Q as [Q|Q]; [|apply String.eqb_eq in Q; inversion Q; congruence]. left. cbn [tk_lit]. split; [exact Q|]. split; [exact D|].
    destruct (closes (String c b)) eqn:K; [|reflexivity]. exfalso. pose proof (quoted_ends c s b _ R) as L. unfold closes in K.
    destruct b as [|y b]; [destruct L; discriminate|]. change (has_suffix_byte "-" (String y b) = true) in K.
    destruct L as [L|L]; pose proof (suffix_unique _ _ _ K L) as X; [congruence|discriminate X]. }
  destruct (has_cast d && Ascii.eqb c "|") eqn:E1.
  { apply andb_true_iff in E1. destruct E1 as [_ E1]. apply Ascii.eqb_eq in E1. subst c.
    destruct s as [|c2 s2]; [inversion H; subst; left; repeat split|]. destruct (Ascii.eqb c2 "|"); inversion H; subst; left; repeat split. }
  destruct (has_cast d && Ascii.eqb c ":") eqn:E2.
  { apply andb_true_iff in E2. destruct E2 as [_ E2]. apply Ascii.eqb_eq in E2. subst c.
    destruct s as [|c2 s2]; [inversion H; subst; left; repeat split|]. destruct (Ascii.eqb c2 ":"); [|inversion H; subst; left; repeat split].
    destruct d; try (inversion H; subst; left; repeat split; fail). destruct s2 as [|c3 s3]; [inversion H; subst; left; repeat split|]. destruct (Ascii.eqb c3 ":"); inversion H; subst; left; repeat split. }
  destruct (single c) as [ty|] eqn:E3.
  { inversion H; subst. unfold single in E3.
    repeat match type of E3 with
    | (if Ascii.eqb c ?x then _ else _) = _ => destruct (Ascii.eqb c x) eqn:E4; [apply Ascii.eqb_eq in E4; subst c; inversion E3; subst; first [left; repeat split; fail|right; left; split; reflexivity|right; right; split; reflexivity]|clear E4]
    end. discriminate E3. }
  destruct (Ascii.eqb c ch_nul); [inversion H; subst; left; repeat split|].
  destruct (isLiteral c); [destruct (readIdentifier (String c s)) as [w rest] eqn:R; inversion H; subst; left; exact (word_quiet _ _ _ R)|].
  inversion H; subst. assert (N : c <> "-"%char /\ c <> ";"%char) by (split; intro X; subst c; discriminate E3). destruct N as [N1 N2]. left. cbn [tk_lit]. split; [|exact (byte_text c N1)].
  unfold quietly in Q. cbn [tk_lit] in Q. apply orb_true_iff in Q. destruct Q as [Q|Q]; [exact Q|]. exfalso. apply String.eqb_eq in Q. unfold string_of_byte in Q. destruct (N.ltb (N_of_ascii c) 128); inversion Q. congruence.
Qed.
Lemma lex_tok : forall n d s, forallb quietly (lex_fuel n d s) = true -> P (lex_fuel n d s).
Proof.
  induction n as [|n IH]; intros d s H; cbn [lex_fuel] in *; [constructor|]. destruct (skipBlank (String.length s) s) as [|c r]; [constructor|].
  destruct (scan d (String c r)) as [t rest|] eqn:E; [|constructor; [left; repeat split|constructor]]. cbn [forallb] in H. apply andb_true_iff in H. destruct H as [A B].
  constructor; [exact (scan_tok _ _ _ _ E A)|apply IH, B].
Qed.

(** The leaves of a statement made of quiet texts *)
Definition lok (l : leaf) : Prop := match l with Word s => qs s | Mark s => mark_ok s end.
Lemma lok_plain : forall l, lok l -> is_semicolon l = false -> plain_leaf l = true.
Proof.
  intros [s|s] H N; cbn in *.
  - destruct H as [H|H]; [apply quiet_plain, H|subst s; discriminate N].
  - destruct H as [H|[H|[H|H]]]; subst s; reflexivity.
Qed.
Definition loks (l : list leaf) : Prop := Forall lok l.
Lemma loks_app : forall a b, loks a -> loks b -> loks (a ++ b).
Proof. intros a b A B. apply Forall_app. split; assumption. Qed.
Lemma loks_flat : forall {A} (f : A -> list leaf) l, Forall (fun x => loks (f x)) l -> loks (flat_map f l).
Proof. intros A f l H. induction H as [|x l X F IH]; [constructor|]. cbn [flat_map]. apply loks_app; assumption. Qed.
Lemma iqs_loks : forall i, iqs i -> loks (ident_leaves i).
Proof. intros i [A B C]. unfold ident_leaves. repeat (constructor; [first [exact A|exact B|exact C]|]). constructor. Qed.
Lemma iok_loks : forall i, iok i -> loks (ident_leaves i).
Proof. intros i H. apply iqs_loks, iok_iqs, H. Qed.
Lemma oiok_loks : forall i, oiok i -> loks (oident_leaves i).
Proof. intros [i|] H; [apply iok_loks, H|constructor]. Qed.
Lemma eq_loks : forall e, eq_ok e -> loks (expr_leaves e).
Proof. intros [l|] H; [|constructor]. cbn in *. apply loks_flat. eapply Forall_impl; [|exact H]. intros i. apply iqs_loks. Qed.
Lemma ook_loks : forall n, ook n -> loks (objname_leaves n).
Proof. intros n [A B]. unfold objname_leaves. apply loks_app; [destruct (on_schema n); [apply iok_loks, A|constructor]|apply iok_loks, B]. Qed.
Lemma cols_loks : forall cs, Forall ciok cs -> loks (cols_leaves cs).
Proof. intros cs H. apply loks_flat. eapply Forall_impl; [|exact H]. intros c. apply iok_loks. Qed.
Lemma using_loks : forall u, oqs u -> loks (using_leaves u).
Proof. intros [u|] H; [|constructor]. destruct H as [A B]. cbn. apply loks_app; [apply eq_loks, A|]. destruct (us_with u); [apply eq_loks, B|constructor]. Qed.
Lemma column_loks : forall c, colok c -> loks (column_leaves c).
Proof.
  intros c [A [B1 B2] C D E F G H K]. unfold column_leaves. repeat apply loks_app.
  - apply iok_loks, A.
  - unfold datatype_leaves. constructor; [exact B1|apply eq_loks, B2].
  - destruct (c_default c); [apply eq_loks, C|constructor].
  - destruct (c_as c) as [a|]; [|constructor]. destruct D as [D1 D2]. cbn. apply loks_app; [apply eq_loks, D1|constructor; [exact D2|constructor]].
  - destruct (c_charset c); [apply iqs_loks, E|constructor].
  - destruct (c_collate c); [apply iqs_loks, F|constructor].
  - constructor; [left; exact G|constructor; [exact H|constructor]].
  - apply eq_loks, K.
Qed.
Lemma constraint_loks : forall c, cok c -> loks (constraint_leaves c).
Proof.
  intros c [N H]. unfold constraint_leaves. apply loks_app; [apply oiok_loks, N|]. destruct c; cbn in H.
  - apply cols_loks, H.
  - destruct H as [A [B [C D]]]. repeat apply loks_app; [apply cols_loks, A|apply iok_loks, B|apply cols_loks, C|constructor; [left; exact D|constructor]].
  - apply cols_loks, H.
  - destruct H as [A [B C]]. repeat apply loks_app; [apply using_loks, A|apply cols_loks, B|apply using_loks, C].
  - apply eq_loks, H.
Qed.
Lemma option_loks : forall o, optok o -> loks (option_leaves o).
Proof. intros o [A [l [B C]]]. unfold option_leaves. constructor; [left; exact A|]. rewrite B. apply (eq_loks (Some l)), C. Qed.
Lemma stmt_loks : forall s, stok s -> loks (stmt_leaves s) /\ valued s = true /\ comment_of s = ""%string.
Proof.
  intros [t|i| | |] H; try contradiction; cbn in H.
  - destruct H as [A [B [C [D [E F]]]]]. split; [|split; [|exact A]].
    + cbn [stmt_leaves]. unfold table_leaves. apply loks_app; [apply ook_loks, B|].
      apply loks_app; [apply loks_flat; eapply Forall_impl; [|exact C]; exact column_loks|].
      apply loks_app; [apply loks_flat; eapply Forall_impl; [|exact D]; exact constraint_loks|].
      apply loks_app; [apply loks_flat; eapply Forall_impl; [|exact E]; exact option_loks|].
      destruct (ct_rowdel t); [apply option_loks, F|constructor].
    + cbn [valued]. apply andb_true_iff. split.
      * apply forallb_forall. intros o Ho. rewrite Forall_forall in E. destruct (E o Ho) as [_ [l [X _]]]. rewrite X. reflexivity.
      * destruct (ct_rowdel t) as [o|]; [|reflexivity]. destruct F as [_ [l [X _]]]. rewrite X. reflexivity.
  - destruct H as [A [B [C [D [E [F G]]]]]]. split; [|split; [reflexivity|exact A]]. cbn [stmt_leaves]. unfold index_leaves. apply loks_app; [apply ook_loks, B|]. apply loks_app; [apply ook_loks, C|].
    apply loks_app; [apply loks_flat; eapply Forall_impl; [|exact D]; exact iqs_loks|].
    apply loks_app; [apply using_loks, E|]. apply loks_app; [apply cols_loks, F|apply using_loks, G].
Qed.
Lemma source_plain : forall d srt s l, srt_ok srt -> quiet_source d s = true -> parse d srt s = Ok l -> compact_schema l = true -> plain_schema l = true.
Proof.
  intros d srt s l Hs Q E C. pose proof (parse_q d srt Hs (lex d s) (lex_tok _ d s Q)) as R. unfold parse in E. rewrite E in R. cbn in R.
  unfold plain_schema. apply forallb_forall. intros x Hx. rewrite Forall_forall in R. specialize (R x Hx). unfold compact_schema in C. rewrite forallb_forall in C. specialize (C x Hx).
  apply andb_true_iff in C. destruct C as [C1 C2]. destruct (stmt_loks x R) as [L [V K]]. rewrite C2, V, K.
  assert (X : forallb plain_leaf (stmt_leaves x) = true).
  { apply forallb_forall. intros y Hy. rewrite forallb_forall in C1. specialize (C1 y Hy). apply negb_true_iff in C1. unfold loks in L. rewrite Forall_forall in L. exact (lok_plain y (L y Hy) C1). }
  rewrite X. reflexivity.
Qed.
