(** Token lists that are equal up to the case of keywords are parsed alike (C04). *)
From Coq Require Import Lia.
From Verif Require Import GoStr Token Lexer Ast Parser LexKeyword CaseSpec.

Definition rres {A B} (Q : A -> B -> Prop) (r : res A) (r' : res B) : Prop :=
  match r, r' with
  | Ok a, Ok b => Q a b
  | Err, Err | Panic, Panic | OutOfFuel, OutOfFuel => True
  | _, _ => False
  end.
Lemma rres_bind : forall {A B A' B'} (Q : A -> A' -> Prop) (Q' : B -> B' -> Prop) r r' f f',
  rres Q r r' -> (forall a a', Q a a' -> rres Q' (f a) (f' a')) -> rres Q' (bind r f) (bind r' f').
Proof. intros A B A' B' Q Q' [a| | |] [b| | |] f f' H K; cbn in *; auto; contradiction. Qed.

Definition PR (p q : ps) : Prop := Forall2 token_eq_case p q.
(** A value and a rest, the value related by [F]. *)
Definition vr {A X} (F : A -> X) (a b : A * ps) : Prop := F (fst a) = F (fst b) /\ PR (snd a) (snd b).

Lemma PR_cur : forall p q, PR p q -> token_eq_case (cur p) (cur q).
Proof. intros p q H. destruct H; [apply token_eq_case_refl|assumption]. Qed.
Lemma PR_peek : forall p q, PR p q -> token_eq_case (peek p) (peek q).
Proof. intros p q H. destruct H as [|t u p q _ H]; [apply token_eq_case_refl|]. destruct H; [apply token_eq_case_refl|assumption]. Qed.
Lemma PR_tl : forall p q, PR p q -> PR (tl p) (tl q).
Proof. intros p q H. destruct H; [constructor|assumption]. Qed.
Lemma PR_curT : forall p q, PR p q -> curT q = curT p.
Proof. intros p q H. symmetry. apply (PR_cur _ _ H). Qed.
Lemma PR_peekT : forall p q, PR p q -> peekT q = peekT p.
Proof. intros p q H. symmetry. apply (PR_peek _ _ H). Qed.
Lemma PR_curU : forall p q, PR p q -> to_upper (curL p) = to_upper (curL q).
Proof. intros p q H. apply (PR_cur _ _ H). Qed.
Lemma PR_peekU : forall p q, PR p q -> to_upper (peekL p) = to_upper (peekL q).
Proof. intros p q H. apply (PR_peek _ _ H). Qed.
Lemma PR_ident : forall p q, PR p q -> eqs (curT p) TOKEN_IDENT = true -> curL q = curL p.
Proof. intros p q H E. symmetry. apply (PR_cur _ _ H). apply String.eqb_eq in E. exact E. Qed.
Lemma PR_len : forall p q, PR p q -> List.length q = List.length p.
Proof. intros p q H. induction H; [reflexivity|]. cbn. congruence. Qed.
Lemma PR_next : forall p q, PR p q -> rres PR (next p) (next q).
Proof.
  intros p q H. unfold next. rewrite (PR_peekT _ _ (PR_tl _ _ H)). destruct (eqs (peekT (tl p)) TOKEN_BOOM); [exact I|].
  cbn. apply PR_tl. exact H.
Qed.

Lemma PR_next_tl : forall p q, PR p q -> rres (fun a b => a = tl p /\ b = tl q /\ PR a b) (next p) (next q).
Proof.
  intros p q H. unfold next. rewrite (PR_peekT _ _ (PR_tl _ _ H)). destruct (eqs (peekT (tl p)) TOKEN_BOOM); [exact I|].
  cbn. repeat split. apply PR_tl. exact H.
Qed.
Lemma curT_tl : forall p, curT (tl p) = peekT p.
Proof. intros [|t [|u p]]; reflexivity. Qed.

(** Upper-casing and the string functions used by the parser. *)
Lemma upper_app : forall a b, to_upper (a ++ b) = (to_upper a ++ to_upper b)%string.
Proof. induction a as [|c a IH]; intro b; [reflexivity|]. cbn. rewrite IH. reflexivity. Qed.
Lemma upper_quote : forall q c, (q = ch_dquote \/ q = ch_bquote \/ q = ch_quote) -> Ascii.eqb q (upper_byte c) = Ascii.eqb q c.
Proof. intros q c H. destruct H as [H|[H|H]]; subst q; destruct c as [[] [] [] [] [] [] [] []]; reflexivity. Qed.
Definition quote_ch (q : ascii) := q = ch_dquote \/ q = ch_bquote \/ q = ch_quote.
Lemma upper_prefix : forall q s, quote_ch q -> has_prefix_byte q (to_upper s) = has_prefix_byte q s.
Proof. intros q [|c s] H; [reflexivity|]. apply upper_quote. exact H. Qed.
Lemma upper_suffix : forall q s, quote_ch q -> has_suffix_byte q (to_upper s) = has_suffix_byte q s.
Proof.
  intros q s H. induction s as [|c s IH]; [reflexivity|]. cbn [to_upper has_suffix_byte]. destruct s as [|c2 s]; [apply upper_quote; exact H|].
  cbn [to_upper] in *. exact IH.
Qed.
Lemma upper_trim_left : forall q s, quote_ch q -> trim_left_byte q (to_upper s) = to_upper (trim_left_byte q s).
Proof.
  intros q s H. induction s as [|c s IH]; [reflexivity|]. cbn [to_upper trim_left_byte]. rewrite upper_quote by exact H.
  destruct (Ascii.eqb q c); [exact IH|reflexivity].
Qed.
Lemma upper_trim_right : forall q s, quote_ch q -> trim_right_byte q (to_upper s) = to_upper (trim_right_byte q s).
Proof.
  intros q s H. induction s as [|c s IH]; [reflexivity|]. cbn [to_upper trim_right_byte]. rewrite IH, upper_quote by exact H.
  destruct (trim_right_byte q s); cbn [to_upper]; [destruct (Ascii.eqb q c); reflexivity|reflexivity].
Qed.
Lemma raw_ident_upper : forall qs raw, (forall q, In q qs -> quote_ch q) ->
  up_ident (raw_ident_with qs raw) = raw_ident_with qs (to_upper raw).
Proof.
  induction qs as [|q r IH]; intros raw H; [reflexivity|]. cbn [raw_ident_with].
  assert (Hq : quote_ch q) by (apply H; left; reflexivity). rewrite upper_prefix, upper_suffix by exact Hq.
  destruct (has_prefix_byte q raw && has_suffix_byte q raw).
  - unfold up_ident. cbn. f_equal. unfold trim_byte. rewrite upper_trim_left, upper_trim_right by exact Hq. reflexivity.
  - apply IH. intros x Hx. apply H. right. exact Hx.
Qed.
Lemma raw_up : forall d a b, to_upper a = to_upper b -> up_ident (NewRawIdent d a) = up_ident (NewRawIdent d b).
Proof.
  intros d a b H. unfold NewRawIdent.
  assert (Q : forall q, In q (quotationMarks d) -> quote_ch q).
  { intros q. unfold quotationMarks, quote_ch. destruct d; cbn; intuition. }
  rewrite !raw_ident_upper by exact Q. rewrite H. reflexivity.
Qed.
Lemma raw_cur : forall d p q, PR p q -> up_ident (NewRawIdent d (curL p)) = up_ident (NewRawIdent d (curL q)).
Proof. intros d p q H. apply raw_up, PR_curU, H. Qed.
Lemma up_append : forall e e' l l', up_expr e = up_expr e' -> map up_ident l = map up_ident l' ->
  up_expr (expr_append e l) = up_expr (expr_append e' l').
Proof.
  intros [e|] [e'|] l l' H K; cbn in *; try discriminate H; [|congruence]. injection H as H. rewrite !map_app. congruence.
Qed.
Lemma map_app1 : forall {A B} (f : A -> B) l l' x y, map f l = map f l' -> f x = f y -> map f (l ++ [x])%list = map f (l' ++ [y])%list.
Proof. intros A B f l l' x y H K. rewrite !map_app. cbn. congruence. Qed.
Lemma map_app2 : forall {A B} (f : A -> B) l l' x y, map f l = map f l' -> map f x = map f y -> map f (l ++ x)%list = map f (l' ++ y)%list.
Proof. intros A B f l l' x y H K. rewrite !map_app. congruence. Qed.

Ltac types :=
  repeat match goal with
  | H : PR ?p ?q |- context [curT ?q] => rewrite (PR_curT _ _ H)
  | H : PR ?p ?q |- context [peekT ?q] => rewrite (PR_peekT _ _ H)
  | H : PR ?p ?q |- context [List.length ?q] => rewrite (PR_len _ _ H)
  | H : PR ?p ?q, E : eqs (curT ?p) TOKEN_IDENT = true |- context [curL ?q] => rewrite (PR_ident _ _ H E)
  end.
Ltac rr1 :=
  types;
  match goal with
  | |- rres _ (bind (next ?p) _) (bind (next ?q) _) => eapply rres_bind; [apply PR_next; assumption | intros ? ? ?]
  | |- rres _ (next ?p) (next ?q) => apply PR_next; assumption
  | |- rres _ (bind (guard ?b) _) (bind (guard ?b) _) => destruct b eqn:?; cbn [guard bind]
  | |- rres _ (bind (Ok _) _) (bind (Ok _) _) => cbn [bind]
  | |- rres _ (if ?b then _ else _) (if ?b then _ else _) => destruct b eqn:?
  | |- rres _ Err Err => exact I
  | |- rres _ Panic Panic => exact I
  | |- rres _ OutOfFuel OutOfFuel => exact I
  end.
Ltac rr := repeat rr1.
Ltac ok := cbn [rres]; unfold vr; cbn [fst snd]; split; [types | assumption].

Section Case.
Variable d : dialect.
Variable srt : list constraint -> list constraint.
Hypothesis srt_case : forall l l', map up_constraint l = map up_constraint l' -> map up_constraint (srt l) = map up_constraint (srt l').

Lemma parseIdents_case : forall f acc acc' p q, PR p q -> map up_ident acc = map up_ident acc' ->
  rres (vr (map up_ident)) (parseIdents_loop d f acc p) (parseIdents_loop d f acc' q).
Proof.
  induction f as [|f IH]; intros acc acc' p q H Ha; [exact I|]. cbn [parseIdents_loop]. rr.
  - apply IH; assumption.
  - ok. exact Ha.
  - apply IH; [assumption|]. apply map_app1; [exact Ha|apply raw_cur; assumption].
Qed.

Lemma parseColumnIdents_case : forall f acc p q, PR p q ->
  rres (vr (fun x => x)) (parseColumnIdents_loop d f acc p) (parseColumnIdents_loop d f acc q).
Proof.
  induction f as [|f IH]; intros acc p q H; [exact I|]. cbn [parseColumnIdents_loop]. rr; try (apply IH; assumption).
  - eapply (rres_bind (vr (fun x => x))).
    + destruct d; rr; ok; reflexivity.
    + intros [o p1] [o' q1] [Ho Hp]. cbn [fst snd] in *. subst o'. rr. apply IH. assumption.
  - ok. reflexivity.
Qed.

Lemma parseExpr_loop_case : forall f acc acc' p q, PR p q -> map up_ident acc = map up_ident acc' ->
  rres (vr (map up_ident)) (parseExpr_loop d f acc p) (parseExpr_loop d f acc' q).
Proof.
  induction f as [|f IH]; intros acc acc' p q H Ha; [exact I|]. cbn [parseExpr_loop]. rr.
  - eapply rres_bind; [apply IH; [assumption|]|].
    + cbn. f_equal. apply raw_cur. exact H.
    + intros [ids p2] [ids' q2] [Hi Hp]. cbn [fst snd] in *. apply IH; [assumption|]. apply map_app2; assumption.
  - ok. apply map_app1; [exact Ha|apply raw_cur; assumption].
  - apply IH; [assumption|]. apply map_app1; [exact Ha|]. apply raw_up. rewrite !upper_app, (PR_curU _ _ H), (PR_peekU _ _ H). reflexivity.
  - apply IH; [assumption|]. apply map_app1; [exact Ha|apply raw_cur; assumption].
  - apply IH; [assumption|]. apply map_app1; [exact Ha|]. destruct (isReservedValue (curT p)); [reflexivity|apply raw_cur; assumption].
Qed.
Lemma parseExpr_case : forall p q, PR p q -> rres (vr (map up_ident)) (parseExpr d p) (parseExpr d q).
Proof. intros p q H. unfold parseExpr. rr. apply parseExpr_loop_case; [assumption|]. cbn. f_equal. apply raw_cur. exact H. Qed.

Lemma parseDataTypeName_case : forall p q, PR p q ->
  rres (vr (fun x : string * tokentype * expr => let '(n, t, e) := x in (to_upper n, t, up_expr e))) (parseDataTypeName d p) (parseDataTypeName d q).
Proof.
  intros p q H. unfold parseDataTypeName. cbv zeta.
  Ltac dtok := ok; types; rewrite ?upper_app; repeat match goal with K : PR ?a ?b |- context [to_upper (curL ?b)] => rewrite <- (PR_curU _ _ K) end; reflexivity.
  destruct d; rr; dtok.
Qed.
Lemma parseDataType_case : forall p q, PR p q -> rres (vr up_type) (parseDataType d p) (parseDataType d q).
Proof.
  intros p q H. unfold parseDataType. eapply rres_bind; [apply parseDataTypeName_case; exact H|].
  intros [[[n t] e] p1] [[[n' t'] e'] q1] [He Hp]. cbn [fst snd] in *. inversion He; subst. rr.
  - eapply rres_bind; [unfold parseIdents; types; apply parseIdents_case; [assumption|reflexivity]|].
    intros [ids p3] [ids' q3] [Hi Hq]. cbn [fst snd] in *. ok. unfold up_type. cbn. f_equal; [assumption|]. apply up_append; assumption.
  - ok. unfold up_type. cbn. congruence.
Qed.

Lemma parseDefault_case : forall f v v' p q, PR p q -> up_expr v = up_expr v' ->
  rres (vr up_expr) (parseDefault_loop d f v p) (parseDefault_loop d f v' q).
Proof.
  induction f as [|f IH]; intros v v' p q H Hv; [exact I|]. cbn [parseDefault_loop]. cbv zeta.
  rr1. { rr. apply IH; [assumption|]. apply up_append; [exact Hv|]. cbn. f_equal. apply raw_cur. exact H. }
  rr1. { eapply rres_bind; [apply parseExpr_case; exact H|]. intros [ids p1] [ids' q1] [Hi Hq]. cbn [fst snd] in *. apply IH; [assumption|].
         apply up_append; assumption. }
  rr1. { ok. exact Hv. }
  rr1. { rr. apply IH; [assumption|]. apply up_append; [exact Hv|]. cbn. f_equal. unfold up_ident. cbn. rewrite (PR_curU _ _ H). reflexivity. }
  rr1. { rr. apply IH; [assumption|]. apply up_append; [exact Hv|]. cbn. f_equal. apply raw_cur. exact H. }
  rr1. { destruct v as [l|], v' as [l'|]; cbn in Hv; try discriminate Hv; [|exact I]. rr. apply IH; [assumption|]. cbn. f_equal.
         injection Hv as Hv. apply map_app1; [exact Hv|apply raw_cur; exact H]. }
  rr. ok. exact Hv.
Qed.
Lemma parseAs_case : forall f v v' ty p q, PR p q -> up_expr v = up_expr v' ->
  rres (vr up_as) (parseAs_loop d f v ty p) (parseAs_loop d f v' ty q).
Proof.
  induction f as [|f IH]; intros v v' ty p q H Hv; [exact I|]. cbn [parseAs_loop]. cbv zeta.
  rr1. { rr. apply IH; [assumption|]. apply up_append; [exact Hv|]. cbn. f_equal. }
  rr1. { eapply rres_bind; [apply parseExpr_case; exact H|]. intros [ids p1] [ids' q1] [Hi Hq]. cbn [fst snd] in *. apply IH; [assumption|].
         apply up_append; assumption. }
  rr1. { rr. apply IH; assumption. }
  rr1. { ok. unfold up_as. cbn. congruence. }
  rr1. { rr. apply IH; [assumption|]. apply up_append; [exact Hv|]. cbn. f_equal. unfold up_ident. cbn. rewrite (PR_curU _ _ H). reflexivity. }
  rr1. { rr. apply IH; [assumption|]. apply up_append; [exact Hv|]. cbn. f_equal. apply raw_cur. exact H. }
  rr1. { destruct v as [l|], v' as [l'|]; cbn in Hv; try discriminate Hv; [|exact I]. rr. apply IH; [assumption|]. cbn. f_equal.
         injection Hv as Hv. apply map_app1; [exact Hv|apply raw_cur; exact H]. }
  rr. ok. unfold up_as. cbn. congruence.
Qed.
Lemma parseUsing_loop_case : forall f v v' w w' p q, PR p q -> up_expr v = up_expr v' -> option_map up_expr w = option_map up_expr w' ->
  rres (vr up_using) (parseUsing_loop d f v w p) (parseUsing_loop d f v' w' q).
Proof.
  induction f as [|f IH]; intros v v' w w' p q H Hv Hw; [exact I|]. cbn [parseUsing_loop]. cbv zeta. rr.
  - apply IH; assumption.
  - apply IH; [assumption| |assumption]. apply up_append; [exact Hv|reflexivity].
  - eapply rres_bind; [apply parseExpr_case; eassumption|]. intros [ids p1] [ids' q1] [Hi Hq]. cbn [fst snd] in *. apply IH; [assumption|assumption|].
    cbn. congruence.
  - ok. unfold up_using. cbn. congruence.
Qed.
Lemma parseUsing_case : forall p q, PR p q -> rres (vr up_using) (parseUsing d p) (parseUsing d q).
Proof. intros p q H. unfold parseUsing. types. apply parseUsing_loop_case; [assumption|reflexivity|reflexivity]. Qed.

Ltac up := rewrite ?upper_app; repeat match goal with K : PR ?a ?b |- context [to_upper (curL ?b)] => rewrite <- (PR_curU _ _ K) end.
Lemma parseOn_case : forall b p q, PR p q -> rres (vr to_upper) (parseOn b p) (parseOn b q).
Proof. intros b p q H. unfold parseOn. cbv zeta. rr; ok; up; reflexivity. Qed.
Lemma parseOnAction_case : forall p q, PR p q -> rres (vr to_upper) (parseOnAction p) (parseOnAction q).
Proof.
  intros p q H. unfold parseOnAction. eapply rres_bind; [apply parseOn_case; exact H|]. intros [s p1] [s' q1] [Hs Hp]. cbn [fst snd] in *.
  rr. ok. exact Hs.
Qed.
Lemma parseOn_if_case : forall (f : ps -> res (string * ps)) p q, (forall p q, PR p q -> rres (vr to_upper) (f p) (f q)) -> PR p q ->
  rres (vr to_upper) (if eqs (curT p) TOKEN_ON then f p else Ok ("", p)) (if eqs (curT q) TOKEN_ON then f q else Ok ("", q)).
Proof. intros f p q Hf H. rr; [apply Hf; exact H|]. ok. reflexivity. Qed.
Lemma parseColumnOn_case : forall p q, PR p q -> rres (vr to_upper) (parseColumnOn d p) (parseColumnOn d q).
Proof.
  intros p q H. unfold parseColumnOn. destruct d.
  - apply (parseOn_if_case (parseOn true)); [apply parseOn_case|exact H].
  - apply (parseOn_if_case (parseOn true)); [apply parseOn_case|exact H].
  - eapply rres_bind; [apply (parseOn_if_case parseOnAction); [apply parseOnAction_case|exact H]|].
    intros [s p1] [s' q1] [Hs Hp]. cbn [fst snd] in *. rr; [apply parseOnAction_case; exact Hp|]. ok. exact Hs.
  - ok. reflexivity.
Qed.
Lemma parseTableOn_case : forall p q, PR p q -> rres (vr to_upper) (parseTableOn d p) (parseTableOn d q).
Proof.
  intros p q H. unfold parseTableOn. destruct d.
  - apply (parseOn_if_case (parseOn false)); [apply parseOn_case|exact H].
  - apply (parseOn_if_case (parseOn false)); [apply parseOn_case|exact H].
  - eapply rres_bind; [apply (parseOn_if_case parseOnAction); [apply parseOnAction_case|exact H]|].
    intros [s p1] [s' q1] [Hs Hp]. cbn [fst snd] in *. rr.
    + eapply rres_bind; [apply parseOnAction_case; exact Hp|]. intros [s2 p2] [s2' q2] [Hs2 Hp2]. cbn [fst snd] in *. ok.
      rewrite !upper_app. congruence.
    + ok. exact Hs.
  - ok. reflexivity.
Qed.

(** * Constraint lists *)
Definition uc := up_constraint.
Lemma uc_name : forall a b, uc a = uc b -> con_name a = con_name b.
Proof. intros [] [] H; cbn in H; inversion H; reflexivity. Qed.
Lemma uc_primary : forall a b, uc a = uc b -> is_primary a = is_primary b.
Proof. intros [] [] H; cbn in H; inversion H; reflexivity. Qed.
Definition orel (a b : option (option (list constraint))) : Prop := option_map (option_map (map uc)) a = option_map (option_map (map uc)) b.
Lemma replace_case : forall cs cs' c c', map uc cs = map uc cs' -> uc c = uc c' -> orel (replace_constraint cs c) (replace_constraint cs' c').
Proof.
  induction cs as [|x r IH]; intros [|x' r'] c c' H Hc; try discriminate H; [reflexivity|]. cbn [map] in H.
  assert (Hx : uc x = uc x') by congruence. assert (Hr : map uc r = map uc r') by congruence.
  cbn [replace_constraint]. rewrite (uc_name _ _ Hx), (uc_name _ _ Hc). destruct (con_name x') as [n|]; [|reflexivity].
  destruct (con_name c') as [m|]; [|reflexivity]. destruct (eqs (id_name n) (id_name m)).
  - unfold orel. cbn. congruence.
  - specialize (IH r' c c' Hr Hc). unfold orel in *.
    destruct (replace_constraint r c) as [[l|]|], (replace_constraint r' c') as [[l'|]|]; cbn in *; try discriminate IH; congruence.
Qed.
Lemma map_len : forall (l l' : list constraint), map uc l = map uc l' -> List.length l = List.length l'.
Proof. intros l l' H. rewrite <- (map_length uc l), H. apply map_length. Qed.
Lemma insert_case : forall todo todo' done done', map uc todo = map uc todo' -> map uc done = map uc done' ->
  map uc (insert_primaries done todo) = map uc (insert_primaries done' todo').
Proof.
  induction todo as [|c r IH]; intros [|c' r'] done done' H Hd; try discriminate H; [exact Hd|]. cbn [map] in H.
  assert (Hc : uc c = uc c') by congruence. assert (Hr : map uc r = map uc r') by congruence.
  cbn [insert_primaries]. rewrite (uc_primary _ _ Hc). destruct (is_primary c').
  - apply IH; [exact Hr|]. cbn. congruence.
  - apply IH; [exact Hr|]. apply map_app1; assumption.
Qed.
Lemma sort_case : forall l l', map uc l = map uc l' -> map uc (sort_constraints srt l) = map uc (sort_constraints srt l').
Proof.
  intros l l' H. unfold sort_constraints. rewrite (map_len _ _ H). destruct (Nat.leb (List.length l') 12); [|apply srt_case; exact H].
  destruct l as [|c r], l' as [|c' r']; try discriminate H; [reflexivity|]. cbn [map] in H. apply insert_case; cbn; congruence.
Qed.
Definition lrel (a b : list constraint) : Prop := map uc a = map uc b.
Lemma append_constraint_case : forall cs cs' c c', lrel cs cs' -> uc c = uc c' ->
  rres lrel (append_constraint d srt cs c) (append_constraint d srt cs' c').
Proof.
  intros cs cs' c c' H Hc. unfold append_constraint. pose proof (replace_case cs cs' c c' H Hc) as K. unfold orel in K.
  destruct (replace_constraint cs c) as [[l|]|], (replace_constraint cs' c') as [[l'|]|]; cbn in K; try discriminate K; cbn [rres].
  - unfold lrel. congruence.
  - assert (E : map uc (cs ++ [c])%list = map uc (cs' ++ [c'])%list) by (apply map_app1; assumption).
    unfold lrel. destruct d; try exact E; apply sort_case; exact E.
  - exact I.
Qed.
Lemma append_constraints_case : forall new new' cs cs', lrel new new' -> lrel cs cs' ->
  rres lrel (append_constraints d srt cs new) (append_constraints d srt cs' new').
Proof.
  unfold lrel. induction new as [|c r IH]; intros [|c' r'] cs cs' H Hc; try discriminate H; [exact Hc|]. cbn [map] in H. cbn [append_constraints].
  eapply rres_bind; [apply append_constraint_case; [exact Hc|congruence]|]. intros l l' Hl. apply IH; [congruence|exact Hl].
Qed.

Lemma parseColumnConstraints_case : forall f tbl col cs cs' p q, PR p q -> lrel cs cs' ->
  rres (vr (map uc)) (parseColumnConstraints_loop d srt f tbl col cs p) (parseColumnConstraints_loop d srt f tbl col cs' q).
Proof.
  induction f as [|f IH]; intros tbl col cs cs' p q H Hc; [exact I|]. cbn [parseColumnConstraints_loop]. cbv zeta.
  rr1. { rr. eapply rres_bind; [apply append_constraint_case; [exact Hc|reflexivity]|]. intros l l' Hl. rr. apply IH; assumption. }
  rr1. { rr1; [|exact I]. eapply rres_bind; [apply PR_next_tl; exact H|]. intros p1 q1 [E1 [_ H1]].
         assert (E : eqs (curT p1) TOKEN_IDENT = true) by (rewrite E1, curT_tl; assumption).
         rr. eapply rres_bind; [unfold parseColumnIdents; types; apply parseColumnIdents_case; assumption|].
         intros [ids p3] [ids' q3] [Hi Hp]. cbn [fst snd] in *. subst ids'.
         eapply rres_bind; [apply parseColumnOn_case; exact Hp|]. intros [on p4] [on' q4] [Ho Hp4]. cbn [fst snd] in *.
         eapply rres_bind; [apply append_constraint_case; [exact Hc|cbn; congruence]|]. intros l l' Hl. rr. apply IH; assumption. }
  rr1. { eapply rres_bind; [apply append_constraint_case; [exact Hc|reflexivity]|]. intros l l' Hl. rr. apply IH; assumption. }
  rr1. { rr. eapply rres_bind; [apply parseExpr_case; eassumption|]. intros [ids p3] [ids' q3] [Hi Hp]. cbn [fst snd] in *.
         eapply rres_bind; [apply append_constraint_case; [exact Hc|cbn; congruence]|]. intros l l' Hl. rr. apply IH; assumption. }
  rr. ok. exact Hc.
Qed.

Ltac ucol Hc := unfold up_column in *; cbn in *; inversion Hc; congruence.
Lemma parseAttrs_case : forall f c c' p q, PR p q -> up_column c = up_column c' ->
  rres (vr up_column) (parseAttrs_loop d f c p) (parseAttrs_loop d f c' q).
Proof.
  induction f as [|f IH]; intros c c' p q H Hc; [exact I|]. cbn [parseAttrs_loop]. cbv zeta.
  rr1. { destruct d; rr; apply IH; try assumption; ucol Hc. }
  rr1. { rr. apply IH; [assumption|]. ucol Hc. }
  rr1. { rr. eapply rres_bind; [unfold parseColumnDefault; types; apply parseDefault_case; [eassumption|reflexivity]|].
         intros [v p2] [v' q2] [Hv Hp]. cbn [fst snd] in *. apply IH; [assumption|]. ucol Hc. }
  pose proof parseAs_case as PA.
  destruct d; rr; try (ok; exact Hc).
  - eapply rres_bind; [unfold parseColumnAs; types; apply PA; [eassumption|reflexivity]|].
    intros [v p2] [v' q2] [Hv Hp]. cbn [fst snd] in *. apply IH; [assumption|]. ucol Hc.
  - apply IH; [assumption|].
    assert (E : to_upper ("ON " ++ curL a ++ " " ++ curL a0) = to_upper ("ON " ++ curL a' ++ " " ++ curL a'0)).
    { rewrite !upper_app. repeat match goal with K : PR ?a ?b |- context [to_upper (curL ?b)] => rewrite <- (PR_curU _ _ K) end. reflexivity. }
    unfold set_onaction, up_column in *. cbn [c_name c_type c_default c_notnull c_notvisible c_as c_charset c_collate c_autoinc c_onaction c_comment c_options] in *.
    inversion Hc. congruence.
  - apply IH; [assumption|]. assert (E : up_ident (NewRawIdent My (curL a0)) = up_ident (NewRawIdent My (curL a'0))) by (apply raw_cur; assumption).
    unfold set_charset, up_column in *. cbn [c_name c_type c_default c_notnull c_notvisible c_as c_charset c_collate c_autoinc c_onaction c_comment c_options option_map] in *.
    inversion Hc. congruence.
  - apply IH; [assumption|]. assert (E : up_ident (NewRawIdent My (curL a)) = up_ident (NewRawIdent My (curL a'))) by (apply raw_cur; assumption).
    unfold set_collate, up_column in *. cbn [c_name c_type c_default c_notnull c_notvisible c_as c_charset c_collate c_autoinc c_onaction c_comment c_options option_map] in *.
    inversion Hc. congruence.
  - apply IH; [assumption|]. ucol Hc.
Qed.

Definition vcol (x : column * list constraint) := (up_column (fst x), map uc (snd x)).
Lemma parseColumn_case : forall tbl p q, PR p q -> rres (vr vcol) (parseColumn d srt tbl p) (parseColumn d srt tbl q).
Proof.
  intros tbl p q H. unfold parseColumn. cbv zeta. rr.
  eapply rres_bind; [apply parseDataType_case; eassumption|]. intros [dt p2] [dt' q2] [Ht Hp2]. cbn [fst snd] in *. rr.
  types. eapply rres_bind; [apply parseAttrs_case; [eassumption|]|].
  { unfold up_column. cbn. rewrite Ht. reflexivity. }
  intros [c p4] [c' q4] [Hc Hp4]. cbn [fst snd] in *.
  eapply rres_bind; [unfold parseColumnConstraints; types; apply parseColumnConstraints_case; [eassumption|reflexivity]|].
  intros [cs p5] [cs' q5] [Hs Hp5]. cbn [fst snd] in *.
  eapply rres_bind; [apply append_constraints_case; [exact Hs|reflexivity]|]. intros l l' Hl. unfold lrel in Hl.
  pose proof parseExpr_case as PE.
  destruct d; rr; try (ok; unfold vcol; cbn; congruence).
  - ok. unfold vcol. cbn [fst snd]. f_equal; [|exact Hl]. unfold set_comment, up_column in *.
    cbn [c_name c_type c_default c_notnull c_notvisible c_as c_charset c_collate c_autoinc c_onaction c_comment c_options] in *.
    match goal with K : PR ?a ?b |- context [to_upper (curL ?b)] => rewrite <- (PR_curU _ _ K) end. inversion Hc. congruence.
  - eapply rres_bind; [apply PE; eassumption|]. intros [ids p7] [ids' q7] [Hi Hp7]. cbn [fst snd] in *. ok. unfold vcol. cbn [fst snd]. f_equal; [|exact Hl].
    unfold set_options, up_column in *.
    cbn [c_name c_type c_default c_notnull c_notvisible c_as c_charset c_collate c_autoinc c_onaction c_comment c_options up_expr option_map] in *. inversion Hc. congruence.
Qed.

Lemma parseTableConstraint_case : forall tbl p q, PR p q -> rres (vr uc) (parseTableConstraint d tbl p) (parseTableConstraint d tbl q).
Proof.
  intros tbl p q H. unfold parseTableConstraint. eapply (rres_bind (vr (fun x => x))).
  { rr; ok; reflexivity. }
  intros [name p0] [name' q0] [Hn Hp]. cbn [fst snd] in *. subst name'. cbv zeta.
  assert (PC : forall a b, PR a b -> rres (vr (fun x => x)) (parseColumnIdents d a) (parseColumnIdents d b)).
  { intros a b K. unfold parseColumnIdents. types. apply parseColumnIdents_case. exact K. }
  Ltac cols PC := eapply rres_bind; [apply PC; eassumption|]; let ids := fresh "ids" in let r := fresh "r" in let ids' := fresh "ids'" in let r' := fresh "r'" in
    intros [ids r] [ids' r'] [? ?]; cbn [fst snd] in *; subst ids'.
  rr1. { rr. cols PC. ok. reflexivity. }
  rr1. { rr. cols PC. rr. cols PC. eapply rres_bind; [apply parseTableOn_case; eassumption|]. intros [on p7] [on' q7] [Ho Hp7]. cbn [fst snd] in *.
         ok. cbn. rewrite Ho. reflexivity. }
  pose proof parseUsing_case as PU. pose proof parseExpr_case as PE.
  destruct d.
  - rr. cols PC. ok. reflexivity.
  - rr. eapply (rres_bind PR).
    { rr. exact Hp. }
    intros p1 q1 H1. rr. cols PC. rr.
    + eapply rres_bind; [apply PU; eassumption|]. intros [u p5] [u' q5] [Hu Hp5]. cbn [fst snd] in *. rr. ok. cbn. rewrite Hu. reflexivity.
    + ok. reflexivity.
  - rr.
    + eapply (rres_bind PR).
      { rr. exact Hp. }
      intros p1 q1 H1. rr. cols PC. ok. reflexivity.
    + eapply rres_bind; [apply PE; eassumption|]. intros [ids p2] [ids' q2] [Hi Hq]. cbn [fst snd] in *. ok. cbn. congruence.
  - rr. eapply rres_bind; [apply PE; eassumption|]. intros [ids p2] [ids' q2] [Hi Hq]. cbn [fst snd] in *. ok. cbn. congruence.
Qed.

Lemma parseIfNotExists_case : forall p q, PR p q -> rres (vr (fun x => x)) (parseIfNotExists p) (parseIfNotExists q).
Proof. intros p q H. unfold parseIfNotExists. rr; ok; reflexivity. Qed.

Definition vcols (x : list column * list constraint) := (map up_column (fst x), map uc (snd x)).
Lemma parseColumns_case : forall f tbl cols cols' cs cs' p q, PR p q -> map up_column cols = map up_column cols' -> lrel cs cs' ->
  rres (vr vcols) (parseColumns_loop d srt f tbl cols cs p) (parseColumns_loop d srt f tbl cols' cs' q).
Proof.
  induction f as [|f IH]; intros tbl cols cols' cs cs' p q H Hc Hs; [exact I|]. cbn [parseColumns_loop].
  rr1. { eapply rres_bind; [apply parseColumn_case; exact H|]. intros [[c ccs] p1] [[c' ccs'] q1] [He Hp]. unfold vcol in He. cbn [fst snd] in *.
         assert (E1 : up_column c = up_column c') by congruence. assert (E2 : map uc ccs = map uc ccs') by congruence.
         eapply rres_bind; [apply append_constraints_case; [exact E2|exact Hs]|]. intros l l' Hl.
         apply IH; [exact Hp|apply map_app1; assumption|exact Hl]. }
  rr1. { eapply rres_bind; [apply parseTableConstraint_case; exact H|]. intros [c p1] [c' q1] [He Hp]. cbn [fst snd] in *.
         eapply rres_bind; [apply append_constraint_case; [exact Hs|exact He]|]. intros l l' Hl. apply IH; assumption. }
  rr1. { rr. apply IH; assumption. }
  assert (E : vcols (cols, cs) = vcols (cols', cs')) by (unfold vcols; cbn; unfold lrel in Hs; congruence).
  rr1. { ok. exact E. }
  rr1; [|exact I]. destruct d; rr; ok; exact E.
Qed.

Lemma parseOptionsMy_case : forall f o o' p q, PR p q -> map up_option o = map up_option o' ->
  rres (vr (map up_option)) (parseOptionsMy_loop d f o p) (parseOptionsMy_loop d f o' q).
Proof.
  induction f as [|f IH]; intros o o' p q H Ho; [exact I|]. cbn [parseOptionsMy_loop]. cbv zeta. rr1.
  - eapply (rres_bind PR).
    { rr. exact H. }
    intros p1 q1 H1. eapply (rres_bind (vr (fun x => x))).
    { unfold parseOptionValue. rr. ok. reflexivity. }
    intros [v p2] [v' q2] [Hv Hp]. cbn [fst snd] in *. subst v'. rr; apply IH; try assumption; apply map_app1; try assumption; reflexivity.
  - rr. ok. exact Ho.
Qed.

Lemma step_case : forall t p q, PR p q -> rres (vr up_ident) (step d t p) (step d t q).
Proof. intros t p q H. unfold step. rr. ok. apply raw_cur. assumption. Qed.
Lemma step_ident_case : forall p q, PR p q -> rres (vr (fun x => x)) (step d TOKEN_IDENT p) (step d TOKEN_IDENT q).
Proof. intros p q H. unfold step. rr. ok. reflexivity. Qed.
Lemma steps_case : forall ts p q, PR p q -> rres (vr (map up_ident)) (steps d ts p) (steps d ts q).
Proof.
  induction ts as [|t r IH]; intros p q H; [ok; reflexivity|]. cbn [steps]. eapply rres_bind; [apply step_case; exact H|].
  intros [i p1] [i' q1] [Hi Hp]. cbn [fst snd] in *. eapply rres_bind; [apply IH; exact Hp|]. intros [l p2] [l' q2] [Hl Hp2]. cbn [fst snd] in *.
  ok. cbn. congruence.
Qed.
Definition vopts (x : list option_ * option option_) := (map up_option (fst x), option_map up_option (snd x)).
Lemma parseOptionsSp_case : forall f o o' r r' p q, PR p q -> map up_option o = map up_option o' -> option_map up_option r = option_map up_option r' ->
  rres (vr vopts) (parseOptionsSp_loop d f o r p) (parseOptionsSp_loop d f o' r' q).
Proof.
  induction f as [|f IH]; intros o o' r r' p q H Ho Hr; [exact I|]. cbn [parseOptionsSp_loop]. cbv zeta.
  Ltac stp := eapply rres_bind; [apply step_case; eassumption|]; intros [? ?] [? ?] [? ?]; cbn [fst snd] in *.
  rr1. { stp. rr. eapply rres_bind; [apply parseExpr_case; eassumption|]. intros [ids p9] [ids' q9] [Hi Hp]. cbn [fst snd] in *.
         apply IH; try assumption. apply map_app1; [assumption|]. unfold up_option. cbn. congruence. }
  rr1. { stp. stp. stp.
         eapply (rres_bind (vr (map up_ident))).
         { rr.
           - stp. rr.
             + ok. reflexivity.
             + stp. ok. reflexivity.
           - ok. reflexivity. }
         intros [on p9] [on' q9] [Hon Hp9]. cbn [fst snd] in *. rr. apply IH; try assumption. apply map_app1; [assumption|].
         unfold up_option. cbn. congruence. }
  rr1. { stp. stp. eapply rres_bind; [apply steps_case; eassumption|]. intros [ids p9] [ids' q9] [Hi Hp]. cbn [fst snd] in *. rr.
         apply IH; try assumption. cbn. unfold up_option. cbn. congruence. }
  rr.
  - apply IH; assumption.
  - ok. unfold vopts. cbn. congruence.
Qed.

Lemma parseCreateTable_case : forall p q, PR p q -> rres (vr up_stmt) (parseCreateTable d srt p) (parseCreateTable d srt q).
Proof.
  intros p q H. unfold parseCreateTable. eapply rres_bind; [apply parseIfNotExists_case; exact H|].
  intros [ine p1] [ine' q1] [Hi Hp]. cbn [fst snd] in *. subst ine'. cbv zeta. rr.
  types. eapply rres_bind; [apply parseColumns_case; [eassumption|reflexivity|reflexivity]|].
  intros [[cols cs] p5] [[cols' cs'] q5] [He Hp5]. unfold vcols in He. cbn [fst snd] in *.
  assert (E1 : map up_column cols = map up_column cols') by congruence.
  assert (E2 : map up_constraint cs = map up_constraint cs') by (change (map uc cs = map uc cs'); congruence).
  pose proof parseOptionsMy_case as PM. pose proof parseOptionsSp_case as PS.
  destruct d; types.
  - ok. cbn. unfold up_table. cbn. congruence.
  - ok. cbn. unfold up_table. cbn. congruence.
  - eapply rres_bind; [apply PM; [eassumption|reflexivity]|]. intros [o p6] [o' q6] [Ho Hp6]. cbn [fst snd] in *. ok. cbn. unfold up_table. cbn. congruence.
  - eapply rres_bind; [apply PS; [eassumption|reflexivity|reflexivity]|]. intros [[o r] p6] [[o' r'] q6] [Ho Hp6]. unfold vopts in Ho. cbn [fst snd] in *.
    ok. cbn. unfold up_table. cbn. congruence.
Qed.
Definition vuse (x : list ident * option usingdef) := (map up_ident (fst x), option_map up_using (snd x)).
Lemma parseCreateIndex_case : forall p q, PR p q -> rres (vr up_stmt) (parseCreateIndex d p) (parseCreateIndex d q).
Proof.
  intros p q H. unfold parseCreateIndex. cbv zeta. eapply (rres_bind PR).
  { rr. exact H. }
  intros p0 q0 H0. eapply rres_bind; [apply parseIfNotExists_case; exact H0|].
  intros [ine p1] [ine' q1] [Hi Hp]. cbn [fst snd] in *. subst ine'. rr.
  pose proof parseUsing_case as PU.
  eapply (rres_bind (vr vuse)).
  { rr.
    - destruct d; rr; try (ok; unfold vuse; cbn; do 2 f_equal; unfold up_ident; cbn;
        repeat match goal with K : PR ?a ?b |- context [to_upper (curL ?b)] => rewrite <- (PR_curU _ _ K) end; reflexivity).
      eapply rres_bind; [apply PU; eassumption|]. intros [u r1] [u' r1'] [Hu Hr1]. cbn [fst snd] in *. rr. ok. unfold vuse. cbn. congruence.
    - ok. reflexivity. }
  intros [[usg pre] p6] [[usg' pre'] q6] [Hu Hp6]. unfold vuse in Hu. cbn [fst snd] in *. rr.
  eapply rres_bind; [unfold parseColumnIdents; types; apply parseColumnIdents_case; eassumption|].
  intros [ids p7] [ids' q7] [Hids Hp7]. cbn [fst snd] in *. subst ids'.
  eapply (rres_bind (vr (option_map up_using))).
  { rr1.
    - eapply rres_bind; [apply PU; eassumption|]. intros [u r1] [u' r1'] [Hu' Hr1]. cbn [fst snd] in *. rr. ok. cbn. congruence.
    - ok. reflexivity. }
  intros [post p8] [post' q8] [Hpost Hp8]. cbn [fst snd] in *. ok. cbn. unfold up_index. cbn. types. congruence.
Qed.
Lemma parseCreate_case : forall p q, PR p q -> rres (vr up_stmt) (parseCreate d srt p) (parseCreate d srt q).
Proof. intros p q H. unfold parseCreate. rr; [apply parseCreateTable_case|apply parseCreateIndex_case]; assumption. Qed.

Definition same_ddl (a b : ddl) : Prop := map up_stmt a = map up_stmt b.
Lemma parse_loop_case : forall f acc acc' p q, PR p q -> same_ddl acc acc' ->
  rres same_ddl (parse_loop d srt f acc p) (parse_loop d srt f acc' q).
Proof.
  induction f as [|f IH]; intros acc acc' p q H Ha; [exact I|]. cbn [parse_loop]. rr.
  - eapply rres_bind; [apply parseCreate_case; exact H|]. intros [s p1] [s' q1] [Hs Hp]. cbn [fst snd] in *. rr.
    apply IH; [assumption|]. apply map_app1; assumption.
  - apply IH; assumption.
  - exact Ha.
Qed.
Lemma parse_tokens_case : forall p q, PR p q -> rres same_ddl (parse_tokens d srt p) (parse_tokens d srt q).
Proof. intros p q H. unfold parse_tokens. rr. apply parse_loop_case; [exact H|reflexivity]. Qed.
End Case.
