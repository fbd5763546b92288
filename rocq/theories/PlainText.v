(** Texts put together from plain ones (for C69). *)
From Coq Require Import Lia.
From Verif Require Import GoStr Token Ast Tidy IndexText Lines LinesFacts ApplySpec Plain.
Local Open Scope string_scope.

Lemma append_nil_r : forall s : string, (s ++ "")%string = s.
Proof. induction s as [|c s IH]; [reflexivity|]. cbn [append]. rewrite IH. reflexivity. Qed.
Definition opens (s : string) : bool := has_prefix_byte "-" s.
Definition closes (s : string) : bool := has_suffix_byte "-" s.

Lemma suffix_app : forall c a b, has_suffix_byte c (a ++ b) = match b with EmptyString => has_suffix_byte c a | _ => has_suffix_byte c b end.
Proof.
  intros c a b. induction a as [|x a IH]; [destruct b; reflexivity|].
  destruct b as [|y b]; [rewrite append_nil_r; reflexivity|].
  cbn [append]. destruct a as [|z a]; [reflexivity|]. exact IH.
Qed.
Lemma two_bytes : forall p q s, contains (String p (String q "")) s = match s with
  | String a r => (Ascii.eqb p a && has_prefix_byte q r) || contains (String p (String q "")) r | EmptyString => false end.
Proof.
  intros p q s. unfold contains. destruct s as [|a r]; [reflexivity|]. cbn [before_mark String.prefix].
  destruct (ascii_dec p a) as [E|E].
  - subst a. rewrite Ascii.eqb_refl. destruct r as [|b r]; [reflexivity|]. cbn [String.prefix has_prefix_byte].
    destruct (ascii_dec q b) as [F|F].
    + subst b. rewrite Ascii.eqb_refl. destruct r; reflexivity.
    + apply Ascii.eqb_neq in F. rewrite F. cbn [andb orb]. destruct (before_mark _ (String b r)); reflexivity.
  - apply Ascii.eqb_neq in E. rewrite E. cbn [andb orb]. destruct (before_mark _ r); reflexivity.
Qed.
Lemma two_bytes_app : forall p q a b, contains (String p (String q "")) (a ++ b)
  = contains (String p (String q "")) a || contains (String p (String q "")) b || (has_suffix_byte p a && has_prefix_byte q b).
Proof.
  intros p q a b. induction a as [|x a IH].
  - cbn [append has_suffix_byte andb]. rewrite (two_bytes p q ""). rewrite orb_false_r. reflexivity.
  - cbn [append]. rewrite (two_bytes p q (String x (a ++ b))), (two_bytes p q (String x a)), IH. destruct a as [|y a].
    + cbn [append has_prefix_byte has_suffix_byte]. rewrite (two_bytes p q ""). cbn [andb orb]. rewrite andb_false_r. cbn [orb].
      rewrite orb_false_r. apply orb_comm.
    + cbn [append has_prefix_byte]. change (has_suffix_byte p (String x (String y a))) with (has_suffix_byte p (String y a)).
      rewrite <- !orb_assoc. reflexivity.
Qed.

Lemma plain_parts : forall s, plain_text s = true <-> contains "--" s = false /\ has_byte ch_nl s = false /\ has_byte ch_cr s = false /\ has_suffix_byte ";" s = false.
Proof. intro s. unfold plain_text. rewrite !andb_true_iff, !negb_true_iff. tauto. Qed.

Lemma plain_app : forall a b, plain_text a = true -> plain_text b = true -> (closes a = true -> opens b = false) -> plain_text (a ++ b) = true.
Proof.
  intros a b A B S. apply plain_parts in A. apply plain_parts in B. apply plain_parts. destruct A as [A1 [A2 [A3 A4]]]. destruct B as [B1 [B2 [B3 B4]]].
  rewrite two_bytes_app, !has_byte_app, suffix_app. rewrite A1, A2, A3, B1, B2, B3. cbn [orb]. repeat split; auto.
  - fold (closes a). fold (opens b). destruct (closes a); [rewrite S; reflexivity|reflexivity].
  - destruct b; assumption.
Qed.
Lemma opens_app : forall a b, opens (a ++ b) = match a with EmptyString => opens b | _ => opens a end.
Proof. intros a b. destruct a; reflexivity. Qed.
Lemma length_app : forall a b, String.length (a ++ b) = String.length a + String.length b.
Proof. induction a; intro b; cbn; [reflexivity|]. rewrite IHa. reflexivity. Qed.

(** A plain text of at most n bytes; one that does not begin with a dash *)
Definition fine (n : nat) (s : string) : Prop := plain_text s = true /\ String.length s <= n.
Definition tail (n : nat) (s : string) : Prop := fine n s /\ opens s = false.

Lemma fine_le : forall n m s, fine n s -> n <= m -> fine m s.
Proof. intros n m s [A B] H. split; [exact A|lia]. Qed.
Lemma tail_le : forall n m s, tail n s -> n <= m -> tail m s.
Proof. intros n m s [A B] H. split; [exact (fine_le n m s A H)|exact B]. Qed.
Lemma tail_fine : forall n s, tail n s -> fine n s.
Proof. intros n s [A _]. exact A. Qed.
Lemma fine_const : forall s, plain_text s = true -> fine (String.length s) s.
Proof. intros s H. split; [exact H|lia]. Qed.
Lemma tail_const : forall s, plain_text s = true -> opens s = false -> tail (String.length s) s.
Proof. intros s H O. split; [apply fine_const, H|exact O]. Qed.
Lemma fine_tail : forall n m a b, fine n a -> tail m b -> fine (n + m) (a ++ b).
Proof. intros n m a b [A1 A2] [[B1 B2] B3]. split; [apply plain_app; auto|rewrite length_app; lia]. Qed.
Lemma tail_tail : forall n m a b, tail n a -> tail m b -> tail (n + m) (a ++ b).
Proof. intros n m a b [A O] B. split; [apply fine_tail; assumption|]. rewrite opens_app. destruct a; [apply B|exact O]. Qed.
Lemma fine_pre : forall c n s, plain_text c = true -> closes c = false -> fine n s -> fine (String.length c + n) (c ++ s).
Proof. intros c n s C K [A B]. split; [apply plain_app; auto; congruence|rewrite length_app; lia]. Qed.
Lemma tail_pre : forall c n s, plain_text c = true -> closes c = false -> opens c = false -> c <> "" -> fine n s -> tail (String.length c + n) (c ++ s).
Proof. intros c n s C K O N A. split; [apply fine_pre; assumption|]. rewrite opens_app. destruct c; [congruence|exact O]. Qed.
Lemma tail_empty : forall n, tail n "".
Proof. intro n. split; [split; [reflexivity|cbn; lia]|reflexivity]. Qed.
Lemma fine_empty : forall n, fine n "".
Proof. intro n. apply tail_fine, tail_empty. Qed.
Lemma tail_prefixed : forall c n s, plain_text c = true -> closes c = false -> opens c = false -> c <> "" -> fine n s -> tail (String.length c + n) (nonempty_prefixed c s).
Proof. intros c n s C K O N A. unfold nonempty_prefixed. destruct (eqs s ""); [apply tail_empty|apply tail_pre; assumption]. Qed.

(** Texts of several lines, each of them plain, not empty and of at most n bytes *)
Definition page (n : nat) (q : string) : Prop :=
  exists ls y, q = (unlines ls ++ y)%string /\ Forall (fun x => fine n x /\ x <> "") ls /\ fine n y /\ y <> "".
Lemma page_le : forall n m q, page n q -> n <= m -> page m q.
Proof.
  intros n m q [ls [y [E [F [Y N]]]]] H. exists ls, y. repeat split; auto; [|apply Y|destruct Y; lia].
  eapply Forall_impl; [|exact F]. intros x [X Z]. split; [exact (fine_le n m x X H)|exact Z].
Qed.
Lemma page_line : forall n s, fine n s -> s <> "" -> page n s.
Proof. intros n s A N. exists [], s. repeat split; auto; apply A. Qed.
Lemma unlines_app : forall a b, unlines (a ++ b)%list = (unlines a ++ unlines b)%string.
Proof. intros a b. unfold unlines. rewrite map_app. induction (map (fun x => (x ++ nl)%string) a) as [|x l IH]; [reflexivity|]. cbn [List.app concat_str]. rewrite IH, append_assoc. reflexivity. Qed.
Lemma page_nl : forall n a b, page n a -> page n b -> page n (a ++ nl ++ b).
Proof.
  intros n a b [la [ya [Ea [Fa [Ya Na]]]]] [lb [yb [Eb [Fb [Yb Nb]]]]].
  exists ((la ++ [ya]) ++ lb)%list, yb. split; [|split; [|auto]].
  - subst a b. rewrite !unlines_app. unfold unlines at 4. cbn [map concat_str]. rewrite append_nil_r, !append_assoc. reflexivity.
  - apply Forall_app. split; [|exact Fb]. apply Forall_app. split; [exact Fa|]. constructor; [auto|constructor].
Qed.
Lemma app_empty : forall a b, (a ++ b)%string = "" -> a = "" /\ b = "".
Proof. intros a b H. destruct a; [split; [reflexivity|exact H]|discriminate H]. Qed.
Lemma page_pre : forall c n q, plain_text c = true -> closes c = false -> page n q -> page (String.length c + n) (c ++ q).
Proof.
  intros c n q C K [ls [y [E [F [Y N]]]]]. destruct ls as [|x ls].
  - exists [], (c ++ y)%string. subst q. split; [reflexivity|]. split; [constructor|]. split; [apply fine_pre; assumption|]. intro Z. apply app_empty in Z. tauto.
  - exists ((c ++ x)%string :: ls), y. subst q. inversion F as [|u v [X Z] W]; subst. split; [|split; [|split; [|exact N]]].
    + unfold unlines. cbn [map concat_str]. rewrite !append_assoc. reflexivity.
    + constructor; [split; [apply fine_pre; assumption|intro T; apply app_empty in T; tauto]|]. eapply Forall_impl; [|exact W]. intros t [T1 T2]. split; [apply (fine_le n); [exact T1|lia]|exact T2].
    + apply (fine_le n); [exact Y|lia].
Qed.
Lemma page_tail : forall n m q t, page n q -> tail m t -> page (n + m) (q ++ t).
Proof.
  intros n m q t [ls [y [E [F [Y N]]]]] T. exists ls, (y ++ t)%string. subst q. split; [rewrite append_assoc; reflexivity|]. split; [|split; [apply fine_tail; assumption|]].
  - eapply Forall_impl; [|exact F]. intros x [X Z]. split; [apply (fine_le n); [exact X|lia]|exact Z].
  - intro Z. apply app_empty in Z. tauto.
Qed.

(** Such texts survive being cut into statements. *)
Definition roomy (n : nat) : Prop := (N.of_nat n < 65000)%N.
Lemma fits_fine : forall n x y, roomy n -> String.length x <= n -> String.length y <= 100 -> fits_buffer (x ++ y) = true.
Proof. intros n x y R A B. unfold fits_buffer, roomy in *. apply N.ltb_lt. rewrite length_app. lia. Qed.
Lemma no_stop : forall x, has_byte ch_nl x = false -> contains (String ";" (String ch_nl "")) x = false.
Proof.
  induction x as [|a x IH]; intro H; [reflexivity|]. rewrite two_bytes. cbn [has_byte] in H. apply orb_false_iff in H. destruct H as [_ H]. rewrite (IH H), orb_false_r.
  destruct x as [|b x]; [apply andb_false_r|]. cbn [has_prefix_byte]. cbn [has_byte] in H. apply orb_false_iff in H. destruct H as [H _]. rewrite (Ascii.eqb_sym ch_nl b), H. apply andb_false_r.
Qed.
Lemma lines_clean : forall n ls y, Forall (fun x => fine n x /\ x <> "") ls -> fine n y ->
  contains "--" (unlines ls ++ y) = false /\ contains (String ";" (String ch_nl "")) (unlines ls ++ y) = false /\ has_byte ch_cr (unlines ls ++ y) = false.
Proof.
  intros n ls y F [Y _]. apply plain_parts in Y. destruct Y as [Y1 [Y2 [Y3 Y4]]]. induction F as [|x ls [[X _] Z] F [I1 [I2 I3]]]; [auto using no_stop|].
  apply plain_parts in X. destruct X as [X1 [X2 [X3 X4]]].
  replace (unlines (x :: ls) ++ y)%string with (x ++ String ch_nl (unlines ls ++ y))%string by (unfold unlines, nl; cbn [map concat_str]; rewrite !append_assoc; reflexivity).
  rewrite (two_bytes_app "-" "-" x), (two_bytes_app ";" ch_nl x), has_byte_app, X1, X3, X4, (no_stop x X2), (two_bytes "-" "-" (String ch_nl _)), (two_bytes ";" ch_nl (String ch_nl _)), I1, I2.
  cbn [has_byte]. rewrite I3. cbn. rewrite andb_false_r. auto.
Qed.
Lemma page_clean : forall n q, roomy n -> page n q -> ApplySpec.clean q = true.
Proof.
  intros n q R [ls [y [E [F [Y N]]]]]. subst q. unfold ApplySpec.clean. rewrite split_unlines.
  - apply andb_true_iff. split.
    + destruct (lines_clean n ls y F Y) as [A [B C]]. unfold nl at 1. cbn [append]. change (";" ++ String ch_nl "") with (String ";" (String ch_nl "")). rewrite A, B, C. reflexivity.
    + rewrite forallb_app. cbn [forallb]. rewrite andb_true_r. apply andb_true_iff. split.
      * apply forallb_forall. intros x Hx. rewrite Forall_forall in F. destruct (F x Hx) as [[_ L] Z]. apply andb_true_iff. split; [apply negb_true_iff, String.eqb_neq, Z|].
        apply (fits_fine n); [exact R|exact L|cbn; lia].
      * apply andb_true_iff. split; [apply negb_true_iff, String.eqb_neq, N|]. apply (fits_fine n); [exact R|apply Y|cbn; lia].
  - apply forallb_forall. intros x Hx. rewrite Forall_forall in F. destruct (F x Hx) as [[P _] _]. apply plain_parts in P. unfold no_nl. destruct P as [_ [P _]]. rewrite P. reflexivity.
  - destruct Y as [P _]. apply plain_parts in P. unfold no_nl. destruct P as [_ [P _]]. rewrite P. reflexivity.
Qed.
