(** C38, C39: what strings.TrimSpace removes (library; Lines.v). *)
From Coq Require Import Lia.
From Verif Require Import GoStr Lines LinesFacts IndexText.
Local Open Scope N_scope.

(** White space of Unicode (the property White_Space): the documentation of unicode.IsSpace *)
Definition white (c : N) : bool :=
  (9 <=? c) && (c <=? 13) || (c =? 32) || (c =? 133) || (c =? 160) || (c =? 5760) || (8192 <=? c) && (c <=? 8202)
  || (c =? 8232) || (c =? 8233) || (c =? 8239) || (c =? 8287) || (c =? 12288).
(** UTF-8, up to three bytes (RFC 3629, section 3) *)
Definition utf8 (c : N) : string :=
  bytes (if c <? 128 then [c]
         else if c <? 2048 then [192 + c / 64; 128 + c mod 64]
         else [224 + c / 4096; 128 + (c / 64) mod 64; 128 + c mod 64]).

Theorem C38_white_space : forall p, In p spaces <-> exists c, white c = true /\ p = utf8 c.
Proof.
  intro p. split.
  - intro H. assert (A : forallb (fun p => existsb (fun c => white c && String.eqb p (utf8 c)) ([9;10;11;12;13;32;133;160;5760;8192;8193;8194;8195;8196;8197;8198;8199;8200;8201;8202;8232;8233;8239;8287;12288])) spaces = true) by (vm_compute; reflexivity).
    rewrite forallb_forall in A. specialize (A p H). apply existsb_exists in A. destruct A as [c [_ A]]. apply andb_true_iff in A. destruct A as [A1 A2].
    exists c. split; [exact A1|apply String.eqb_eq; exact A2].
  - intros [c [W ->]]. assert (A : forallb (fun c => existsb (String.eqb (utf8 c)) spaces) ([9;10;11;12;13;32;133;160;5760;8192;8193;8194;8195;8196;8197;8198;8199;8200;8201;8202;8232;8233;8239;8287;12288]) = true) by (vm_compute; reflexivity).
    rewrite forallb_forall in A. assert (I : In c [9;10;11;12;13;32;133;160;5760;8192;8193;8194;8195;8196;8197;8198;8199;8200;8201;8202;8232;8233;8239;8287;12288]).
    { unfold white in W. repeat rewrite orb_true_iff in W. repeat rewrite andb_true_iff in W. rewrite ?N.leb_le, ?N.eqb_eq in W. cbn [In]. lia. }
    specialize (A c I). apply existsb_exists in A. destruct A as [q [Q E]]. apply String.eqb_eq in E. rewrite E. exact Q.
Qed.
Print Assumptions C38_white_space.

(** A text of white space *)
Definition blank (a : string) : Prop := exists l, forallb white l = true /\ a = concat_str (map utf8 l).
Lemma blank_nil : blank "".
Proof. exists []. split; reflexivity. Qed.
Lemma blank_app : forall a b, blank a -> blank b -> blank (a ++ b).
Proof.
  intros a b [x [X ->]] [y [Y ->]]. exists (x ++ y)%list. rewrite forallb_app, X, Y. split; [reflexivity|]. rewrite map_app. clear.
  induction (map utf8 x) as [|z r IH]; [reflexivity|]. cbn [concat_str app]. rewrite append_assoc, IH. reflexivity.
Qed.
Lemma blank_one : forall p, In p spaces -> blank p.
Proof.
  intros p H. apply C38_white_space in H. destruct H as [c [W ->]]. exists [c]. cbn [forallb map concat_str]. rewrite W. split; [reflexivity|].
  clear. induction (utf8 c) as [|x r IH]; [reflexivity|]. cbn [append]. congruence.
Qed.
Lemma drop_prefix_app : forall p s t, drop_prefix p s = Some t <-> s = (p ++ t)%string.
Proof.
  induction p as [|a p IH]; intros s t; cbn [drop_prefix append]; [split; congruence|]. destruct s as [|b s]; [split; discriminate|].
  destruct (Ascii.eqb a b) eqn:E; [apply Ascii.eqb_eq in E; subst b; rewrite IH; split; congruence|]. apply Ascii.eqb_neq in E. split; [discriminate|]. intro H. inversion H. congruence.
Qed.
Lemma strip_one_some : forall ps s t, strip_one ps s = Some t -> exists p, In p ps /\ s = (p ++ t)%string.
Proof.
  induction ps as [|p ps IH]; intros s t H; cbn [strip_one] in H; [discriminate H|]. destruct (drop_prefix p s) eqn:E.
  - inversion H; subst. apply drop_prefix_app in E. exists p. split; [left; reflexivity|exact E].
  - destruct (IH s t H) as [q [Q1 Q2]]. exists q. split; [right; exact Q1|exact Q2].
Qed.
Lemma strip_one_none : forall ps s, strip_one ps s = None -> forall p t, In p ps -> s <> (p ++ t)%string.
Proof.
  induction ps as [|q ps IH]; intros s H p t I E; [destruct I|]. cbn [strip_one] in H. destruct (drop_prefix q s) eqn:D; [discriminate H|].
  destruct I as [I|I]; [subst q; apply drop_prefix_app in E; congruence|]. exact (IH s H p t I E).
Qed.
Lemma strip_all_stops : forall ps n s, (forall p, In p ps -> p <> ""%string) -> (String.length s <= n)%nat -> strip_one ps (strip_all ps n s) = None.
Proof.
  intros ps. induction n as [|n IH]; intros s N L; cbn [strip_all].
  - destruct s; [|cbn in L; lia]. destruct (strip_one ps "") as [t|] eqn:E; [|reflexivity]. destruct (strip_one_some _ _ _ E) as [p [P1 P2]]. destruct p; [|discriminate P2]. exfalso. exact (N _ P1 eq_refl).
  - destruct (strip_one ps s) as [t|] eqn:E; [|exact E]. apply IH; [exact N|]. destruct (strip_one_some _ _ _ E) as [p [P1 P2]]. subst s.
    assert (X : (String.length (p ++ t) = String.length p + String.length t)%nat) by (clear; induction p; cbn; congruence).
    destruct p; [exfalso; exact (N _ P1 eq_refl)|]. cbn [String.length] in X, L. cbn [append String.length] in L. cbn [append String.length] in X. lia.
Qed.
Lemma strip_all_blank : forall ps n s, exists a, s = (a ++ strip_all ps n s)%string /\ exists l, (forall p, In p l -> In p ps) /\ a = concat_str l.
Proof.
  intros ps. induction n as [|n IH]; intros s; cbn [strip_all]; [exists ""%string; split; [reflexivity|exists []; split; [intros p []|reflexivity]]|].
  destruct (strip_one ps s) as [t|] eqn:E; [|exists ""%string; split; [reflexivity|exists []; split; [intros p []|reflexivity]]].
  destruct (strip_one_some _ _ _ E) as [p [P1 P2]]. destruct (IH t) as [a [A1 [l [A2 A3]]]]. exists (p ++ a)%string. split; [rewrite append_assoc, <- A1; exact P2|].
  exists (p :: l). split; [|rewrite A3; reflexivity]. intros q [Q|Q]; [subst; exact P1|exact (A2 q Q)].
Qed.
Lemma blank_concat : forall l, (forall p, In p l -> In p spaces) -> blank (concat_str l).
Proof. induction l as [|p l IH]; intro H; [apply blank_nil|]. cbn [concat_str]. apply blank_app; [apply blank_one; apply H; left; reflexivity|]. apply IH. intros q Q. apply H. right. exact Q. Qed.
Lemma blank_rev : forall l, (forall p, In p l -> In p (map rev_str spaces)) -> blank (rev_str (concat_str l)).
Proof.
  induction l as [|p l IH]; intro H; [apply blank_nil|]. cbn [concat_str]. rewrite rev_str_app. apply blank_app.
  - apply IH. intros q Q. apply H. right. exact Q.
  - pose proof (H p (or_introl eq_refl)) as I. apply in_map_iff in I. destruct I as [q [<- Q]]. rewrite rev_str_rev. apply blank_one. exact Q.
Qed.
Lemma spaces_some : forall p, In p spaces -> p <> ""%string.
Proof. intros p H E. subst p. assert (A : existsb (String.eqb "") spaces = false) by (vm_compute; reflexivity). rewrite <- not_true_iff_false in A. apply A. apply existsb_exists. exists ""%string. split; [exact H|reflexivity]. Qed.

(** TrimSpace removes white space at both ends, nothing else, and as much as there is. *)
Theorem C38_trim_space : forall s, (exists a b, s = (a ++ trim_space s ++ b)%string /\ blank a /\ blank b)
  /\ forall c r, white c = true -> trim_space s <> (utf8 c ++ r)%string /\ trim_space s <> (r ++ utf8 c)%string.
Proof.
  intro s. unfold trim_space. set (h := trim_head s). unfold trim_tail.
  destruct (strip_all_blank spaces (String.length s) s) as [a [A1 [la [A2 A3]]]]. fold (trim_head s) in A1. fold h in A1.
  destruct (strip_all_blank (map rev_str spaces) (String.length h) (rev_str h)) as [b [B1 [lb [B2 B3]]]].
  set (t := strip_all (map rev_str spaces) (String.length h) (rev_str h)) in *.
  assert (Eh : h = (rev_str t ++ rev_str b)%string) by (rewrite <- rev_str_app, <- B1, rev_str_rev; reflexivity).
  split.
  - exists a, (rev_str b). split; [rewrite <- Eh; exact A1|]. split; [rewrite A3; apply blank_concat; exact A2|rewrite B3; apply blank_rev; exact B2].
  - intros c r W. assert (I : In (utf8 c) spaces) by (apply C38_white_space; exists c; auto). split; intro E.
    + pose proof (strip_all_stops spaces (String.length s) s spaces_some (le_n _)) as Z. fold (trim_head s) in Z. fold h in Z.
      apply (strip_one_none _ _ Z (utf8 c) (r ++ rev_str b)%string I). rewrite Eh, E, append_assoc. reflexivity.
    + assert (L : forall x, String.length (rev_str x) = String.length x).
      { induction x as [|y x IH]; [reflexivity|]. change (String y x) with (String y "" ++ x)%string. rewrite rev_str_app.
        assert (X : forall p q, (String.length (p ++ q) = String.length p + String.length q)%nat) by (clear; induction p; intro q; cbn; [reflexivity|rewrite IHp; reflexivity]).
        rewrite !X, IH. cbn. lia. }
      assert (Nz : forall p, In p (map rev_str spaces) -> p <> ""%string).
      { intros p P Q. apply in_map_iff in P. destruct P as [q [P1 P2]]. apply (spaces_some q P2). rewrite <- (rev_str_rev q), P1, Q. reflexivity. }
      pose proof (strip_all_stops (map rev_str spaces) (String.length h) (rev_str h) Nz) as Z. rewrite L in Z. specialize (Z (le_n _)). fold t in Z.
      apply (strip_one_none _ _ Z (rev_str (utf8 c)) (rev_str r)); [apply in_map; exact I|]. rewrite <- rev_str_app, <- E, rev_str_rev. reflexivity.
Qed.
Print Assumptions C38_trim_space.
Example C38_trim_example : trim_space (utf8 12288 ++ "a" ++ utf8 133 ++ "b" ++ utf8 13 ++ utf8 8239) = ("a" ++ utf8 133 ++ "b")%string.
Proof. vm_compute. reflexivity. Qed.
