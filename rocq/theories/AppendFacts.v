(** Constraints.Append: uniqueness of names, permutation. *)
From Coq Require Import Lia Permutation.
From Verif Require Import GoStr Token Ast Parser Diff.

Definition srt_ok (srt : list constraint -> list constraint) : Prop := forall l, Permutation (srt l) l.

Lemma insert_primaries_perm : forall todo done, Permutation (insert_primaries done todo) (done ++ todo)%list.
Proof.
  induction todo as [|c r IH]; intro done; cbn [insert_primaries]; [rewrite app_nil_r; apply Permutation_refl|].
  destruct (is_primary c).
  - rewrite IH. cbn [app]. apply Permutation_middle.
  - rewrite IH. rewrite <- app_assoc. reflexivity.
Qed.

Lemma sort_constraints_perm : forall srt, srt_ok srt -> forall l, Permutation (sort_constraints srt l) l.
Proof.
  intros srt Hs l. unfold sort_constraints. destruct (Nat.leb (List.length l) 12); [|apply Hs].
  destruct l as [|c r]; [constructor|]. apply (insert_primaries_perm r [c]).
Qed.

Lemma con_key_name : forall c n, con_name c = Some n -> con_key c = id_name n.
Proof. intros c n H. unfold con_key, con_ident. rewrite H. reflexivity. Qed.

Lemma named_Some : forall c, named c = true -> exists n, con_name c = Some n.
Proof. intros c H. unfold named in H. destruct (con_name c) as [n|]; [exists n; reflexivity|discriminate]. Qed.

(** What replace_constraint does on named constraints. *)
Lemma replace_spec : forall cs c, forallb named cs = true -> named c = true ->
  (replace_constraint cs c = Some None /\ ~ In (con_key c) (map con_key cs)) \/
  (exists l1 x l2, cs = (l1 ++ x :: l2)%list /\ con_key x = con_key c /\ ~ In (con_key c) (map con_key l1)
     /\ replace_constraint cs c = Some (Some (l1 ++ c :: l2)%list)).
Proof.
  induction cs as [|x r IH]; intros c Hn Hc; [left; split; [reflexivity|intros []]|].
  cbn [forallb] in Hn. apply andb_true_iff in Hn. destruct Hn as [Hx Hr].
  destruct (named_Some _ Hx) as [nx Ex]. destruct (named_Some _ Hc) as [nc Ec].
  cbn [replace_constraint]. rewrite Ex, Ec. destruct (eqs (id_name nx) (id_name nc)) eqn:E.
  - right. exists [], x, r. unfold eqs in E. apply String.eqb_eq in E. split; [reflexivity|]. split.
    + rewrite (con_key_name _ _ Ex), (con_key_name _ _ Ec). exact E.
    + split; [intros []|reflexivity].
  - assert (Hne : con_key x <> con_key c).
    { rewrite (con_key_name _ _ Ex), (con_key_name _ _ Ec). apply String.eqb_neq. exact E. }
    destruct (IH c Hr Hc) as [[H1 H2]|[l1 [y [l2 [H1 [H2 [H3 H4]]]]]]].
    + left. rewrite H1. split; [reflexivity|]. cbn [map]. intros [F|F]; [contradiction|apply H2; exact F].
    + right. exists (x :: l1), y, l2. rewrite H4. split; [cbn [app]; rewrite <- H1; reflexivity|]. split; [exact H2|]. split.
      * cbn [map]. intros [F|F]; [contradiction|apply H3; exact F].
      * reflexivity.
Qed.

Section Append.
Variable d : dialect.
Variable srt : list constraint -> list constraint.
Hypothesis Hsrt : srt_ok srt.

Lemma append_fresh : forall cs c, forallb named cs = true -> named c = true -> ~ In (con_key c) (map con_key cs) ->
  exists cs', append_constraint d srt cs c = Ok cs' /\ Permutation cs' (cs ++ [c])%list.
Proof.
  intros cs c Hn Hc Hk. unfold append_constraint. destruct (replace_spec cs c Hn Hc) as [[H _]|[l1 [x [l2 [H1 [H2 _]]]]]].
  - rewrite H. eexists. split; [reflexivity|]. destruct d; try apply Permutation_refl; apply sort_constraints_perm; exact Hsrt.
  - exfalso. apply Hk. rewrite H1, map_app. apply in_or_app. right. left. exact H2.
Qed.

Lemma forallb_perm : forall A (f : A -> bool) l l', Permutation l l' -> forallb f l = true -> forallb f l' = true.
Proof.
  intros A f l l' H Hf. rewrite forallb_forall in *. intros x Hx. apply Hf.
  apply (Permutation_in x (Permutation_sym H)). exact Hx.
Qed.

Lemma append_all : forall new cs, forallb named (cs ++ new)%list = true -> NoDup (map con_key (cs ++ new)%list) ->
  exists cs', append_constraints d srt cs new = Ok cs' /\ Permutation cs' (cs ++ new)%list.
Proof.
  induction new as [|c r IH]; intros cs Hn Hd; cbn [append_constraints].
  - exists cs. rewrite app_nil_r. split; [reflexivity|apply Permutation_refl].
  - assert (Hn' := Hn). rewrite forallb_app in Hn'. apply andb_true_iff in Hn'. destruct Hn' as [Hcs Hcr].
    cbn [forallb] in Hcr. apply andb_true_iff in Hcr. destruct Hcr as [Hc Hr].
    assert (Hk : ~ In (con_key c) (map con_key cs)).
    { rewrite map_app in Hd. cbn [map] in Hd. apply NoDup_remove_2 in Hd. intro F. apply Hd. apply in_or_app. left; exact F. }
    destruct (append_fresh cs c Hcs Hc Hk) as [cs' [E P]]. rewrite E. cbn [bind].
    assert (P' : Permutation (cs' ++ r)%list (cs ++ c :: r)%list).
    { rewrite P, <- app_assoc. reflexivity. }
    destruct (IH cs') as [cs'' [E2 P2]].
    + apply (forallb_perm _ _ _ _ (Permutation_sym P')). exact Hn.
    + apply (Permutation_NoDup (Permutation_map con_key (Permutation_sym P'))). exact Hd.
    + exists cs''. split; [exact E2|]. rewrite P2. exact P'.
Qed.
End Append.
