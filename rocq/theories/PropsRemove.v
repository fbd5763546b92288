(** C38: exactly what comment removal makes of every text, and exactly when doing it
    again makes no difference (pkg/internal/util/remove_comment.go). *)
From Coq Require Import Lia.
From Verif Require Import GoStr Lines LinesFacts.

(** * Specification *)
(** The lines a reader with a buffer of 64 KiB sees: those before the first one that is too long. *)
Fixpoint seen (l : list string) : list string :=
  match l with
  | [] => []
  | x :: r => if (N.of_nat (String.length x) <? 65536)%N then x :: seen r else []
  end.
(** A carriage return *)
Definition cr : string := String ch_cr "".
(** A text ends in a carriage return. *)
Definition ends_cr (x : string) : Prop := exists a, x = (a ++ cr)%string.

(** * Proofs *)
Lemma app_empty : forall a : string, (a ++ "")%string = a.
Proof. induction a as [|c a IH]; [reflexivity|]. cbn. rewrite IH. reflexivity. Qed.
Lemma suffix_spec : forall x, has_suffix_byte ch_cr x = true <-> ends_cr x.
Proof.
  intro x. split.
  - induction x as [|c x IH]; [discriminate|]. cbn [has_suffix_byte]. destruct x as [|d x].
    + intro H. apply Ascii.eqb_eq in H. subst c. exists ""%string. reflexivity.
    + intro H. destruct (IH H) as [a A]. exists (String c a). cbn. rewrite <- A. reflexivity.
  - intros [a A]. subst x. induction a as [|c a IH]; [reflexivity|]. cbn [append has_suffix_byte].
    destruct (a ++ cr)%string eqn:E; [destruct a; discriminate E|]. exact IH.
Qed.
Lemma drop_last_cr : forall a, drop_last (a ++ cr) = a.
Proof.
  induction a as [|c a IH]; [reflexivity|]. cbn [append drop_last]. destruct (a ++ cr)%string eqn:E; [destruct a; discriminate E|].
  rewrite IH. reflexivity.
Qed.
Lemma drop_cr_cr : forall a, drop_cr (a ++ cr) = a.
Proof.
  intro a. unfold drop_cr. replace (has_suffix_byte ch_cr (a ++ cr)) with true; [apply drop_last_cr|].
  symmetry. apply suffix_spec. exists a. reflexivity.
Qed.
Lemma drop_cr_none : forall x, ~ ends_cr x -> drop_cr x = x.
Proof.
  intros x H. unfold drop_cr. destruct (has_suffix_byte ch_cr x) eqn:E; [|reflexivity]. exfalso. apply H. apply suffix_spec. exact E.
Qed.
Lemma ends_cr_dec : forall x, ends_cr x \/ ~ ends_cr x.
Proof.
  intro x. destruct (has_suffix_byte ch_cr x) eqn:E; [left; apply suffix_spec; exact E|].
  right. intro H. apply suffix_spec in H. congruence.
Qed.
Lemma kept_empty : forall p, kept p "" = [].
Proof. intro p. unfold kept. destruct (String.prefix p (trim_space "")); [reflexivity|]. destruct p; reflexivity. Qed.
Lemma pieces_seen : forall p l y, flat_map (kept p) (scan_pieces (l ++ [y])) = flat_map (fun x => kept p (drop_cr x)) (seen (l ++ [y])).
Proof.
  intros p l y. induction l as [|x l IH].
  - cbn [app scan_pieces seen]. fold (fits_buffer y). destruct (String.eqb y "") eqn:E.
    + apply String.eqb_eq in E. subst y. cbn -[kept]. rewrite kept_empty. reflexivity.
    + destruct (fits_buffer y); reflexivity.
  - cbn [app seen]. fold (fits_buffer x). destruct (fits_buffer x) eqn:F.
    + replace (scan_pieces (x :: l ++ [y])%list) with (drop_cr x :: scan_pieces (l ++ [y])%list);
        [cbn [flat_map]; rewrite IH; reflexivity|].
      destruct l as [|z l]; cbn [app]; symmetry; apply scan_pieces_cons; exact F.
    + replace (scan_pieces (x :: l ++ [y])%list) with (@nil string); [reflexivity|].
      destruct l as [|z l]; cbn [app scan_pieces]; rewrite F; reflexivity.
Qed.
Lemma removed_text : forall p l y, forallb no_nl l = true -> no_nl y = true ->
  remove_comments p (unlines l ++ y) = unlines (flat_map (fun x => kept p (drop_cr x)) (seen (l ++ [y]))).
Proof.
  intros p l y L Y. rewrite remove_comments_kept. unfold scan_lines. rewrite split_unlines by assumption. rewrite pieces_seen. reflexivity.
Qed.
Lemma seen_spec : forall l x, In x (seen l) -> In x l /\ fits_buffer x = true.
Proof.
  induction l as [|z l IH]; intros x I; [contradiction|]. cbn [seen] in I. fold (fits_buffer z) in I. destruct (fits_buffer z) eqn:F; [|contradiction].
  destruct I as [I|I]; [subst; split; [left; reflexivity|exact F]|]. destruct (IH x I). split; [right|]; assumption.
Qed.
Lemma drop_cr_part : forall x, exists b, x = (drop_cr x ++ b)%string.
Proof.
  intro x. destruct (ends_cr_dec x) as [[a A]|N]; [subst; rewrite drop_cr_cr; exists cr; reflexivity|].
  rewrite drop_cr_none by exact N. exists ""%string. rewrite app_empty. reflexivity.
Qed.
Lemma drop_cr_ok : forall x, line_ok x = true -> line_ok (drop_cr x) = true.
Proof.
  intros x H. destruct (drop_cr_part x) as [b B]. rewrite B in H. unfold line_ok in *. apply andb_true_iff in H. destruct H as [H1 H2].
  rewrite no_nl_app in H1. apply andb_true_iff in H1. destruct H1 as [H1 _]. rewrite H1. cbn [andb].
  apply (fits_part "" (drop_cr x) b). exact H2.
Qed.
(** What is left of a text, line by line *)
Definition left_lines (p : string) (l : list string) : list string := flat_map (fun x => kept p (drop_cr x)) (seen l).
Lemma left_spec : forall p l z, p <> ""%string -> forallb no_nl l = true -> In z (left_lines p l) -> contains p z = false /\ z <> ""%string /\ line_ok z = true.
Proof.
  intros p l z P L I. apply in_flat_map in I. destruct I as [x [I1 I2]]. apply seen_spec in I1. destruct I1 as [I1 F].
  destruct (kept_spec p _ z P I2) as [K1 [K2 _]]. split; [exact K1|]. split; [exact K2|]. apply (kept_line_ok p (drop_cr x) z P); [|exact I2].
  apply drop_cr_ok. unfold line_ok. rewrite F, andb_true_r. rewrite forallb_forall in L. apply L. exact I1.
Qed.
(** The second time: every line loses a carriage return. *)
Lemma left_again : forall p k, (forall z, In z k -> contains p z = false /\ z <> ""%string /\ line_ok z = true) ->
  remove_comments p (unlines k) = unlines (filter (fun z => negb (String.eqb z "")) (map drop_cr k)).
Proof.
  intros p k K. rewrite remove_comments_kept.
  assert (KL : forallb line_ok k = true) by (rewrite forallb_forall; intros z I; apply (K z I)).
  rewrite scan_unlines by exact KL. f_equal. clear KL. induction k as [|z k IH]; [reflexivity|]. cbn [map flat_map filter].
  rewrite IH by (intros u I; apply K; right; exact I). destruct (K z (or_introl eq_refl)) as [K1 _].
  destruct (drop_cr_part z) as [b B]. rewrite B in K1. rewrite kept_plain by (apply (contains_shrink p "" _ b); exact K1).
  destruct (String.eqb (drop_cr z) ""); reflexivity.
Qed.
Lemma unlines_length : forall x k, String.length (unlines (x :: k)) = String.length x + 1 + String.length (unlines k).
Proof. intros x k. unfold unlines. cbn [map concat_str]. rewrite !append_length. cbn [String.length nl]. lia. Qed.
Lemma again_shorter : forall k,
  String.length (unlines (filter (fun z => negb (String.eqb z "")) (map drop_cr k))) <= String.length (unlines k)
  /\ ((exists z, In z k /\ ends_cr z) -> String.length (unlines (filter (fun z => negb (String.eqb z "")) (map drop_cr k))) < String.length (unlines k)).
Proof.
  induction k as [|x k [IH1 IH2]]; [split; [apply le_n|intros [z [[] _]]]|].
  assert (D : String.length (drop_cr x) <= String.length x /\ (ends_cr x -> String.length (drop_cr x) < String.length x)).
  { split; [destruct (drop_cr_part x) as [b B]; rewrite B at 2; rewrite append_length; lia|].
    intros [a A]. subst x. rewrite drop_cr_cr, append_length. cbn. lia. }
  destruct D as [D1 D2]. cbn [map filter]. rewrite (unlines_length x). destruct (String.eqb (drop_cr x) "") eqn:E; cbn [negb].
  - split; [lia|]. intros _. lia.
  - rewrite unlines_length. split; [lia|]. intros [z [[I|I] Z]].
    + subst z. specialize (D2 Z). lia.
    + assert (String.length (unlines (filter (fun z => negb (String.eqb z "")) (map drop_cr k))) < String.length (unlines k)) by (apply IH2; exists z; auto). lia.
Qed.
Lemma again_same : forall k, (forall z, In z k -> z <> ""%string /\ ~ ends_cr z) ->
  filter (fun z => negb (String.eqb z "")) (map drop_cr k) = k.
Proof.
  induction k as [|x k IH]; intro H; [reflexivity|]. destruct (H x (or_introl eq_refl)) as [E N]. cbn [map filter].
  rewrite drop_cr_none by exact N. apply String.eqb_neq in E. rewrite E. cbn [negb]. f_equal. apply IH. intros z I. apply H. right. exact I.
Qed.

(** * Theorems *)
(** Every text is read as lines without their line breaks, up to the first of 64 KiB
    or more; one carriage return at the end of a line is not part of it; a line without
    the mark stays, an empty one goes, of any other at most one part without the mark
    is left.  No assumption on the text. *)
Theorem C38_every_text : forall p, p <> ""%string -> exists f g : string -> list string,
  (forall x, contains p x = false -> x <> ""%string -> f x = [x]) /\ f ""%string = [] /\
  (forall x, List.length (f x) <= 1) /\
  (forall x y, In y (f x) -> contains p y = false /\ y <> ""%string /\ exists a b, x = (a ++ y ++ b)%string) /\
  (forall x, g (x ++ cr)%string = f x) /\ (forall x, ~ ends_cr x -> g x = f x) /\
  (forall s, exists l y, s = (unlines l ++ y)%string /\ forallb no_nl l = true /\ no_nl y = true
     /\ remove_comments p s = unlines (flat_map g (seen (l ++ [y])))).
Proof.
  intros p P. exists (kept p), (fun x => kept p (drop_cr x)). split; [|split; [|split; [|split; [|split; [|split]]]]].
  - intros x C E. rewrite kept_plain by exact C. apply String.eqb_neq in E. rewrite E. reflexivity.
  - apply kept_empty.
  - apply kept_few.
  - intros x y. apply kept_spec. exact P.
  - intro x. rewrite drop_cr_cr. reflexivity.
  - intros x H. rewrite drop_cr_none by exact H. reflexivity.
  - intro s. destruct (text_lines s) as [l [y [E [L Y]]]]. exists l, y. split; [exact E|]. split; [exact L|]. split; [exact Y|].
    subst s. apply removed_text; assumption.
Qed.
Print Assumptions C38_every_text.
Example C38_every_text_example : remove_comments "--" ("a" ++ cr ++ nl ++ "b" ++ cr ++ cr ++ nl ++ cr ++ nl ++ "c -- d" ++ cr)%string
  = ("a" ++ nl ++ "b" ++ cr ++ nl ++ "c" ++ nl)%string.
Proof. vm_compute. reflexivity. Qed.

(** Removing again changes nothing, exactly when no line that is left ends in a carriage return. *)
Theorem C38_idempotent_exactly : forall p s, p <> ""%string -> exists k, remove_comments p s = unlines k /\ forallb no_nl k = true /\
  (remove_comments p (remove_comments p s) = remove_comments p s <-> forall z, In z k -> ~ ends_cr z).
Proof.
  intros p s P. destruct (text_lines s) as [l [y [E [L Y]]]]. subst s. rewrite removed_text by assumption. fold (left_lines p (l ++ [y])).
  assert (LY : forallb no_nl (l ++ [y]) = true) by (rewrite forallb_app, L; cbn [forallb]; rewrite Y; reflexivity).
  pose proof (fun z => left_spec p (l ++ [y]) z P LY) as K. exists (left_lines p (l ++ [y])). split; [reflexivity|]. split.
  { rewrite forallb_forall. intros z I. destruct (K z I) as [_ [_ O]]. unfold line_ok in O. apply andb_true_iff in O. apply O. }
  rewrite left_again by exact K. split.
  - intros H z I Z. destruct (again_shorter (left_lines p (l ++ [y]))) as [_ S]. specialize (S (ex_intro _ z (conj I Z))). rewrite H in S. lia.
  - intro H. f_equal. apply again_same. intros z I. split; [apply (K z I)|apply H; exact I].
Qed.
Print Assumptions C38_idempotent_exactly.

Example C38_idempotent_exactly_example : remove_comments "--" ("a" ++ cr ++ nl ++ "b")%string = unlines ["a"; "b"]%string
  /\ remove_comments "--" ("a" ++ cr ++ cr ++ nl ++ "b")%string = unlines ["a" ++ cr; "b"]%string.
Proof. vm_compute. split; reflexivity. Qed.

(** Removing again never makes a text longer. *)
Theorem C38_removing_again_never_grows : forall p s, p <> ""%string ->
  String.length (remove_comments p (remove_comments p s)) <= String.length (remove_comments p s).
Proof.
  intros p s P. destruct (text_lines s) as [l [y [E [L Y]]]]. subst s. rewrite removed_text by assumption. fold (left_lines p (l ++ [y])).
  assert (LY : forallb no_nl (l ++ [y]) = true) by (rewrite forallb_app, L; cbn [forallb]; rewrite Y; reflexivity).
  pose proof (fun z => left_spec p (l ++ [y]) z P LY) as K. rewrite left_again by exact K. apply again_shorter.
Qed.
Print Assumptions C38_removing_again_never_grows.
