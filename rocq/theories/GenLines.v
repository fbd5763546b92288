(** The key generated statements are sorted by compares line numbers as numbers. *)
From Coq Require Import Decimal DecimalN DecimalString DecimalFacts Lia Sorted Permutation.
From Verif Require Import GoStr Lines Generate GenSpec GenFacts GenOrder.

(** * Numbers written with digits *)

Definition digit (c : ascii) : bool := N.leb 48 (N_of_ascii c) && N.leb (N_of_ascii c) 57.
Definition digit_value (c : ascii) : N := N_of_ascii c - 48.
Fixpoint digits (s : string) : bool := match s with EmptyString => true | String c r => digit c && digits r end.
Fixpoint value (acc : N) (s : string) : N := match s with EmptyString => acc | String c r => value (10 * acc + digit_value c) r end.

Lemma digit_small : forall c, digit c = true -> (digit_value c < 10)%N.
Proof. intros c H. unfold digit in H. apply andb_true_iff in H. destruct H as [H1 H2]. apply N.leb_le in H1, H2. unfold digit_value. lia. Qed.
Lemma value_bounds : forall s acc, digits s = true -> (acc * 10 ^ N.of_nat (String.length s) <= value acc s < (acc + 1) * 10 ^ N.of_nat (String.length s))%N.
Proof.
  induction s as [|c s IH]; intros acc H; [cbn; lia|]. cbn [digits] in H. apply andb_true_iff in H. destruct H as [Hc H].
  cbn [value String.length]. specialize (IH (10 * acc + digit_value c)%N H). pose proof (digit_small c Hc) as B.
  rewrite Nat2N.inj_succ, N.pow_succ_r'. set (p := (10 ^ N.of_nat (String.length s))%N) in *. nia.
Qed.
Lemma compare_digits : forall a b acc, digits a = true -> digits b = true -> String.length a = String.length b ->
  String.compare a b = N.compare (value acc a) (value acc b).
Proof.
  induction a as [|c a IH]; intros [|d b] acc Ha Hb L; try discriminate L; [cbn; symmetry; apply N.compare_refl|].
  cbn [digits] in Ha, Hb. apply andb_true_iff in Ha, Hb. destruct Ha as [Hc Ha], Hb as [Hd Hb]. injection L as L.
  cbn [String.compare value]. unfold Ascii.compare.
  pose proof (value_bounds a (10 * acc + digit_value c) Ha) as Va. pose proof (value_bounds b (10 * acc + digit_value d) Hb) as Vb. rewrite <- L in Vb.
  set (p := (10 ^ N.of_nat (String.length a))%N) in *.
  unfold digit in Hc, Hd. apply andb_true_iff in Hc, Hd. destruct Hc as [C1 C2], Hd as [D1 D2]. apply N.leb_le in C1, C2, D1, D2.
  destruct (N.compare (N_of_ascii c) (N_of_ascii d)) eqn:E.
  - apply N.compare_eq in E. unfold digit_value. rewrite <- E. apply IH; assumption.
  - symmetry. apply N.compare_lt_iff. rewrite N.compare_lt_iff in E. unfold digit_value in *. nia.
  - symmetry. apply N.compare_gt_iff. rewrite N.compare_gt_iff in E. unfold digit_value in *. nia.
Qed.

Fixpoint uvalue (acc : N) (u : uint) : N :=
  match u with
  | Nil => acc
  | D0 u => uvalue (10 * acc + 0) u | D1 u => uvalue (10 * acc + 1) u | D2 u => uvalue (10 * acc + 2) u | D3 u => uvalue (10 * acc + 3) u | D4 u => uvalue (10 * acc + 4) u
  | D5 u => uvalue (10 * acc + 5) u | D6 u => uvalue (10 * acc + 6) u | D7 u => uvalue (10 * acc + 7) u | D8 u => uvalue (10 * acc + 8) u | D9 u => uvalue (10 * acc + 9) u
  end.
Lemma value_uint : forall u acc, value acc (NilEmpty.string_of_uint u) = uvalue acc u /\ digits (NilEmpty.string_of_uint u) = true.
Proof. induction u; intro acc; (split; [|exact (proj2 (IHu acc)) || reflexivity]); cbn [NilEmpty.string_of_uint value uvalue]; try reflexivity; rewrite (proj1 (IHu _)); reflexivity. Qed.
Lemma uvalue_acc : forall u p, uvalue (N.pos p) u = N.pos (Pos.of_uint_acc u p).
Proof.
  assert (forall p k, 10 * N.pos p + N.pos k = N.pos (k + Pos.of_uint_acc (D0 Nil) p))%N as K by (intros p k; cbn [Pos.of_uint_acc]; lia).
  induction u; intro p; cbn [uvalue Pos.of_uint_acc]; [reflexivity|rewrite N.add_0_r; apply IHu|..]; rewrite <- IHu; f_equal; apply K.
Qed.
Lemma uvalue_of : forall u, uvalue 0 u = N.of_uint u.
Proof.
  unfold N.of_uint. induction u; cbn [uvalue Pos.of_uint]; [reflexivity|exact IHu|..]; cbn [N.mul N.add]; rewrite uvalue_acc; reflexivity.
Qed.
Lemma value_itoa : forall n, value 0 (itoa n) = n /\ digits (itoa n) = true.
Proof.
  intro n. unfold itoa. destruct (value_uint (N.to_uint n) 0) as [E D]. split; [|exact D]. rewrite E, uvalue_of. apply Unsigned.of_to.
Qed.

Lemma nzhead_not_D0 : forall u v, nzhead u <> D0 v.
Proof. induction u; intro v; cbn [nzhead]; try discriminate. apply IHu. Qed.
Lemma to_uint_head : forall n, N.to_uint n = D0 Nil \/ (forall v, N.to_uint n <> D0 v) .
Proof.
  intro n. assert (N.to_uint n = unorm (N.to_uint n)) as E by (rewrite <- Unsigned.to_of, Unsigned.of_to; reflexivity).
  rewrite E. unfold unorm. destruct (nzhead (N.to_uint n)) eqn:H; try (right; intros v X; congruence); [left; reflexivity|].
  exfalso. exact (nzhead_not_D0 _ _ H).
Qed.
Lemma itoa_length : forall n, (n < 1000000000)%N -> String.length (itoa n) <= 9.
Proof.
  intros n H. destruct (value_itoa n) as [V D]. destruct (le_lt_dec (String.length (itoa n)) 9) as [L|L]; [exact L|]. exfalso.
  destruct (to_uint_head n) as [E|E]; [unfold itoa in L; rewrite E in L; cbn in L; lia|].
  assert (exists c r, itoa n = String c r /\ (1 <= digit_value c)%N) as (c & r & Ei & Hc).
  { unfold itoa in *. destruct (N.to_uint n) eqn:U; cbn [NilEmpty.string_of_uint] in *; [cbn in L; lia|exfalso; exact (E _ eq_refl)|..];
      (do 2 eexists; split; [reflexivity|vm_compute; discriminate]). }
  rewrite Ei in *. cbn [digits value String.length] in *. apply andb_true_iff in D. pose proof (value_bounds r (10 * 0 + digit_value c) (proj2 D)) as [B _].
  rewrite V in B. assert (10 ^ 9 <= 10 ^ N.of_nat (String.length r))%N as P by (apply N.pow_le_mono_r; lia). change (10 ^ 9)%N with 1000000000%N in P. nia.
Qed.

Lemma zeros_length : forall k, String.length (zeros k) = k.
Proof. induction k; cbn; congruence. Qed.
Lemma length_app : forall a b, String.length (a ++ b) = String.length a + String.length b.
Proof. induction a as [|c a IH]; intro b; [reflexivity|]. cbn. rewrite IH. reflexivity. Qed.
Lemma value_zeros : forall k s, value 0 (zeros k ++ s) = value 0 s.
Proof. induction k as [|k IH]; intro s; [reflexivity|]. cbn [zeros append value]. exact (IH s). Qed.
Lemma digits_zeros : forall k s, digits (zeros k ++ s) = digits s.
Proof. induction k as [|k IH]; intro s; [reflexivity|]. cbn [zeros append digits]. exact (IH s). Qed.
Lemma pad9_compare : forall m n, (m < 1000000000)%N -> (n < 1000000000)%N -> String.compare (pad9 (itoa m)) (pad9 (itoa n)) = N.compare m n.
Proof.
  intros m n Hm Hn. unfold pad9. destruct (value_itoa m) as [Vm Dm], (value_itoa n) as [Vn Dn].
  rewrite (compare_digits _ _ 0); [rewrite !value_zeros, Vm, Vn; reflexivity|rewrite digits_zeros; exact Dm|rewrite digits_zeros; exact Dn|].
  rewrite !length_app, !zeros_length. pose proof (itoa_length m Hm). pose proof (itoa_length n Hn). lia.
Qed.
Lemma compare_prefix : forall p a b, String.compare (p ++ a) (p ++ b) = String.compare a b.
Proof.
  induction p as [|c p IH]; intros a b; [reflexivity|]. cbn [append String.compare]. unfold Ascii.compare. rewrite N.compare_refl. apply IH.
Qed.
Lemma key_lines : forall a b, stmt_file a = stmt_file b -> (stmt_line a < 1000000000)%N -> (stmt_line b < 1000000000)%N ->
  String.ltb (sort_key a) (sort_key b) = N.ltb (stmt_line a) (stmt_line b).
Proof.
  intros a b F Ha Hb. unfold String.ltb, sort_key. rewrite F, !compare_prefix, pad9_compare by assumption. reflexivity.
Qed.

Lemma sorted_lines : forall l file, Forall (fun s => stmt_file s = file /\ (stmt_line s < 1000000000)%N) l ->
  StronglySorted (fun a b => String.ltb (sort_key b) (sort_key a) = false) l -> StronglySorted (fun a b => (stmt_line a <= stmt_line b)%N) l.
Proof.
  intros l file F S. induction S as [|a l S IH H]; [constructor|]. inversion F as [|? ? [Fa La] F']; subst. constructor; [apply IH; exact F'|].
  rewrite Forall_forall in *. intros b I. destruct (F' b I) as [Fb Lb]. specialize (H b I). rewrite key_lines in H by (assumption || congruence).
  apply N.ltb_ge. exact H.
Qed.
