(** The library's sort (GoSort.v) sorts: for a comparison that is asymmetric and whose
    negation is transitive no element of the result is less than an earlier one. *)
From Coq Require Import Lia Permutation Sorted Arith.
From Verif Require Import GoStr GoSort GoSortFacts.

Section Sorts.
Context {A : Type}.
Variable less : A -> A -> bool.
Variable rnd : nat -> nat -> nat.
Hypothesis asym : forall x y, less x y = true -> less y x = false.
Hypothesis trans : forall x y z, less y x = false -> less z y = false -> less z x = false.
Variable d : A.

Definition le (x y : A) : Prop := less y x = false.
Lemma le_trans : forall x y z, le x y -> le y z -> le x z.
Proof. exact trans. Qed.
Lemma lt_le : forall x y, less x y = true -> le x y.
Proof. exact asym. Qed.
Lemma le_refl : forall x, le x x.
Proof. intro x. unfold le. destruct (less x x) eqn:E; [|reflexivity]. exact (eq_trans (eq_sym E) (asym _ _ E)). Qed.

Local Notation "l @ i" := (nth i l d) (at level 20).

Lemma lt_nth : forall l i j, i < List.length l -> j < List.length l -> lt_at less l i j = less (l@i) (l@j).
Proof.
  intros l i j Hi Hj. unfold lt_at. rewrite (nth_error_nth' l d Hi), (nth_error_nth' l d Hj). reflexivity.
Qed.
Lemma set_nth : forall l i x k, i < List.length l -> (set_at l i x)@k = if Nat.eqb i k then x else l@k.
Proof.
  intro l. induction l as [|y l IH]; intros [|i] x [|k] H; cbn in *; try lia; try reflexivity. apply IH. lia.
Qed.
Lemma set_length : forall (l : list A) i x, List.length (set_at l i x) = List.length l.
Proof. intro l. induction l as [|y l IH]; intros [|i] x; cbn; try reflexivity. rewrite IH. reflexivity. Qed.
Lemma swap_nth : forall l i j k, i < List.length l -> j < List.length l ->
  (swap l i j)@k = if Nat.eqb j k then l@i else if Nat.eqb i k then l@j else l@k.
Proof.
  intros l i j k Hi Hj. unfold swap. rewrite (nth_error_nth' l d Hi), (nth_error_nth' l d Hj).
  rewrite set_nth by (rewrite set_length; exact Hj). rewrite set_nth by exact Hi. reflexivity.
Qed.

(** * Changes inside a range *)
Definition inside (a b : nat) (l l' : list A) : Prop :=
  List.length l' = List.length l /\ (forall k, ~ a <= k < b -> l'@k = l@k) /\ (forall k, a <= k < b -> exists k', a <= k' < b /\ l'@k = l@k').
Lemma inside_refl : forall a b l, inside a b l l.
Proof. intros a b l. split; [reflexivity|]. split; [reflexivity|]. intros k H. exists k. split; [exact H|reflexivity]. Qed.
Lemma inside_trans : forall a b l1 l2 l3, inside a b l1 l2 -> inside a b l2 l3 -> inside a b l1 l3.
Proof.
  intros a b l1 l2 l3 (L & O & I) (L' & O' & I'). split; [rewrite L', L; reflexivity|]. split.
  - intros k H. rewrite O', O by exact H. reflexivity.
  - intros k H. destruct (I' k H) as (k' & H' & ->). apply I, H'.
Qed.
Lemma inside_wider : forall a b a' b' l l', a' <= a -> b <= b' -> inside a b l l' -> inside a' b' l l'.
Proof.
  intros a b a' b' l l' Ha Hb (L & O & I). split; [exact L|]. split.
  - intros k H. apply O. lia.
  - intros k H. destruct (Nat.le_decidable a k) as [X|X]; [destruct (Nat.lt_decidable k b) as [Y|Y]|].
    + destruct (I k (conj X Y)) as (k' & H' & E). exists k'. split; [lia|exact E].
    + exists k. split; [exact H|]. apply O. lia.
    + exists k. split; [exact H|]. apply O. lia.
Qed.
Lemma inside_swap : forall a b l i j, b <= List.length l -> a <= i < b -> a <= j < b -> inside a b l (swap l i j).
Proof.
  intros a b l i j L Hi Hj. split; [apply swap_length|]. split.
  - intros k H. rewrite swap_nth by lia. destruct (Nat.eqb_spec j k); [lia|]. destruct (Nat.eqb_spec i k); [lia|reflexivity].
  - intros k H. rewrite swap_nth by lia. destruct (Nat.eqb_spec j k); [exists i; split; [exact Hi|reflexivity]|].
    destruct (Nat.eqb_spec i k); [exists j; split; [exact Hj|reflexivity]|exists k; split; [exact H|reflexivity]].
Qed.
Lemma inside_length : forall a b l l', inside a b l l' -> List.length l' = List.length l.
Proof. intros a b l l' H. apply H. Qed.
Lemma inside_out : forall a b l l' k, inside a b l l' -> ~ a <= k < b -> l'@k = l@k.
Proof. intros a b l l' k H. apply H. Qed.
Lemma inside_all : forall (P : A -> Prop) a b l l', inside a b l l' -> (forall k, a <= k < b -> P (l@k)) -> forall k, a <= k < b -> P (l'@k).
Proof. intros P a b l l' (_ & _ & I) H k K. destruct (I k K) as (k' & K' & ->). apply H, K'. Qed.

(** What lies in front of the range is not greater. *)
Definition below (a b : nat) (l : list A) : Prop := forall i j, i < a -> a <= j < b -> le (l@i) (l@j).
Lemma below_inside : forall a b l l', below a b l -> inside a b l l' -> below a b l'.
Proof.
  intros a b l l' B I i j Hi Hj. rewrite (inside_out _ _ _ _ i I) by lia. apply (inside_all (fun x => le (l@i) x) a b l l' I); [|exact Hj]. intros k K. apply B; lia.
Qed.
Definition ordered (a b : nat) (l : list A) : Prop := forall i j, a <= i -> i < j -> j < b -> le (l@i) (l@j).
Lemma ordered_same : forall a b l l', ordered a b l -> (forall k, a <= k < b -> l'@k = l@k) -> ordered a b l'.
Proof. intros a b l l' O S i j H1 H2 H3. rewrite !S by lia. apply O; lia. Qed.
Lemma ordered_step : forall a b l, ordered a b l -> le (l@(b - 1)) (l@b) -> ordered a (S b) l.
Proof.
  intros a b l O H i j H1 H2 H3. destruct (Nat.eq_dec j b) as [->|N]; [|apply O; lia].
  destruct (Nat.eq_dec i (b - 1)) as [->|M]; [exact H|]. apply (le_trans _ (l@(b - 1))); [apply O; lia|exact H].
Qed.

(** * Insertion sort *)
Lemma sink_inside : forall n j a b l, b <= List.length l -> a + n <= j -> j < b -> inside a b l (sink less n j l).
Proof.
  induction n as [|n IH]; intros j a b l L H1 H2; cbn [sink]; [apply inside_refl|]. destruct (lt_at less l j (j - 1)); [|apply inside_refl].
  apply (inside_trans _ _ _ (swap l j (j - 1))); [apply inside_swap; [exact L| |]|apply IH; [rewrite swap_length; exact L| |]]; lia.
Qed.
(** Everything up to [i] is ordered but for the element at [j]. *)
Definition but (a i j : nat) (l : list A) : Prop :=
  (forall p q, a <= p -> p < q -> q <= i -> p <> j -> q <> j -> le (l@p) (l@q)) /\ (forall q, j < q -> q <= i -> le (l@j) (l@q)).
Lemma sink_ordered : forall n j a i l, i < List.length l -> j = a + n -> j <= i -> but a i j l -> ordered a (S i) (sink less n j l).
Proof.
  induction n as [|n IH]; intros j a i l L E J (B1 & B2); cbn [sink].
  - intros p q H1 H2 H3. destruct (Nat.eq_dec p j) as [->|N]; [apply B2; lia|]. apply B1; lia.
  - rewrite lt_nth by lia. destruct (less (l@j) (l@(j - 1))) eqn:X.
    + apply IH; [rewrite swap_length; exact L|lia|lia|]. split.
      * intros p q H1 H2 H3 H4 H5. rewrite !swap_nth by lia.
        destruct (Nat.eqb_spec (j - 1) p); [lia|]. destruct (Nat.eqb_spec (j - 1) q); [lia|].
        destruct (Nat.eqb_spec j p); destruct (Nat.eqb_spec j q); subst; try lia; apply B1; lia.
      * intros q H1 H2. rewrite !swap_nth by lia. rewrite Nat.eqb_refl. destruct (Nat.eqb_spec (j - 1) q); [lia|].
        destruct (Nat.eqb_spec j q) as [<-|N]; [apply lt_le, X|apply B2; lia].
    + intros p q H1 H2 H3. destruct (Nat.eq_dec p j) as [->|N]; [apply B2; lia|]. destruct (Nat.eq_dec q j) as [->|M]; [|apply B1; lia].
      destruct (Nat.eq_dec p (j - 1)) as [->|K]; [exact X|]. apply (le_trans _ (l@(j - 1))); [apply B1; lia|exact X].
Qed.
Lemma insertion_sorts : forall n i a b l, b <= List.length l -> a < i -> i + n = b -> ordered a i l ->
  inside a b l (insertion_from less n i a l) /\ ordered a b (insertion_from less n i a l).
Proof.
  induction n as [|n IH]; intros i a b l L H E O; cbn [insertion_from].
  - split; [apply inside_refl|]. replace b with i by lia. exact O.
  - assert (I : inside a b l (sink less (i - a) i l)) by (apply sink_inside; lia).
    destruct (IH (S i) a b (sink less (i - a) i l)) as (J & K).
    + rewrite (inside_length _ _ _ _ I). exact L.
    + lia.
    + lia.
    + apply sink_ordered; [lia|lia|lia|]. split; [|intros; lia]. intros p q H1 H2 H3 H4 H5. apply O; lia.
    + split; [eapply inside_trans; eassumption|exact K].
Qed.
Lemma insertion_sort_sorts : forall a b l, b <= List.length l -> inside a b l (insertion_sort less a b l) /\ ordered a b (insertion_sort less a b l).
Proof.
  intros a b l L. unfold insertion_sort. destruct (Nat.le_decidable (S a) b) as [H|H].
  - apply insertion_sorts; try lia. intros p q H1 H2 H3. lia.
  - replace (b - S a) with 0 by lia. cbn [insertion_from]. split; [apply inside_refl|]. intros p q H1 H2 H3. lia.
Qed.

(** * Heap sort *)
(** The elements from [r] on are not less than those below them; [x] is excepted. *)
Definition parent (c : nat) : nat := (c - 1) / 2.
Definition heap (r hi first : nat) (l : list A) : Prop := forall c, 0 < c -> c < hi -> r <= parent c -> le (l@(first + c)) (l@(first + parent c)).
Lemma parent_child : forall c p, 0 < c -> (parent c = p <-> c = 2 * p + 1 \/ c = 2 * p + 2).
Proof.
  intros c p H. unfold parent. pose proof (Nat.div_mod (c - 1) 2 ltac:(lia)) as E. pose proof (Nat.mod_upper_bound (c - 1) 2 ltac:(lia)) as B.
  split; intro X; [lia|]. assert (2 * p <= c - 1 < 2 * p + 2) as Y by lia. clear X. nia.
Qed.
Lemma parent_less : forall c, 0 < c -> parent c < c.
Proof. intros c H. destruct (proj1 (parent_child c (parent c) H) eq_refl); lia. Qed.
Lemma sift_inside : forall n root hi first b l, b <= List.length l -> first + hi <= b -> root < hi \/ hi = 0 -> inside first (first + hi) l (sift_down less n root hi first l).
Proof.
  induction n as [|n IH]; intros root hi first b l L B R; [apply inside_refl|]. cbn [sift_down].
  destruct (Nat.leb hi (2 * root + 1)) eqn:E; [apply inside_refl|]. apply Nat.leb_gt in E.
  set (c := if _ && _ then _ else _).
  assert (C : c < hi /\ (c = 2 * root + 1 \/ c = 2 * root + 2)).
  { unfold c. destruct (Nat.ltb_spec (2 * root + 1 + 1) hi); cbn [andb]; [|lia]. destruct (lt_at _ _ _ _); lia. }
  clearbody c. destruct (negb _); [apply inside_refl|]. apply (inside_trans _ _ _ (swap l (first + root) (first + c))); [apply inside_swap; lia|]. apply (IH _ _ _ b); [rewrite swap_length; exact L|exact B|lia].
Qed.
(** All are in place but what is below [x]; the children of [x] are not greater than the parent of [x]. *)
Definition heap_but (r x hi first : nat) (l : list A) : Prop :=
  (forall c, 0 < c -> c < hi -> r <= parent c -> parent c <> x -> le (l@(first + c)) (l@(first + parent c)))
  /\ (forall c, 0 < c -> c < hi -> parent c = x -> 0 < x -> r <= parent x -> le (l@(first + c)) (l@(first + parent x))).
Lemma sift_heap : forall n r x hi first l, first + hi <= List.length l -> hi <= x + n -> r <= x -> heap_but r x hi first l -> heap r hi first (sift_down less n x hi first l).
Proof.
  induction n as [|n IH]; intros r x hi first l L F R (B1 & B2).
  - cbn [sift_down]. intros c H1 H2 H3. apply B1; try assumption. intro E. pose proof (parent_less c H1). lia.
  - cbn [sift_down]. destruct (Nat.leb_spec hi (2 * x + 1)) as [E|E].
    { intros c H1 H2 H3. apply B1; try assumption. intro Q. apply parent_child in Q; [lia|exact H1]. }
    set (c := if _ && _ then _ else _).
    assert (C : c < hi /\ (c = 2 * x + 1 \/ c = 2 * x + 2) /\ (forall c', c' < hi -> c' = 2 * x + 1 \/ c' = 2 * x + 2 -> le (l@(first + c')) (l@(first + c)))).
    { unfold c. destruct (Nat.ltb_spec (2 * x + 1 + 1) hi) as [Y|Y]; cbn [andb].
      - rewrite lt_nth by lia. destruct (less _ _) eqn:Z; (split; [lia|]; split; [lia|]); intros c' H1 [->| ->].
        + apply lt_le. rewrite <- Z. f_equal; f_equal; lia.
        + replace (2 * x + 1 + 1) with (2 * x + 2) by lia. apply le_refl.
        + apply le_refl.
        + unfold le. rewrite <- Z. f_equal; f_equal; lia.
      - split; [lia|]. split; [lia|]. intros c' H1 [->| ->]; [apply le_refl|lia]. }
    clearbody c. destruct C as (C1 & C2 & C3). rewrite lt_nth by lia. destruct (less (l@(first + x)) (l@(first + c))) eqn:X; cbn [negb].
    + apply IH; [rewrite swap_length; exact L|lia|lia|]. assert (PC : parent c = x) by (apply parent_child; lia). split.
      * intros k H1 H2 H3 H4. assert (Pk : parent k < k) by (apply parent_less; exact H1).
        rewrite !swap_nth by lia.
        destruct (Nat.eqb_spec (first + c) (first + parent k)); [lia|].
        destruct (Nat.eqb_spec (first + c) (first + k)) as [Y|Y].
        -- assert (k = c) by lia. subst k. rewrite PC in *. rewrite Nat.eqb_refl. apply lt_le, X.
        -- destruct (Nat.eqb_spec (first + x) (first + k)) as [Z|Z].
           ++ assert (k = x) by lia. subst k. destruct (Nat.eqb_spec (first + x) (first + parent x)); [lia|]. apply B2; try assumption; lia.
           ++ destruct (Nat.eqb_spec (first + x) (first + parent k)) as [W|W].
              ** apply C3; [exact H2|]. apply parent_child; lia.
              ** apply B1; try assumption. lia.
      * intros k H1 H2 H3 H4 H5. rewrite PC in *. assert (Pk : parent k < k) by (apply parent_less; exact H1). rewrite !swap_nth by lia.
        destruct (Nat.eqb_spec (first + c) (first + k)); [lia|]. destruct (Nat.eqb_spec (first + x) (first + k)); [lia|].
        destruct (Nat.eqb_spec (first + c) (first + x)); [lia|]. rewrite Nat.eqb_refl.
        pose proof (B1 k H1 H2) as Q. rewrite H3 in Q. apply Q; lia.
    + intros k H1 H2 H3. destruct (Nat.eq_dec (parent k) x) as [P|P]; [|apply B1; assumption].
      rewrite P. apply (le_trans _ (l@(first + c))); [|exact X]. apply C3; [exact H2|]. apply parent_child; assumption.
Qed.
Lemma heapify_heap : forall n hi first b l, b <= List.length l -> first + hi <= b -> n <= hi \/ hi = 0 -> heap n hi first l ->
  inside first (first + hi) l (heapify less n hi first l) /\ heap 0 hi first (heapify less n hi first l).
Proof.
  induction n as [|n IH]; intros hi first b l L B N H; cbn [heapify]; [split; [apply inside_refl|exact H]|].
  assert (I : inside first (first + hi) l (sift_down less (hi - n) n hi first l)) by (apply (sift_inside _ _ _ _ b); lia).
  destruct (IH hi first b (sift_down less (hi - n) n hi first l)) as (J & K).
  - rewrite (inside_length _ _ _ _ I). exact L.
  - exact B.
  - lia.
  - apply sift_heap; [lia|lia|lia|]. split.
    + intros c H1 H2 H3 H4. apply H; [assumption..|lia].
    + intros c H1 H2 H3 H4 H5. pose proof (parent_less n H4). lia.
  - split; [eapply inside_trans; eassumption|exact K].
Qed.
Lemma heap_top : forall hi first l, heap 0 hi first l -> forall c, c < hi -> le (l@(first + c)) (l@first).
Proof.
  intros hi first l H c. induction c as [c IH] using lt_wf_ind. intro C. destruct (Nat.eq_dec c 0) as [->|N]; [rewrite Nat.add_0_r; apply le_refl|].
  assert (P : parent c < c) by (apply parent_less; lia). apply (le_trans _ (l@(first + parent c))); [apply H; lia|apply IH; lia].
Qed.
(** The heap is in front, what is behind is ordered and not less. *)
Lemma pop_sorts : forall n first hi l, first + hi <= List.length l -> n <= hi -> heap 0 n first l -> ordered (first + n) (first + hi) l ->
  (forall p q, p < n -> n <= q < hi -> le (l@(first + p)) (l@(first + q))) ->
  inside first (first + hi) l (pop_heap less n first l) /\ ordered first (first + hi) (pop_heap less n first l).
Proof.
  induction n as [|n IH]; intros first hi l L N H O B; cbn [pop_heap].
  - split; [apply inside_refl|]. rewrite Nat.add_0_r in O. exact O.
  - assert (S0 : inside first (first + hi) l (swap l first (first + n))) by (apply inside_swap; lia).
    assert (I0 : inside first (first + n) (swap l first (first + n)) (sift_down less n 0 n first (swap l first (first + n)))).
    { apply (sift_inside _ _ _ _ (first + hi)); [rewrite swap_length; lia|lia|]. lia. }
    assert (T : forall c, c < n -> le ((swap l first (first + n))@(first + c)) ((swap l first (first + n))@(first + n))).
    { intros c Hc. rewrite !swap_nth by lia. rewrite Nat.eqb_refl. destruct (Nat.eqb_spec (first + n) (first + c)); [lia|].
      destruct (Nat.eqb_spec first (first + c)) as [E|E]; apply (heap_top (S n)); try assumption; lia. }
    assert (Q : forall k, n < k -> k < hi -> (swap l first (first + n))@(first + k) = l@(first + k)).
    { intros k H1 H2. rewrite swap_nth by lia. destruct (Nat.eqb_spec (first + n) (first + k)); [lia|]. destruct (Nat.eqb_spec first (first + k)); [lia|reflexivity]. }
    assert (R : forall c k, c <= n -> n < k -> k < hi -> le ((swap l first (first + n))@(first + c)) (l@(first + k))).
    { intros c k H1 H2 H3. rewrite swap_nth by lia. destruct (Nat.eqb_spec (first + n) (first + c)) as [E|E].
      - specialize (B 0 k). rewrite Nat.add_0_r in B. apply B; lia.
      - destruct (Nat.eqb_spec first (first + c)); apply B; lia. }
    remember (swap l first (first + n)) as l1 eqn:E1. remember (sift_down less n 0 n first l1) as l2 eqn:E2.
    assert (L1 : List.length l1 = List.length l) by (apply (inside_length _ _ _ _ S0)). assert (L2 : List.length l2 = List.length l) by (rewrite <- L1; apply (inside_length _ _ _ _ I0)).
    assert (O2 : forall k, n <= k -> l2@(first + k) = l1@(first + k)) by (intros k Hk; apply (inside_out _ _ _ _ _ I0); lia).
    destruct (IH first hi l2) as (J & K).
    + lia.
    + lia.
    + rewrite E2. apply sift_heap; [lia|lia|lia|]. split.
      * intros c H1 H2 H3 H4. assert (P : parent c < c) by (apply parent_less; exact H1).
        assert (G : forall k, 0 < k -> k < n -> l1@(first + k) = l@(first + k)).
        { intros k K1 K2. rewrite E1, swap_nth by lia. destruct (Nat.eqb_spec (first + n) (first + k)); [lia|]. destruct (Nat.eqb_spec first (first + k)); [lia|reflexivity]. }
        rewrite !G by lia. apply H; lia.
      * intros c H1 H2 H3 H4. lia.
    + intros p q H1 H2 H3. assert (exists u, p = first + u) as (u & ->) by (exists (p - first); lia). assert (exists v, q = first + v) as (v & ->) by (exists (q - first); lia).
      rewrite (O2 u), (O2 v), (Q v) by lia. destruct (Nat.eq_dec u n) as [->|M]; [apply R; lia|]. rewrite Q by lia. apply O; lia.
    + intros p q H1 H2. rewrite (O2 q) by lia.
      apply (inside_all (fun x => le x (l1@(first + q))) first (first + n) l1 l2 I0); [|lia].
      intros k K1. assert (exists u, k = first + u) as (u & ->) by (exists (k - first); lia). destruct (Nat.eq_dec q n) as [->|M]; [apply T; lia|]. rewrite (Q q) by lia. apply R; lia.
    + split; [|exact K]. eapply inside_trans; [exact S0|]. eapply inside_trans; [|exact J]. eapply inside_wider; [| |exact I0]; lia.
Qed.
Lemma heap_sort_sorts : forall a b l, a <= b -> b <= List.length l -> inside a b l (heap_sort less a b l) /\ ordered a b (heap_sort less a b l).
Proof.
  intros a b l AB L. unfold heap_sort. pose proof (Nat.div_mod (b - a - 1) 2 ltac:(lia)) as E. pose proof (Nat.mod_upper_bound (b - a - 1) 2 ltac:(lia)) as M.
  destruct (heapify_heap (S ((b - a - 1) / 2)) (b - a) a b l L) as (I & H).
  - lia.
  - lia.
  - intros c H1 H2 H3. exfalso. destruct (proj1 (parent_child c (parent c) H1) eq_refl); lia.
  - destruct (pop_sorts (b - a) a (b - a) (heapify less (S ((b - a - 1) / 2)) (b - a) a l)) as (J & K).
    + rewrite (inside_length _ _ _ _ I). lia.
    + lia.
    + exact H.
    + intros p q H1 H2 H3. lia.
    + intros p q H1 H2. lia.
    + replace (a + (b - a)) with b in * by lia. split; [eapply inside_trans; eassumption|exact K].
Qed.

(** * Partitions *)
Lemma up_spec : forall p n i, (forall k, i <= k < up p n i -> p k = true) /\ (up p n i < i + n -> p (up p n i) = false).
Proof.
  intros p. induction n as [|n IH]; intro i; cbn [up]; [split; intros; lia|]. destruct (p i) eqn:E.
  - destruct (IH (S i)) as (H1 & H2). split; [|intro H; apply H2; lia]. intros k K. destruct (Nat.eq_dec k i) as [->|N]; [exact E|apply H1; lia].
  - split; [intros; lia|intros _; exact E].
Qed.
Lemma down_spec : forall p n j, n <= j -> (forall k, down p n j < k <= j -> p k = true) /\ (j - n < down p n j -> p (down p n j) = false).
Proof.
  intros p. induction n as [|n IH]; intros j N; cbn [down]; [split; intros; lia|]. destruct (p j) eqn:E.
  - destruct (IH (j - 1)) as (H1 & H2); [lia|]. split; [|intro H; apply H2; lia]. intros k K. destruct (Nat.eq_dec k j) as [->|M]; [exact E|apply H1; lia].
  - split; [intros; lia|intros _; exact E].
Qed.

Section Part.
(** A property of elements that splits the range (a, b). *)
Variable low : A -> bool.
Lemma part_round : forall a b i j (l : list A) p q, b <= List.length l -> a < i -> i <= j + 1 -> j < b ->
  (forall k, a < k < b -> p k = low (l@k)) -> (forall k, a < k < b -> q k = negb (low (l@k))) ->
  (forall k, a < k < i -> low (l@k) = true) -> (forall k, j < k < b -> low (l@k) = false) ->
  let i' := up p (j + 1 - i) i in let j' := down q (j + 1 - i') j in
  (forall k, a < k < i' -> low (l@k) = true) /\ (forall k, j' < k < b -> low (l@k) = false) /\ i <= i' /\ j' <= j /\ i' <= j' + 1
  /\ (j' < i' \/ i' < j' /\ low (l@i') = false /\ low (l@j') = true).
Proof.
  intros a b i j l p q L H1 H2 H3 P Q LO HI i' j'.
  assert (Bi : i <= i' <= i + (j + 1 - i)) by apply up_bounds. assert (Bj : j - (j + 1 - i') <= j' <= j) by apply down_bounds.
  destruct (up_spec p (j + 1 - i) i) as (U1 & U2). destruct (down_spec q (j + 1 - i') j) as (D1 & D2); [lia|]. fold i' in U1, U2. fold j' in D1, D2.
  assert (X1 : forall k, a < k < i' -> low (l@k) = true).
  { intros k K. destruct (Nat.lt_decidable k i) as [K1|K1]; [apply LO; lia|]. rewrite <- P by lia. apply U1. lia. }
  assert (X2 : forall k, j' < k < b -> low (l@k) = false).
  { intros k K. destruct (Nat.lt_decidable j k) as [K1|K1]; [apply HI; lia|]. assert (Y : q k = true) by (apply D1; lia). rewrite Q in Y by lia. apply negb_true_iff, Y. }
  split; [exact X1|]. split; [exact X2|]. split; [lia|]. split; [lia|]. split; [lia|].
  destruct (Nat.lt_decidable j' i') as [K|K]; [left; exact K|right].
  assert (E1 : low (l@i') = false) by (rewrite <- P by lia; apply U2; lia).
  assert (E2 : q j' = false) by (apply D2; lia). rewrite Q in E2 by lia. apply negb_false_iff in E2. split; [|split; assumption].
  destruct (Nat.eq_dec i' j') as [Z|Z]; [|lia]. rewrite Z in E1. congruence.
Qed.
Lemma part_swap : forall a b i j (l : list A), b <= List.length l -> a < i -> i < j -> j < b ->
  (forall k, a < k < i -> low (l@k) = true) -> (forall k, j < k < b -> low (l@k) = false) -> low (l@i) = false -> low (l@j) = true ->
  (forall k, a < k < S i -> low ((swap l i j)@k) = true) /\ (forall k, j - 1 < k < b -> low ((swap l i j)@k) = false).
Proof.
  intros a b i j l L H1 H2 H3 LO HI E1 E2. split; intros k K; rewrite swap_nth by lia.
  - destruct (Nat.eqb_spec j k); [lia|]. destruct (Nat.eqb_spec i k); [exact E2|apply LO; lia].
  - destruct (Nat.eqb_spec j k); [exact E1|]. destruct (Nat.eqb_spec i k); [lia|apply HI; lia].
Qed.
End Part.

(** Below the place [m] are the elements less than the pivot, above it those that are not. *)
Lemma partition_loop_parts : forall n a b i j l pv, b <= List.length l -> a < i -> i <= j + 1 -> j < b -> j + 1 - i < n -> l@a = pv ->
  (forall k, a < k < i -> less (l@k) pv = true) -> (forall k, j < k < b -> less (l@k) pv = false) ->
  let r := partition_loop less n a i j l in
  inside (S a) b l (fst r) /\ (forall k, a < k <= snd r -> less (fst r@k) pv = true) /\ (forall k, snd r < k < b -> less (fst r@k) pv = false) /\ a <= snd r < b.
Proof.
  induction n as [|n IH]; intros a b i j l pv L H1 H2 H3 F E LO HI r; [lia|]. subst r. cbn [partition_loop].
  pose proof (part_round (fun x => less x pv) a b i j l (fun i => lt_at less l i a) (fun j => negb (lt_at less l j a)) L H1 H2 H3) as R. cbv zeta in R.
  destruct R as (X1 & X2 & B1 & B2 & B3 & R); [intros k K; rewrite lt_nth, E by lia; reflexivity|intros k K; rewrite lt_nth, E by lia; reflexivity|exact LO|exact HI|].
  remember (up (fun i => lt_at less l i a) (j + 1 - i) i) as i' eqn:Ei. remember (down (fun j => negb (lt_at less l j a)) (j + 1 - i') j) as j' eqn:Ej. clear Ei Ej.
  destruct (Nat.ltb_spec j' i') as [C|C]; cbn [fst snd].
  - split; [apply inside_refl|]. split; [intros k K; apply X1; lia|]. split; [exact X2|lia].
  - destruct R as [R|(R1 & R2 & R3)]; [lia|]. destruct (part_swap (fun x => less x pv) a b i' j' l L ltac:(lia) R1 ltac:(lia) X1 X2 R2 R3) as (Y1 & Y2).
    destruct (IH a b (S i') (j' - 1) (swap l i' j') pv) as (I & Z); [rewrite swap_length; exact L|lia|lia|lia|lia| |exact Y1|exact Y2|].
    + rewrite swap_nth by lia. destruct (Nat.eqb_spec j' a); [lia|]. destruct (Nat.eqb_spec i' a); [lia|exact E].
    + split; [|exact Z]. apply (inside_trans _ _ _ (swap l i' j')); [apply inside_swap; lia|exact I].
Qed.
(** The pivot is put between both parts. *)
Lemma put_pivot : forall a b m l pv, b <= List.length l -> a <= m < b -> l@a = pv ->
  (forall k, a < k <= m -> less (l@k) pv = true) -> (forall k, m < k < b -> less (l@k) pv = false) ->
  inside a b l (swap l m a) /\ (swap l m a)@m = pv /\ (forall k, a <= k < m -> less ((swap l m a)@k) pv = true) /\ (forall k, m < k < b -> less ((swap l m a)@k) pv = false).
Proof.
  intros a b m l pv L M E LO HI. split; [apply inside_swap; lia|]. split; [|split].
  - rewrite swap_nth by lia. rewrite Nat.eqb_refl. destruct (Nat.eqb_spec a m) as [X|X]; [subst m; exact E|exact E].
  - intros k K. rewrite swap_nth by lia. destruct (Nat.eqb_spec a k); [apply LO; lia|]. destruct (Nat.eqb_spec m k); [lia|apply LO; lia].
  - intros k K. rewrite swap_nth by lia. destruct (Nat.eqb_spec a k); [lia|]. destruct (Nat.eqb_spec m k); [lia|apply HI; lia].
Qed.
Lemma partition_parts : forall a b p l, b <= List.length l -> a < b -> a <= p < b ->
  let r := partition less a b p l in let l' := fst (fst r) in let m := snd (fst r) in
  inside a b l l' /\ a <= m < b /\ (forall k, a <= k < m -> less (l'@k) (l'@m) = true) /\ (forall k, m < k < b -> less (l'@k) (l'@m) = false).
Proof.
  intros a b p l L AB P. cbv zeta. unfold partition. assert (I0 : inside a b l (swap l a p)) by (apply inside_swap; lia).
  remember (swap l a p) as l1 eqn:E1. clear E1. assert (L1 : b <= List.length l1) by (rewrite (inside_length _ _ _ _ I0); exact L).
  pose proof (part_round (fun x => less x (l1@a)) a b (S a) (b - 1) l1 (fun i => lt_at less l1 i a) (fun j => negb (lt_at less l1 j a)) L1 ltac:(lia) ltac:(lia) ltac:(lia)) as R. cbv zeta in R.
  replace (b - 1 + 1 - S a) with (b - S a) in R by lia.
  remember (up (fun i => lt_at less l1 i a) (b - S a) (S a)) as i eqn:Ei. clear Ei. replace (b - 1 + 1 - i) with (b - i) in R by lia.
  remember (down (fun j => negb (lt_at less l1 j a)) (b - i) (b - 1)) as j eqn:Ej. clear Ej.
  destruct R as (X1 & X2 & B1 & B2 & B3 & R); [intros k K; rewrite lt_nth by lia; reflexivity|intros k K; rewrite lt_nth by lia; reflexivity|intros; lia|intros; lia|].
  destruct (Nat.ltb_spec j i) as [C|C]; cbn [fst snd].
  - destruct (put_pivot a b j l1 (l1@a)) as (I & E & Y1 & Y2); [exact L1|lia|reflexivity|intros k K; apply X1; lia|intros k K; apply X2; lia|].
    rewrite E. split; [eapply inside_trans; eassumption|]. split; [lia|]. split; assumption.
  - destruct R as [R|(R1 & R2 & R3)]; [lia|]. destruct (part_swap (fun x => less x (l1@a)) a b i j l1 L1 ltac:(lia) R1 ltac:(lia) X1 X2 R2 R3) as (Y1 & Y2).
    assert (Ea : (swap l1 i j)@a = l1@a).
    { rewrite swap_nth by lia. destruct (Nat.eqb_spec j a); [lia|]. destruct (Nat.eqb_spec i a); [lia|reflexivity]. }
    pose proof (partition_loop_parts (S (j - i)) a b (S i) (j - 1) (swap l1 i j) (l1@a)) as Q. cbv zeta in Q.
    destruct (partition_loop less (S (j - i)) a (S i) (j - 1) (swap l1 i j)) as [l2 m]. cbn [fst snd] in *.
    destruct Q as (I2 & Z1 & Z2 & Bm); [rewrite swap_length; exact L1|lia|lia|lia|lia|exact Ea|exact Y1|exact Y2|].
    assert (I3 : inside a b l l2).
    { eapply inside_trans; [exact I0|]. apply (inside_trans _ _ _ (swap l1 i j)); [apply inside_swap; lia|]. eapply inside_wider; [| |exact I2]; lia. }
    destruct (put_pivot a b m l2 (l1@a)) as (I & E & W1 & W2); [rewrite (inside_length _ _ _ _ I3); exact L|lia| |exact Z1|exact Z2|].
    + rewrite (inside_out _ _ _ _ a I2) by lia. exact Ea.
    + rewrite E. split; [eapply inside_trans; eassumption|]. split; [lia|]. split; assumption.
Qed.

(** Below [m] are elements not greater than the pivot, from [m] on those that are. *)
Lemma equal_loop_parts : forall n a b i j l pv, b <= List.length l -> a < i -> i <= j + 1 -> j < b -> j + 1 - i < n -> l@a = pv ->
  (forall k, a < k < i -> less pv (l@k) = false) -> (forall k, j < k < b -> less pv (l@k) = true) ->
  let r := equal_loop less n a i j l in
  inside (S a) b l (fst r) /\ (forall k, a < k < snd r -> less pv (fst r@k) = false) /\ (forall k, snd r <= k < b -> less pv (fst r@k) = true) /\ a < snd r <= b.
Proof.
  induction n as [|n IH]; intros a b i j l pv L H1 H2 H3 F E LO HI r; [lia|]. subst r. cbn [equal_loop].
  pose proof (part_round (fun x => negb (less pv x)) a b i j l (fun i => negb (lt_at less l a i)) (fun j => lt_at less l a j) L H1 H2 H3) as R. cbv zeta in R.
  destruct R as (X1 & X2 & B1 & B2 & B3 & R).
  { intros k K. rewrite lt_nth, E by lia. reflexivity. }
  { intros k K. rewrite lt_nth, E by lia. rewrite negb_involutive. reflexivity. }
  { intros k K. apply negb_true_iff, LO, K. }
  { intros k K. apply negb_false_iff, HI, K. }
  remember (up (fun i => negb (lt_at less l a i)) (j + 1 - i) i) as i' eqn:Ei. remember (down (fun j => lt_at less l a j) (j + 1 - i') j) as j' eqn:Ej. clear Ei Ej.
  destruct (Nat.ltb_spec j' i') as [C|C]; cbn [fst snd].
  - split; [apply inside_refl|]. split; [intros k K; apply negb_true_iff, X1; lia|]. split; [intros k K; apply negb_false_iff, X2; lia|lia].
  - destruct R as [R|(R1 & R2 & R3)]; [lia|]. destruct (part_swap (fun x => negb (less pv x)) a b i' j' l L ltac:(lia) R1 ltac:(lia) X1 X2 R2 R3) as (Y1 & Y2).
    destruct (IH a b (S i') (j' - 1) (swap l i' j') pv) as (I & Z); [rewrite swap_length; exact L|lia|lia|lia|lia| | | |].
    + rewrite swap_nth by lia. destruct (Nat.eqb_spec j' a); [lia|]. destruct (Nat.eqb_spec i' a); [lia|exact E].
    + intros k K. apply negb_true_iff, Y1, K.
    + intros k K. apply negb_false_iff, Y2, K.
    + split; [|exact Z]. apply (inside_trans _ _ _ (swap l i' j')); [apply inside_swap; lia|exact I].
Qed.
Lemma partition_equal_parts : forall a b p l, b <= List.length l -> a < b -> a <= p < b ->
  let r := partition_equal less a b p l in
  inside a b l (fst r) /\ a < snd r <= b /\ (forall k, a <= k < snd r -> le (fst r@k) (l@p)) /\ (forall k, snd r <= k < b -> less (l@p) (fst r@k) = true).
Proof.
  intros a b p l L AB P. cbv zeta. unfold partition_equal. assert (I0 : inside a b l (swap l a p)) by (apply inside_swap; lia).
  assert (Ea : (swap l a p)@a = l@p) by (rewrite swap_nth by lia; rewrite Nat.eqb_refl; destruct (Nat.eqb_spec p a) as [->|]; reflexivity).
  destruct (equal_loop_parts (b - a) a b (S a) (b - 1) (swap l a p) (l@p)) as (I & X1 & X2 & B); [rewrite swap_length; exact L|lia|lia|lia|lia|exact Ea|intros; lia|intros; lia|].
  split; [eapply inside_trans; [exact I0|]; eapply inside_wider; [| |exact I]; lia|]. split; [exact B|]. split; [|exact X2].
  intros k K. destruct (Nat.eq_dec k a) as [->|N]; [|apply X1; lia]. rewrite (inside_out _ _ _ _ a I) by lia. rewrite Ea. apply le_refl.
Qed.

(** * Ranges that are almost sorted *)
Lemma shift_left_sinks : forall n a b l, b <= List.length l -> a <= n < b -> below a b l -> shift_left less n l = sink less (n - a) n l.
Proof.
  induction n as [|n IH]; intros a b l L N B; [reflexivity|]. cbn [shift_left]. destruct (Nat.eq_dec a (S n)) as [->|M].
  - rewrite Nat.sub_diag. cbn [sink]. rewrite lt_nth by lia. replace (less (l@(S n)) (l@n)) with false; [reflexivity|]. symmetry. apply (B n (S n)); lia.
  - replace (S n - a) with (S (n - a)) by lia. cbn [sink]. replace (S n - 1) with n by lia. destruct (lt_at less l (S n) n); [|reflexivity].
    apply (IH a b); [rewrite swap_length; exact L|lia|]. eapply below_inside; [exact B|]. apply inside_swap; lia.
Qed.
Lemma shift_right_inside : forall n j a b l, b <= List.length l -> a < j -> j + n <= b -> inside (j - 1) b l (shift_right less n j l).
Proof.
  induction n as [|n IH]; intros j a b l L H1 H2; cbn [shift_right]; [apply inside_refl|]. destruct (lt_at less l j (j - 1)); [|apply inside_refl].
  apply (inside_trans _ _ _ (swap l j (j - 1))); [apply inside_swap; lia|].
  eapply inside_wider; [| |apply (IH (S j) a b)]; [lia|lia|rewrite swap_length; exact L|lia|lia].
Qed.
Lemma partial_sorts : forall n a b i l, b <= List.length l -> a < i <= b -> below a b l -> ordered a i l ->
  inside a b l (fst (partial_loop less n a b i l)) /\ (snd (partial_loop less n a b i l) = true -> ordered a b (fst (partial_loop less n a b i l))).
Proof.
  induction n as [|n IH]; intros a b i l L H B O; cbn [partial_loop]; [split; [apply inside_refl|discriminate]|].
  set (i' := up _ _ _). assert (Bi : i <= i' <= i + (b - i)) by apply up_bounds.
  destruct (up_spec (fun i => negb (lt_at less l i (i - 1))) (b - i) i) as (U1 & U2). fold i' in U1, U2.
  assert (O' : ordered a i' l).
  { assert (G : forall m, i <= m -> m <= i' -> ordered a m l); [|apply (G i'); lia].
    intros m M. induction M as [|m M IHM]; intro X; [exact O|]. apply ordered_step; [apply IHM; lia|].
    assert (Y : negb (lt_at less l m (m - 1)) = true) by (apply U1; lia). apply negb_true_iff in Y. rewrite lt_nth in Y by lia. exact Y. }
  clearbody i'. destruct (Nat.eqb_spec i' b) as [->|N]; cbn [fst snd]; [split; [apply inside_refl|intros _; exact O']|].
  destruct (Nat.ltb (b - a) 50); cbn [fst snd]; [split; [apply inside_refl|discriminate]|].
  assert (X : less (l@i') (l@(i' - 1)) = true).
  { assert (Y : negb (lt_at less l i' (i' - 1)) = false) by (apply U2; lia). apply negb_false_iff in Y. rewrite lt_nth in Y by lia. exact Y. }
  assert (I1 : inside a b l (swap l i' (i' - 1))) by (apply inside_swap; lia).
  assert (Q : inside a b l (if Nat.leb 2 (i' - a) then shift_left less (i' - 1) (swap l i' (i' - 1)) else swap l i' (i' - 1))
              /\ ordered a i' (if Nat.leb 2 (i' - a) then shift_left less (i' - 1) (swap l i' (i' - 1)) else swap l i' (i' - 1))).
  { destruct (Nat.leb_spec 2 (i' - a)) as [G|G]; [|split; [exact I1|intros p q K1 K2 K3; lia]].
    rewrite (shift_left_sinks (i' - 1) a b); [|rewrite swap_length; exact L|lia|eapply below_inside; eassumption]. split.
    - eapply inside_trans; [exact I1|]. apply sink_inside; [rewrite swap_length; exact L|lia|lia].
    - replace i' with (S (i' - 1)) at 1 by lia. apply sink_ordered; [rewrite swap_length; lia|lia|lia|]. split; [|intros; lia].
      intros p q K1 K2 K3 K4 K5. rewrite !swap_nth by lia.
      destruct (Nat.eqb_spec (i' - 1) p); [lia|]. destruct (Nat.eqb_spec i' p); [lia|]. destruct (Nat.eqb_spec (i' - 1) q); [lia|]. destruct (Nat.eqb_spec i' q); [lia|]. apply O'; lia. }
  destruct Q as (I2 & O2). set (l2 := if Nat.leb 2 (i' - a) then _ else _) in *. clearbody l2.
  assert (L2 : b <= List.length l2) by (rewrite (inside_length _ _ _ _ I2); exact L).
  assert (Q : inside a b l (if Nat.leb 2 (b - i') then shift_right less (b - S i') (S i') l2 else l2)
              /\ ordered a i' (if Nat.leb 2 (b - i') then shift_right less (b - S i') (S i') l2 else l2)).
  { destruct (Nat.leb 2 (b - i')); [|split; assumption]. assert (J : inside i' b l2 (shift_right less (b - S i') (S i') l2)).
    { pose proof (shift_right_inside (b - S i') (S i') a b l2 L2 ltac:(lia) ltac:(lia)) as J. replace (S i' - 1) with i' in J by lia. exact J. }
    split; [eapply inside_trans; [exact I2|]; eapply inside_wider; [| |exact J]; lia|]. apply (ordered_same _ _ l2); [exact O2|]. intros k K. apply (inside_out _ _ _ _ _ J). lia. }
  destruct Q as (I3 & O3). set (l3 := if Nat.leb 2 (b - i') then _ else _) in *. clearbody l3.
  destruct (IH a b i' l3) as (I4 & O4); [rewrite (inside_length _ _ _ _ I3); exact L|lia|eapply below_inside; eassumption|exact O3|].
  split; [eapply inside_trans; eassumption|exact O4].
Qed.

(** * The rest *)
Lemma break_inside : forall a b l, b <= List.length l -> inside a b l (break_patterns rnd a b l).
Proof.
  intros a b l L. unfold break_patterns. destruct (Nat.leb_spec 8 (b - a)) as [H|H]; [|apply inside_refl].
  assert (Q : 2 <= (b - a) / 4 /\ (b - a) / 4 * 4 <= b - a).
  { pose proof (Nat.div_mod (b - a) 4 ltac:(lia)) as E. pose proof (Nat.mod_upper_bound (b - a) 4 ltac:(lia)) as M. lia. }
  cbv zeta. set (o := fun i : nat => if Nat.leb (b - a) (rnd (b - a) i mod 2 ^ bits_len (b - a)) then rnd (b - a) i mod 2 ^ bits_len (b - a) - (b - a) else rnd (b - a) i mod 2 ^ bits_len (b - a)).
  change (inside a b l (swap (swap (swap l (a + (b - a) / 4 * 2 - 1 - 1) (a + o 0)) (a + (b - a) / 4 * 2 - 1) (a + o 1)) (a + (b - a) / 4 * 2 - 1 + 1) (a + o 2))).
  assert (O : forall i, o i < b - a).
  { intro i. unfold o. assert (M : rnd (b - a) i mod 2 ^ bits_len (b - a) < 2 * (b - a)).
    { assert (P : 2 ^ bits_len (b - a) <= 2 * (b - a)).
      { assert (P : forall n, 0 < n -> 2 ^ bits_len n <= 2 * n); [|apply P; lia]. clear. intros [|m] M; [lia|]. unfold bits_len.
        rewrite Nat.pow_succ_r'. pose proof (Nat.log2_spec (S m) M). lia. }
      pose proof (Nat.mod_upper_bound (rnd (b - a) i) (2 ^ bits_len (b - a)) (Nat.pow_nonzero 2 (bits_len (b - a)) (Nat.neq_succ_0 1))). lia. }
    remember (rnd (b - a) i mod 2 ^ bits_len (b - a)) as r eqn:Er. clear Er. destruct (Nat.leb_spec (b - a) r); lia. }
  clearbody o. pose proof (O 0). pose proof (O 1). pose proof (O 2). remember ((b - a) / 4) as u eqn:Eu. clear Eu.
  apply (inside_trans _ _ _ (swap l (a + u * 2 - 1 - 1) (a + o 0))); [apply inside_swap; lia|].
  apply (inside_trans _ _ _ (swap (swap l (a + u * 2 - 1 - 1) (a + o 0)) (a + u * 2 - 1) (a + o 1))); apply inside_swap; rewrite ?swap_length; lia.
Qed.
Lemma reverse_inside : forall n i j a b l, b <= List.length l -> a <= i -> j < b -> inside a b l (reverse_loop n i j l).
Proof.
  induction n as [|n IH]; intros i j a b l L H1 H2; cbn [reverse_loop]; [apply inside_refl|]. destruct (Nat.ltb_spec i j); [|apply inside_refl].
  apply (inside_trans _ _ _ (swap l i j)); [apply inside_swap; lia|]. apply IH; [rewrite swap_length; exact L|lia|lia].
Qed.
Lemma median_in : forall l x y z s a b, a <= x < b -> a <= y < b -> a <= z < b -> a <= fst (median less l x y z s) < b.
Proof.
  intros l x y z s a b X Y Z. unfold median, order2. destruct (lt_at less l y x); cbn [fst]; [destruct (lt_at less l z x)|destruct (lt_at less l z y)];
    (match goal with |- context [if ?c then _ else _] => destruct c end; cbn [fst]; assumption).
Qed.
Lemma pivot_in : forall a b l, 12 < b - a -> a <= fst (choose_pivot less a b l) < b.
Proof.
  intros a b l H. unfold choose_pivot. rewrite (proj2 (Nat.leb_le 8 (b - a))) by lia.
  assert (Q : 3 <= (b - a) / 4 /\ (b - a) / 4 * 4 <= b - a).
  { pose proof (Nat.div_mod (b - a) 4 ltac:(lia)) as E. pose proof (Nat.mod_upper_bound (b - a) 4 ltac:(lia)) as M. lia. }
  remember ((b - a) / 4) as u eqn:Eu. clear Eu.
  assert (G : forall x s, a < x -> S x < b -> a <= fst (median_adjacent less l x s) < b) by (intros x s X1 X2; apply median_in; lia).
  destruct (Nat.leb 50 (b - a)).
  - pose proof (G (a + u * 1) 0 ltac:(lia) ltac:(lia)) as G1. destruct (median_adjacent less l (a + u * 1) 0) as [i s1].
    pose proof (G (a + u * 2) s1 ltac:(lia) ltac:(lia)) as G2. destruct (median_adjacent less l (a + u * 2) s1) as [j s2].
    pose proof (G (a + u * 3) s2 ltac:(lia) ltac:(lia)) as G3. destruct (median_adjacent less l (a + u * 3) s2) as [k s3].
    cbn [fst] in *. pose proof (median_in l i j k s3 a b G1 G2 G3) as M. destruct (median less l i j k s3) as [m s4]. exact M.
  - pose proof (median_in l (a + u * 1) (a + u * 2) (a + u * 3) 0 a b ltac:(lia) ltac:(lia) ltac:(lia)) as M. destruct (median less l _ _ _ 0) as [m s4]. exact M.
Qed.

(** Two sorted parts with the pivot between them. *)
Lemma ordered_parts : forall a b m l pv, a <= m < b -> ordered a m l -> ordered (S m) b l -> l@m = pv ->
  (forall k, a <= k < m -> le (l@k) pv) -> (forall k, m < k < b -> le pv (l@k)) -> ordered a b l.
Proof.
  intros a b m l pv M O1 O2 E LO HI i j H1 H2 H3. destruct (Nat.lt_decidable i m) as [X|X].
  - destruct (Nat.lt_decidable j m) as [Y|Y]; [apply O1; lia|]. destruct (Nat.eq_dec j m) as [->|N]; [rewrite E; apply LO; lia|].
    apply (le_trans _ pv); [apply LO; lia|apply HI; lia].
  - destruct (Nat.eq_dec i m) as [->|N]; [rewrite E; apply HI; lia|apply O2; lia].
Qed.
Lemma pdqsort_sorts : forall fuel a b limit x y l l', a <= b -> b <= List.length l -> below a b l -> pdqsort less rnd fuel a b limit x y l = Some l' ->
  inside a b l l' /\ ordered a b l'.
Proof.
  induction fuel as [|f IH]; intros a b limit x y l l' AB L B H; [discriminate H|]. cbn [pdqsort] in H.
  destruct (Nat.leb_spec (b - a) 12) as [T|T]; [injection H as <-; apply insertion_sort_sorts; exact L|].
  destruct (Nat.eqb limit 0); [injection H as <-; apply heap_sort_sorts; [exact AB|exact L]|].
  destruct (if negb x then (break_patterns rnd a b l, limit - 1) else (l, limit)) as [l1 lim] eqn:E1.
  assert (I1 : inside a b l l1) by (destruct (negb x); injection E1 as <- _; [apply break_inside; exact L|apply inside_refl]). clear E1.
  assert (P1 : a <= fst (choose_pivot less a b l1) < b) by (apply pivot_in; lia).
  destruct (choose_pivot less a b l1) as [p h]. cbn [fst] in P1.
  destruct (match h with DecreasingHint => (reverse_range a b l1, b - 1 - (p - a), IncreasingHint) | _ => (l1, p, h) end) as [[l2 p2] h2] eqn:E2.
  assert (I2 : inside a b l l2 /\ a <= p2 < b).
  { destruct h; injection E2 as <- <- _; try (split; [exact I1|exact P1]). split; [|lia]. eapply inside_trans; [exact I1|]. apply reverse_inside; [rewrite (inside_length _ _ _ _ I1); exact L|lia|lia]. }
  clear E2 I1 P1 p h l1. destruct I2 as (I2 & P2). assert (L2 : b <= List.length l2) by (rewrite (inside_length _ _ _ _ I2); exact L).
  destruct (if x && y && match h2 with IncreasingHint => true | _ => false end then partial_insertion_sort less a b l2 else (l2, false)) as [l3 s] eqn:E3.
  assert (I3 : inside a b l l3 /\ (s = true -> ordered a b l3)).
  { destruct (x && y && _); [|injection E3 as <- <-; split; [exact I2|discriminate]]. unfold partial_insertion_sort in E3.
    destruct (partial_sorts 5 a b (S a) l2) as (J & K); [exact L2|lia|eapply below_inside; eassumption|intros p q K1 K2 K3; lia|]. rewrite E3 in J, K. cbn [fst snd] in J, K.
    split; [eapply inside_trans; eassumption|exact K]. }
  clear E3 I2 L2 l2. destruct I3 as (I3 & O3). destruct s; [injection H as <-; split; [exact I3|apply O3; reflexivity]|]. clear O3.
  assert (L3 : b <= List.length l3) by (rewrite (inside_length _ _ _ _ I3); exact L). assert (B3 : below a b l3) by (eapply below_inside; eassumption).
  destruct (Nat.ltb 0 a && negb (lt_at less l3 (a - 1) p2)) eqn:C.
  - apply andb_true_iff in C. destruct C as (C1 & C2). apply Nat.ltb_lt in C1. apply negb_true_iff in C2. rewrite lt_nth in C2 by lia.
    pose proof (partition_equal_parts a b p2 l3 L3 ltac:(lia) P2) as Q. cbv zeta in Q. destruct (partition_equal less a b p2 l3) as [l4 mid]. cbn [fst snd] in Q.
    destruct Q as (I4 & M & LO & HI).
    assert (EQ : forall k, a <= k < b -> le (l3@p2) (l4@k)).
    { intros k K. apply (inside_all (fun v => le (l3@p2) v) a b l3 l4 I4); [|exact K]. intros k' K'. apply (le_trans _ (l3@(a - 1))); [exact C2|apply B3; lia]. }
    assert (B4 : below a b l4) by (eapply below_inside; eassumption).
    destruct (IH mid b lim x y l4 l') as (I5 & O5).
    + lia.
    + rewrite (inside_length _ _ _ _ I4). exact L3.
    + intros i j Hi Hj. destruct (Nat.lt_decidable i a) as [X|X]; [apply B4; lia|]. apply (le_trans _ (l3@p2)); [apply LO; lia|apply EQ; lia].
    + exact H.
    + assert (I6 : inside a b l4 l') by (eapply inside_wider; [| |exact I5]; lia). split; [eapply inside_trans; [exact I3|]; eapply inside_trans; [exact I4|exact I6]|].
      intros i j H1 H2 H3. destruct (Nat.lt_decidable i mid) as [X|X]; [|apply O5; lia].
      rewrite (inside_out _ _ _ _ i I5) by lia. apply (le_trans _ (l3@p2)); [apply LO; lia|].
      apply (inside_all (fun v => le (l3@p2) v) a b l4 l' I6); [exact EQ|lia].
  - clear C. pose proof (partition_parts a b p2 l3 L3 ltac:(lia) P2) as Q. cbv zeta in Q. destruct (partition less a b p2 l3) as [[l4 m] al]. cbn [fst snd] in Q.
    destruct Q as (I4 & M & LO & HI). assert (B4 : below a b l4) by (eapply below_inside; eassumption). assert (I34 : inside a b l l4) by (eapply inside_trans; eassumption).
    assert (L4 : b <= List.length l4) by (rewrite (inside_length _ _ _ _ I4); exact L3). clear H0 || idtac.
    assert (G : forall l5, inside a b l4 l5 -> l5@m = l4@m -> (forall k, a <= k < m -> le (l5@k) (l4@m)) -> (forall k, m < k < b -> le (l4@m) (l5@k)) ->
                  below a m l5 /\ below (S m) b l5).
    { intros l5 J Em K1 K2. assert (B5 : below a b l5) by (eapply below_inside; eassumption). split; intros i j Hi Hj; [apply B5; lia|].
      destruct (Nat.lt_decidable i a) as [X|X]; [apply B5; lia|]. destruct (Nat.eq_dec i m) as [->|N]; [rewrite Em; apply K2; lia|].
      apply (le_trans _ (l4@m)); [apply K1; lia|apply K2; lia]. }
    assert (LO' : forall k, a <= k < m -> le (l4@k) (l4@m)) by (intros k K; apply lt_le, LO, K).
    assert (HI' : forall k, m < k < b -> le (l4@m) (l4@k)) by (intros k K; apply HI, K).
    replace (m + 1) with (S m) in H by lia. destruct (Nat.ltb (m - a) (b - m)).
    + destruct (pdqsort less rnd f a m lim true true l4) as [l5|] eqn:E5; [|discriminate H].
      destruct (IH a m lim true true l4 l5) as (I5 & O5); [lia|lia|apply (G l4 (inside_refl _ _ _) eq_refl LO' HI')|exact E5|].
      assert (J5 : inside a b l4 l5) by (eapply inside_wider; [| |exact I5]; lia).
      assert (Em : l5@m = l4@m) by (apply (inside_out _ _ _ _ _ I5); lia).
      assert (LO5 : forall k, a <= k < m -> le (l5@k) (l4@m)) by (apply (inside_all (fun v => le v (l4@m)) a m l4 l5 I5 LO')).
      assert (HI5 : forall k, m < k < b -> le (l4@m) (l5@k)) by (intros k K; rewrite (inside_out _ _ _ _ k I5) by lia; apply HI', K).
      destruct (IH (S m) b lim (Nat.leb ((b - a) / 8) (m - a)) al l5 l') as (I6 & O6); [lia|rewrite (inside_length _ _ _ _ I5); exact L4|apply (G l5 J5 Em LO5 HI5)|exact H|].
      split; [eapply inside_trans; [exact I34|]; eapply inside_trans; [exact J5|]; eapply inside_wider; [| |exact I6]; lia|].
      apply (ordered_parts a b m l' (l4@m) M).
      * apply (ordered_same _ _ l5); [exact O5|]. intros k K. apply (inside_out _ _ _ _ _ I6). lia.
      * exact O6.
      * rewrite (inside_out _ _ _ _ m I6) by lia. exact Em.
      * intros k K. rewrite (inside_out _ _ _ _ k I6) by lia. apply LO5, K.
      * intros k K. apply (inside_all (fun v => le (l4@m) v) (S m) b l5 l' I6); [intros; apply HI5; lia|lia].
    + destruct (pdqsort less rnd f (S m) b lim true true l4) as [l5|] eqn:E5; [|discriminate H].
      destruct (IH (S m) b lim true true l4 l5) as (I5 & O5); [lia|exact L4|apply (G l4 (inside_refl _ _ _) eq_refl LO' HI')|exact E5|].
      assert (J5 : inside a b l4 l5) by (eapply inside_wider; [| |exact I5]; lia).
      assert (Em : l5@m = l4@m) by (apply (inside_out _ _ _ _ _ I5); lia).
      assert (LO5 : forall k, a <= k < m -> le (l5@k) (l4@m)) by (intros k K; rewrite (inside_out _ _ _ _ k I5) by lia; apply LO', K).
      assert (HI5 : forall k, m < k < b -> le (l4@m) (l5@k)).
      { intros k K. apply (inside_all (fun v => le (l4@m) v) (S m) b l4 l5 I5); [intros; apply HI'; lia|lia]. }
      destruct (IH a m lim (Nat.leb ((b - a) / 8) (b - m)) al l5 l') as (I6 & O6); [lia|rewrite (inside_length _ _ _ _ I5); lia|apply (G l5 J5 Em LO5 HI5)|exact H|].
      split; [eapply inside_trans; [exact I34|]; eapply inside_trans; [exact J5|]; eapply inside_wider; [| |exact I6]; lia|].
      apply (ordered_parts a b m l' (l4@m) M).
      * exact O6.
      * apply (ordered_same _ _ l5); [exact O5|]. intros k K. apply (inside_out _ _ _ _ _ I6). lia.
      * rewrite (inside_out _ _ _ _ m I6) by lia. exact Em.
      * apply (inside_all (fun v => le v (l4@m)) a m l5 l' I6 LO5).
      * intros k K. rewrite (inside_out _ _ _ _ k I6) by lia. apply HI5, K.
Qed.
Lemma ordered_strongly : forall l, ordered 0 (List.length l) l -> StronglySorted le l.
Proof.
  induction l as [|x l IH]; intro O; constructor.
  - apply IH. intros i j H1 H2 H3. apply (O (S i) (S j)); cbn; lia.
  - rewrite Forall_forall. intros y I. destruct (In_nth l y d I) as (n & N & <-). apply (O 0 (S n)); cbn; lia.
Qed.
End Sorts.

Theorem slice_sort_sorts : forall (A : Type) (less : A -> A -> bool) rnd,
  (forall x y, less x y = true -> less y x = false) -> (forall x y z, less y x = false -> less z y = false -> less z x = false) ->
  forall l l', slice_sort less rnd l = Some l' -> StronglySorted (fun x y => less y x = false) l'.
Proof.
  intros A less rnd asym trans l l' H. destruct l as [|d l].
  - vm_compute in H. injection H as <-. constructor.
  - unfold slice_sort in H. apply (pdqsort_sorts less rnd asym trans d) in H; [|lia|lia|intros i j Hi; lia].
    destruct H as (I & O). apply (ordered_strongly less d). rewrite (inside_length _ _ _ _ _ I). exact O.
Qed.
