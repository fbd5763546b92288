(** Facts on the library's sort (GoSort.v): it ends, only exchanges elements, and commutes with
    maps that respect the comparison. *)
From Coq Require Import Lia Permutation Arith.
From Verif Require Import GoStr GoSort.

(** * It only exchanges elements *)
Section Perm.
Context {A : Type}.
Variable less : A -> A -> bool.
Variable rnd : nat -> nat -> nat.

Lemma set_permuted : forall (l : list A) i x y, nth_error l i = Some x -> Permutation (y :: l) (x :: set_at l i y).
Proof.
  intro l. induction l as [|z l IH]; intros [|i] x y H; try discriminate H; cbn [nth_error set_at] in *.
  - injection H as ->. apply perm_swap.
  - eapply Permutation_trans; [apply perm_swap|]. eapply Permutation_trans; [apply perm_skip, (IH i x y H)|]. apply perm_swap.
Qed.
Lemma nth_set : forall (l : list A) i j x, nth_error (set_at l i x) j = if Nat.eqb i j then match nth_error l j with Some _ => Some x | None => None end else nth_error l j.
Proof.
  intro l. induction l as [|z l IH]; intros [|i] [|j] x; cbn [set_at nth_error Nat.eqb]; try reflexivity; [destruct (Nat.eqb i j); reflexivity|apply IH].
Qed.
Lemma swap_permuted : forall (l : list A) i j, Permutation (swap l i j) l.
Proof.
  intros l i j. unfold swap. destruct (nth_error l i) as [x|] eqn:Ei; [|apply Permutation_refl]. destruct (nth_error l j) as [y|] eqn:Ej; [|apply Permutation_refl].
  apply (Permutation_cons_inv (a := y)). eapply Permutation_trans; [|apply Permutation_sym, (set_permuted l i x y Ei)].
  apply Permutation_sym, set_permuted. rewrite nth_set, Ej. destruct (Nat.eqb i j); reflexivity.
Qed.
Lemma swap_length : forall (l : list A) i j, List.length (swap l i j) = List.length l.
Proof. intros l i j. apply Permutation_length, swap_permuted. Qed.

Local Notation "a ~ b" := (Permutation a b) (at level 70).
Ltac tr := repeat (eapply Permutation_trans; [apply swap_permuted|]); apply Permutation_refl.
Lemma sink_permuted : forall n j l, sink less n j l ~ l.
Proof. induction n as [|n IH]; intros j l; cbn [sink]; [tr|]. destruct (lt_at _ _ _ _); [|tr]. eapply Permutation_trans; [apply IH|tr]. Qed.
Lemma insertion_permuted : forall n i a l, insertion_from less n i a l ~ l.
Proof. induction n as [|n IH]; intros i a l; cbn [insertion_from]; [tr|]. eapply Permutation_trans; [apply IH|apply sink_permuted]. Qed.
Lemma sift_permuted : forall n root hi first l, sift_down less n root hi first l ~ l.
Proof.
  induction n as [|n IH]; intros root hi first l; cbn [sift_down]; [tr|]. destruct (Nat.leb _ _); [tr|]. destruct (negb _); [tr|]. eapply Permutation_trans; [apply IH|tr].
Qed.
Lemma heapify_permuted : forall n hi first l, heapify less n hi first l ~ l.
Proof. induction n as [|n IH]; intros hi first l; cbn [heapify]; [tr|]. eapply Permutation_trans; [apply IH|apply sift_permuted]. Qed.
Lemma pop_permuted : forall n first l, pop_heap less n first l ~ l.
Proof. induction n as [|n IH]; intros first l; cbn [pop_heap]; [tr|]. eapply Permutation_trans; [apply IH|]. eapply Permutation_trans; [apply sift_permuted|tr]. Qed.
Lemma heap_permuted : forall a b l, heap_sort less a b l ~ l.
Proof. intros a b l. unfold heap_sort. eapply Permutation_trans; [apply pop_permuted|apply heapify_permuted]. Qed.
Lemma partition_loop_permuted : forall n a i j l, fst (partition_loop less n a i j l) ~ l.
Proof.
  induction n as [|n IH]; intros a i j l; cbn [partition_loop]; [tr|]. destruct (Nat.ltb _ _); [tr|]. eapply Permutation_trans; [apply IH|tr].
Qed.
Lemma partition_permuted : forall a b p l, fst (fst (partition less a b p l)) ~ l.
Proof.
  intros a b p l. unfold partition. destruct (Nat.ltb _ _); cbn [fst]; [tr|].
  match goal with |- context [partition_loop less ?n ?a ?i ?j ?l] => pose proof (partition_loop_permuted n a i j l) as H; destruct (partition_loop less n a i j l) as [l' j'] end.
  cbn [fst] in *. eapply Permutation_trans; [apply swap_permuted|]. eapply Permutation_trans; [exact H|]. tr.
Qed.
Lemma equal_loop_permuted : forall n a i j l, fst (equal_loop less n a i j l) ~ l.
Proof.
  induction n as [|n IH]; intros a i j l; cbn [equal_loop]; [tr|]. destruct (Nat.ltb _ _); [tr|]. eapply Permutation_trans; [apply IH|tr].
Qed.
Lemma partition_equal_permuted : forall a b p l, fst (partition_equal less a b p l) ~ l.
Proof. intros a b p l. unfold partition_equal. eapply Permutation_trans; [apply equal_loop_permuted|tr]. Qed.
Lemma shift_left_permuted : forall n l, shift_left less n l ~ l.
Proof. induction n as [|n IH]; intro l; cbn [shift_left]; [tr|]. destruct (lt_at _ _ _ _); [|tr]. eapply Permutation_trans; [apply IH|tr]. Qed.
Lemma shift_right_permuted : forall n j l, shift_right less n j l ~ l.
Proof. induction n as [|n IH]; intros j l; cbn [shift_right]; [tr|]. destruct (lt_at _ _ _ _); [|tr]. eapply Permutation_trans; [apply IH|tr]. Qed.
Lemma partial_permuted : forall n a b i l, fst (partial_loop less n a b i l) ~ l.
Proof.
  induction n as [|n IH]; intros a b i l; cbn [partial_loop]; [tr|]. destruct (Nat.eqb _ _); [tr|]. destruct (Nat.ltb _ _); [tr|].
  eapply Permutation_trans; [apply IH|]. destruct (Nat.leb 2 (b - _)); [eapply Permutation_trans; [apply shift_right_permuted|]|];
    (destruct (Nat.leb 2 (_ - a)); [eapply Permutation_trans; [apply shift_left_permuted|tr]|tr]).
Qed.
Lemma break_permuted : forall a b (l : list A), break_patterns rnd a b l ~ l.
Proof. intros a b l. unfold break_patterns. destruct (Nat.leb 8 _); tr. Qed.
Lemma reverse_permuted : forall n i j (l : list A), reverse_loop n i j l ~ l.
Proof. induction n as [|n IH]; intros i j l; cbn [reverse_loop]; [tr|]. destruct (Nat.ltb _ _); [|tr]. eapply Permutation_trans; [apply IH|tr]. Qed.
Lemma pdqsort_permuted : forall fuel a b limit x y l l', pdqsort less rnd fuel a b limit x y l = Some l' -> l' ~ l.
Proof.
  induction fuel as [|f IH]; intros a b limit x y l l' H; [discriminate H|]. cbn [pdqsort] in H.
  destruct (Nat.leb (b - a) 12); [injection H as <-; apply insertion_permuted|]. destruct (Nat.eqb limit 0); [injection H as <-; apply heap_permuted|].
  destruct (if negb x then (break_patterns rnd a b l, limit - 1) else (l, limit)) as [l1 lim] eqn:E1.
  assert (P1 : l1 ~ l) by (destruct (negb x); injection E1 as <- _; [apply break_permuted|tr]). clear E1.
  destruct (choose_pivot less a b l1) as [p h].
  destruct (match h with DecreasingHint => (reverse_range a b l1, b - 1 - (p - a), IncreasingHint) | _ => (l1, p, h) end) as [[l2 p2] h2] eqn:E2.
  assert (P2 : l2 ~ l) by (destruct h; injection E2 as <- _ _; try exact P1; eapply Permutation_trans; [apply reverse_permuted|exact P1]). clear E2.
  destruct (if x && y && match h2 with IncreasingHint => true | _ => false end then partial_insertion_sort less a b l2 else (l2, false)) as [l3 s] eqn:E3.
  assert (P3 : l3 ~ l).
  { destruct (x && y && _); [|injection E3 as <- _; exact P2]. pose proof (partial_permuted 5 a b (S a) l2) as Q. unfold partial_insertion_sort in E3. rewrite E3 in Q.
    eapply Permutation_trans; [exact Q|exact P2]. }
  clear E3. destruct s; [injection H as <-; exact P3|]. destruct (Nat.ltb 0 a && _).
  - pose proof (partition_equal_permuted a b p2 l3) as Q. destruct (partition_equal less a b p2 l3) as [l4 mid]. cbn [fst] in Q.
    eapply Permutation_trans; [eapply IH, H|]. eapply Permutation_trans; [exact Q|exact P3].
  - pose proof (partition_permuted a b p2 l3) as Q. destruct (partition less a b p2 l3) as [[l4 mid] al]. cbn [fst] in Q.
    destruct (Nat.ltb _ _); match type of H with context [pdqsort less rnd f ?a ?b ?c true true l4] => destruct (pdqsort less rnd f a b c true true l4) as [l5|] eqn:E end; try discriminate H;
      apply IH in H; apply IH in E; (eapply Permutation_trans; [exact H|]; eapply Permutation_trans; [exact E|]; eapply Permutation_trans; [exact Q|exact P3]).
Qed.

(** * It ends *)
Lemma up_bounds : forall p n i, i <= up p n i <= i + n.
Proof. intros p. induction n as [|n IH]; intro i; cbn [up]; [lia|]. destruct (p i); [specialize (IH (S i))|]; lia. Qed.
Lemma down_bounds : forall p n j, j - n <= down p n j <= j.
Proof. intros p. induction n as [|n IH]; intro j; cbn [down]; [lia|]. destruct (p j); [specialize (IH (j - 1))|]; lia. Qed.
Lemma partition_loop_bounds : forall n a i j b l, a < i -> a <= j < b -> i <= S (S j) -> a <= snd (partition_loop less n a i j l) < b.
Proof.
  induction n as [|n IH]; intros a i j b l H1 H2 H3; cbn [partition_loop]; [exact H2|].
  set (i' := up _ _ i). set (j' := down _ _ j). assert (Bi : i <= i' <= i + (j + 1 - i)) by apply up_bounds. assert (Bj : j - (j + 1 - i') <= j' <= j) by apply down_bounds.
  destruct (Nat.ltb j' i') eqn:L; cbn [snd]; [lia|]. apply Nat.ltb_ge in L. apply IH; lia.
Qed.
Lemma partition_bounds : forall a b p l, a < b -> a <= snd (fst (partition less a b p l)) < b.
Proof.
  intros a b p l H. unfold partition. set (l1 := swap l a p). set (i := up _ _ _). set (j := down _ _ _).
  assert (Bi : S a <= i <= S a + (b - S a)) by apply up_bounds. assert (Bj : b - 1 - (b - i) <= j <= b - 1) by apply down_bounds.
  destruct (Nat.ltb j i) eqn:L; cbn [fst snd]; [lia|]. apply Nat.ltb_ge in L.
  match goal with |- context [partition_loop less ?n ?a ?i ?j ?l] => pose proof (partition_loop_bounds n a i j b l) as Q; destruct (partition_loop less n a i j l) as [l' j'] end.
  cbn [fst snd] in *. apply Q; lia.
Qed.
Lemma equal_loop_bounds : forall n a i j l, a < i -> a < snd (equal_loop less n a i j l).
Proof.
  induction n as [|n IH]; intros a i j l H; cbn [equal_loop]; [exact H|].
  set (i' := up _ _ i). assert (Bi : i <= i' <= i + (j + 1 - i)) by apply up_bounds. destruct (Nat.ltb _ _); cbn [snd]; [lia|]. apply IH. lia.
Qed.
Lemma pdqsort_ends : forall fuel a b limit x y l, b - a < fuel -> exists l', pdqsort less rnd fuel a b limit x y l = Some l'.
Proof.
  induction fuel as [|f IH]; intros a b limit x y l H; [lia|]. cbn [pdqsort].
  destruct (Nat.leb (b - a) 12) eqn:L; [eexists; reflexivity|]. apply Nat.leb_gt in L. destruct (Nat.eqb limit 0); [eexists; reflexivity|].
  destruct (if negb x then (break_patterns rnd a b l, limit - 1) else (l, limit)) as [l1 lim].
  destruct (choose_pivot less a b l1) as [p h].
  destruct (match h with DecreasingHint => (reverse_range a b l1, b - 1 - (p - a), IncreasingHint) | _ => (l1, p, h) end) as [[l2 p2] h2].
  destruct (if x && y && match h2 with IncreasingHint => true | _ => false end then partial_insertion_sort less a b l2 else (l2, false)) as [l3 s].
  destruct s; [eexists; reflexivity|]. destruct (Nat.ltb 0 a && _).
  - assert (B : a < snd (partition_equal less a b p2 l3)) by (apply equal_loop_bounds; lia). destruct (partition_equal less a b p2 l3) as [l4 mid]. apply IH. cbn [snd] in B. lia.
  - assert (B : a <= snd (fst (partition less a b p2 l3)) < b) by (apply partition_bounds; lia). destruct (partition less a b p2 l3) as [[l4 mid] al]. cbn [fst snd] in B.
    destruct (Nat.ltb _ _).
    + destruct (IH a mid lim true true l4) as [l5 ->]; [lia|]. apply IH. lia.
    + destruct (IH (mid + 1) b lim true true l4) as [l5 ->]; [lia|]. apply IH. lia.
Qed.
Lemma slice_sort_ends : forall l, exists l', slice_sort less rnd l = Some l'.
Proof. intro l. apply pdqsort_ends. lia. Qed.
Lemma slice_sort_permuted : forall l l', slice_sort less rnd l = Some l' -> l' ~ l.
Proof. intros l l' H. eapply pdqsort_permuted, H. Qed.
End Perm.

(** * It commutes with maps that respect the comparison *)
Lemma up_ext : forall p q, (forall i, p i = q i) -> forall n i, up p n i = up q n i.
Proof. intros p q H. induction n as [|n IH]; intro i; cbn [up]; [reflexivity|]. rewrite H, IH. reflexivity. Qed.
Lemma down_ext : forall p q, (forall i, p i = q i) -> forall n i, down p n i = down q n i.
Proof. intros p q H. induction n as [|n IH]; intro i; cbn [down]; [reflexivity|]. rewrite H, IH. reflexivity. Qed.
Section Natural.
Context {A B : Type}.
Variable f : A -> B.
Variable la : A -> A -> bool.
Variable lb : B -> B -> bool.
Variable rnd : nat -> nat -> nat.
Hypothesis Hf : forall x y, lb (f x) (f y) = la x y.

Lemma set_map : forall l i x, set_at (map f l) i (f x) = map f (set_at l i x).
Proof. intro l. induction l as [|z l IH]; intros [|i] x; cbn [set_at map]; try reflexivity. rewrite IH. reflexivity. Qed.
Lemma swap_map : forall l i j, swap (map f l) i j = map f (swap l i j).
Proof.
  intros l i j. unfold swap. rewrite !nth_error_map. destruct (nth_error l i); cbn [option_map]; [|reflexivity]. destruct (nth_error l j); cbn [option_map]; [|reflexivity].
  rewrite !set_map. reflexivity.
Qed.
Lemma lt_map : forall l i j, lt_at lb (map f l) i j = lt_at la l i j.
Proof.
  intros l i j. unfold lt_at. rewrite !nth_error_map. destruct (nth_error l i); cbn [option_map]; [|reflexivity]. destruct (nth_error l j); cbn [option_map]; [|reflexivity]. apply Hf.
Qed.
Lemma up_lt : forall l a n i, up (fun i => lt_at lb (map f l) i a) n i = up (fun i => lt_at la l i a) n i.
Proof. intros. apply up_ext. intro. apply lt_map. Qed.
Lemma up_nlt : forall l a n i, up (fun i => negb (lt_at lb (map f l) a i)) n i = up (fun i => negb (lt_at la l a i)) n i.
Proof. intros. apply up_ext. intro. rewrite lt_map. reflexivity. Qed.
Lemma up_prev : forall l n i, up (fun i => negb (lt_at lb (map f l) i (i - 1))) n i = up (fun i => negb (lt_at la l i (i - 1))) n i.
Proof. intros. apply up_ext. intro. rewrite lt_map. reflexivity. Qed.
Lemma down_nlt : forall l a n i, down (fun j => negb (lt_at lb (map f l) j a)) n i = down (fun j => negb (lt_at la l j a)) n i.
Proof. intros. apply down_ext. intro. rewrite lt_map. reflexivity. Qed.
Lemma down_lt : forall l a n i, down (fun j => lt_at lb (map f l) a j) n i = down (fun j => lt_at la l a j) n i.
Proof. intros. apply down_ext. intro. apply lt_map. Qed.
Ltac nat_ := rewrite ?lt_map, ?swap_map, ?up_lt, ?up_nlt, ?up_prev, ?down_nlt, ?down_lt.
Lemma sink_map : forall n j l, sink lb n j (map f l) = map f (sink la n j l).
Proof. induction n as [|n IH]; intros j l; cbn [sink]; [reflexivity|]. nat_. destruct (lt_at _ _ _ _); [apply IH|reflexivity]. Qed.
Lemma insertion_map : forall n i a l, insertion_from lb n i a (map f l) = map f (insertion_from la n i a l).
Proof. induction n as [|n IH]; intros i a l; cbn [insertion_from]; [reflexivity|]. rewrite sink_map. apply IH. Qed.
Lemma sift_map : forall n root hi first l, sift_down lb n root hi first (map f l) = map f (sift_down la n root hi first l).
Proof.
  induction n as [|n IH]; intros root hi first l; cbn [sift_down]; [reflexivity|]. destruct (Nat.leb _ _); [reflexivity|]. nat_.
  destruct (negb _); [reflexivity|]. nat_. apply IH.
Qed.
Lemma heapify_map : forall n hi first l, heapify lb n hi first (map f l) = map f (heapify la n hi first l).
Proof. induction n as [|n IH]; intros hi first l; cbn [heapify]; [reflexivity|]. rewrite sift_map. apply IH. Qed.
Lemma pop_map : forall n first l, pop_heap lb n first (map f l) = map f (pop_heap la n first l).
Proof. induction n as [|n IH]; intros first l; cbn [pop_heap]; [reflexivity|]. nat_. rewrite sift_map. apply IH. Qed.
Definition on_fst {X Y Z : Type} (g : X -> Y) (p : X * Z) : Y * Z := (g (fst p), snd p).
Lemma partition_loop_map : forall n a i j l, partition_loop lb n a i j (map f l) = on_fst (map f) (partition_loop la n a i j l).
Proof.
  induction n as [|n IH]; intros a i j l; cbn [partition_loop]; [reflexivity|]. nat_. destruct (Nat.ltb _ _); [reflexivity|]. nat_. apply IH.
Qed.
Lemma partition_map : forall a b p l, partition lb a b p (map f l) = on_fst (on_fst (map f)) (partition la a b p l).
Proof.
  intros a b p l. unfold partition. nat_. destruct (Nat.ltb _ _); [nat_; reflexivity|]. nat_. rewrite partition_loop_map.
  destruct (partition_loop la _ _ _ _ _) as [l' j']. cbn [on_fst fst snd]. nat_. reflexivity.
Qed.
Lemma equal_loop_map : forall n a i j l, equal_loop lb n a i j (map f l) = on_fst (map f) (equal_loop la n a i j l).
Proof.
  induction n as [|n IH]; intros a i j l; cbn [equal_loop]; [reflexivity|]. nat_. destruct (Nat.ltb _ _); [reflexivity|]. nat_. apply IH.
Qed.
Lemma partition_equal_map : forall a b p l, partition_equal lb a b p (map f l) = on_fst (map f) (partition_equal la a b p l).
Proof. intros a b p l. unfold partition_equal. nat_. apply equal_loop_map. Qed.
Lemma shift_left_map : forall n l, shift_left lb n (map f l) = map f (shift_left la n l).
Proof. induction n as [|n IH]; intro l; cbn [shift_left]; [reflexivity|]. nat_. destruct (lt_at _ _ _ _); [apply IH|reflexivity]. Qed.
Lemma shift_right_map : forall n j l, shift_right lb n j (map f l) = map f (shift_right la n j l).
Proof. induction n as [|n IH]; intros j l; cbn [shift_right]; [reflexivity|]. nat_. destruct (lt_at _ _ _ _); [apply IH|reflexivity]. Qed.
Lemma partial_map : forall n a b i l, partial_loop lb n a b i (map f l) = on_fst (map f) (partial_loop la n a b i l).
Proof.
  induction n as [|n IH]; intros a b i l; cbn [partial_loop]; [reflexivity|]. nat_. destruct (Nat.eqb _ _); [reflexivity|]. destruct (Nat.ltb _ _); [reflexivity|].
  nat_. rewrite shift_left_map. destruct (Nat.leb 2 (_ - a)); rewrite shift_right_map; (destruct (Nat.leb 2 (b - _)); apply IH).
Qed.
Lemma break_map : forall a b l, break_patterns rnd a b (map f l) = map f (break_patterns rnd a b l).
Proof. intros a b l. unfold break_patterns. destruct (Nat.leb 8 _); [|reflexivity]. rewrite !swap_map. reflexivity. Qed.
Lemma reverse_map : forall n i j l, reverse_loop n i j (map f l) = map f (reverse_loop n i j l).
Proof. induction n as [|n IH]; intros i j l; cbn [reverse_loop]; [reflexivity|]. destruct (Nat.ltb _ _); [|reflexivity]. rewrite swap_map. apply IH. Qed.
Lemma median_map : forall l a b c s, median lb (map f l) a b c s = median la l a b c s.
Proof.
  intros l a b c s. unfold median, order2. rewrite lt_map. destruct (lt_at la l b a); rewrite lt_map; (destruct (lt_at la l c _); rewrite lt_map; reflexivity).
Qed.
Lemma pivot_map : forall a b l, choose_pivot lb a b (map f l) = choose_pivot la a b l.
Proof.
  intros a b l. unfold choose_pivot, median_adjacent. rewrite !median_map. destruct (Nat.leb 8 _); [|reflexivity]. destruct (Nat.leb 50 _); [|rewrite median_map; reflexivity].
  destruct (median la l (_ - 1) _ _ 0) as [i s]. rewrite median_map. destruct (median la l _ _ _ s) as [j s']. rewrite median_map. destruct (median la l _ _ _ s') as [k s'']. rewrite median_map. reflexivity.
Qed.
Lemma pdqsort_map : forall fuel a b limit x y l, pdqsort lb rnd fuel a b limit x y (map f l) = option_map (map f) (pdqsort la rnd fuel a b limit x y l).
Proof.
  induction fuel as [|n IH]; intros a b limit x y l; [reflexivity|]. cbn [pdqsort].
  destruct (Nat.leb (b - a) 12); [unfold insertion_sort; rewrite insertion_map; reflexivity|].
  destruct (Nat.eqb limit 0); [unfold heap_sort; rewrite heapify_map, pop_map; reflexivity|].
  replace (if negb x then (break_patterns rnd a b (map f l), limit - 1) else (map f l, limit))
    with (on_fst (map f) (if negb x then (break_patterns rnd a b l, limit - 1) else (l, limit))) by (rewrite break_map; destruct (negb x); reflexivity).
  destruct (if negb x then (break_patterns rnd a b l, limit - 1) else (l, limit)) as [l1 lim]. cbn [on_fst fst snd]. rewrite pivot_map.
  destruct (choose_pivot la a b l1) as [p h].
  replace (match h with DecreasingHint => (reverse_range a b (map f l1), b - 1 - (p - a), IncreasingHint) | _ => (map f l1, p, h) end)
    with (on_fst (on_fst (map f)) (match h with DecreasingHint => (reverse_range a b l1, b - 1 - (p - a), IncreasingHint) | _ => (l1, p, h) end))
    by (unfold reverse_range; rewrite reverse_map; destruct h; reflexivity).
  destruct (match h with DecreasingHint => (reverse_range a b l1, b - 1 - (p - a), IncreasingHint) | _ => (l1, p, h) end) as [[l2 p2] h2]. cbn [on_fst fst snd].
  set (go := x && y && _).
  replace (if go then partial_insertion_sort lb a b (map f l2) else (map f l2, false)) with (on_fst (map f) (if go then partial_insertion_sort la a b l2 else (l2, false)))
    by (unfold partial_insertion_sort; rewrite partial_map; destruct go; reflexivity).
  destruct (if go then partial_insertion_sort la a b l2 else (l2, false)) as [l3 s]. cbn [on_fst fst snd].
  destruct s; [reflexivity|]. rewrite lt_map. destruct (Nat.ltb 0 a && _).
  - rewrite partition_equal_map. destruct (partition_equal la a b p2 l3) as [l4 mid]. cbn [on_fst fst snd]. apply IH.
  - rewrite partition_map. destruct (partition la a b p2 l3) as [[l4 mid] al]. cbn [on_fst fst snd].
    destruct (Nat.ltb _ _); rewrite IH; (destruct (pdqsort la rnd n _ _ lim true true l4) as [l5|]; cbn [option_map]; [apply IH|reflexivity]).
Qed.
Lemma slice_sort_map : forall l, slice_sort lb rnd (map f l) = option_map (map f) (slice_sort la rnd l).
Proof. intro l. unfold slice_sort. rewrite map_length. apply pdqsort_map. Qed.
End Natural.

(** * With the comparison of Constraints.Append: the left element has a mark *)
Section Marked.
Context {A : Type}.
Variable p : A -> bool.
Variable rnd : nat -> nat -> nat.
Definition left_marked (x _ : A) : bool := p x.
Local Notation less := left_marked.

(** No element behind the first is marked. *)
Definition rest_unmarked (l : list A) : Prop := forall i x, 0 < i -> nth_error l i = Some x -> p x = false.
Lemma rest_lt : forall l i j, rest_unmarked l -> 0 < i -> lt_at less l i j = false.
Proof. intros l i j H Hi. unfold lt_at. destruct (nth_error l i) as [x|] eqn:E; [|reflexivity]. destruct (nth_error l j); [apply (H i x Hi E)|reflexivity]. Qed.
Lemma up_all : forall q n i, (forall k, i <= k -> q k = true) -> up q n i = i + n.
Proof. intros q. induction n as [|n IH]; intros i H; cbn [up]; [lia|]. rewrite H by lia. rewrite IH by (intros; apply H; lia). lia. Qed.
Lemma median_rest : forall l a b c s, rest_unmarked l -> 0 < b -> 0 < c -> median less l a b c s = (b, s).
Proof. intros l a b c s H Hb Hc. unfold median, order2. rewrite !rest_lt by assumption. reflexivity. Qed.
Lemma quarter : forall n, 4 <= n -> 1 <= n / 4.
Proof. intros n H. apply (Nat.div_le_mono 4 n 4 ltac:(lia)) in H. exact H. Qed.
Lemma pivot_rest : forall l a b, rest_unmarked l -> 12 < b - a -> choose_pivot less a b l = (a + (b - a) / 4 * 2, IncreasingHint).
Proof.
  intros l a b H Hn. pose proof (quarter (b - a) ltac:(lia)) as Q. unfold choose_pivot, median_adjacent. destruct (Nat.leb 8 (b - a)) eqn:L; [|apply Nat.leb_gt in L; lia].
  destruct (Nat.leb 50 (b - a)); rewrite ?(median_rest l) by (assumption || lia); reflexivity.
Qed.
Lemma partial_rest : forall s l a b, rest_unmarked l -> S a <= b -> partial_loop less (S s) a b (S a) l = (l, true).
Proof.
  intros s l a b H Hb. cbn [partial_loop]. rewrite up_all by (intros k Hk; rewrite rest_lt by (assumption || lia); reflexivity).
  replace (S a + (b - S a)) with b by lia. rewrite Nat.eqb_refl. reflexivity.
Qed.
(** Nothing is moved then. *)
Lemma insertion_rest : forall l n i a, rest_unmarked l -> 0 < i -> insertion_from less n i a l = l.
Proof.
  intros l n. induction n as [|n IH]; intros i a H Hi; cbn [insertion_from]; [reflexivity|]. assert (S : sink less (i - a) i l = l) by (destruct (i - a); cbn [sink]; [reflexivity|]; rewrite rest_lt by assumption; reflexivity).
  rewrite S. apply IH; [exact H|lia].
Qed.
Lemma slice_sort_rest : forall l, rest_unmarked l -> slice_sort less rnd l = Some l.
Proof.
  intros l H. unfold slice_sort. set (n := List.length l). cbn [pdqsort]. rewrite Nat.sub_0_r. destruct (Nat.leb n 12) eqn:L.
  - unfold insertion_sort. rewrite insertion_rest by (assumption || lia). reflexivity.
  - apply Nat.leb_gt in L. replace (Nat.eqb (bits_len n) 0) with false by (unfold bits_len; destruct n; [lia|reflexivity]). cbn [negb andb].
    rewrite pivot_rest by (assumption || lia). cbn [andb]. unfold partial_insertion_sort. rewrite partial_rest by (assumption || lia). reflexivity.
Qed.

(** Up to twelve elements: each marked element in turn moves to the front. *)
Fixpoint marked_first (done todo : list A) : list A :=
  match todo with
  | [] => done
  | c :: r => if p c then marked_first (c :: done) r else marked_first (done ++ [c])%list r
  end.
Lemma nth_mid : forall (a : list A) x b, nth_error (a ++ x :: b) (List.length a) = Some x.
Proof. intros a x b. rewrite nth_error_app2, Nat.sub_diag by lia. reflexivity. Qed.
Lemma set_mid : forall (a : list A) x b y, set_at (a ++ x :: b) (List.length a) y = (a ++ y :: b)%list.
Proof. intro a. induction a as [|z a IH]; intros x b y; [reflexivity|]. cbn [List.app List.length set_at]. rewrite IH. reflexivity. Qed.
Lemma swap_next : forall (a : list A) x y b, swap (a ++ x :: y :: b) (S (List.length a)) (List.length a) = (a ++ y :: x :: b)%list.
Proof.
  intros a x y b. unfold swap. rewrite nth_mid.
  replace (nth_error (a ++ x :: y :: b) (S (List.length a))) with (Some y) by (rewrite nth_error_app2, Nat.sub_succ_l, Nat.sub_diag by lia; reflexivity).
  replace (a ++ x :: y :: b)%list with ((a ++ [x]) ++ y :: b)%list by (rewrite <- app_assoc; reflexivity).
  replace (S (List.length a)) with (List.length (a ++ [x])) by (rewrite app_length; cbn; lia). rewrite set_mid, <- app_assoc. cbn [List.app]. apply set_mid.
Qed.
Lemma lt_marked : forall (a b : list A) c j, p c = true -> j < List.length a -> lt_at less (a ++ c :: b) (List.length a) j = true.
Proof.
  intros a b c j H L. unfold lt_at. rewrite nth_mid. destruct (nth_error (a ++ c :: b) j) eqn:E; [exact H|]. apply nth_error_None in E. rewrite app_length in E. lia.
Qed.
Lemma sink_marked : forall n (a b : list A) c, List.length a = n -> p c = true -> sink less n n (a ++ c :: b) = (c :: a ++ b)%list.
Proof.
  induction n as [|n IH]; intros a b c L H; cbn [sink]; [destruct a; [reflexivity|discriminate L]|].
  destruct (@exists_last _ a) as (a' & x & E); [intros ->; discriminate L|]. subst a. rewrite app_length in L. cbn [List.length] in L. assert (La : List.length a' = n) by lia.
  rewrite <- app_assoc. cbn [List.app]. replace (S n - 1) with n by lia.
  assert (T : lt_at less (a' ++ x :: c :: b) (S n) n = true).
  { replace (a' ++ x :: c :: b)%list with ((a' ++ [x]) ++ c :: b)%list by (rewrite <- app_assoc; reflexivity).
    replace (S n) with (List.length (a' ++ [x])) by (rewrite app_length; cbn; lia). apply lt_marked; [exact H|]. rewrite app_length. cbn. lia. }
  rewrite T. replace (swap (a' ++ x :: c :: b) (S n) n) with (a' ++ c :: x :: b)%list by (rewrite <- La, swap_next; reflexivity). rewrite IH by assumption. rewrite <- app_assoc. reflexivity.
Qed.
Lemma sink_unmarked : forall n (a b : list A) c, p c = false -> sink less n (List.length a) (a ++ c :: b) = (a ++ c :: b)%list.
Proof.
  intros n a b c H. destruct n; [reflexivity|]. cbn [sink]. replace (lt_at less (a ++ c :: b) (List.length a) (List.length a - 1)) with false; [reflexivity|].
  unfold lt_at. rewrite nth_mid. destruct (nth_error _ _); [symmetry; exact H|reflexivity].
Qed.
Lemma insertion_marked : forall todo done, done <> [] -> insertion_from less (List.length todo) (List.length done) 0 (done ++ todo) = marked_first done todo.
Proof.
  induction todo as [|c r IH]; intros done H; cbn [List.length insertion_from marked_first]; [apply app_nil_r|]. rewrite Nat.sub_0_r. destruct (p c) eqn:P.
  - rewrite sink_marked by auto. change (S (List.length done)) with (List.length (c :: done)). change (c :: done ++ r)%list with ((c :: done) ++ r)%list. apply IH. discriminate.
  - rewrite sink_unmarked by exact P. replace (done ++ c :: r)%list with ((done ++ [c]) ++ r)%list by (rewrite <- app_assoc; reflexivity).
    replace (S (List.length done)) with (List.length (done ++ [c])) by (rewrite app_length; cbn; lia). apply IH. destruct done; discriminate.
Qed.
Lemma slice_sort_few : forall c r, List.length (c :: r) <= 12 -> slice_sort less rnd (c :: r) = Some (marked_first [c] r).
Proof.
  intros c r H. unfold slice_sort. set (n := List.length (c :: r)) in *. cbn [pdqsort]. rewrite Nat.sub_0_r. destruct (Nat.leb n 12) eqn:L; [|apply Nat.leb_gt in L; lia].
  unfold insertion_sort. f_equal. replace (n - 1) with (List.length r) by (subst n; cbn; lia). apply (insertion_marked r [c]). discriminate.
Qed.

(** A marked element at the end only: it becomes the first. *)
Lemma swap_rest : forall (l : list A) i j, rest_unmarked l -> 0 < i -> 0 < j -> rest_unmarked (swap l i j) /\ nth_error (swap l i j) 0 = nth_error l 0.
Proof.
  intros l i j H Hi Hj. unfold swap. destruct (nth_error l i) as [x|] eqn:Ei; [|split; [exact H|reflexivity]]. destruct (nth_error l j) as [y|] eqn:Ej; [|split; [exact H|reflexivity]]. split.
  - intros k z Hk Hz. rewrite !nth_set in Hz. destruct (Nat.eqb j k); [|destruct (Nat.eqb i k)].
    + destruct (if Nat.eqb i k then _ else _); [injection Hz as <-; apply (H i x Hi Ei)|discriminate Hz].
    + destruct (nth_error l k); [injection Hz as <-; apply (H j y Hj Ej)|discriminate Hz].
    + apply (H k z Hk Hz).
  - rewrite !nth_set. destruct i; [lia|]. destruct j; [lia|]. reflexivity.
Qed.
Definition kept (l l' : list A) : Prop := rest_unmarked l' /\ nth_error l' 0 = nth_error l 0.
Lemma kept_swap : forall l l' i j, kept l l' -> 0 < i -> 0 < j -> kept l (swap l' i j).
Proof. intros l l' i j [H1 H2] Hi Hj. destruct (swap_rest l' i j H1 Hi Hj) as [A1 A2]. split; [exact A1|congruence]. Qed.
Lemma sift_rest : forall n root hi first l, rest_unmarked l -> 0 < first -> sift_down less n root hi first l = l.
Proof.
  intros [|n] root hi first l H Hf; cbn [sift_down]; [reflexivity|]. destruct (Nat.leb _ _); [reflexivity|]. rewrite (rest_lt l (first + root)) by (assumption || lia). reflexivity.
Qed.
Lemma heapify_rest : forall n hi first l, rest_unmarked l -> 0 < first -> heapify less n hi first l = l.
Proof. induction n as [|n IH]; intros hi first l H Hf; cbn [heapify]; [reflexivity|]. rewrite sift_rest by assumption. apply IH; assumption. Qed.
Lemma pop_rest : forall n first l l', kept l l' -> 0 < first -> kept l (pop_heap less n first l').
Proof.
  induction n as [|n IH]; intros first l l' H Hf; cbn [pop_heap]; [exact H|]. assert (K : kept l (swap l' first (first + n))) by (apply kept_swap; [exact H|lia..]).
  rewrite sift_rest by (apply K || exact Hf). apply IH; assumption.
Qed.
Lemma down_all : forall q n j, (forall k, j < k + n -> k <= j -> q k = true) -> down q n j = j - n.
Proof. intros q. induction n as [|n IH]; intros j H; cbn [down]; [lia|]. rewrite H by lia. rewrite IH by (intros k K1 K2; apply H; lia). lia. Qed.
Lemma up_none : forall q n i, q i = false -> up q n i = i.
Proof. intros q [|n] i H; cbn [up]; [reflexivity|]. rewrite H. reflexivity. Qed.
Lemma pdqsort_kept : forall fuel a b limit x y l l0 l', 0 < a -> kept l0 l -> pdqsort less rnd fuel a b limit x y l = Some l' -> kept l0 l'.
Proof.
  induction fuel as [|f IH]; intros a b limit x y l l0 l' Ha K H; [discriminate H|]. cbn [pdqsort] in H.
  destruct (Nat.leb (b - a) 12) eqn:L; [injection H as <-; unfold insertion_sort; rewrite insertion_rest by (apply K || lia); exact K|]. apply Nat.leb_gt in L.
  destruct (Nat.eqb limit 0); [injection H as <-; unfold heap_sort; rewrite heapify_rest by (apply K || exact Ha); apply pop_rest; assumption|].
  destruct (if negb x then (break_patterns rnd a b l, limit - 1) else (l, limit)) as [l1 lim] eqn:E1.
  assert (K1 : kept l0 l1).
  { destruct (negb x); injection E1 as <- _; [|exact K]. unfold break_patterns. pose proof (quarter (b - a) ltac:(lia)) as Q. pose proof (quarter (b - a) ltac:(lia)) as Q'.
    assert (Q2 : 3 <= (b - a) / 4) by (apply (Nat.div_le_mono 12 (b - a) 4); lia).
    destruct (Nat.leb 8 (b - a)); [|exact K]. repeat (apply kept_swap; [|lia..]). exact K. }
  clear E1. rewrite pivot_rest in H by (apply K1 || exact L). set (q := a + (b - a) / 4 * 2) in *.
  assert (S3 : partial_insertion_sort less a b l1 = (l1, true)) by (apply partial_rest; [apply K1|lia]). rewrite S3 in H.
  destruct (x && y && true); [injection H as <-; exact K1|].
  assert (K2 : kept l0 (swap l1 a q)) by (apply kept_swap; [exact K1|lia|subst q; lia]). destruct (Nat.ltb 0 a && _).
  - assert (E : exists mid, partition_equal less a b q l1 = (swap l1 a q, mid) /\ 0 < mid).
    { unfold partition_equal. destruct (b - a) as [|k] eqn:Ek; [lia|]. cbn [equal_loop].
      rewrite up_all by (intros k' Hk'; rewrite (rest_lt _ a) by (apply K2 || lia); reflexivity).
      set (i := S a + (b - 1 + 1 - S a)). assert (Hi : i = b) by (subst i; lia). rewrite Hi. replace (b - 1 + 1 - b) with 0 by lia. cbn [down].
      replace (Nat.ltb (b - 1) b) with true by (symmetry; apply Nat.ltb_lt; lia). exists b. split; [reflexivity|lia]. }
    destruct E as (mid & E & Hm). rewrite E in H. apply (IH mid b lim x y _ l0 l' Hm K2 H).
  - assert (E : exists al, partition less a b q l1 = (swap (swap l1 a q) a a, a, al)).
    { unfold partition. rewrite up_none by (apply rest_lt; [apply K2|lia]).
      rewrite down_all by (intros k Hk1 Hk2; rewrite rest_lt by (apply K2 || lia); reflexivity).
      replace (b - 1 - (b - S a)) with a by lia. replace (Nat.ltb a (S a)) with true by (symmetry; apply Nat.ltb_lt; lia). eexists. reflexivity. }
    destruct E as (al & E). rewrite E in H. assert (K3 : kept l0 (swap (swap l1 a q) a a)) by (apply kept_swap; [exact K2|lia..]).
    destruct (Nat.ltb _ _).
    + destruct (pdqsort less rnd f a a lim true true _) as [l5|] eqn:E5; [|discriminate H]. apply (IH a a lim true true _ l0 l5 Ha K3) in E5. refine (IH _ _ _ _ _ _ _ _ _ E5 H). lia.
    + destruct (pdqsort less rnd f (a + 1) b lim true true _) as [l5|] eqn:E5; [|discriminate H]. assert (K5 : kept l0 l5) by (refine (IH _ _ _ _ _ _ _ _ _ K3 E5); lia). refine (IH _ _ _ _ _ _ _ _ Ha K5 H).
Qed.

Lemma marked_last : forall r done c, forallb (fun x => negb (p x)) r = true -> p c = true -> marked_first done (r ++ [c]) = (c :: done ++ r)%list.
Proof.
  induction r as [|x r IH]; intros done c H P; cbn [List.app marked_first]; [rewrite P, app_nil_r; reflexivity|].
  cbn [forallb] in H. apply andb_true_iff in H. destruct H as [H1 H2]. destruct (p x); [discriminate H1|]. rewrite IH by assumption. rewrite <- app_assoc. reflexivity.
Qed.
Lemma up_until : forall q n i m, (forall k, i <= k < m -> q k = true) -> q m = false -> i <= m -> m < i + n -> up q n i = m.
Proof.
  intros q. induction n as [|n IH]; intros i m H1 H2 L1 L2; [lia|]. cbn [up]. destruct (Nat.eq_dec i m) as [->|N]; [rewrite H2; reflexivity|].
  rewrite H1 by lia. apply IH; [intros k Hk; apply H1; lia|exact H2|lia|lia].
Qed.
Lemma median_false : forall l a b c s, (forall j, lt_at less l b j = false) -> (forall j, lt_at less l c j = false) -> median less l a b c s = (b, s).
Proof. intros l a b c s Hb Hc. unfold median, order2. rewrite Hb, Hc, Hb. reflexivity. Qed.
Lemma pivot_false : forall l n, (forall i j, 0 < i -> S i < n -> lt_at less l i j = false) -> 12 < n -> choose_pivot less 0 n l = (n / 4 * 2, IncreasingHint).
Proof.
  intros l n H Hn. unfold choose_pivot, median_adjacent. rewrite Nat.sub_0_r. cbn [Nat.add].
  assert (Q : 3 <= n / 4) by (apply (Nat.div_le_mono 12 n 4); lia). assert (Q4 : n / 4 * 4 <= n) by (rewrite Nat.mul_comm; apply Nat.mul_div_le; lia).
  destruct (Nat.leb 8 n) eqn:L; [|apply Nat.leb_gt in L; lia].
  destruct (Nat.leb 50 n) eqn:L5; [apply Nat.leb_le in L5; assert (Q5 : 12 <= n / 4) by (apply (Nat.div_le_mono 48 n 4); lia)|];
    repeat (rewrite (median_false l) by (intro j; apply H; lia)); reflexivity.
Qed.
Lemma nth_swap : forall (l : list A) i j k, i < List.length l -> j < List.length l ->
  nth_error (swap l i j) k = if Nat.eqb k j then nth_error l i else if Nat.eqb k i then nth_error l j else nth_error l k.
Proof.
  intros l i j k Hi Hj. unfold swap. destruct (nth_error l i) as [x|] eqn:Ei; [|apply nth_error_None in Ei; lia]. destruct (nth_error l j) as [y|] eqn:Ej; [|apply nth_error_None in Ej; lia].
  rewrite !nth_set. rewrite (Nat.eqb_sym k j), (Nat.eqb_sym k i). destruct (Nat.eqb j k) eqn:Jk.
  - apply Nat.eqb_eq in Jk. subst k. rewrite Ej. destruct (Nat.eqb i j); reflexivity.
  - destruct (Nat.eqb i k) eqn:Ik; [|reflexivity]. apply Nat.eqb_eq in Ik. subst k. rewrite Ei. reflexivity.
Qed.
Lemma swap_same : forall (l : list A) i j, List.length (swap l i j) = List.length l.
Proof. intros. apply Permutation_length, swap_permuted. Qed.

Section Last.
Variables (front : list A) (c : A).
Hypothesis Hf : forallb (fun x => negb (p x)) front = true.
Hypothesis Hc : p c = true.
Let l := (front ++ [c])%list.
Let m := List.length front.
Lemma last_length : List.length l = S m.
Proof. unfold l, m. rewrite app_length. cbn. lia. Qed.
Lemma last_nth : nth_error l m = Some c.
Proof. unfold l, m. apply nth_mid. Qed.
Lemma front_nth : forall i x, i < m -> nth_error l i = Some x -> p x = false.
Proof.
  intros i x Hi H. unfold l in H. rewrite nth_error_app1 in H by exact Hi. apply nth_error_In in H. rewrite forallb_forall in Hf. specialize (Hf x H). destruct (p x); [discriminate Hf|reflexivity].
Qed.
Lemma front_lt : forall i j, i < m -> lt_at less l i j = false.
Proof. intros i j Hi. unfold lt_at. destruct (nth_error l i) as [x|] eqn:E; [|reflexivity]. destruct (nth_error l j); [apply (front_nth i x Hi E)|reflexivity]. Qed.
Lemma last_lt : forall j, j < m -> lt_at less l m j = true.
Proof. intros j Hj. unfold l, m. apply lt_marked; assumption. Qed.
Lemma shift_sink : forall n l, shift_left less n l = sink less n n l.
Proof.
  induction n as [|n IH]; intro k; [reflexivity|]. cbn [shift_left sink]. replace (S n - 1) with n by lia. destruct (lt_at _ _ _ _); [apply IH|reflexivity].
Qed.
(** 50 elements and more: all others keep their order. *)
Lemma many_last : 50 <= S m -> slice_sort less rnd l = Some (c :: front).
Proof.
  intro Hn. unfold slice_sort. rewrite last_length. set (n := S m) in *. cbn [pdqsort]. rewrite Nat.sub_0_r.
  destruct (Nat.leb n 12) eqn:L; [apply Nat.leb_le in L; lia|]. replace (Nat.eqb (bits_len n) 0) with false by reflexivity. cbn [negb andb].
  rewrite pivot_false; [|intros i j Hi Hj; apply front_lt; lia|lia].
  assert (E : partial_insertion_sort less 0 n l = ((c :: front)%list, true)).
  { unfold partial_insertion_sort. assert (G : forall s, partial_loop less (S (S s)) 0 n 1 l = ((c :: front)%list, true)).
    { intro s. remember (S s) as s'. cbn [partial_loop]. rewrite (up_until _ _ 1 m); [|intros k Hk; rewrite front_lt by lia; reflexivity|rewrite last_lt by lia; reflexivity|lia|lia].
      replace (Nat.eqb m n) with false by (symmetry; apply Nat.eqb_neq; lia). rewrite Nat.sub_0_r. replace (Nat.ltb n 50) with false by (symmetry; apply Nat.ltb_ge; lia).
      rewrite Nat.sub_0_r. replace (Nat.leb 2 m) with true by (symmetry; apply Nat.leb_le; lia). replace (Nat.leb 2 (n - m)) with false by (symmetry; apply Nat.leb_gt; lia).
      replace (shift_left less (m - 1) (swap l m (m - 1))) with (c :: front)%list.
      - subst s'. cbn [partial_loop].
        rewrite up_all; [replace (m + (n - m)) with n by lia; rewrite Nat.eqb_refl; reflexivity|]. intros k Hk. rewrite rest_lt; [reflexivity| |lia].
        intros i x Hi Hx. destruct i; [lia|]. cbn [nth_error] in Hx. apply nth_error_In in Hx. rewrite forallb_forall in Hf. specialize (Hf x Hx). destruct (p x); [discriminate Hf|reflexivity].
      - rewrite shift_sink. pose proof (sink_marked m front [] c eq_refl Hc) as Sk. rewrite app_nil_r in Sk. rewrite <- Sk. fold l. destruct m as [|k] eqn:Em; [lia|].
        cbn [sink]. rewrite <- Em in *. replace (S k - 1) with k by lia. rewrite last_lt by lia. replace (m - 1) with k by lia. reflexivity. }
    apply (G 3). }
  rewrite E. reflexivity.
Qed.
(** Between 13 and 49 elements: it becomes the first, the order of the others may change. *)
Lemma some_last : 12 < S m < 50 -> exists rest, slice_sort less rnd l = Some (c :: rest).
Proof.
  intro Hn. destruct (slice_sort_ends less rnd l) as [l' E]. assert (K : exists l0, nth_error l0 0 = Some c /\ kept l0 l').
  { unfold slice_sort in E. rewrite last_length in E. pose proof last_length as Ln. remember (S m) as n eqn:En. cbn [pdqsort] in E. rewrite Nat.sub_0_r in E.
    destruct (Nat.leb n 12) eqn:L; [apply Nat.leb_le in L; lia|]. replace (Nat.eqb (bits_len n) 0) with false in E by (rewrite En; reflexivity). cbn [negb andb] in E.
    rewrite pivot_false in E; [|intros i j Hi Hj; apply front_lt; lia|lia].
    assert (G : forall s, partial_loop less (S s) 0 n 1 l = (l, false)).
    { intro s. cbn [partial_loop]. rewrite (up_until _ _ 1 m); [|intros k Hk; rewrite front_lt by lia; reflexivity|rewrite last_lt by lia; reflexivity|lia|lia].
      replace (Nat.eqb m n) with false by (symmetry; apply Nat.eqb_neq; lia). rewrite Nat.sub_0_r. replace (Nat.ltb n 50) with true by (symmetry; apply Nat.ltb_lt; lia). reflexivity. }
    unfold partial_insertion_sort in E. rewrite G in E. change (Nat.ltb 0 0) with false in E. cbn [andb] in E.
    set (q := n / 4 * 2) in *. assert (Q : 3 <= n / 4) by (apply (Nat.div_le_mono 12 n 4); lia). assert (Q4 : n / 4 * 4 <= n) by (rewrite Nat.mul_comm; apply Nat.mul_div_le; lia).
    assert (Hq : 0 < q < m) by (subst q; lia). set (l1 := swap l 0 q) in *. assert (L1 : List.length l1 = n) by (subst l1; rewrite swap_same; exact Ln).
    assert (N1 : forall k, nth_error l1 k = if Nat.eqb k q then nth_error l 0 else if Nat.eqb k 0 then nth_error l q else nth_error l k) by (intro k; apply nth_swap; lia).
    assert (U1 : forall k x, k < m -> nth_error l1 k = Some x -> p x = false).
    { intros k x Hk Hx. rewrite N1 in Hx. destruct (Nat.eqb k q); [apply (front_nth 0 x); [lia|exact Hx]|]. destruct (Nat.eqb k 0); [apply (front_nth q x); [lia|exact Hx]|apply (front_nth k x Hk Hx)]. }
    assert (M1 : nth_error l1 m = Some c).
    { rewrite N1. replace (Nat.eqb m q) with false by (symmetry; apply Nat.eqb_neq; lia). replace (Nat.eqb m 0) with false by (symmetry; apply Nat.eqb_neq; lia). apply last_nth. }
    set (l2 := swap l1 1 m). assert (L2 : List.length l2 = n) by (subst l2; rewrite swap_same; exact L1).
    assert (N2 : forall k, nth_error l2 k = if Nat.eqb k m then nth_error l1 1 else if Nat.eqb k 1 then nth_error l1 m else nth_error l1 k) by (intro k; apply nth_swap; lia).
    assert (U2 : forall k x, k <> 1 -> nth_error l2 k = Some x -> p x = false).
    { intros k x Hk Hx. rewrite N2 in Hx. destruct (Nat.eqb k m) eqn:Ek; [apply (U1 1 x); [lia|exact Hx]|]. apply Nat.eqb_neq in Ek. destruct (Nat.eqb k 1) eqn:E1; [apply Nat.eqb_eq in E1; lia|].
      apply (U1 k x); [|exact Hx]. assert (k < n) by (rewrite <- L1; apply nth_error_Some; congruence). lia. }
    assert (P : partition less 0 n q l = (swap l2 1 0, 1, false)).
    { unfold partition. fold l1. rewrite up_none.
      2:{ unfold lt_at. destruct (nth_error l1 1) as [x|] eqn:Ex; [|reflexivity]. destruct (nth_error l1 0); [apply (U1 1 x); [lia|exact Ex]|reflexivity]. }
      replace (down (fun j => negb (lt_at less l1 j 0)) (n - 1) (n - 1)) with m.
      2:{ replace (n - 1) with m by lia. destruct m as [|k] eqn:Em; [reflexivity|]. cbn [down]. rewrite <- Em in *.
          assert (T : lt_at less l1 m 0 = true). { unfold lt_at. rewrite M1. destruct (nth_error l1 0) eqn:E0; [exact Hc|]. apply nth_error_None in E0. lia. }
          rewrite T. reflexivity. }
      replace (Nat.ltb m 1) with false by (symmetry; apply Nat.ltb_ge; lia). fold l2. destruct (S (m - 1)) as [|w] eqn:Ew; [lia|]. cbn [partition_loop]. rewrite up_none.
      2:{ unfold lt_at. destruct (nth_error l2 2) as [x|] eqn:Ex; [|reflexivity]. destruct (nth_error l2 0); [apply (U2 2 x); [lia|exact Ex]|reflexivity]. }
      rewrite down_all.
      2:{ intros k K1 K2. unfold lt_at. destruct (nth_error l2 k) as [x|] eqn:Ex; [|reflexivity]. destruct (nth_error l2 0); [|reflexivity]. unfold left_marked. rewrite (U2 k x); [reflexivity|lia|exact Ex]. }
      replace (m - 1 - (m - 1 + 1 - 2)) with 1 by lia. reflexivity. }
    rewrite P in E. replace (1 - 0) with 1 in E by reflexivity. replace (Nat.ltb 1 (n - 1)) with true in E by (symmetry; apply Nat.ltb_lt; lia).
    set (l3 := swap l2 1 0) in *.
    assert (N3 : forall k, nth_error l3 k = if Nat.eqb k 0 then nth_error l2 1 else if Nat.eqb k 1 then nth_error l2 0 else nth_error l2 k) by (intro k; apply nth_swap; lia).
    assert (K3 : kept l3 l3).
    { split; [|reflexivity]. intros k x Hk Hx. rewrite N3 in Hx. replace (Nat.eqb k 0) with false in Hx by (symmetry; apply Nat.eqb_neq; lia).
      destruct (Nat.eqb k 1) eqn:E1; [apply (U2 0 x); [lia|exact Hx]|]. apply Nat.eqb_neq in E1. apply (U2 k x E1 Hx). }
    destruct (pdqsort less rnd n 0 1 (bits_len n) true true l3) as [l4|] eqn:E4; [|discriminate E].
    assert (l4 = l3) as -> by (rewrite En in E4; cbn [pdqsort Nat.sub Nat.leb insertion_sort insertion_from] in E4; injection E4 as <-; reflexivity).
    exists l3. split; [rewrite N3; cbn [Nat.eqb]; rewrite N2; replace (Nat.eqb 1 m) with false by (symmetry; apply Nat.eqb_neq; lia); exact M1|].
    refine (pdqsort_kept _ _ _ _ _ _ _ _ _ _ K3 E). lia. }
  destruct K as (l0 & Z & [_ K]). rewrite Z in K. destruct l' as [|y rest]; [discriminate K|]. injection K as ->. exists rest. exact E.
Qed.
End Last.
Lemma slice_sort_last : forall front c, forallb (fun x => negb (p x)) front = true -> p c = true ->
  exists rest, slice_sort less rnd (front ++ [c]) = Some (c :: rest) /\ (List.length front < 12 \/ 49 <= List.length front -> rest = front).
Proof.
  intros front c Hf Hc. destruct (Nat.leb 12 (List.length front)) eqn:L; [apply Nat.leb_le in L|apply Nat.leb_gt in L].
  - destruct (Nat.leb 49 (List.length front)) eqn:M; [apply Nat.leb_le in M|apply Nat.leb_gt in M].
    + exists front. split; [apply many_last; [exact Hf|exact Hc|lia]|reflexivity].
    + destruct (some_last front c Hf Hc) as [rest R]; [lia|]. exists rest. split; [exact R|lia].
  - destruct front as [|x r].
    + exists []. split; [|reflexivity]. apply (slice_sort_few c []). cbn. lia.
    + exists (x :: r). split; [|reflexivity]. cbn [List.app]. rewrite slice_sort_few by (cbn [List.length] in *; rewrite app_length; cbn; lia).
      cbn [forallb] in Hf. apply andb_true_iff in Hf. rewrite marked_last by (apply Hf || exact Hc). reflexivity.
Qed.
End Marked.
