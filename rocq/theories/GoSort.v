(** sort.Slice of the Go 1.22 library (src/sort/slice.go, src/sort/zsortfunc.go), on a
    list of elements with a comparison of elements.  The library is not part of the
    repository; Constraints.Append calls it (cockroachdb/ddl_table.go:31-39,
    mysql/ddl_table.go:31-39).

    Data is a list, [swap] exchanges two positions.  Loops count down what is left of
    their range, so that reaching zero is the end of the loop in the Go code.  The
    numbers of the generator in breakPatterns are left open ([rnd length i]).  Every
    index that is compared lies in the slice; [lt_at] is false elsewhere. *)
From Coq Require Import Arith.
From Verif Require Import GoStr.

Section Sort.
Context {A : Type}.
Variable less : A -> A -> bool.
Variable rnd : nat -> nat -> nat.

(** Data[i] = x: library *)
Fixpoint set_at (l : list A) (i : nat) (x : A) : list A :=
  match l, i with
  | [], _ => []
  | _ :: r, O => x :: r
  | y :: r, S i' => y :: set_at r i' x
  end.
(** Data.Swap(i, j): library (reflect.Swapper in sort/slice.go) *)
Definition swap (l : list A) (i j : nat) : list A :=
  match nth_error l i, nth_error l j with
  | Some x, Some y => set_at (set_at l i y) j x
  | _, _ => l
  end.
(** Data.Less(i, j): library; in /repo the functions given to sort.Slice, cockroachdb/ddl_table.go:31-39, pkg/internal/lang/go/parse.go:224-226 *)
Definition lt_at (l : list A) (i j : nat) : bool :=
  match nth_error l i, nth_error l j with Some x, Some y => less x y | _, _ => false end.

(** insertionSort_func of zsortfunc.go; the inner loop, [n] = j - a *)
Fixpoint sink (n j : nat) (l : list A) : list A :=
  match n with
  | O => l
  | S n' => if lt_at l j (j - 1) then sink n' (j - 1) (swap l j (j - 1)) else l
  end.
(** InsertionSort_func: the outer loop (library, called from the uses named above) *)
Fixpoint insertion_from (n i a : nat) (l : list A) : list A :=
  match n with O => l | S n' => insertion_from n' (S i) a (sink (i - a) i l) end.
(** InsertionSort_func (library) *)
Definition insertion_sort (a b : nat) (l : list A) : list A := insertion_from (b - S a) (S a) a l.

(** siftDown_func of zsortfunc.go; [n] >= hi - root *)
Fixpoint sift_down (n root hi first : nat) (l : list A) : list A :=
  match n with
  | O => l
  | S n' =>
      let child := 2 * root + 1 in
      if Nat.leb hi child then l
      else
        let child := if Nat.ltb (child + 1) hi && lt_at l (first + child) (first + child + 1) then child + 1 else child in
        if negb (lt_at l (first + root) (first + child)) then l
        else sift_down n' child hi first (swap l (first + root) (first + child))
  end.
(** heapSort_func of zsortfunc.go; [n] = i + 1 in both loops *)
Fixpoint heapify (n hi first : nat) (l : list A) : list A :=
  match n with O => l | S i => heapify i hi first (sift_down (hi - i) i hi first l) end.
(** HeapSort_func: the second loop (library) *)
Fixpoint pop_heap (n first : nat) (l : list A) : list A :=
  match n with O => l | S i => pop_heap i first (sift_down i 0 i first (swap l first (first + i))) end.
(** HeapSort_func (library) *)
Definition heap_sort (a b : nat) (l : list A) : list A :=
  let hi := b - a in pop_heap hi a (heapify (S ((hi - 1) / 2)) hi a l).

(** The loops "for i <= j && P(i) { i++ }" and "for i <= j && P(j) { j-- }"; [n] = j + 1 - i *)
Fixpoint up (p : nat -> bool) (n i : nat) : nat :=
  match n with O => i | S n' => if p i then up p n' (S i) else i end.
(** The second of these loops (library) *)
Fixpoint down (p : nat -> bool) (n j : nat) : nat :=
  match n with O => j | S n' => if p j then down p n' (j - 1) else j end.

(** partition_func of zsortfunc.go: the loop; result: the list and the final j.  Two
    elements leave the range in each round: [n] > (j + 1 - i) / 2. *)
Fixpoint partition_loop (n a i j : nat) (l : list A) : list A * nat :=
  match n with
  | O => (l, j)
  | S n' =>
      let i := up (fun i => lt_at l i a) (j + 1 - i) i in
      let j := down (fun j => negb (lt_at l j a)) (j + 1 - i) j in
      if Nat.ltb j i then (l, j) else partition_loop n' a (S i) (j - 1) (swap l i j)
  end.
(** Partition_func (library) *)
Definition partition (a b pivot : nat) (l : list A) : list A * nat * bool :=
  let l := swap l a pivot in
  let i := up (fun i => lt_at l i a) (b - S a) (S a) in
  let j := down (fun j => negb (lt_at l j a)) (b - i) (b - 1) in
  if Nat.ltb j i then (swap l j a, j, true)
  else let (l', j') := partition_loop (S (j - i)) a (S i) (j - 1) (swap l i j) in (swap l' j' a, j', false).

(** partitionEqual_func of zsortfunc.go *)
Fixpoint equal_loop (n a i j : nat) (l : list A) : list A * nat :=
  match n with
  | O => (l, i)
  | S n' =>
      let i := up (fun i => negb (lt_at l a i)) (j + 1 - i) i in
      let j := down (fun j => lt_at l a j) (j + 1 - i) j in
      if Nat.ltb j i then (l, i) else equal_loop n' a (S i) (j - 1) (swap l i j)
  end.
(** PartitionEqual_func (library) *)
Definition partition_equal (a b pivot : nat) (l : list A) : list A * nat := equal_loop (b - a) a (S a) (b - 1) (swap l a pivot).

(** partialInsertionSort_func of zsortfunc.go.  The loop to the left runs down to 1, not
    to a + 1; [n] = j.  The one to the right: [n] = b - j. *)
Fixpoint shift_left (n : nat) (l : list A) : list A :=
  match n with O => l | S n' => if lt_at l n n' then shift_left n' (swap l n n') else l end.
(** PartialInsertionSort_func: the loop to the right (library) *)
Fixpoint shift_right (n j : nat) (l : list A) : list A :=
  match n with O => l | S n' => if lt_at l j (j - 1) then shift_right n' (S j) (swap l j (j - 1)) else l end.
(** PartialInsertionSort_func: the loop (library) *)
Fixpoint partial_loop (steps a b i : nat) (l : list A) : list A * bool :=
  match steps with
  | O => (l, false)
  | S s =>
      let i := up (fun i => negb (lt_at l i (i - 1))) (b - i) i in
      if Nat.eqb i b then (l, true)
      else if Nat.ltb (b - a) 50 then (l, false)
      else
        let l := swap l i (i - 1) in
        let l := if Nat.leb 2 (i - a) then shift_left (i - 1) l else l in
        let l := if Nat.leb 2 (b - i) then shift_right (b - S i) (S i) l else l in
        partial_loop s a b i l
  end.
(** PartialInsertionSort_func (library) *)
Definition partial_insertion_sort (a b : nat) (l : list A) : list A * bool := partial_loop 5 a b (S a) l.

(** bits.Len; nextPowerOfTwo: of sort.go *)
Definition bits_len (n : nat) : nat := match n with O => O | _ => S (Nat.log2 n) end.
(** breakPatterns_func of zsortfunc.go *)
Definition break_patterns (a b : nat) (l : list A) : list A :=
  let length := b - a in
  if Nat.leb 8 length then
    let idx := a + length / 4 * 2 - 1 in
    let other i := let o := rnd length i mod (2 ^ bits_len length) in if Nat.leb length o then o - length else o in
    let l := swap l (idx - 1) (a + other 0) in
    let l := swap l idx (a + other 1) in
    swap l (idx + 1) (a + other 2)
  else l.

(** order2_func, median_func, medianAdjacent_func of zsortfunc.go.  The number of swaps is
    threaded through. *)
Definition order2 (l : list A) (a b swaps : nat) : nat * nat * nat := if lt_at l b a then (b, a, S swaps) else (a, b, swaps).
(** Median_func (library) *)
Definition median (l : list A) (a b c swaps : nat) : nat * nat :=
  let '(a, b, s) := order2 l a b swaps in
  let '(b, c, s) := order2 l b c s in
  let '(a, b, s) := order2 l a b s in (b, s).
(** MedianAdjacent_func (library) *)
Definition median_adjacent (l : list A) (a swaps : nat) : nat * nat := median l (a - 1) a (a + 1) swaps.
(** choosePivot_func of zsortfunc.go *)
Inductive hint := UnknownHint | IncreasingHint | DecreasingHint.
(** ChoosePivot_func (library) *)
Definition choose_pivot (a b : nat) (l : list A) : nat * hint :=
  let n := b - a in
  let i := a + n / 4 * 1 in
  let j := a + n / 4 * 2 in
  let k := a + n / 4 * 3 in
  let '(j, swaps) :=
    if Nat.leb 8 n then
      let '(i, j, k, s) :=
        if Nat.leb 50 n then
          let '(i, s) := median_adjacent l i 0 in
          let '(j, s) := median_adjacent l j s in
          let '(k, s) := median_adjacent l k s in (i, j, k, s)
        else (i, j, k, 0) in
      median l i j k s
    else (j, 0) in
  (j, match swaps with 0 => IncreasingHint | 12 => DecreasingHint | _ => UnknownHint end).

(** reverseRange_func of zsortfunc.go; [n] > (j - i) / 2 *)
Fixpoint reverse_loop (n i j : nat) (l : list A) : list A :=
  match n with O => l | S n' => if Nat.ltb i j then reverse_loop n' (S i) (j - 1) (swap l i j) else l end.
(** ReverseRange_func (library) *)
Definition reverse_range (a b : nat) (l : list A) : list A := reverse_loop (b - a) a (b - 1) l.

(** pdqsort_func of zsortfunc.go *)
Fixpoint pdqsort (fuel a b limit : nat) (balanced partitioned : bool) (l : list A) : option (list A) :=
  match fuel with
  | O => None
  | S f =>
      let length := b - a in
      if Nat.leb length 12 then Some (insertion_sort a b l)
      else if Nat.eqb limit 0 then Some (heap_sort a b l)
      else
        let '(l, limit) := if negb balanced then (break_patterns a b l, limit - 1) else (l, limit) in
        let '(pivot, h) := choose_pivot a b l in
        let '(l, pivot, h) := match h with DecreasingHint => (reverse_range a b l, (b - 1) - (pivot - a), IncreasingHint) | _ => (l, pivot, h) end in
        let '(l, sorted) :=
          if balanced && partitioned && match h with IncreasingHint => true | _ => false end then partial_insertion_sort a b l else (l, false) in
        if sorted then Some l
        else if Nat.ltb 0 a && negb (lt_at l (a - 1) pivot) then
          let (l, mid) := partition_equal a b pivot l in pdqsort f mid b limit balanced partitioned l
        else
          let '(l, mid, already) := partition a b pivot l in
          let threshold := length / 8 in
          if Nat.ltb (mid - a) (b - mid) then
            match pdqsort f a mid limit true true l with
            | None => None
            | Some l => pdqsort f (mid + 1) b limit (Nat.leb threshold (mid - a)) already l
            end
          else
            match pdqsort f (mid + 1) b limit true true l with
            | None => None
            | Some l => pdqsort f a mid limit (Nat.leb threshold (b - mid)) already l
            end
  end.
(** Slice: slice.go; called in cockroachdb/ddl_table.go:31, mysql/ddl_table.go:31, pkg/internal/lang/go/parse.go:224 *)
Definition slice_sort (l : list A) : option (list A) :=
  let n := List.length l in pdqsort (S n) 0 n (bits_len n) true true l.
End Sort.
