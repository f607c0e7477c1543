(** sort.Slice of the Go standard library (go1.24, sort/slice.go and sort/zsortfunc.go), as
    SortAsc and SortDesc use it (trustchainfilter.go:22-50): the comparison reads the scores
    by position and the scores are not moved, so that what is compared does not change while
    elements are swapped. Each function gives the swaps it makes, in order. The code is not
    part of /repo; this is the algorithm of the toolchain go.mod names. *)
From Verif Require Import Base GoVal Policy Schema Metadata Chain.
From Coq Require Import NArith.
Local Open Scope nat_scope.

Definition swaps := list (nat * nat).

Section Less.
Context (less : nat -> nat -> bool).

(** for j := i; j > a && less(j, j-1); j-- { swap(j, j-1) }: the inner loop of
    insertionSort_func; [n] is j - a. Used at trustchainfilter.go:22-50. *)
Fixpoint sink_swaps (n j : nat) : swaps :=
  match n with
  | 0 => []
  | S n' => if less j (j - 1) then (j, j - 1) :: sink_swaps n' (j - 1) else []
  end.

(** insertionSort_func(a, b): [n] iterations from index [i]. Used at trustchainfilter.go:22-50. *)
Fixpoint insert_swaps (a i n : nat) : swaps :=
  match n with
  | 0 => []
  | S n' => sink_swaps (i - a) i ++ insert_swaps a (S i) n'
  end.
Definition insertion_swaps (a b : nat) : swaps := insert_swaps a (S a) (b - a - 1).

(** siftDown_func(lo, hi, first); the root at least doubles, [fuel] hi suffices.
    Used at trustchainfilter.go:22-50. *)
Fixpoint sift_down (fuel root hi first : nat) : swaps :=
  match fuel with
  | 0 => []
  | S f =>
      let child := 2 * root + 1 in
      if Nat.leb hi child then [] else
      let child := if Nat.ltb (child + 1) hi && less (first + child) (first + child + 1) then child + 1 else child in
      if less (first + root) (first + child)
      then (first + root, first + child) :: sift_down f child hi first else []
  end.

(** heapSort_func(a, b). Used at trustchainfilter.go:22-50. *)
Fixpoint heap_build (n hi first : nat) : swaps :=
  sift_down hi n hi first ++ match n with 0 => [] | S n' => heap_build n' hi first end.
Fixpoint heap_pop (n first : nat) : swaps :=
  match n with
  | 0 => []
  | S i => (first, first + i) :: sift_down i 0 i first ++ heap_pop i first
  end.
Definition heap_sort (a b : nat) : swaps := heap_build ((b - a - 1) / 2) (b - a) a ++ heap_pop (b - a) a.

(** reverseRange_func(a, b); [n] bounds the number of swaps. Used at trustchainfilter.go:22-50. *)
Fixpoint reverse_loop (n i j : nat) : swaps :=
  match n with
  | 0 => []
  | S n' => if Nat.ltb i j then (i, j) :: reverse_loop n' (S i) (j - 1) else []
  end.
Definition reverse_range (a b : nat) : swaps := reverse_loop (b - a) a (b - 1).

(** xorshift.Next, on uint64. Used at trustchainfilter.go:22-50. *)
Definition w64 (n : N) : N := N.modulo n (2 ^ 64)%N.
Definition xor_next (r : N) : N :=
  let r := N.lxor r (w64 (N.shiftl r 13)) in
  let r := N.lxor r (N.shiftr r 7) in
  N.lxor r (w64 (N.shiftl r 17)).

(** breakPatterns_func(a, b); nextPowerOfTwo(length) is 1 << bits.Len(length).
    Used at trustchainfilter.go:22-50. *)
Definition break_patterns (a b : nat) : swaps :=
  let len := b - a in
  if Nat.ltb len 8 then [] else
  let modulus := (2 ^ N.size (N.of_nat len))%N in
  let r1 := xor_next (N.of_nat len) in
  let r2 := xor_next r1 in
  let r3 := xor_next r2 in
  let other r := let o := N.to_nat (N.land r (modulus - 1)) in if Nat.leb len o then o - len else o in
  let idx := a + (len / 4) * 2 - 1 in
  [(idx - 1, a + other r1); (idx, a + other r2); (idx + 1, a + other r3)].

(** order2_func, median_func, medianAdjacent_func; [n] counts the swaps.
    Used at trustchainfilter.go:22-50. *)
Definition order2 (a b n : nat) : nat * nat * nat := if less b a then (b, a, S n) else (a, b, n).
Definition median (a b c n : nat) : nat * nat :=
  let '(a, b, n) := order2 a b n in
  let '(b, c, n) := order2 b c n in
  let '(a, b, n) := order2 a b n in
  (b, n).
Definition median_adjacent (a n : nat) : nat * nat := median (a - 1) a (a + 1) n.

(** choosePivot_func(a, b): the pivot and the number of swaps (0: increasingHint, 12:
    decreasingHint). Used at trustchainfilter.go:22-50. *)
Definition choose_pivot (a b : nat) : nat * nat :=
  let l := b - a in
  let i := a + l / 4 * 1 in
  let j := a + l / 4 * 2 in
  let k := a + l / 4 * 3 in
  if Nat.ltb l 8 then (j, 0) else
  if Nat.ltb l 50 then median i j k 0 else
  let '(i, n) := median_adjacent i 0 in
  let '(j, n) := median_adjacent j n in
  let '(k, n) := median_adjacent k n in
  median i j k n.

(** for i < b && !less(i, i-1) { i++ }: [n] is b - i. Used at trustchainfilter.go:22-50. *)
Fixpoint scan (n i : nat) : nat :=
  match n with
  | 0 => i
  | S n' => if less i (i - 1) then i else scan n' (S i)
  end.

(** for j := j; j < b; j++ { if !less(j, j-1) break; swap(j, j-1) }: [n] is b - j.
    Used at trustchainfilter.go:22-50. *)
Fixpoint shift_right (n j : nat) : swaps :=
  match n with
  | 0 => []
  | S n' => if less j (j - 1) then (j, j - 1) :: shift_right n' (S j) else []
  end.

(** partialInsertionSort_func(a, b) from index [i], [steps] of the five steps left.
    Used at trustchainfilter.go:22-50. *)
Fixpoint partial_insertion (steps a b i : nat) : swaps * bool :=
  match steps with
  | 0 => ([], false)
  | S steps' =>
      let i := scan (b - i) i in
      if Nat.eqb i b then ([], true) else
      if Nat.ltb (b - a) 50 then ([], false) else
      let left := if Nat.leb 2 (i - a) then sink_swaps (i - 1) (i - 1) else [] in
      let right := if Nat.leb 2 (b - i) then shift_right (b - (i + 1)) (i + 1) else [] in
      let '(s, d) := partial_insertion steps' a b i in
      ((i, i - 1) :: left ++ right ++ s, d)
  end.

(** for i <= j && p(i) { i++ } and for i <= j && p(j) { j-- }; [n] bounds the steps.
    Used at trustchainfilter.go:22-50. *)
Fixpoint go_up (p : nat -> bool) (n i j : nat) : nat :=
  match n with
  | 0 => i
  | S n' => if Nat.leb i j && p i then go_up p n' (S i) j else i
  end.
Fixpoint go_down (p : nat -> bool) (n i j : nat) : nat :=
  match n with
  | 0 => j
  | S n' => if Nat.leb i j && p j then go_down p n' i (j - 1) else j
  end.

(** The loop of partition_func and partitionEqual_func: the swaps, and i and j at the end.
    Used at trustchainfilter.go:22-50. *)
Fixpoint part_loop (fuel : nat) (up down : nat -> bool) (i j : nat) : swaps * nat * nat :=
  match fuel with
  | 0 => ([], i, j)
  | S f =>
      let n := S j - i in
      let i := go_up up n i j in
      let j := go_down down n i j in
      if Nat.ltb j i then ([], i, j)
      else let '(s, i', j') := part_loop f up down (S i) (j - 1) in ((i, j) :: s, i', j')
  end.

(** partition_func(a, b, pivot): the swaps, newpivot and alreadyPartitioned. The first round
    of the code is one of the loop; it is the last one iff nothing was to be swapped.
    Used at trustchainfilter.go:22-50. *)
Definition partition (a b pivot : nat) : swaps * nat * bool :=
  let '(s, _, j) := part_loop (b - a) (fun i => less i a) (fun j => negb (less j a)) (S a) (b - 1) in
  ((a, pivot) :: s ++ [(j, a)], j, match s with [] => true | _ => false end).

(** partitionEqual_func(a, b, pivot). Used at trustchainfilter.go:22-50. *)
Definition partition_equal (a b pivot : nat) : swaps * nat :=
  let '(s, i, _) := part_loop (b - a) (fun i => negb (less a i)) (fun j => less a j) (S a) (b - 1) in
  ((a, pivot) :: s, i).

(** pdqsort_func(a, b, limit), with wasBalanced and wasPartitioned. Each call of the
    recursion and each round of the loop works on a shorter range.
    Used at trustchainfilter.go:22-50. *)
Fixpoint pdq (fuel a b limit : nat) (balanced partitioned : bool) : swaps :=
  match fuel with
  | 0 => []
  | S f =>
      let len := b - a in
      if Nat.leb len 12 then insertion_swaps a b else
      if Nat.eqb limit 0 then heap_sort a b else
      let s0 := if balanced then [] else break_patterns a b in
      let limit := if balanced then limit else limit - 1 in
      let '(pivot, n) := choose_pivot a b in
      let s1 := if Nat.eqb n 12 then reverse_range a b else [] in
      let pivot := if Nat.eqb n 12 then b - 1 - (pivot - a) else pivot in
      let hint := Nat.eqb n 12 || Nat.eqb n 0 in
      let '(s2, done) := if balanced && partitioned && hint then partial_insertion 5 a b (S a) else ([], false) in
      s0 ++ s1 ++ s2 ++
      (if (done : bool) then [] else
       if Nat.ltb 0 a && negb (less (a - 1) pivot)
       then let '(s3, mid) := partition_equal a b pivot in s3 ++ pdq f mid b limit balanced partitioned
       else let '(s3, mid, already) := partition a b pivot in
            let l := mid - a in
            let r := b - mid in
            s3 ++ (if Nat.ltb l r
                   then pdq f a mid limit true true ++ pdq f (S mid) b limit (Nat.leb (len / 8) l) already
                   else pdq f (S mid) b limit true true ++ pdq f a mid limit (Nat.leb (len / 8) r) already))
  end.

(** sort.Slice: sort/slice.go; limit is bits.Len(n). Used at trustchainfilter.go:22-50. *)
Definition slice_swaps (n : nat) : swaps := pdq (S n) 0 n (N.size_nat (N.of_nat n)) true true.
End Less.

(** data.Swap(i, j). Used at trustchainfilter.go:22-50. *)
Definition exchange {A} (ij : nat * nat) (l : list A) : list A :=
  if Nat.ltb (fst ij) (snd ij) then swap_at (fst ij) (snd ij) l
  else if Nat.ltb (snd ij) (fst ij) then swap_at (snd ij) (fst ij) l else l.
Definition exchanges {A} (s : swaps) (l : list A) : list A := fold_left (fun l ij => exchange ij l) s l.

(** SortAsc, SortDesc for any number of chains: trustchainfilter.go:22-50 *)
Definition asc_less (score : chain -> Z) (cs : chains) (i j : nat) : bool :=
  Z.ltb (nth i (map score cs) 0%Z) (nth j (map score cs) 0%Z).
Definition desc_less (score : chain -> Z) (cs : chains) (i j : nat) : bool :=
  Z.ltb (nth j (map score cs) 0%Z) (nth i (map score cs) 0%Z).
Definition go_sort_asc (score : chain -> Z) (cs : chains) : chains :=
  exchanges (slice_swaps (asc_less score cs) (List.length cs)) cs.
Definition go_sort_desc (score : chain -> Z) (cs : chains) : chains :=
  exchanges (slice_swaps (desc_less score cs) (List.length cs)) cs.
