(** Proofs about sort.Slice with any number of chains. *)
From Verif Require Import Base GoVal Policy Schema Metadata Chain SpecChain ChainFacts Sort.
From Coq Require Import NArith Permutation Arith.
Local Open Scope nat_scope.

(** ** Nothing is lost *)

Lemma exchange_perm {A} ij (l : list A) : Permutation (exchange ij l) l.
Proof. unfold exchange. destruct (Nat.ltb _ _); [apply swap_at_perm|]. destruct (Nat.ltb _ _); [apply swap_at_perm|auto]. Qed.

Lemma exchanges_perm {A} s : forall l : list A, Permutation (exchanges s l) l.
Proof.
  induction s as [|ij s IH]; intros l; [apply Permutation_refl|]. unfold exchanges in *. cbn [fold_left]. rewrite IH. apply exchange_perm.
Qed.

Theorem go_sort_perms score cs : Permutation (go_sort_asc score cs) cs /\ Permutation (go_sort_desc score cs) cs.
Proof. split; apply exchanges_perm. Qed.

(** ** At most twelve elements *)

Lemma exchanges_app {A} s s' (l : list A) : exchanges (s ++ s') l = exchanges s' (exchanges s l).
Proof. unfold exchanges. apply fold_left_app. Qed.

Lemma exchange_down {A} j (l : list A) : exchange (S j, j) l = swap_down (S j) l.
Proof.
  unfold exchange, swap_down, swap_at. cbn [fst snd]. replace (S j <? j) with false by (symmetry; apply Nat.ltb_ge; lia).
  replace (j <? S j) with true by (symmetry; apply Nat.ltb_lt; lia).
  replace (S j - 1) with j by lia. replace (S j - j - 1) with 0 by lia. cbn [skipn firstn].
  destruct (skipn j l) as [|a [|b r]]; auto.
Qed.

Lemma exchanges_sink {A} less j : forall l : list A, exchanges (sink_swaps less j j) l = sink less j l.
Proof.
  induction j as [|j IH]; intros l; cbn [sink_swaps sink]; auto. replace (S j - 1) with j by lia.
  destruct (less (S j) j); auto. unfold exchanges in *. cbn [fold_left]. rewrite IH, exchange_down. reflexivity.
Qed.

Lemma exchanges_insert {A} less n : forall i (l : list A), exchanges (insert_swaps less 0 i n) l = insertion less i n l.
Proof.
  induction n as [|n IH]; intros i l; cbn [insert_swaps insertion]; auto.
  rewrite exchanges_app, IH, Nat.sub_0_r, exchanges_sink. reflexivity.
Qed.

Lemma slice_small {A} less (l : list A) : List.length l <= 12 -> exchanges (slice_swaps less (List.length l)) l = sort_slice less l.
Proof.
  intros L. unfold slice_swaps. cbn [pdq]. rewrite Nat.sub_0_r. apply Nat.leb_le in L. rewrite L.
  unfold insertion_swaps, sort_slice. rewrite Nat.sub_0_r. apply exchanges_insert.
Qed.

Theorem go_sort_small score cs : List.length cs <= 12 ->
  go_sort_asc score cs = sort_asc score cs /\ go_sort_desc score cs = sort_desc score cs.
Proof. intros L. split; apply (slice_small _ cs L). Qed.

Theorem go_sort_two score cs : List.length cs <= 2 ->
  sorted_by score (go_sort_asc score cs) /\ sorted_by (fun c => (- score c)%Z) (go_sort_desc score cs).
Proof.
  intros L. destruct (go_sort_small score cs) as [-> ->]; [lia|]. split; [now apply sort_asc_two|now apply sort_desc_two].
Qed.

(** ** Sorted input *)

Section Sorted.
Context (less : nat -> nat -> bool) (n : nat) (H : forall i j, i < j -> j < n -> less j i = false).

Lemma scan_sorted k : forall i, 1 <= i -> i + k <= n -> scan less k i = i + k.
Proof.
  induction k as [|k IH]; intros i Hi L; cbn [scan]; [lia|]. rewrite H by lia. rewrite IH; lia.
Qed.

Lemma median_sorted a b c m : a < b -> b < c -> c < n -> median less a b c m = (b, m).
Proof.
  intros Hab Hbc Hc. unfold median, order2. rewrite (H a b) by lia. rewrite (H b c) by lia. rewrite (H a b) by lia. reflexivity.
Qed.

Lemma pivot_sorted : 12 < n -> snd (choose_pivot less 0 n) = 0.
Proof.
  intros L. unfold choose_pivot. rewrite Nat.sub_0_r. destruct (Nat.ltb_spec n 8); [lia|].
  assert (D : 4 * (n / 4) <= n) by (apply Nat.mul_div_le; lia). assert (P : 3 <= n / 4) by (apply Nat.div_le_lower_bound; lia).
  destruct (Nat.ltb_spec n 50); [rewrite median_sorted by lia; reflexivity|].
  unfold median_adjacent. assert (P' : 12 <= n / 4) by (apply Nat.div_le_lower_bound; lia).
  rewrite !median_sorted by lia. reflexivity.
Qed.

Lemma insert_sorted k : forall i, 1 <= i -> i + k <= n -> insert_swaps less 0 i k = [].
Proof.
  induction k as [|k IH]; intros i Hi L; cbn [insert_swaps]; auto. rewrite IH by lia. rewrite app_nil_r, Nat.sub_0_r.
  destruct i as [|i]; [lia|]. cbn [sink_swaps]. rewrite H by lia. reflexivity.
Qed.

Lemma slice_sorted : slice_swaps less n = [].
Proof.
  unfold slice_swaps. cbn [pdq]. rewrite Nat.sub_0_r. destruct (Nat.leb_spec n 12) as [L|L].
  - unfold insertion_swaps. rewrite Nat.sub_0_r. destruct n as [|k] eqn:E; [reflexivity|]. rewrite <- E in *.
    replace (insert_swaps less 0 1 (n - 1)) with (@nil (nat * nat)); [reflexivity|]. symmetry. apply insert_sorted; lia.
  - assert (E : Nat.eqb (N.size_nat (N.of_nat n)) 0 = false) by (destruct n as [|k]; [lia|]; cbn [N.of_nat N.size_nat]; now destruct (Pos.of_succ_nat k)). rewrite E.
    pose proof (pivot_sorted L) as P. destruct (choose_pivot less 0 n) as [pv m]. cbn in P. subst m.
    cbn [Nat.eqb orb andb partial_insertion]. rewrite scan_sorted by lia.
    replace (1 + (n - 1)) with n by lia. rewrite Nat.eqb_refl. reflexivity.
Qed.
End Sorted.

Theorem go_sort_sorted_input score cs : (sorted_by score cs -> go_sort_asc score cs = cs) /\
  (sorted_by (fun c => (- score c)%Z) cs -> go_sort_desc score cs = cs).
Proof.
  split; intros S; unfold go_sort_asc, go_sort_desc; rewrite slice_sorted; auto; intros i j Hij Hj; unfold asc_less, desc_less;
    rewrite (nth_scores score cs i []), (nth_scores score cs j []) by lia; apply Z.ltb_ge; specialize (S i j [] Hij Hj); cbv beta in S; lia.
Qed.

(** ** The bound on the recursion suffices *)

Lemma go_up_bounds p n : forall i j, i <= go_up p n i j /\ go_up p n i j <= Nat.max i (S j).
Proof.
  induction n as [|n IH]; intros i j; cbn [go_up]; [lia|]. destruct (Nat.leb_spec i j); cbn [andb]; [|lia].
  destruct (p i); [|lia]. specialize (IH (S i) j). lia.
Qed.

Lemma go_down_bounds p n : forall i j, 1 <= i -> go_down p n i j <= j /\ Nat.min j (i - 1) <= go_down p n i j.
Proof.
  induction n as [|n IH]; intros i j Hi; cbn [go_down]; [lia|]. destruct (Nat.leb_spec i j); cbn [andb]; [|lia].
  destruct (p j); [|lia]. specialize (IH i (j - 1) Hi). lia.
Qed.

Lemma part_bounds up down fuel : forall i j s i' j', 1 <= i -> i <= j + 2 -> part_loop fuel up down i j = (s, i', j') ->
  i <= i' /\ i' <= Nat.max i (S j) /\ j' <= j /\ Nat.min j (i - 1) <= j'.
Proof.
  induction fuel as [|f IH]; intros i j s i' j' Hi L E; cbn [part_loop] in E.
  - injection E as _ <- <-. lia.
  - pose proof (go_up_bounds up (S j - i) i j) as U. remember (go_up up (S j - i) i j) as i1.
    pose proof (go_down_bounds down (S j - i) i1 j ltac:(lia)) as D. remember (go_down down (S j - i) i1 j) as j1.
    destruct (Nat.ltb_spec j1 i1).
    + injection E as _ <- <-. lia.
    + destruct (part_loop f up down (S i1) (j1 - 1)) as [[s2 i2] j2] eqn:E2. injection E as _ <- <-.
      apply IH in E2; lia.
Qed.

Lemma partition_bounds less a b pv s j al : a < b -> partition less a b pv = (s, j, al) -> a <= j /\ j < b.
Proof.
  intros L. unfold partition. destruct (part_loop _ _ _ _ _) as [[s2 i2] j2] eqn:E. intros K. injection K as _ <- _.
  apply part_bounds in E; lia.
Qed.

Lemma partition_equal_bounds less a b pv s i : a < b -> partition_equal less a b pv = (s, i) -> a < i /\ i <= b.
Proof.
  intros L. unfold partition_equal. destruct (part_loop _ _ _ _ _) as [[s2 i2] j2] eqn:E. intros K. injection K as _ <-.
  apply part_bounds in E; lia.
Qed.

(** More rounds of the inner loops change nothing either. *)
Lemma part_fuel up down : forall f f' i j, 1 <= i -> S j - i < f -> S j - i < f' ->
  part_loop f up down i j = part_loop f' up down i j.
Proof.
  induction f as [|f IH]; intros f' i j Hi L L'; [lia|]. destruct f' as [|f']; [lia|]. cbn [part_loop].
  pose proof (go_up_bounds up (S j - i) i j) as U. remember (go_up up (S j - i) i j) as i1.
  pose proof (go_down_bounds down (S j - i) i1 j ltac:(lia)) as D. remember (go_down down (S j - i) i1 j) as j1.
  destruct (Nat.ltb_spec j1 i1); auto. rewrite (IH f'); [reflexivity|lia|lia|lia].
Qed.

Lemma sift_fuel less hi first : forall f f' root, hi - root <= f -> hi - root <= f' ->
  sift_down less f root hi first = sift_down less f' root hi first.
Proof.
  assert (Z : forall f root, hi - root <= 0 -> sift_down less f root hi first = []).
  { intros [|f] root L; auto. cbn [sift_down]. destruct (Nat.leb_spec hi (2 * root + 1)); [reflexivity|lia]. }
  induction f as [|f IH]; intros f' root L L'; [now rewrite !Z by lia|]. destruct f' as [|f']; [now rewrite !Z by lia|]. cbn [sift_down].
  destruct (Nat.leb_spec hi (2 * root + 1)); auto.
  destruct (_ && _)%bool; destruct (less (first + root) _); auto; f_equal; apply IH; lia.
Qed.

Lemma pdq_fuel less : forall f f' a b limit bal par, b - a < f -> b - a < f' ->
  pdq less f a b limit bal par = pdq less f' a b limit bal par.
Proof.
  induction f as [|f IH]; intros f' a b limit bal par L L'; [lia|]. destruct f' as [|f']; [lia|]. cbn [pdq].
  destruct (Nat.leb_spec (b - a) 12) as [|B]; auto. destruct (Nat.eqb limit 0); auto.
  destruct (choose_pivot less a b) as [pv n]. destruct (if (bal && par && (Nat.eqb n 12 || Nat.eqb n 0))%bool then _ else _) as [s2 d].
  do 3 f_equal. destruct d; auto. destruct (_ && _)%bool.
  - match goal with |- context [partition_equal less a b ?x] => destruct (partition_equal less a b x) as [s3 mid] eqn:E end.
    apply partition_equal_bounds in E; [|lia]. f_equal. apply IH; lia.
  - match goal with |- context [partition less a b ?x] => destruct (partition less a b x) as [[s3 mid] al] eqn:E end.
    apply partition_bounds in E; [|lia]. f_equal. destruct (Nat.ltb _ _); f_equal; apply IH; lia.
Qed.

Theorem slice_fuel less n : forall fuel, n < fuel ->
  pdq less fuel 0 n (N.size_nat (N.of_nat n)) true true = slice_swaps less n.
Proof. intros fuel L. apply pdq_fuel; lia. Qed.
