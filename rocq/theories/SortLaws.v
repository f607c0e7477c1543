(** What sorting does for local resolution. *)
From Verif Require Import Base GoVal Policy Schema Metadata Chain SpecChain ChainFacts Sort SortFacts SpecSort.
From Verif Require Import Resolver SpecResolver ResolverFacts TrustMark SpecTrustMark TrustMarkFacts TrustMarkLaws.
From Coq Require Import Permutation Arith.
Local Open Scope nat_scope.

(** ** Which chain comes first *)

Lemma swap_down_nth {A} j (l : list A) x : S j < List.length l ->
  nth_error (swap_down (S j) l) x =
  if Nat.eqb x j then nth_error l (S j) else if Nat.eqb x (S j) then nth_error l j else nth_error l x.
Proof.
  revert j x. induction l as [|a l IH]; intros j x L; [cbn in L; lia|]. unfold swap_down in *. replace (S j - 1) with j in * by lia.
  destruct j as [|j].
  - cbn [skipn firstn app]. destruct l as [|b r]; [cbn in L; lia|]. destruct x as [|[|x]]; reflexivity.
  - cbn [skipn firstn app]. cbn [List.length] in L. specialize (IH j). replace (S j - 1) with j in IH by lia.
    destruct (skipn j l) as [|b [|c r]] eqn:E.
    + pose proof (skipn_length j l) as K. rewrite E in K. cbn in K. lia.
    + pose proof (skipn_length j l) as K. rewrite E in K. cbn in K. lia.
    + destruct x as [|x]; [reflexivity|]. cbn [nth_error Nat.eqb app]. rewrite IH by lia. reflexivity.
Qed.

Lemma swap_down_length {A} j (l : list A) : List.length (swap_down j l) = List.length l.
Proof. apply Permutation_length, swap_down_perm. Qed.

Lemma sink_above {A} less j : forall (l : list A) x, j < List.length l -> j < x -> nth_error (sink less j l) x = nth_error l x.
Proof.
  induction j as [|j IH]; intros l x L Hx; cbn [sink]; auto. destruct (less (S j) j); auto.
  rewrite IH by (rewrite ?swap_down_length; lia). rewrite swap_down_nth by lia.
  destruct (Nat.eqb_spec x j); [lia|]. destruct (Nat.eqb_spec x (S j)); [lia|reflexivity].
Qed.

Lemma sink_all {A} less j : forall l : list A, j < List.length l -> (forall i, i < j -> less (S i) i = true) ->
  nth_error (sink less j l) 0 = nth_error l j.
Proof.
  induction j as [|j IH]; intros l L H; cbn [sink]; auto. rewrite H by lia.
  rewrite IH; [|rewrite swap_down_length; lia|intros; apply H; lia].
  rewrite swap_down_nth by lia. now rewrite Nat.eqb_refl.
Qed.

Lemma sink_stuck {A} less j k : forall l : list A, k < j -> j < List.length l -> less (S k) k = false ->
  nth_error (sink less j l) 0 = nth_error l 0.
Proof.
  induction j as [|j IH]; intros l Hk L H; [lia|]. cbn [sink]. destruct (less (S j) j) eqn:E; auto.
  assert (k <> j) by congruence. rewrite IH by (rewrite ?swap_down_length; auto; lia).
  rewrite swap_down_nth by lia. destruct j as [|j]; [lia|]. reflexivity.
Qed.

Section First.
Context {A : Type} (less : nat -> nat -> bool) (cs : list A) (k : nat).
Context (Hk : k < List.length cs) (Hdown : forall i, i < k -> less (S i) i = true)
        (Hup : S k < List.length cs -> less (S k) k = false).

Lemma insertion_first n : forall i l, 1 <= i -> i + n = List.length cs -> List.length l = List.length cs ->
  (forall x, i <= x -> nth_error l x = nth_error cs x) ->
  nth_error l 0 = nth_error cs (Nat.min (i - 1) k) ->
  nth_error (insertion less i n l) 0 = nth_error cs k.
Proof.
  induction n as [|n IH]; intros i l Hi E L T F; cbn [insertion].
  - rewrite F. f_equal. lia.
  - apply IH; try lia.
    + rewrite (Permutation_length (sink_perm less i l)). exact L.
    + intros x Hx. rewrite sink_above by lia. apply T. lia.
    + destruct (Nat.le_gt_cases i k) as [C|C].
      * rewrite sink_all by (try lia; intros; apply Hdown; lia). rewrite T by lia. f_equal. lia.
      * rewrite (sink_stuck less i k) by (try lia; apply Hup; lia). rewrite F. f_equal. lia.
Qed.

Lemma slice_first : nth_error (sort_slice less cs) 0 = nth_error cs k.
Proof.
  unfold sort_slice. apply insertion_first; auto; try lia.
Qed.
End First.

Theorem sort_first score cs k : List.length cs <= 12 -> falls_to score cs k ->
  nth_error (go_sort_asc score cs) 0 = nth_error cs k.
Proof.
  intros L (Hk & D & U). destruct (go_sort_small score cs L) as [-> _]. unfold sort_asc. apply slice_first; auto.
  - intros i Hi. rewrite !(nth_scores score cs _ []) by lia. apply Z.ltb_lt. now apply D.
  - intros Hs. rewrite !(nth_scores score cs _ []) by lia. apply Z.ltb_ge. now apply U.
Qed.

(** ** Every list has such a position *)
Lemma falls_somewhere score cs : cs <> [] -> exists k, falls_to score cs k.
Proof.
  intros N. assert (G : forall n, n < List.length cs -> exists k, k <= n /\
    (forall i, i < k -> (score (nth (S i) cs []) < score (nth i cs []))%Z) /\
    (k < n -> (score (nth k cs []) <= score (nth (S k) cs []))%Z)).
  { induction n as [|n IH]; intros L; [exists 0; repeat split; intros; lia|].
    destruct IH as (k & Hk & D & U); [lia|]. destruct (Nat.eq_dec k n) as [->|].
    - destruct (Z.ltb_spec (score (nth (S n) cs [])) (score (nth n cs []))) as [K|K].
      + exists (S n). split; [lia|]. split; [|lia]. intros i Hi. destruct (Nat.eq_dec i n) as [->|]; [exact K|]. apply D. lia.
      + exists n. split; [lia|]. split; auto.
    - exists k. split; [lia|]. split; auto. intros _. apply U. lia. }
  destruct cs as [|c r]; [now elim N|]. destruct (G (List.length r)) as (k & Hk & D & U); [cbn; lia|].
  exists k. split; [cbn; lia|]. split; auto. intros H. apply U. cbn [List.length] in H. lia.
Qed.

(** ** Local resolution *)

Lemma sorted_as_go e cs : te_swaps e = length_swaps \/ List.length cs <= 12 ->
  sort_path_len e cs = go_sort_asc (fun c => Z.of_nat (path_len c)) cs.
Proof.
  intros H. unfold sort_path_len. destruct (Nat.leb_spec (List.length cs) 12) as [L|L].
  - symmetry. now apply go_sort_small.
  - destruct H as [->|H]; [|lia]. unfold length_swaps, go_sort_asc, exchanges, sort_swaps.
    generalize (slice_swaps (asc_less (fun c => Z.of_nat (path_len c)) cs) (List.length cs)) as s. intros s. generalize cs as l. clear.
    induction s as [|[i j] s IH]; intros l; cbn [filter map fold_left]; auto. cbn [fst snd].
    destruct (Nat.eqb_spec i j) as [->|N]; cbn [negb map fold_left fst snd].
    + rewrite IH. unfold exchange. cbn [fst snd]. now rewrite Nat.ltb_irrefl.
    + rewrite IH. f_equal. unfold exchange. cbn [fst snd]. destruct (Nat.ltb_spec i j).
      * now rewrite Nat.min_l, Nat.max_r by lia.
      * destruct (Nat.ltb_spec j i); [|lia]. now rewrite Nat.min_r, Nat.max_l by lia.
Qed.

Lemma local_first fuel e p rq cs m :
  resolve_valid fuel (te_world e p rq) (map (fun id => Anchor id None) (rq_anchors rq)) (rq_types rq) (rq_sub rq) = Done (Ok cs) ->
  local_resolve fuel e p rq = Done (Ok m) ->
  exists c, nth_error (sort_path_len e cs) 0 = Some c /\ chain_metadata c = Ok m.
Proof.
  intros HR H. unfold local_resolve in H. apply rbind_ok in H. destruct H as ([pl c] & H & [= <-]).
  apply local_plain_ok in H. destruct H as (cs' & m' & r & HR' & ES & EM & ->).
  pose proof (resolve_valid_det _ _ _ _ _ _ _ _ HR HR') as E. injection E as <-. exists c. rewrite ES. auto.
Qed.

Theorem local_chosen fuel e p rq cs m k :
  resolve_valid fuel (te_world e p rq) (map (fun id => Anchor id None) (rq_anchors rq)) (rq_types rq) (rq_sub rq) = Done (Ok cs) ->
  List.length cs <= 12 -> falls_to (fun c => Z.of_nat (path_len c)) cs k ->
  local_resolve fuel e p rq = Done (Ok m) -> chain_metadata (nth k cs []) = Ok m.
Proof.
  intros HR L D H. destruct (local_first _ _ _ _ _ _ HR H) as (c & E & M).
  rewrite sorted_as_go in E by auto. rewrite (sort_first _ _ k) in E by auto.
  now rewrite (nth_error_nth _ _ _ E).
Qed.

Theorem local_shortest_any fuel e p rq cs m : te_swaps e = length_swaps ->
  resolve_valid fuel (te_world e p rq) (map (fun id => Anchor id None) (rq_anchors rq)) (rq_types rq) (rq_sub rq) = Done (Ok cs) ->
  sorted_by (fun c => Z.of_nat (path_len c)) cs ->
  local_resolve fuel e p rq = Done (Ok m) -> exists c, minimal cs c /\ chain_metadata c = Ok m.
Proof.
  intros HE HR S H. destruct (local_first _ _ _ _ _ _ HR H) as (c & E & M).
  rewrite sorted_as_go in E by auto. rewrite (proj1 (go_sort_sorted_input _ cs) S) in E.
  exists c. split; [|exact M]. destruct cs as [|x r]; [discriminate|]. injection E as ->.
  split; [now left|]. intros d Hd. apply In_nth with (d := c) in Hd. destruct Hd as ([|k] & Hk & <-); [cbn; lia|].
  specialize (S 0 (Datatypes.S k) c ltac:(lia) Hk). cbn [nth] in S. cbn [nth]. lia.
Qed.

Theorem local_shortest_fall fuel e p rq cs m k :
  resolve_valid fuel (te_world e p rq) (map (fun id => Anchor id None) (rq_anchors rq)) (rq_types rq) (rq_sub rq) = Done (Ok cs) ->
  List.length cs <= 12 -> falls_to (fun c => Z.of_nat (path_len c)) cs k -> minimal cs (nth k cs []) ->
  local_resolve fuel e p rq = Done (Ok m) -> exists c, minimal cs c /\ chain_metadata c = Ok m.
Proof. intros HR L D M H. exists (nth k cs []). split; auto. eapply local_chosen; eauto. Qed.
