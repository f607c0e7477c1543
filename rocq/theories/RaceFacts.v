(** Proofs: two authorities below the anchor are enough for a data race. *)
From Coq Require Import Lia.
From Verif Require Import Base GoVal Policy Schema Metadata Chain Resolver FloatTime Json TrustMark Discovery SpecDiscovery BaseFacts DiscoveryFacts.
Local Open Scope nat_scope.
Local Open Scope string_scope.
Local Open Scope list_scope.

Lemma nth_set_same {A} (l : list A) : forall i x, i < List.length l -> nth_error (set_nth i x l) i = Some x.
Proof. induction l as [|y l IH]; intros [|i] x L; cbn [List.length] in L; try lia; cbn; [reflexivity|]. apply IH. lia. Qed.
Lemma nth_set_other {A} (l : list A) : forall i j x, i <> j -> nth_error (set_nth i x l) j = nth_error l j.
Proof. induction l as [|y l IH]; intros [|i] [|j] x N; cbn; try reflexivity; try congruence. apply IH. congruence. Qed.
Lemma length_set {A} (l : list A) : forall i x, List.length (set_nth i x l) = List.length l.
Proof. induction l as [|y l IH]; intros [|i] x; cbn; auto. Qed.
Lemma two_split {A} (l : list A) : forall i j x y, nth_error l i = Some x -> nth_error l j = Some y -> i < j ->
  exists l1 l2 l3, l = l1 ++ x :: l2 ++ y :: l3.
Proof.
  intros i j x y X Y L. destruct (nth_error_split l i X) as (l1 & r & -> & E).
  rewrite nth_error_app2 in Y by lia. replace (j - List.length l1) with (S (j - List.length l1 - 1)) in Y by lia. cbn [nth_error] in Y.
  destruct (nth_error_split r _ Y) as (l2 & l3 & -> & _). exists l1, l2, l3. reflexivity.
Qed.

Definition reaches (w : dworld) (s s' : list string * frame) : Prop := exists cs, exec w cs s = Some s'.
Lemma reaches_refl w s : reaches w s s.
Proof. now exists []. Qed.
Lemma reaches_step w c s s1 s2 : step w c (fst s) (snd s) = Some s1 -> reaches w s1 s2 -> reaches w s s2.
Proof. intros H [cs X]. exists (c :: cs). cbn [exec]. now rewrite H. Qed.
Lemma reaches_trans w s s1 s2 : reaches w s s1 -> reaches w s1 s2 -> reaches w s s2.
Proof.
  intros [cs X]. revert s X. induction cs as [|c cs IH]; intros s X R; cbn [exec] in X; [now injection X as ->|].
  destruct (step w c (fst s) (snd s)) as [s0|] eqn:E; [|discriminate]. apply (reaches_step w c s s0); [exact E|]. now apply IH.
Qed.

(** The goroutines for the listed entities. *)
Fixpoint subs (k : nat) (l : list string) : list task :=
  match l with [] => [] | b :: l' => Sub [k] b :: subs (S k) l' end.
Lemma subs_app l : forall k r, subs k (l ++ r) = subs k l ++ subs (k + List.length l) r.
Proof.
  induction l as [|b l IH]; intros k r; cbn [app subs List.length]; [now rewrite Nat.add_0_r|].
  rewrite IH. now replace (S k + List.length l) with (k + S (List.length l)) by lia.
Qed.
Lemma subs_nth l : forall k i b, nth_error l i = Some b -> nth_error (subs k l) i = Some (Sub [k + i] b).
Proof.
  induction l as [|x l IH]; intros k [|i] b H; try discriminate; cbn [nth_error subs] in *.
  - injection H as ->. now rewrite Nat.add_0_r.
  - rewrite (IH (S k) i b H). now replace (S k + i) with (k + S i) by lia.
Qed.

Lemma spawned w V l : forall n, n <= List.length l -> n < max_workers ->
  reaches w (V, Frame 1 1 None [] [Spawn [] 1 l]) (V, Frame (S n) (S n) None [] (Spawn [] (S n) (skipn n l) :: subs 1 (firstn n l))).
Proof.
  induction n as [|n IH]; intros L M; [apply reaches_refl|]. apply (reaches_trans _ _ _ _ (IH ltac:(lia) ltac:(lia))).
  destruct (nth_error l n) as [b|] eqn:N; [|apply nth_error_None in N; lia].
  destruct (nth_error_split l n N) as (l1 & l2 & -> & E).
  assert (S1 : skipn n (l1 ++ b :: l2) = b :: l2) by (rewrite <- E, skipn_app, skipn_all, Nat.sub_diag; reflexivity).
  assert (S2 : skipn (S n) (l1 ++ b :: l2) = l2).
  { rewrite <- E, skipn_app, skipn_all2 by lia. replace (S (List.length l1) - List.length l1) with 1 by lia. reflexivity. }
  assert (F1 : firstn n (l1 ++ b :: l2) = l1) by (rewrite <- E, firstn_app, firstn_all, Nat.sub_diag; apply app_nil_r).
  assert (F2 : firstn (S n) (l1 ++ b :: l2) = l1 ++ [b]).
  { rewrite <- E, firstn_app, firstn_all2 by lia. now replace (S (List.length l1) - List.length l1) with 1 by lia. }
  rewrite S1, S2, F1, F2. apply (reaches_step w (At 0 Collect) _ (V, Frame (S (S n)) (S (S n)) None [] (Spawn [] (S (S n)) l2 :: subs 1 (l1 ++ [b])))); [|apply reaches_refl].
  cbn [step fst snd nth_error]. apply Nat.ltb_lt in M. rewrite M. cbn [set_nth]. rewrite subs_app, E. reflexivity.
Qed.

(** A goroutine whose entity is an authority gets as far as the nested call. *)
Lemma nested w V sem wg out ts k p b : nth_error ts k = Some (Sub p b) -> snd (dw_entity w p b) = true ->
  exists out', reaches w (V, Frame sem wg None out ts) (V, Frame sem wg None out' (set_nth k (Wait (fresh (0 :: p) b)) ts)).
Proof.
  intros N D. assert (L : k < List.length ts) by (apply nth_error_Some; congruence).
  assert (SS : forall x y : task, set_nth k y (set_nth k x ts) = set_nth k y ts).
  { intros x y. clear. revert k. induction ts as [|t l IH]; intros [|k]; cbn; try reflexivity. now rewrite IH. }
  assert (St : forall out0, reaches w (V, Frame sem wg None out0 (set_nth k (Nest p b) ts)) (V, Frame sem wg None out0 (set_nth k (Wait (fresh (0 :: p) b)) ts))).
  { intros out0. eapply (reaches_step w (At k Collect)); [|apply reaches_refl]. cbn [step fst snd]. rewrite (nth_set_same ts k (Nest p b) L), SS. reflexivity. }
  destruct (dw_entity w p b) as [[e|] n] eqn:E; cbn [snd] in D; subst n.
  - exists (record_entity e out).
    eapply (reaches_step w (At k Collect)). { cbn [step fst snd]. rewrite N, E. cbn [after_eval]. reflexivity. }
    eapply (reaches_step w (At k Collect)). { cbn [step fst snd]. rewrite (nth_set_same ts k _ L), SS. reflexivity. }
    eapply (reaches_step w Collect). { cbn [step fst snd]. reflexivity. }
    apply St.
  - exists out.
    eapply (reaches_step w (At k Collect)). { cbn [step fst snd]. rewrite N, E. cbn [after_eval]. reflexivity. }
    apply St.
Qed.

Theorem two_race w ta l i j b c : dw_listing w [] ta = Some l -> List.length l < max_workers -> i <> j ->
  nth_error l i = Some b -> nth_error l j = Some c -> snd (dw_entity w [S i] b) = true -> snd (dw_entity w [S j] c) = true -> b <> ta ->
  exists s, reached w ta s /\ races (snd s).
Proof.
  intros Li Le IJ B C DB DC NT.
  assert (R0 : reaches w (start ta) ([ta], Frame 1 1 None [] [Spawn [] 1 l])).
  { eapply (reaches_step w (At 0 Collect)); [reflexivity|]. eapply (reaches_step w (At 0 Collect)); [reflexivity|].
    eapply (reaches_step w (At 0 Collect)); [|apply reaches_refl]. cbn [step fst snd nth_error set_nth]. rewrite Li. reflexivity. }
  pose proof (spawned w [ta] l (List.length l) (le_n _) Le) as R1. rewrite firstn_all, skipn_all in R1.
  set (ts := Spawn [] (S (List.length l)) [] :: subs 1 l) in R1.
  assert (Ni : nth_error ts (S i) = Some (Sub [S i] b)) by (apply (subs_nth l 1 i b B)).
  assert (Nj : nth_error ts (S j) = Some (Sub [S j] c)) by (apply (subs_nth l 1 j c C)).
  assert (Ki : S i < List.length ts) by (apply nth_error_Some; congruence).
  assert (Kj : S j < List.length ts) by (apply nth_error_Some; congruence).
  destruct (nested w [ta] (S (List.length l)) (S (List.length l)) [] ts (S i) [S i] b Ni DB) as [out1 R2].
  set (ts1 := set_nth (S i) (Wait (fresh [0; S i] b)) ts) in R2.
  assert (Nj1 : nth_error ts1 (S j) = Some (Sub [S j] c)) by (unfold ts1; rewrite nth_set_other by congruence; exact Nj).
  destruct (nested w [ta] (S (List.length l)) (S (List.length l)) out1 ts1 (S j) [S j] c Nj1 DC) as [out2 R3].
  set (ts2 := set_nth (S j) (Wait (fresh [0; S j] c)) ts1) in R3.
  assert (Ni2 : nth_error ts2 (S i) = Some (Wait (fresh [0; S i] b))).
  { unfold ts2, ts1. rewrite nth_set_other by congruence. now apply nth_set_same. }
  set (ts3 := set_nth (S i) (Wait (Frame 1 1 None [] [Add [0; S i] b])) ts2).
  set (s3 := ([ta], Frame (S (List.length l)) (S (List.length l)) None out2 ts3)).
  assert (R4 : reaches w ([ta], Frame (S (List.length l)) (S (List.length l)) None out2 ts2) s3).
  { eapply (reaches_step w (At (S i) (At 0 Collect))); [|apply reaches_refl]. cbn [step fst snd]. rewrite Ni2. cbn [finished fresh step nth_error].
    assert (M : mem b [ta] = false) by (apply mem_nIn; intros [H|[]]; congruence). rewrite M. reflexivity. }
  exists s3. split.
  - exact (reaches_trans _ _ _ _ R0 (reaches_trans _ _ _ _ R1 (reaches_trans _ _ _ _ R2 (reaches_trans _ _ _ _ R3 R4)))).
  - assert (L2 : List.length ts2 = List.length ts) by (unfold ts2, ts1; now rewrite !length_set).
    assert (X : nth_error ts3 (S i) = Some (Wait (Frame 1 1 None [] [Add [0; S i] b]))) by (unfold ts3; apply nth_set_same; lia).
    assert (Y : nth_error ts3 (S j) = Some (Wait (fresh [0; S j] c))).
    { unfold ts3. rewrite nth_set_other by congruence. unfold ts2. apply nth_set_same. unfold ts1. rewrite length_set. lia. }
    unfold s3. cbn [snd]. unfold races. cbn [goroutines]. destruct (Nat.lt_ge_cases i j) as [O|O].
    + destruct (two_split ts3 (S i) (S j) _ _ X Y ltac:(lia)) as (l1 & l2 & l3 & ->).
      rewrite flat_map_app. cbn [flat_map]. rewrite flat_map_app. cbn [flat_map task_all fresh app].
      eexists (flat_map task_all l1 ++ [_]), _, (flat_map task_all l2 ++ [_]), _, _. split; [rewrite <- !app_assoc; cbn [app]; reflexivity|]. cbn. auto.
    + destruct (two_split ts3 (S j) (S i) _ _ Y X ltac:(lia)) as (l1 & l2 & l3 & ->).
      rewrite flat_map_app. cbn [flat_map]. rewrite flat_map_app. cbn [flat_map task_all fresh app].
      eexists (flat_map task_all l1 ++ [_]), _, (flat_map task_all l2 ++ [_]), _, _. split; [rewrite <- !app_assoc; cbn [app]; reflexivity|]. cbn. auto.
Qed.
