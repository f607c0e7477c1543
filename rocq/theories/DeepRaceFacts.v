(** Proofs: two authorities below any authority suffice for a race. *)
From Coq Require Import Lia.
From Verif Require Import Base BaseFacts GoVal Policy Schema Metadata Chain Resolver FloatTime Json TrustMark Discovery SpecDiscovery DiscoveryFacts EvalFacts DiscoveryLaws
  SpecAsked RaceFacts DiamondFacts SpecDeep.
Local Open Scope nat_scope.
Local Open Scope string_scope.
Local Open Scope list_scope.

Lemma races_up sem wg got out ts k g : nth_error ts k = Some (Wait g) -> races g -> races (Frame sem wg got out ts).
Proof.
  intros N (l1 & x & l2 & y & l3 & E & H). destruct g as [sm w' g' o us]. cbn [goroutines] in E.
  apply nth_error_split in N. destruct N as (t1 & t2 & -> & _).
  exists (flat_map task_all t1 ++ Wait (Frame sm w' g' o us) :: l1), x, l2, y, (l3 ++ flat_map task_all t2). split; [|exact H].
  cbn [goroutines]. rewrite flat_map_app. cbn [flat_map task_all]. rewrite E. repeat (rewrite <- ?app_assoc; cbn [app]). reflexivity.
Qed.

Lemma way_up w ta V p a : way w ta V p a -> forall s A, leads w (V, fresh p a) s A ->
  exists s' A', leads w (start ta) s' A' /\ (races (snd s) -> races (snd s')).
Proof.
  induction 1 as [|V p a l k b W IH N D L K E]; intros s A R; [exists s, A; auto|].
  destruct (opened_at w V p a l k b N D L K E) as (sem & wg & out & ts & R0 & U).
  pose proof (lifted w sem wg None out (S k) (a :: V) _ s A (wf_fresh _ _) R ts U) as R1.
  destruct (IH _ _ (leads_trans _ _ _ _ _ _ R0 R1)) as (s' & A' & R' & H).
  exists s', A'. split; [exact R'|]. intros X. apply H. cbn [snd].
  apply (races_up _ _ _ _ _ (S k) (snd s)); [|exact X]. apply nth_set_same. apply nth_error_Some. congruence.
Qed.

Lemma two_below w V p a l i j b c : ~ In a V -> dw_listing w p a = Some l -> List.length l < max_workers -> i <> j ->
  nth_error l i = Some b -> nth_error l j = Some c -> snd (dw_entity w (S i :: p) b) = true -> snd (dw_entity w (S j :: p) c) = true ->
  ~ In b (a :: V) -> exists s A, leads w (V, fresh p a) s A /\ races (snd s).
Proof.
  intros Na Li Le IJ B C DB DC Nb. pose proof (opened w V p a l Na Li Le) as R1. set (m := S (List.length l)) in *.
  set (ts := Spawn p m [] :: subs_at p 1 l) in R1.
  assert (Ni : nth_error ts (S i) = Some (Sub (S i :: p) b)) by (apply (subs_at_nth p l 1 i b B)).
  assert (Nj : nth_error ts (S j) = Some (Sub (S j :: p) c)) by (apply (subs_at_nth p l 1 j c C)).
  assert (Ki : S i < List.length ts) by (apply nth_error_Some; congruence).
  assert (Kj : S j < List.length ts) by (apply nth_error_Some; congruence).
  destruct (nested_at w (a :: V) m m [] ts (S i) (S i :: p) b Ni DB) as [out1 R2].
  set (ts1 := set_nth (S i) (Wait (fresh (0 :: S i :: p) b)) ts) in R2.
  assert (Nj1 : nth_error ts1 (S j) = Some (Sub (S j :: p) c)) by (unfold ts1; rewrite nth_set_other by congruence; exact Nj).
  destruct (nested_at w (a :: V) m m out1 ts1 (S j) (S j :: p) c Nj1 DC) as [out2 R3].
  set (ts2 := set_nth (S j) (Wait (fresh (0 :: S j :: p) c)) ts1) in R3.
  assert (Ni2 : nth_error ts2 (S i) = Some (Wait (fresh (0 :: S i :: p) b))).
  { unfold ts2, ts1. rewrite nth_set_other by congruence. now apply nth_set_same. }
  pose proof (lifted w m m None out2 (S i) (a :: V) _ _ _ (wf_fresh _ _) (check_add w b (a :: V) (0 :: S i :: p) Nb) ts2 Ni2) as R4. cbn [fst snd] in R4.
  set (ts3 := set_nth (S i) (Wait (Frame 1 1 None [] [Add (0 :: S i :: p) b])) ts2) in R4.
  eexists. eexists. split; [exact (leads_trans _ _ _ _ _ _ R1 (leads_trans _ _ _ _ _ _ R2 (leads_trans _ _ _ _ _ _ R3 R4)))|].
  assert (L2 : List.length ts2 = List.length ts) by (unfold ts2, ts1; now rewrite !length_set).
  assert (X : nth_error ts3 (S i) = Some (Wait (Frame 1 1 None [] [Add (0 :: S i :: p) b]))) by (unfold ts3; apply nth_set_same; lia).
  assert (Y : nth_error ts3 (S j) = Some (Wait (fresh (0 :: S j :: p) c))).
  { unfold ts3. rewrite nth_set_other by congruence. unfold ts2. apply nth_set_same. unfold ts1. rewrite length_set. lia. }
  cbn [snd]. unfold races. cbn [goroutines]. destruct (Nat.lt_ge_cases i j) as [O|O].
  - destruct (two_split ts3 (S i) (S j) _ _ X Y ltac:(lia)) as (l1 & l2 & l3 & ->).
    rewrite flat_map_app. cbn [flat_map]. rewrite flat_map_app. cbn [flat_map task_all fresh app].
    eexists (flat_map task_all l1 ++ [_]), _, (flat_map task_all l2 ++ [_]), _, _. split; [rewrite <- !app_assoc; cbn [app]; reflexivity|]. cbn. auto.
  - destruct (two_split ts3 (S j) (S i) _ _ Y X ltac:(lia)) as (l1 & l2 & l3 & ->).
    rewrite flat_map_app. cbn [flat_map]. rewrite flat_map_app. cbn [flat_map task_all fresh app].
    eexists (flat_map task_all l1 ++ [_]), _, (flat_map task_all l2 ++ [_]), _, _. split; [rewrite <- !app_assoc; cbn [app]; reflexivity|]. cbn. auto.
Qed.

Theorem deep_race w ta V p a l i j b c : way w ta V p a -> ~ In a V -> dw_listing w p a = Some l -> List.length l < max_workers -> i <> j ->
  nth_error l i = Some b -> nth_error l j = Some c -> snd (dw_entity w (S i :: p) b) = true -> snd (dw_entity w (S j :: p) c) = true ->
  ~ In b (a :: V) -> exists s, reached w ta s /\ races (snd s).
Proof.
  intros W Na Li Le IJ B C DB DC Nb.
  destruct (two_below w V p a l i j b c Na Li Le IJ B C DB DC Nb) as (s & A & R & X).
  destruct (way_up w ta V p a W s A R) as (s' & A' & (cs & E & _) & H). exists s'. split; [now exists cs|auto].
Qed.
