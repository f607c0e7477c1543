(** Proofs: an authority with two superiors below an authority at any depth may be asked twice. *)
From Coq Require Import Lia.
From Verif Require Import Base BaseFacts GoVal Policy Schema Metadata Chain Resolver FloatTime Json TrustMark Discovery SpecDiscovery DiscoveryFacts EvalFacts DiscoveryLaws
  SpecAsked RaceFacts DiamondFacts CompletionFacts SpecDeep DeepRaceFacts.
Local Open Scope nat_scope.
Local Open Scope string_scope.
Local Open Scope list_scope.

Lemma way_asks w ta V p a : way w ta V p a -> forall s A, leads w (V, fresh p a) s A -> exists s' A', leads w (start ta) s' (A' ++ A).
Proof.
  induction 1 as [|V p a l k b W IH N D L K E]; intros s A R; [now exists s, []|].
  destruct (opened_at w V p a l k b N D L K E) as (sem & wg & out & ts & R0 & U).
  pose proof (lifted w sem wg None out (S k) (a :: V) _ s A (wf_fresh _ _) R ts U) as R1.
  destruct (IH _ _ (leads_trans _ _ _ _ _ _ R0 R1)) as (s' & A' & R'). exists s', (A' ++ [a]). now rewrite <- app_assoc.
Qed.

Section Below.
  Variables (w : dworld) (V0 : list string) (p : list nat) (a b1 b2 c : string) (l l1 l2 : list string) (i j k1 k2 : nat).
  Hypotheses (Na : ~ In a V0) (D0 : dw_listing w p a = Some l) (L0 : List.length l < max_workers) (IJ : i <> j)
    (Hb1 : nth_error l i = Some b1) (Hb2 : nth_error l j = Some b2)
    (E1 : snd (dw_entity w (S i :: p) b1) = true) (E2 : snd (dw_entity w (S j :: p) b2) = true)
    (D1 : dw_listing w (0 :: S i :: p) b1 = Some l1) (L1 : List.length l1 < max_workers) (Hc1 : nth_error l1 k1 = Some c) (F1 : snd (dw_entity w (S k1 :: 0 :: S i :: p) c) = true)
    (D2 : dw_listing w (0 :: S j :: p) b2 = Some l2) (L2 : List.length l2 < max_workers) (Hc2 : nth_error l2 k2 = Some c) (F2 : snd (dw_entity w (S k2 :: 0 :: S j :: p) c) = true)
    (Nb1 : ~ In b1 (a :: V0)) (Nb2 : ~ In b2 (b1 :: a :: V0)) (Nc : ~ In c (b2 :: b1 :: a :: V0)).

  Lemma diamond_below : exists s, leads w (V0, fresh p a) s [a; b1; b2; c; c].
  Proof.
      (* the anchor *)
    pose proof (opened w V0 p a l Na D0 L0) as R0. set (m := S (List.length l)) in *.
    set (ts0 := Spawn p m [] :: subs_at p 1 l) in R0.
    assert (N1 : nth_error ts0 (S i) = Some (Sub (S i :: p) b1)) by (apply (subs_at_nth p l 1 i b1 Hb1)).
    assert (N2 : nth_error ts0 (S j) = Some (Sub (S j :: p) b2)) by (apply (subs_at_nth p l 1 j b2 Hb2)).
    assert (K1 : S i < List.length ts0) by (apply nth_error_Some; congruence).
    assert (K2 : S j < List.length ts0) by (apply nth_error_Some; congruence).
    destruct (nested_at w (a :: V0) m m [] ts0 (S i) (S i :: p) b1 N1 E1) as [o1 R1].
    set (ts1 := set_nth (S i) (Wait (fresh (0 :: S i :: p) b1)) ts0) in R1.
    assert (N2' : nth_error ts1 (S j) = Some (Sub (S j :: p) b2)) by (unfold ts1; rewrite nth_set_other by congruence; exact N2).
    destruct (nested_at w (a :: V0) m m o1 ts1 (S j) (S j :: p) b2 N2' E2) as [o2 R2].
    set (ts2 := set_nth (S j) (Wait (fresh (0 :: S j :: p) b2)) ts1) in R2.
    assert (T2 : List.length ts2 = List.length ts0) by (unfold ts2, ts1; now rewrite !length_set).
    assert (P1 : nth_error ts2 (S i) = Some (Wait (fresh (0 :: S i :: p) b1))) by (unfold ts2, ts1; rewrite nth_set_other by congruence; now apply nth_set_same).
    assert (P2 : nth_error ts2 (S j) = Some (Wait (fresh (0 :: S j :: p) b2))) by (unfold ts2, ts1; apply nth_set_same; now rewrite length_set).
    (* its two subordinates *)
    destruct (opened_at w (a :: V0) (0 :: S i :: p) b1 l1 k1 c Nb1 D1 L1 Hc1 F1) as (sem1 & wg1 & out1 & u1 & G1 & U1).
    destruct (opened_at w (b1 :: a :: V0) (0 :: S j :: p) b2 l2 k2 c Nb2 D2 L2 Hc2 F2) as (sem2 & wg2 & out2 & u2 & G2 & U2).
    pose proof (leads_wf _ _ _ _ G1 (wf_fresh _ _)) as W1. pose proof (leads_wf _ _ _ _ G2 (wf_fresh _ _)) as W2. cbn [snd] in W1, W2.
    set (q1 := (0 :: S k1 :: 0 :: S i :: p)) in *. set (q2 := (0 :: S k2 :: 0 :: S j :: p)) in *.
    set (g1 := Frame sem1 wg1 None out1 u1) in *. set (g2 := Frame sem2 wg2 None out2 u2) in *.
    pose proof (lifted w m m None o2 (S i) (a :: V0) (fresh (0 :: S i :: p) b1) _ _ (wf_fresh _ _) G1 ts2 P1) as R3. cbn [fst snd] in R3.
    set (ts3 := set_nth (S i) (Wait g1) ts2) in R3.
    assert (P2' : nth_error ts3 (S j) = Some (Wait (fresh (0 :: S j :: p) b2))) by (unfold ts3; rewrite nth_set_other by congruence; exact P2).
    pose proof (lifted w m m None o2 (S j) (b1 :: a :: V0) (fresh (0 :: S j :: p) b2) _ _ (wf_fresh _ _) G2 ts3 P2') as R4. cbn [fst snd] in R4.
    set (ts4 := set_nth (S j) (Wait g2) ts3) in R4.
    assert (T4 : List.length ts4 = List.length ts0) by (unfold ts4, ts3; now rewrite !length_set).
    assert (Q1 : nth_error ts4 (S i) = Some (Wait g1)) by (unfold ts4, ts3; rewrite nth_set_other by congruence; apply nth_set_same; lia).
    assert (Q2 : nth_error ts4 (S j) = Some (Wait g2)) by (unfold ts4, ts3; apply nth_set_same; rewrite length_set; lia).
    (* both look whether [c] was visited *)
    set (V := (b2 :: b1 :: a :: V0)) in *.
    assert (H1 := lifted w sem1 wg1 None out1 (S k1) V (fresh q1 c) _ _ (wf_fresh _ _) (check_add w c V q1 Nc) u1 U1). cbn [fst snd] in H1.
    assert (H2 := lifted w sem2 wg2 None out2 (S k2) V (fresh q2 c) _ _ (wf_fresh _ _) (check_add w c V q2 Nc) u2 U2). cbn [fst snd] in H2.
    set (h1 := Frame sem1 wg1 None out1 (set_nth (S k1) (Wait (Frame 1 1 None [] [Add q1 c])) u1)) in *.
    set (h2 := Frame sem2 wg2 None out2 (set_nth (S k2) (Wait (Frame 1 1 None [] [Add q2 c])) u2)) in *.
    pose proof (lifted w m m None o2 (S i) V g1 _ _ W1 H1 ts4 Q1) as R5. cbn [fst snd] in R5.
    set (ts5 := set_nth (S i) (Wait h1) ts4) in R5.
    assert (Q2' : nth_error ts5 (S j) = Some (Wait g2)) by (unfold ts5; rewrite nth_set_other by congruence; exact Q2).
    pose proof (lifted w m m None o2 (S j) V g2 _ _ W2 H2 ts5 Q2') as R6. cbn [fst snd] in R6.
    set (ts6 := set_nth (S j) (Wait h2) ts5) in R6.
    assert (S1 : nth_error ts6 (S i) = Some (Wait h1)) by (unfold ts6, ts5; rewrite nth_set_other by congruence; apply nth_set_same; lia).
    assert (S2 : nth_error ts6 (S j) = Some (Wait h2)) by (unfold ts6, ts5; apply nth_set_same; rewrite length_set; lia).
    pose proof (leads_wf _ _ _ _ H1 W1) as W3. pose proof (leads_wf _ _ _ _ H2 W2) as W4. cbn [snd] in W3, W4.
    (* and both ask *)
    destruct (add_ask w c V q1) as [x1 A1]. destruct (add_ask w c (c :: V) q2) as [x2 A2].
    assert (WA1 : wf (Frame 1 1 None [] [Add q1 c])) by (apply (leads_wf _ _ _ _ (check_add w c V q1 Nc)), wf_fresh).
    assert (WA2 : wf (Frame 1 1 None [] [Add q2 c])) by (apply (leads_wf _ _ _ _ (check_add w c V q2 Nc)), wf_fresh).
    assert (Y1 : nth_error (set_nth (S k1) (Wait (Frame 1 1 None [] [Add q1 c])) u1) (S k1) = Some (Wait (Frame 1 1 None [] [Add q1 c])))
      by (apply nth_set_same, nth_error_Some; congruence).
    assert (Y2 : nth_error (set_nth (S k2) (Wait (Frame 1 1 None [] [Add q2 c])) u2) (S k2) = Some (Wait (Frame 1 1 None [] [Add q2 c])))
      by (apply nth_set_same, nth_error_Some; congruence).
    pose proof (lifted w sem1 wg1 None out1 (S k1) V _ _ _ WA1 A1 _ Y1) as B1. cbn [fst snd] in B1.
    pose proof (lifted w sem2 wg2 None out2 (S k2) (c :: V) _ _ _ WA2 A2 _ Y2) as B2. cbn [fst snd] in B2.
    pose proof (lifted w m m None o2 (S i) V h1 _ _ W3 B1 ts6 S1) as R7. cbn [fst snd] in R7.
    match type of R7 with leads _ _ (_, Frame _ _ _ _ ?t) _ => set (ts7 := t) in R7 end.
    assert (S2' : nth_error ts7 (S j) = Some (Wait h2)) by (unfold ts7; rewrite nth_set_other by congruence; exact S2).
    pose proof (lifted w m m None o2 (S j) (c :: V) h2 _ _ W4 B2 ts7 S2') as R8. cbn [fst snd] in R8.
    pose proof (leads_trans _ _ _ _ _ _ R0 (leads_trans _ _ _ _ _ _ R1 (leads_trans _ _ _ _ _ _ R2 (leads_trans _ _ _ _ _ _ R3 (leads_trans _ _ _ _ _ _ R4
      (leads_trans _ _ _ _ _ _ R5 (leads_trans _ _ _ _ _ _ R6 (leads_trans _ _ _ _ _ _ R7 R8)))))))) as R.
    eexists. exact R.
  Qed.
End Below.

Theorem deep_twice w ta V p a b1 b2 c l l1 l2 i j k1 k2 : names_entities w -> finite_world w -> way w ta V p a ->
  dw_listing w p a = Some l -> List.length l < max_workers -> i <> j ->
  nth_error l i = Some b1 -> nth_error l j = Some b2 ->
  snd (dw_entity w (S i :: p) b1) = true -> snd (dw_entity w (S j :: p) b2) = true ->
  dw_listing w (0 :: S i :: p) b1 = Some l1 -> List.length l1 < max_workers -> nth_error l1 k1 = Some c -> snd (dw_entity w (S k1 :: 0 :: S i :: p) c) = true ->
  dw_listing w (0 :: S j :: p) b2 = Some l2 -> List.length l2 < max_workers -> nth_error l2 k2 = Some c -> snd (dw_entity w (S k2 :: 0 :: S j :: p) c) = true ->
  ~ In a V -> ~ In b1 (a :: V) -> ~ In b2 (b1 :: a :: V) -> ~ In c (b2 :: b1 :: a :: V) ->
  exists cs s, exec w cs (start ta) = Some s /\ finished (snd s) = true /\ ~ NoDup (asked_for_lists w cs (start ta)).
Proof.
  intros N F W D0 L0 IJ B1 B2 E1 E2 D1 L1 C1 F1 D2 L2 C2 F2 Na Nb1 Nb2 Nc.
  destruct (diamond_below w V p a b1 b2 c l l1 l2 i j k1 k2 Na D0 L0 IJ B1 B2 E1 E2 D1 L1 C1 F1 D2 L2 C2 F2 Nb1 Nb2 Nc) as (s & R).
  destruct (way_asks w ta V p a W s _ R) as (s' & A & (cs & X & E)).
  destruct (completes w ta N F cs s' X) as (cs' & s2 & X' & D). exists (cs ++ cs'), s2. split; [exact X'|]. split; [exact D|].
  rewrite (asked_then w cs cs' _ s' X), E. intros ND.
  replace ((A ++ [a; b1; b2; c; c]) ++ asked_for_lists w cs' s') with ((A ++ [a; b1; b2]) ++ c :: c :: asked_for_lists w cs' s') in ND
    by (repeat (rewrite <- ?app_assoc; cbn [app]); reflexivity).
  apply NoDup_remove_2 in ND. apply ND. apply in_or_app. right. now left.
Qed.
