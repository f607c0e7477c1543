(** Proofs: an authority with two superiors below the anchor may be asked twice. *)
From Coq Require Import Lia.
From Verif Require Import Base GoVal Policy Schema Metadata Chain Resolver FloatTime Json TrustMark Discovery SpecDiscovery BaseFacts DiscoveryFacts EvalFacts DiscoveryLaws
  SpecAsked RaceFacts.
Local Open Scope nat_scope.
Local Open Scope string_scope.
Local Open Scope list_scope.

(** Some execution leads from [s] to [s'] and asks [A]. *)
Definition leads (w : dworld) (s s' : list string * frame) (A : list string) : Prop :=
  exists cs, exec w cs s = Some s' /\ asked_for_lists w cs s = A.
Lemma leads_refl w s : leads w s s [].
Proof. now exists []. Qed.
Lemma leads_step w c s s1 s2 A B : step w c (fst s) (snd s) = Some s1 -> match acting c (snd s) with Some (Fetch _ a) => [a] | _ => [] end = A ->
  leads w s1 s2 B -> leads w s s2 (A ++ B).
Proof. intros H <- (cs & X & <-). exists (c :: cs). cbn [exec asked_for_lists]. rewrite H. auto. Qed.
Lemma leads_trans w s s1 s2 A B : leads w s s1 A -> leads w s1 s2 B -> leads w s s2 (A ++ B).
Proof.
  intros (cs & X & <-). revert s X. induction cs as [|c cs IH]; intros s X R; cbn [exec asked_for_lists] in *; [now injection X as -> |].
  destruct (step w c (fst s) (snd s)) as [s0|] eqn:E; [|discriminate]. rewrite <- app_assoc.
  apply (leads_step w c s s0); auto.
Qed.
Lemma leads_wf w s s' A : leads w s s' A -> wf (snd s) -> wf (snd s').
Proof.
  intros (cs & X & _). revert s X. induction cs as [|c cs IH]; intros [V f] X W; cbn [exec fst snd] in *; [now injection X as <-|].
  destruct (step w c V f) as [[V1 f1]|] eqn:E; [|discriminate]. apply (IH (V1, f1) X).
  apply (steps_wf w V f V1 f1); [now apply step_steps with c|exact W].
Qed.

Lemma set_set {A} (ts : list A) : forall k x y, set_nth k y (set_nth k x ts) = set_nth k y ts.
Proof. induction ts as [|t l IH]; intros [|k] x y; cbn; try reflexivity. now rewrite IH. Qed.
Lemma set_same {A} (ts : list A) : forall k x, nth_error ts k = Some x -> set_nth k x ts = ts.
Proof. induction ts as [|t l IH]; intros [|k] x H; cbn in *; try congruence. now rewrite IH. Qed.

(** What a nested call does the whole does. *)
Lemma lifted w sem wg got out k V g s' A : wf g -> leads w (V, g) s' A -> forall ts, nth_error ts k = Some (Wait g) ->
  leads w (V, Frame sem wg got out ts) (fst s', Frame sem wg got out (set_nth k (Wait (snd s')) ts)) A.
Proof.
  intros W (cs & X & <-). revert V g X W. induction cs as [|c cs IH]; intros V g X W ts N; cbn [exec asked_for_lists fst snd] in *.
  - injection X as <-. cbn [fst snd]. rewrite (set_same _ _ _ N). apply leads_refl.
  - destruct (step w c V g) as [[V1 g1]|] eqn:E; [|discriminate].
    assert (F : finished g = false).
    { destruct (finished g) eqn:F; [|reflexivity]. destruct (finished_empty g W F) as (sm & o & ->). destruct c as [|[|i] c]; discriminate E. }
    assert (L : k < List.length ts) by (apply nth_error_Some; congruence).
    assert (W1 : wf g1) by (apply (steps_wf w V g V1 g1); [now apply step_steps with c|exact W]).
    eapply (leads_step w (At k c)).
    + cbn [step fst snd]. rewrite N, F, E. reflexivity.
    + cbn [acting snd]. now rewrite N, F.
    + pose proof (IH V1 g1 X W1 (set_nth k (Wait g1) ts) (nth_set_same ts k _ L)) as R. now rewrite set_set in R.
Qed.

Fixpoint subs_at (p : list nat) (k : nat) (l : list string) : list task :=
  match l with [] => [] | b :: l' => Sub (k :: p) b :: subs_at p (S k) l' end.
Lemma subs_at_app p l : forall k r, subs_at p k (l ++ r) = subs_at p k l ++ subs_at p (k + List.length l) r.
Proof.
  induction l as [|b l IH]; intros k r; cbn [app subs_at List.length]; [now rewrite Nat.add_0_r|].
  rewrite IH. now replace (S k + List.length l) with (k + S (List.length l)) by lia.
Qed.
Lemma subs_at_nth p l : forall k i b, nth_error l i = Some b -> nth_error (subs_at p k l) i = Some (Sub ((k + i) :: p) b).
Proof.
  induction l as [|x l IH]; intros k [|i] b H; try discriminate; cbn [nth_error subs_at] in *.
  - injection H as ->. now rewrite Nat.add_0_r.
  - rewrite (IH (S k) i b H). now replace (S k + i) with (k + S i) by lia.
Qed.
Lemma spawned_at w V p : forall l2 l1, List.length (l1 ++ l2) < max_workers ->
  leads w (V, Frame (S (List.length l1)) (S (List.length l1)) None [] (Spawn p (S (List.length l1)) l2 :: subs_at p 1 l1))
    (V, Frame (S (List.length (l1 ++ l2))) (S (List.length (l1 ++ l2))) None [] (Spawn p (S (List.length (l1 ++ l2))) [] :: subs_at p 1 (l1 ++ l2))) [].
Proof.
  induction l2 as [|b l2 IH]; intros l1 L; [rewrite app_nil_r; apply leads_refl|].
  assert (E : l1 ++ b :: l2 = (l1 ++ [b]) ++ l2) by (now rewrite <- app_assoc). rewrite E in *. specialize (IH (l1 ++ [b]) L).
  assert (N : List.length (l1 ++ [b]) = S (List.length l1)) by (rewrite app_length; cbn; lia).
  apply (leads_step w (At 0 Collect) _ _ _ [] []) with (3 := IH); [|reflexivity].
  cbn [step fst snd nth_error set_nth]. rewrite app_length in L. assert (M : S (List.length l1) < max_workers \/ ~ S (List.length l1) < max_workers) by lia.
  destruct (Nat.ltb_spec (S (List.length l1)) max_workers) as [_|B]; [|lia].
  rewrite N, subs_at_app. reflexivity.
Qed.
(** A call for an authority not visited before gets as far as looking at all its subordinates. *)
Lemma opened w V p a l : ~ In a V -> dw_listing w p a = Some l -> List.length l < max_workers ->
  leads w (V, fresh p a) (a :: V, Frame (S (List.length l)) (S (List.length l)) None [] (Spawn p (S (List.length l)) [] :: subs_at p 1 l)) [a].
Proof.
  intros N D L. apply mem_nIn in N.
  apply (leads_step w (At 0 Collect) _ (V, Frame 1 1 None [] [Add p a]) _ [] [a]); [cbn [step fst snd nth_error fresh set_nth]; now rewrite N|reflexivity|].
  apply (leads_step w (At 0 Collect) _ (a :: V, Frame 1 1 None [] [Fetch p a]) _ [] [a]); [reflexivity|reflexivity|].
  apply (leads_step w (At 0 Collect) _ (a :: V, Frame 1 1 None [] [Spawn p 1 l]) _ [a] []); [cbn [step fst snd nth_error set_nth]; now rewrite D|reflexivity|].
  exact (spawned_at w (a :: V) p l [] L).
Qed.
Lemma nested_at w V sem wg out ts k p b : nth_error ts k = Some (Sub p b) -> snd (dw_entity w p b) = true ->
  exists out', leads w (V, Frame sem wg None out ts) (V, Frame sem wg None out' (set_nth k (Wait (fresh (0 :: p) b)) ts)) [].
Proof.
  intros N D. assert (L : k < List.length ts) by (apply nth_error_Some; congruence).
  assert (St : forall out0, leads w (V, Frame sem wg None out0 (set_nth k (Nest p b) ts)) (V, Frame sem wg None out0 (set_nth k (Wait (fresh (0 :: p) b)) ts)) []).
  { intros out0. eapply (leads_step w (At k Collect) _ _ _ [] []); [| |apply leads_refl].
    - cbn [step fst snd]. rewrite (nth_set_same ts k (Nest p b) L), set_set. reflexivity.
    - cbn [acting snd]. now rewrite (nth_set_same ts k _ L). }
  destruct (dw_entity w p b) as [[e|] n] eqn:E; cbn [snd] in D; subst n.
  - exists (record_entity e out).
    apply (leads_step w (At k Collect) _ (V, Frame sem wg None out (set_nth k (Send e true p b) ts)) _ [] []);
      [cbn [step fst snd]; now rewrite N, E|cbn [acting snd]; now rewrite N|].
    apply (leads_step w (At k Collect) _ (V, Frame sem wg (Some e) out (set_nth k (Nest p b) ts)) _ [] []);
      [cbn [step fst snd]; now rewrite (nth_set_same ts k _ L), set_set|cbn [acting snd]; now rewrite (nth_set_same ts k _ L)|].
    apply (leads_step w Collect _ (V, Frame sem wg None (record_entity e out) (set_nth k (Nest p b) ts)) _ [] []); [reflexivity|reflexivity|apply St].
  - exists out.
    apply (leads_step w (At k Collect) _ (V, Frame sem wg None out (set_nth k (Nest p b) ts)) _ [] []);
      [cbn [step fst snd]; now rewrite N, E|cbn [acting snd]; now rewrite N|apply St].
Qed.
(** ... and as far as asking one of them for its own. *)
Lemma opened_at w V p a l k c : ~ In a V -> dw_listing w p a = Some l -> List.length l < max_workers ->
  nth_error l k = Some c -> snd (dw_entity w (S k :: p) c) = true ->
  exists sem wg out ts, leads w (V, fresh p a) (a :: V, Frame sem wg None out ts) [a] /\ nth_error ts (S k) = Some (Wait (fresh (0 :: S k :: p) c)).
Proof.
  intros N D L C E. pose proof (opened w V p a l N D L) as R.
  set (ts := Spawn p (S (List.length l)) [] :: subs_at p 1 l) in R.
  assert (Nk : nth_error ts (S k) = Some (Sub (S k :: p) c)) by (apply (subs_at_nth p l 1 k c C)).
  destruct (nested_at w (a :: V) (S (List.length l)) (S (List.length l)) [] ts (S k) (S k :: p) c Nk E) as [out R'].
  exists (S (List.length l)), (S (List.length l)), out, (set_nth (S k) (Wait (fresh (0 :: S k :: p) c)) ts). split.
  - exact (leads_trans _ _ _ _ _ _ R R').
  - apply nth_set_same. apply nth_error_Some. congruence.
Qed.

(** ** Two superiors *)
Section Diamond.
  Variables (w : dworld) (ta b1 b2 c : string) (l l1 l2 : list string) (i j k1 k2 : nat).
  Hypotheses (D0 : dw_listing w [] ta = Some l) (L0 : List.length l < max_workers) (IJ : i <> j)
    (Hb1 : nth_error l i = Some b1) (Hb2 : nth_error l j = Some b2)
    (E1 : snd (dw_entity w [S i] b1) = true) (E2 : snd (dw_entity w [S j] b2) = true)
    (D1 : dw_listing w [0; S i] b1 = Some l1) (L1 : List.length l1 < max_workers) (Hc1 : nth_error l1 k1 = Some c) (F1 : snd (dw_entity w [S k1; 0; S i] c) = true)
    (D2 : dw_listing w [0; S j] b2 = Some l2) (L2 : List.length l2 < max_workers) (Hc2 : nth_error l2 k2 = Some c) (F2 : snd (dw_entity w [S k2; 0; S j] c) = true)
    (Dist : NoDup [c; b2; b1; ta]).

  Lemma check_add V q : ~ In c V -> leads w (V, fresh q c) (V, Frame 1 1 None [] [Add q c]) [].
  Proof.
    intros N. apply mem_nIn in N. apply (leads_step w (At 0 Collect) _ (V, Frame 1 1 None [] [Add q c]) _ [] []); [|reflexivity|apply leads_refl].
    cbn [step fst snd nth_error fresh set_nth]. now rewrite N.
  Qed.
  Lemma add_ask V q : exists g, leads w (V, Frame 1 1 None [] [Add q c]) (c :: V, g) [c].
  Proof.
    exists (Frame 1 1 None [] [match dw_listing w q c with Some l => Spawn q 1 l | None => Release end]).
    apply (leads_step w (At 0 Collect) _ (c :: V, Frame 1 1 None [] [Fetch q c]) _ [] [c]); [reflexivity|reflexivity|].
    apply (leads_step w (At 0 Collect) _ (c :: V, Frame 1 1 None [] [match dw_listing w q c with Some l => Spawn q 1 l | None => Release end]) _ [c] []);
      [reflexivity|reflexivity|apply leads_refl].
  Qed.

  Theorem diamond_twice : exists cs s, exec w cs (start ta) = Some s /\ asked_for_lists w cs (start ta) = [ta; b1; b2; c; c].
  Proof.
    assert (Nb1 : ~ In b1 [ta]) by (inversion_clear Dist as [|? ? _ X]; inversion_clear X as [|? ? _ Y]; now inversion_clear Y).
    assert (Nb2 : ~ In b2 [b1; ta]) by (inversion_clear Dist as [|? ? _ X]; now inversion_clear X).
    assert (Nc : ~ In c [b2; b1; ta]) by (now inversion_clear Dist).
    (* the anchor *)
    pose proof (opened w [] [] ta l (fun H => H) D0 L0) as R0. set (m := S (List.length l)) in *.
    set (ts0 := Spawn [] m [] :: subs_at [] 1 l) in R0.
    assert (N1 : nth_error ts0 (S i) = Some (Sub [S i] b1)) by (apply (subs_at_nth [] l 1 i b1 Hb1)).
    assert (N2 : nth_error ts0 (S j) = Some (Sub [S j] b2)) by (apply (subs_at_nth [] l 1 j b2 Hb2)).
    assert (K1 : S i < List.length ts0) by (apply nth_error_Some; congruence).
    assert (K2 : S j < List.length ts0) by (apply nth_error_Some; congruence).
    destruct (nested_at w [ta] m m [] ts0 (S i) [S i] b1 N1 E1) as [o1 R1].
    set (ts1 := set_nth (S i) (Wait (fresh [0; S i] b1)) ts0) in R1.
    assert (N2' : nth_error ts1 (S j) = Some (Sub [S j] b2)) by (unfold ts1; rewrite nth_set_other by congruence; exact N2).
    destruct (nested_at w [ta] m m o1 ts1 (S j) [S j] b2 N2' E2) as [o2 R2].
    set (ts2 := set_nth (S j) (Wait (fresh [0; S j] b2)) ts1) in R2.
    assert (T2 : List.length ts2 = List.length ts0) by (unfold ts2, ts1; now rewrite !length_set).
    assert (P1 : nth_error ts2 (S i) = Some (Wait (fresh [0; S i] b1))) by (unfold ts2, ts1; rewrite nth_set_other by congruence; now apply nth_set_same).
    assert (P2 : nth_error ts2 (S j) = Some (Wait (fresh [0; S j] b2))) by (unfold ts2, ts1; apply nth_set_same; now rewrite length_set).
    (* its two subordinates *)
    destruct (opened_at w [ta] [0; S i] b1 l1 k1 c Nb1 D1 L1 Hc1 F1) as (sem1 & wg1 & out1 & u1 & G1 & U1).
    destruct (opened_at w [b1; ta] [0; S j] b2 l2 k2 c Nb2 D2 L2 Hc2 F2) as (sem2 & wg2 & out2 & u2 & G2 & U2).
    pose proof (leads_wf _ _ _ _ G1 (wf_fresh _ _)) as W1. pose proof (leads_wf _ _ _ _ G2 (wf_fresh _ _)) as W2. cbn [snd] in W1, W2.
    set (q1 := [0; S k1; 0; S i]) in *. set (q2 := [0; S k2; 0; S j]) in *.
    set (g1 := Frame sem1 wg1 None out1 u1) in *. set (g2 := Frame sem2 wg2 None out2 u2) in *.
    pose proof (lifted w m m None o2 (S i) [ta] (fresh [0; S i] b1) _ _ (wf_fresh _ _) G1 ts2 P1) as R3. cbn [fst snd] in R3.
    set (ts3 := set_nth (S i) (Wait g1) ts2) in R3.
    assert (P2' : nth_error ts3 (S j) = Some (Wait (fresh [0; S j] b2))) by (unfold ts3; rewrite nth_set_other by congruence; exact P2).
    pose proof (lifted w m m None o2 (S j) [b1; ta] (fresh [0; S j] b2) _ _ (wf_fresh _ _) G2 ts3 P2') as R4. cbn [fst snd] in R4.
    set (ts4 := set_nth (S j) (Wait g2) ts3) in R4.
    assert (T4 : List.length ts4 = List.length ts0) by (unfold ts4, ts3; now rewrite !length_set).
    assert (Q1 : nth_error ts4 (S i) = Some (Wait g1)) by (unfold ts4, ts3; rewrite nth_set_other by congruence; apply nth_set_same; lia).
    assert (Q2 : nth_error ts4 (S j) = Some (Wait g2)) by (unfold ts4, ts3; apply nth_set_same; rewrite length_set; lia).
    (* both look whether [c] was visited *)
    set (V := [b2; b1; ta]) in *.
    assert (H1 := lifted w sem1 wg1 None out1 (S k1) V (fresh q1 c) _ _ (wf_fresh _ _) (check_add V q1 Nc) u1 U1). cbn [fst snd] in H1.
    assert (H2 := lifted w sem2 wg2 None out2 (S k2) V (fresh q2 c) _ _ (wf_fresh _ _) (check_add V q2 Nc) u2 U2). cbn [fst snd] in H2.
    set (h1 := Frame sem1 wg1 None out1 (set_nth (S k1) (Wait (Frame 1 1 None [] [Add q1 c])) u1)) in *.
    set (h2 := Frame sem2 wg2 None out2 (set_nth (S k2) (Wait (Frame 1 1 None [] [Add q2 c])) u2)) in *.
    pose proof (lifted w m m None o2 (S i) V g1 _ _ W1 H1 ts4 Q1) as R5. cbn [fst snd] in R5.
    set (ts5 := set_nth (S i) (Wait h1) ts4) in R5.
    assert (Q2' : nth_error ts5 (S j) = Some (Wait g2)) by (unfold ts5; rewrite nth_set_other by congruence; exact Q2).
    pose proof (lifted w m m None o2 (S j) V g2 _ _ W2 H2 ts5 Q2') as R6. cbn [fst snd] in R6.
    set (ts6 := set_nth (S j) (Wait h2) ts5) in R6.
    assert (S1 : nth_error ts6 (S i) = Some (Wait h1)) by (unfold ts6, ts5; rewrite nth_set_other by congruence; apply nth_set_same; lia).
    assert (S2 : nth_error ts6 (S j) = Some (Wait h2)) by (unfold ts6, ts5; apply nth_set_same; rewrite length_set; lia).
    pose proof (leads_wf _ _ _ _ H1 W1) as W3. pose proof (leads_wf _ _ _ _ H2 W2) as W4. cbn [snd] in W3, W4.
    (* and both ask *)
    destruct (add_ask V q1) as [x1 A1]. destruct (add_ask (c :: V) q2) as [x2 A2].
    assert (WA1 : wf (Frame 1 1 None [] [Add q1 c])) by (apply (leads_wf _ _ _ _ (check_add V q1 Nc)), wf_fresh).
    assert (WA2 : wf (Frame 1 1 None [] [Add q2 c])) by (apply (leads_wf _ _ _ _ (check_add V q2 Nc)), wf_fresh).
    assert (Y1 : nth_error (set_nth (S k1) (Wait (Frame 1 1 None [] [Add q1 c])) u1) (S k1) = Some (Wait (Frame 1 1 None [] [Add q1 c])))
      by (apply nth_set_same, nth_error_Some; congruence).
    assert (Y2 : nth_error (set_nth (S k2) (Wait (Frame 1 1 None [] [Add q2 c])) u2) (S k2) = Some (Wait (Frame 1 1 None [] [Add q2 c])))
      by (apply nth_set_same, nth_error_Some; congruence).
    pose proof (lifted w sem1 wg1 None out1 (S k1) V _ _ _ WA1 A1 _ Y1) as B1. cbn [fst snd] in B1.
    pose proof (lifted w sem2 wg2 None out2 (S k2) (c :: V) _ _ _ WA2 A2 _ Y2) as B2. cbn [fst snd] in B2.
    pose proof (lifted w m m None o2 (S i) V h1 _ _ W3 B1 ts6 S1) as R7. cbn [fst snd] in R7.
    match type of R7 with leads _ _ (_, Frame _ _ _ _ ?t) _ => set (ts7 := t) in R7 end.
    assert (S2' : nth_error ts7 (S j) = Some (Wait h2)) by (unfold ts7; rewrite nth_set_other by congruence; exact S2).
    pose proof (lifted w m m None o2 (S j) (c :: V) h2 _ _ W4 B2 ts7 S2') as R8. cbn [fst snd] in R8.
    pose proof (leads_trans _ _ _ _ _ _ R0 (leads_trans _ _ _ _ _ _ R1 (leads_trans _ _ _ _ _ _ R2 (leads_trans _ _ _ _ _ _ R3 (leads_trans _ _ _ _ _ _ R4
      (leads_trans _ _ _ _ _ _ R5 (leads_trans _ _ _ _ _ _ R6 (leads_trans _ _ _ _ _ _ R7 R8)))))))) as R.
    destruct R as (cs & X & A). exists cs. eexists. split; [exact X|exact A].
  Qed.
End Diamond.
