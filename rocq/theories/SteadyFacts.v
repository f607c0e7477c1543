(** Proofs: collecting from a network that does not change. *)
From Verif Require Import Base GoVal Policy Schema Metadata Chain Resolver FloatTime Json TrustMark Discovery SpecMetadata SpecDiscovery
  EvalFacts DiscoveryFacts DiscoveryLaws SpecSteady.
From Coq Require Import Permutation.
Local Open Scope nat_scope.
Local Open Scope string_scope.

Lemma steady_below fuel ce rq w ta b : network fuel ce rq w -> steady fuel ce rq ->
  (below (net_lists_once ce) (fun a => exists p, net_authority ce p a) ta b <-> below (lists_now ce) (authority_now ce) ta b) /\
  (below (lists_now ce) (authority_now ce) ta b <-> below (net_lists_always ce) (fun a => forall p, net_authority ce p a) ta b).
Proof.
  intros [NL NE] [S1 S2].
  assert (A : forall a p p', net_authority ce p a -> net_authority ce p' a).
  { intros a p p' H. apply (answer_spec _ _ _ _ _ _ (NE p a)) in H. apply (answer_spec _ _ _ _ _ _ (NE p' a)).
    assert (E : dw_entity w p a = dw_entity w p' a) by (pose proof (S2 p p' a) as E; rewrite !NE in E; congruence). now rewrite <- E. }
  split; split; apply below_impl.
  - intros x y [p [l [L I]]]. exists l. split; [now rewrite (S1 [] p) | exact I].
  - intros x [p H]. now apply (A x p).
  - intros x y [l [L I]]. exists [], l. auto.
  - intros x H. now exists [].
  - intros x y [l [L I]] p. exists l. split; [now rewrite (S1 p []) | exact I].
  - intros x H p. now apply (A x []).
  - intros x y H. destruct (H []) as [l [L I]]. exists l. auto.
  - intros x H. apply H.
Qed.

Lemma steady_passes fuel ce rq w p p' b : network fuel ce rq w -> steady fuel ce rq -> net_passes fuel ce rq p b -> net_passes fuel ce rq p' b.
Proof.
  intros [NL NE] [S1 S2] H. apply (answer_spec _ _ _ _ _ _ (NE p b)) in H. apply (answer_spec _ _ _ _ _ _ (NE p' b)).
  assert (E : dw_entity w p b = dw_entity w p' b) by (pose proof (S2 p p' b) as E; rewrite !NE in E; congruence). now rewrite <- E.
Qed.

Theorem collected_exactly fuel ce rq w l : network fuel ce rq w -> steady fuel ce rq -> returns w (cr_anchor rq) l ->
  forall e, In e l <-> below (lists_now ce) (authority_now ce) (cr_anchor rq) (ce_id e) /\
    exists nest, entity_answer fuel ce rq [] (ce_id e) = Done (Ok (Some e, nest)).
Proof.
  intros N S R e. pose proof N as [NL NE]. pose proof S as [S1 S2].
  assert (Q : forall p b, dw_entity w p b = dw_entity w [] b).
  { intros p b. pose proof (S2 p [] b) as E. rewrite !NE in E. congruence. }
  assert (K : forall x, In x l -> fst (dw_entity w [] (ce_id x)) = Some x).
  { intros x I. destruct R as (s & R & _ & <-).
    destruct (collected_sound w (cr_anchor rq) (network_names _ _ _ _ N) s x R I) as [_ [p P]]. now rewrite Q in P. }
  split.
  - intros I. destruct (network_sound _ _ _ _ _ _ N R I) as [B _]. split; [now apply (proj1 (steady_below _ _ _ _ _ _ N S)) |].
    pose proof (K e I) as E. exists (snd (dw_entity w [] (ce_id e))). rewrite NE, <- E. now destruct (dw_entity w [] (ce_id e)).
  - intros [B [nest E]]. rewrite NE in E. injection E as E.
    assert (In (ce_id e) (map ce_id l)).
    { apply (network_complete _ _ _ _ _ _ N R); [now apply (proj2 (steady_below _ _ _ _ _ _ N S)) |].
      intros p. apply (answer_spec _ _ _ _ _ _ (NE p (ce_id e))). exists e. now rewrite Q, E. }
    apply in_map_iff in H. destruct H as [x [Ex I]]. pose proof (K x I) as Kx. rewrite Ex, E in Kx. cbn in Kx. congruence.
Qed.

Theorem collected_same fuel ce rq w l l' : network fuel ce rq w -> steady fuel ce rq ->
  returns w (cr_anchor rq) l -> returns w (cr_anchor rq) l' -> Permutation l l'.
Proof.
  intros N S R R'. assert (ND : forall l, returns w (cr_anchor rq) l -> NoDup l).
  { intros k H. apply returns_nodup in H. now apply NoDup_map_inv in H. }
  apply NoDup_Permutation; auto. intros e.
  rewrite (collected_exactly _ _ _ _ _ N S R e), (collected_exactly _ _ _ _ _ N S R' e). tauto.
Qed.

Theorem narrower_less fuel ce rq rq' w w' l l' : narrower rq rq' -> network fuel ce rq w -> network fuel ce rq' w' ->
  steady fuel ce rq -> steady fuel ce rq' -> steady_marks fuel ce ->
  returns w (cr_anchor rq) l -> returns w' (cr_anchor rq') l' -> incl (map ce_id l') (map ce_id l).
Proof.
  intros [Ha [Ht [Hm Hn]]] N N' S S' SM R R' b I. apply in_map_iff in I. destruct I as [e [<- I]].
  destruct (network_sound _ _ _ _ _ _ N' R' I) as [B [p P]].
  apply (network_complete _ _ _ _ _ _ N R).
  - apply (proj2 (steady_below _ _ _ _ _ _ N S)). rewrite <- Ha. now apply (proj1 (steady_below _ _ _ _ _ _ N' S')).
  - intros q. destruct (steady_passes _ _ _ _ _ q _ N' S' P) as [cfg [m [E1 [E2 [P1 [P2 P3]]]]]].
    exists cfg, m. split; [exact E1 |]. split; [exact E2 |]. split; [| split].
    + intros k Hk. destruct (Ht k Hk) as [k' [Hk' Ik]]. destruct (P1 k' Hk') as [t [It Tt]]. exists t. auto.
    + intros Hne. rewrite <- (Hn Hne). apply P2. now rewrite (Hn Hne).
    + intros i ty Hi. apply nth_error_In in Hi. apply Hm in Hi. apply In_nth_error in Hi. destruct Hi as [j Hj].
      destruct (P3 j ty Hj) as [t [ta [F [C V]]]]. exists t, ta. split; [exact F |]. rewrite <- Ha. split; [exact C |].
      destruct F as [l1 [jwt [l2 [_ [_ ->]]]]]. now rewrite (SM i j).
Qed.
