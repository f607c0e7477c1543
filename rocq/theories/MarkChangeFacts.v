(** Proofs about trust marks whose issuers change their keys and statements. *)
From Coq Require Import QArith Lia Permutation.
From Verif Require Import Base GoVal Policy Schema Metadata Chain Resolver SpecResolver ResolverFacts ResolverLaws SpecExact Refresher FloatTime Cache SpecCache SpecFresh SpecChange ChangeFacts.
From Verif Require Import Json SpecJson TrustMark SpecTrustMark TrustMarkFacts SpecMarkChange.
Local Open Scope nat_scope.
Local Open Scope string_scope.

Section Kept.
  Variables (net : answers) (c0 : cache cached) (lag from upto : Z) (e : env) (p : list nat) (iss b : string) (rest : list string) (ta : stmt) (fuel : nat) (cs : chains).
  Let w := te_world e p (issuer_request iss ta).
  Let C := in_circulation net lag from upto.
  Hypothesis empty : c0 = Memory [] \/ c0 = Redis [].
  Hypothesis lag0 : (0 <= lag)%Z.
  Hypothesis alive : served_alive (served_until upto net).
  Hypothesis sees0 : sees (served_until upto net) c0 (stored_alive lag) from w.
  Hypothesis ends : forall q k, (w_now w q k <= upto)%Z.
  Hypothesis given : iss <> "".
  Hypothesis described : forall s, C iss iss s -> st_metadata s <> None.
  Hypothesis answering : all_answer w (iss :: b :: rest).
  Hypothesis fit : fit_together w [Anchor (st_sub ta) None] from upto C (iss :: b :: rest).
  Hypothesis applicable : forall c, trust_chain w [Anchor (st_sub ta) None] [] iss c ->
    map st_iss c = (iss :: b :: rest ++ [last (b :: rest) ""])%list -> exists m, chain_metadata c = Ok m.
  Hypothesis local : te_default e = LocalR.
  Hypothesis read : reads e (C iss iss).
  Hypothesis resolved : resolve_valid fuel w [Anchor (st_sub ta) None] [] iss = Done (Ok cs).

  Lemma issuer_below : iss <> st_sub ta.
  Proof.
    destruct (exists_last (l := b :: rest)) as (l & z & E); [discriminate|].
    destruct (ft_anchor _ _ _ _ _ _ fit (iss :: l) z) as [I N]; [now rewrite E|].
    intros ->. apply (N (st_sub ta)); [now left|]. now left.
  Qed.

  Lemma kept_keys : (forall s, C iss iss s -> st_jwks s <> None /\ st_jwks s <> Some []) ->
    exists s0, C iss iss s0 /\ issuer_keys (S fuel) e p iss ta = Done (Ok (st_jwks s0)).
  Proof.
    intros K.
    destruct (way_found_valid net c0 lag from upto w [Anchor (st_sub ta) None] [] iss b rest fuel cs empty lag0 alive sees0 ends given described answering fit applicable resolved) as (c & Ic & _).
    destruct (sort_path_len e cs) as [|c1 r1] eqn:ES.
    { pose proof (sort_path_len_perm e cs) as P. rewrite ES in P. apply Permutation_nil in P. subst. destruct Ic. }
    assert (Hc1 : In c1 cs) by (eapply Permutation_in; [apply (sort_path_len_perm e)|]; rewrite ES; now left).
    pose proof (resolve_valid_ok _ _ _ _ _ _ resolved c1 Hc1) as V. destruct (chain_metadata c1) as [m| |] eqn:EM; try discriminate.
    assert (HP : local_plain fuel e p (issuer_request iss ta) = Done (Ok (Payload m [] (messages c1), c1))).
    { apply local_plain_ok. exists cs, m, r1. auto. }
    destruct (chain_first w [st_sub ta] iss c1) as (s1 & r2 & -> & EC1); [exists fuel, cs; auto|].
    destruct sees0 as (SC & _ & _). destruct (SC _ _ _ EC1) as (h & now & OK & L & G).
    destruct (gave_circulating _ _ _ _ _ _ _ _ _ _ empty lag0 alive OK L G) as (s0 & C0 & PS).
    exists s0. split; [exact C0|].
    destruct (read s0 C0) as (s' & RD & KS).
    assert (J : st_jwt s1 = st_jwt s0) by (destruct PS as [-> | ->]; reflexivity).
    cbn [issuer_keys]. destruct (String.eqb_spec iss (st_sub ta)) as [X|_]; [destruct (issuer_below X)|]. rewrite local.
    unfold issuer_request in HP. rewrite HP. cbn [rbind fst pl_chain messages map]. rewrite J, RD, KS.
    destruct (K s0 C0) as [K1 K2]. destruct (st_jwks s0) as [[|k l]|]; [destruct (K2 eq_refl)|reflexivity|destruct (K1 eq_refl)].
  Qed.
End Kept.

Theorem mark_kept net c0 lag from upto e p t m b rest ta fuel cs :
  c0 = Memory [] \/ c0 = Redis [] -> (0 <= lag)%Z -> served_alive (served_until upto net) ->
  sees (served_until upto net) c0 (stored_alive lag) from (te_world e p (issuer_request (mk_iss m) ta)) ->
  (forall q k, (w_now (te_world e p (issuer_request (mk_iss m) ta)) q k <= upto)%Z) ->
  mk_iss m <> "" -> (forall s, in_circulation net lag from upto (mk_iss m) (mk_iss m) s -> st_metadata s <> None) ->
  all_answer (te_world e p (issuer_request (mk_iss m) ta)) (mk_iss m :: b :: rest) ->
  fit_together (te_world e p (issuer_request (mk_iss m) ta)) [Anchor (st_sub ta) None] from upto (in_circulation net lag from upto) (mk_iss m :: b :: rest) ->
  (forall c, trust_chain (te_world e p (issuer_request (mk_iss m) ta)) [Anchor (st_sub ta) None] [] (mk_iss m) c ->
     map st_iss c = (mk_iss m :: b :: rest ++ [last (b :: rest) ""])%list -> exists md, chain_metadata c = Ok md) ->
  te_default e = LocalR -> reads e (in_circulation net lag from upto (mk_iss m) (mk_iss m)) ->
  in_sync e t -> (forall s, in_circulation net lag from upto (mk_iss m) (mk_iss m) s -> mark_valid e p t m (st_jwks s) (lookup (mk_type m) (st_mark_owners ta))) ->
  (forall l, lookup (mk_type m) (st_mark_issuers ta) = Some l -> In (mk_iss m) l) ->
  resolve_valid fuel (te_world e p (issuer_request (mk_iss m) ta)) [Anchor (st_sub ta) None] [] (mk_iss m) = Done (Ok cs) ->
  verify_mark (S fuel) e p t ta = Done (Ok tt).
Proof.
  intros H1 H2 H3 H4 H5 H6 H7 H8 H9 H10 H11 H12 SY MV LI R.
  destruct (kept_keys net c0 lag from upto e p (mk_iss m) b rest ta fuel cs H1 H2 H3 H4 H5 H6 H7 H8 H9 H10 H11 H12 R) as (s0 & C0 & K).
  { intros s Cs. destruct (mv_signed _ _ _ _ _ _ (MV s Cs)) as (k & l & -> & _). split; discriminate. }
  unfold verify_mark. eapply info_federation_conv; eauto.
Qed.
