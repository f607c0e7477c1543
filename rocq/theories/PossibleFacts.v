(** ResolvePossible and Resolve. *)
From Coq Require Import Lia Permutation.
From Verif Require Import Base GoVal Policy Schema Metadata Chain Resolver SpecResolver SpecChain FloatTime SpecTime Json SpecJson
  TrustMark SpecTrustMark BaseFacts ChainFacts ResolverFacts ResolverLaws FloatFacts TimeFacts JsonFacts TrustMarkFacts TrustMarkLaws
  SpecPolicy Custom SpecCustom CustomFacts SpecExact ExactFacts.
Local Open Scope nat_scope.
Local Open Scope string_scope.

Lemma local_possible_cases fuel e p rq :
  let rv := resolve_valid fuel (te_world e p rq) (map (fun id => Anchor id None) (rq_anchors rq)) (rq_types rq) (rq_sub rq) in
  match rv with
  | Done (Ok []) => local_possible fuel e p rq = Done (Ok (false, true)) /\ local_resolve fuel e p rq = Done Err
  | Done (Ok cs) => local_possible fuel e p rq = Done (Ok (true, false)) /\ exists m, local_resolve fuel e p rq = Done (Ok m)
  | Done Err => False
  | Done Panic => local_possible fuel e p rq = Done Panic /\ local_resolve fuel e p rq = Done Panic
  | OutOfFuel => local_possible fuel e p rq = OutOfFuel /\ local_resolve fuel e p rq = OutOfFuel
  end.
Proof.
  cbn zeta. unfold local_possible, local_resolve.
  pose proof (resolve_never_error fuel (te_world e p rq) (map (fun id => Anchor id None) (rq_anchors rq)) (rq_types rq) (rq_sub rq)) as NE.
  destruct (resolve_valid _ _ _ _ _) as [[cs| |]|] eqn:HR; try contradiction.
  - destruct cs as [|c0 cs]; cbn [rbind].
    + split; auto. unfold local_plain. rewrite HR. reflexivity.
    + split; auto.
      destruct (sort_path_len e (c0 :: cs)) as [|c1 r1] eqn:ES.
      { pose proof (sort_path_len_perm e (c0 :: cs)) as P. rewrite ES in P. apply Permutation_nil in P. discriminate. }
      assert (Hc1 : In c1 (c0 :: cs)) by (eapply Permutation_in; [apply (sort_path_len_perm e)|]; rewrite ES; now left).
      pose proof (resolve_valid_ok _ _ _ _ _ _ HR c1 Hc1) as V. destruct (chain_metadata c1) as [m| |] eqn:EM; try discriminate.
      exists m. rewrite (proj2 (local_plain_ok fuel e p rq (Payload m [] (messages c1)) c1)) by (exists (c0 :: cs), m, r1; auto). reflexivity.
  - unfold local_plain. rewrite HR. auto.
  - unfold local_plain. rewrite HR. auto.
Qed.

(** The local resolver confirms exactly what Resolve does. *)
Theorem local_yes fuel e p rq :
  resolve_possible fuel e LocalR p rq = Done (Ok (true, false)) <-> exists m, resolve_metadata fuel e LocalR p rq = Done (Ok m).
Proof.
  cbn [resolve_possible resolve_metadata]. pose proof (local_possible_cases fuel e p rq) as H. cbn zeta in H.
  destruct (resolve_valid _ _ _ _ _) as [[[|c cs]| |]|]; try contradiction; destruct H as [H1 H2]; rewrite H1; try rewrite H2.
  - split; [discriminate|intros (m & [=])].
  - tauto.
  - split; [discriminate|intros (m & [=])].
  - split; [discriminate|intros (m & [=])].
Qed.

Theorem local_no fuel e p rq :
  resolve_possible fuel e LocalR p rq = Done (Ok (false, true)) <-> resolve_metadata fuel e LocalR p rq = Done Err.
Proof.
  cbn [resolve_possible resolve_metadata]. pose proof (local_possible_cases fuel e p rq) as H. cbn zeta in H.
  destruct (resolve_valid _ _ _ _ _) as [[[|c cs]| |]|]; try contradiction; destruct H as [H1 H2]; rewrite H1; try rewrite H2.
  - tauto.
  - destruct H2 as (m & ->). split; discriminate.
  - split; discriminate.
  - split; discriminate.
Qed.

(** ... which is whether there is a trust chain with valid metadata. *)
Theorem local_possible_exact fuel e p rq yes no :
  resolve_possible fuel e LocalR p rq = Done (Ok (yes, no)) ->
  no = negb yes /\
  (yes = true <-> exists c m, trust_chain (te_world e p rq) (map (fun id => Anchor id None) (rq_anchors rq)) (rq_types rq) (rq_sub rq) c /\
                              chain_metadata c = Ok m).
Proof.
  cbn [resolve_possible]. unfold local_possible. intros H. apply rbind_ok in H as (cs & HR & [= <- <-]). split; auto.
  pose proof (valid_exact _ _ _ _ _ _ HR) as V. destruct cs as [|c cs].
  - split; [discriminate|]. intros (c & m & T & M). destruct (proj2 (V c)). split; eauto.
  - split; auto. intros _. destruct (proj1 (V c) (or_introl eq_refl)) as (T & m & M). eauto.
Qed.

(** A remote resolver: yes exactly if the endpoint answers with a resolve response or says
    that only the metadata is invalid; no exactly if it says so, or gave no answer that can
    be understood. *)
Theorem simple_yes fuel e p ep rq :
  resolve_possible fuel e (SimpleR ep) p rq = Done (Ok (true, false)) <->
  (exists m, resolve_metadata fuel e (SimpleR ep) p rq = Done (Ok m)) \/ te_remote e p ep rq = AError "invalid_metadata".
Proof.
  cbn [resolve_possible resolve_metadata]. unfold remote_possible, remote_resolve, remote_payload, remote_response.
  destruct (te_remote e p ep rq) as [|code|b]; cbn [bind].
  - split; [discriminate|]. intros [(m & [=])|[=]].
  - unfold status_of.
    destruct (String.eqb_spec code "invalid_subject") as [->|N1]; [split; [discriminate|intros [(m & [=])|[=]]]|].
    destruct (String.eqb_spec code "invalid_trust_anchor") as [->|N2]; [split; [discriminate|intros [(m & [=])|[=]]]|].
    destruct (String.eqb_spec code "invalid_trust_chain") as [->|N3]; [split; [discriminate|intros [(m & [=])|[=]]]|].
    destruct (String.eqb_spec code "invalid_metadata") as [->|N4]; [split; auto|].
    cbn [orb]. split; [discriminate|]. intros [(m & [=])|[=]]. contradiction.
  - destruct (parse_response e b) as [pl| |]; cbn [bind]; split; try discriminate.
    + intros _. left. eauto.
    + auto.
    + intros [(m & [=])|[=]].
    + intros [(m & [=])|[=]].
Qed.

Theorem simple_no fuel e p ep rq :
  resolve_possible fuel e (SimpleR ep) p rq = Done (Ok (false, true)) <->
  te_remote e p ep rq = AError "invalid_trust_chain" \/ te_remote e p ep rq = ATransport \/
  (exists b, te_remote e p ep rq = ABody b /\ forall pl, parse_response e b <> Ok pl).
Proof.
  cbn [resolve_possible]. unfold remote_possible, remote_response.
  destruct (te_remote e p ep rq) as [|code|b]; cbn [bind].
  - split; auto.
  - unfold status_of.
    destruct (String.eqb_spec code "invalid_subject") as [->|N1]; [split; [discriminate|intros [[=]|[[=]|(b & [=] & _)]]]|].
    destruct (String.eqb_spec code "invalid_trust_anchor") as [->|N2]; [split; [discriminate|intros [[=]|[[=]|(b & [=] & _)]]]|].
    destruct (String.eqb_spec code "invalid_trust_chain") as [->|N3]; [split; auto|].
    destruct (String.eqb_spec code "invalid_metadata") as [->|N4]; [split; [discriminate|intros [[=]|[[=]|(b & [=] & _)]]]|].
    cbn [orb]. split; [discriminate|intros [[=]|[[=]|(b & [=] & _)]]]. contradiction.
  - destruct (parse_response e b) as [pl| |] eqn:EP; cbn [bind]; split; try discriminate; auto.
    + intros [[=]|[[=]|(b' & [= <-] & H)]]. now elim (H pl).
    + intros _. right. right. exists b. split; auto. rewrite EP. discriminate.
    + intros _. right. right. exists b. split; auto. rewrite EP. discriminate.
Qed.

(** No resolver confirms both. *)
Theorem possible_exclusive fuel e r p rq yes no :
  resolve_possible fuel e r p rq = Done (Ok (yes, no)) -> (yes && no)%bool = false.
Proof.
  assert (L : forall yes no, local_possible fuel e p rq = Done (Ok (yes, no)) -> (yes && no)%bool = false).
  { unfold local_possible. intros y n H. apply rbind_ok in H as (cs & _ & [= <- <-]). now destruct cs. }
  assert (S : forall q ep, (fst (remote_possible e q ep rq) && snd (remote_possible e q ep rq))%bool = false).
  { intros q ep. unfold remote_possible. destruct (remote_response e q ep rq) as [[x| |] []]; reflexivity. }
  destruct r as [|ep|]; cbn [resolve_possible].
  - apply L.
  - intros [= H]. specialize (S p ep). now rewrite H in S.
  - unfold smart_possible. destruct (ask_possible e p 0 (rq_anchors rq) rq) as [[a b]|] eqn:EA; [|apply L].
    intros [= <- <-]. revert EA. generalize 0. induction (rq_anchors rq) as [|id ids IH]; intros i; cbn [ask_possible]; [discriminate|].
    destruct (te_config e (i :: p) id) as [ec|]; [|apply IH]. destruct (String.eqb _ _); [apply IH|].
    specialize (S (i :: p) (resolve_endpoint ec)).
    destruct (remote_possible e (i :: p) (resolve_endpoint ec) rq) as [[] []]; cbn in *; try discriminate; try (intros [= <- <-]; reflexivity); apply IH.
Qed.

(** ** Which resolve responses are accepted *)
Theorem remote_exact fuel e p ep rq pl : resolve_payload fuel e (SimpleR ep) p rq = Done (Ok pl) <->
  exists b j, te_remote e p ep rq = ABody b /\ te_parse e b = Some ("resolve-response+jwt", j) /\ te_payload e j = Some pl.
Proof.
  cbn [resolve_payload]. split.
  - intros [= H]. now apply remote_typ.
  - intros (b & j & H1 & H2 & H3). unfold remote_payload, remote_response, parse_response. rewrite H1, H2. cbn [negb].
    unfold typ_resolve. rewrite String.eqb_refl. cbn [negb]. rewrite H3. reflexivity.
Qed.

Theorem remote_no_panic fuel e p ep rq : resolve_payload fuel e (SimpleR ep) p rq <> Done Panic.
Proof.
  cbn [resolve_payload]. unfold remote_payload, remote_response, parse_response.
  destruct (te_remote e p ep rq) as [|code|b]; [discriminate|now destruct (status_of code)|].
  destruct (te_parse e b) as [[typ j]|]; [|discriminate]. destruct (negb _); [discriminate|]. destruct (te_payload e j); discriminate.
Qed.

(** ** Whole policies *)
Theorem policy_exact (p : policy) : (forall k e, In (k, e) p -> exists s, denotes e s) ->
  (verify_policy p = Ok tt <-> forall k e s, In (k, e) p -> denotes e s -> consistent s).
Proof.
  intros HD. rewrite verify_policy_exact. split.
  - intros H k e s I D. apply (verify_exact e s D). eapply H; eauto.
  - intros H k e I. destruct (HD k e I) as (s & D). apply (verify_exact e s D). eauto.
Qed.
