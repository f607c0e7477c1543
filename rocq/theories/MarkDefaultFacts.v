(** Proofs about the acceptance of trust marks when a remote resolver is the default. *)
From Coq Require Import Lia Permutation.
From Verif Require Import Base BaseFacts GoVal Policy Schema Metadata Chain Resolver SpecResolver FloatTime SpecTime Json SpecJson TrustMark
  SpecTrustMark TrustMarkFacts TrustMarkLaws SpecMarkDefault.
Local Open Scope string_scope.

Lemma told_spec e p iss pl ks :
  match (match pl_chain pl with j :: _ => te_stmt e j | [] => te_config e p iss end) with
  | None => Done Err
  | Some tmi => Done (n <- jwks_len (st_jwks tmi) ;; if Nat.eqb n 0 then Err else Ok (st_jwks tmi))
  end = Done (Ok ks) <-> keys_told e p iss pl ks.
Proof.
  unfold keys_told. split.
  - intros H. destruct (match pl_chain pl with j :: _ => te_stmt e j | [] => te_config e p iss end) as [s|] eqn:E; [|discriminate H]. exists s.
    injection H as H. destruct (st_jwks s) as [[|k l]|] eqn:EK; cbn in H; try discriminate H. injection H as <-. exists k, l.
    destruct (pl_chain pl); auto.
  - intros (s & k & l & E & -> & EK). assert (X : match pl_chain pl with j :: _ => te_stmt e j | [] => te_config e p iss end = Some s) by (destruct (pl_chain pl); exact E).
    rewrite X, EK. reflexivity.
Qed.

Lemma remote_keys_iff e p iss ta ep : te_default e = SimpleR ep ->
  forall ks, (exists fuel, issuer_keys fuel e p iss ta = Done (Ok ks)) <-> remote_keys ep e p iss ta ks.
Proof.
  intros DR ks. unfold remote_keys, responds. split.
  - intros ([|f] & H); [discriminate|]. cbn [issuer_keys] in H.
    destruct (String.eqb_spec iss (st_sub ta)) as [E|N]; [injection H as <-; left; auto|]. right. split; auto.
    rewrite DR in H. apply rbind_ok in H. destruct H as (pl & HP & H). injection HP as HP. exists pl. split; [now apply remote_payload_ok|now apply told_spec].
  - intros [[-> ->]|(N & pl & R & K)]; [exists 1; cbn [issuer_keys]; now rewrite String.eqb_refl|].
    exists 1. cbn [issuer_keys]. destruct (String.eqb_spec iss (st_sub ta)); [contradiction|]. rewrite DR.
    apply remote_payload_ok in R. unfold issuer_request in R. rewrite R. cbn [rbind]. now apply told_spec.
Qed.

Theorem verify_mark_remote e p t ta ep : te_default e = SimpleR ep -> in_sync e t ->
  ((exists fuel, verify_mark fuel e p t ta = Done (Ok tt)) <-> recognised (remote_keys ep) e p t ta).
Proof.
  intros DR S. unfold verify_mark. split.
  - intros (fuel & H). eapply (info_federation_spec (issuer_keys fuel e)); eauto.
    intros m _ ks Hk. apply (remote_keys_iff e p (mk_iss m) ta ep DR). eauto.
  - intros (m & ks & HK & V & HI). apply (remote_keys_iff e p (mk_iss m) ta ep DR) in HK.
    destruct HK as (fuel & HK). exists fuel. eapply info_federation_conv; eauto.
Qed.

(** ** The smart resolver *)

Lemma asked_one e p rq id : rq_anchors rq = [id] ->
  match ask_anchors e p 0 (rq_anchors rq) rq with Some pl => usable e (0 :: p) rq id pl | None => forall pl, ~ usable e (0 :: p) rq id pl end.
Proof.
  intros E. pose proof (ask_anchors_spec e p rq (rq_anchors rq) 0) as S. cbn [Nat.add] in S. rewrite E in *.
  destruct (ask_anchors e p 0 [id] rq) as [pl|].
  - destruct S as ([|[|k]] & id0 & Hk & U & _); try discriminate. injection Hk as <-. exact U.
  - intros pl. exact (S 0 id pl eq_refl).
Qed.
Lemma usable_det e p rq id pl pl' : usable e p rq id pl -> usable e p rq id pl' -> pl = pl'.
Proof. intros (ec & b & j & A & B & C & D & E) (ec' & b' & j' & A' & B' & C' & D' & E'). congruence. Qed.

Lemma local_start f e p iss ta pl c : local_plain f e p (issuer_request iss ta) = Done (Ok (pl, c)) ->
  exists s r, c = s :: r /\ w_config (te_world e p (issuer_request iss ta)) [] iss = Some s /\ pl_chain pl = messages c /\
    chain_to (te_world e p (issuer_request iss ta)) [st_sub ta] iss [] c.
Proof.
  intros HP. apply local_plain_ok in HP. destruct HP as (cs & m & r & HR & ES & EM & ->).
  assert (Hc : In c cs) by (eapply Permutation_in; [apply (sort_path_len_perm e)|]; rewrite ES; now left).
  assert (CT : chain_to (te_world e p (issuer_request iss ta)) [st_sub ta] iss [] c) by (exists f, cs; auto).
  destruct (chain_first _ _ _ _ CT) as (s & r' & -> & EC). exists s, r'. auto.
Qed.

Lemma smart_keys_of e p iss ta : te_default e = SmartR -> decodes e (te_world e p (issuer_request iss ta)) ->
  forall ks fuel, issuer_keys fuel e p iss ta = Done (Ok ks) -> smart_keys e p iss ta ks.
Proof.
  intros DS DE ks [|f] H; [discriminate|]. cbn [issuer_keys] in H.
  destruct (String.eqb_spec iss (st_sub ta)) as [E|N]; [injection H as <-; left; auto|]. right.
  rewrite DS in H. apply rbind_ok in H. destruct H as (pl & HP & H). unfold smart_payload in HP.
  pose proof (asked_one e p (issuer_request iss ta) (st_sub ta) eq_refl) as A.
  change (Req iss [st_sub ta] []) with (issuer_request iss ta) in HP.
  destruct (ask_anchors e p 0 (rq_anchors (issuer_request iss ta)) (issuer_request iss ta)) as [pl0|].
  - injection HP as ->. left. split; auto. exists pl. split; auto. now apply told_spec.
  - right. split; auto. split; auto. right. split; auto. unfold local_payload in HP. apply rbind_ok in HP. destruct HP as ([pl1 c] & LP & HP). cbn [fst snd] in HP.
    destruct (local_start _ _ _ _ _ _ _ LP) as (s & r & -> & EC & EM & CT). apply rbind_ok in HP. destruct HP as (ms & _ & [= <-]).
    apply told_spec in H. destruct H as (s' & k & l & ES & -> & EK). cbn [pl_chain] in ES. rewrite EM in ES. cbn [messages map] in ES.
    rewrite (DE _ _ _ EC) in ES. injection ES as <-. exists s, r, k, l. auto.
Qed.

Theorem verify_mark_smart e p t ta : te_default e = SmartR -> in_sync e t -> (forall iss, decodes e (te_world e p (issuer_request iss ta))) ->
  forall fuel, verify_mark fuel e p t ta = Done (Ok tt) -> recognised smart_keys e p t ta.
Proof.
  intros DS S DE fuel H. eapply (info_federation_spec (issuer_keys fuel e)); eauto.
  intros m _ ks Hk. eapply smart_keys_of; eauto.
Qed.

Lemma smart_keys_reached e p iss ta : te_default e = SmartR -> decodes e (te_world e p (issuer_request iss ta)) -> bears_none e p ta ->
  forall ks, smart_keys e p iss ta ks -> exists fuel, issuer_keys fuel e p iss ta = Done (Ok ks).
Proof.
  intros DS DE BN ks [[-> ->]|[(N & pl & U & K)|(N & NU & K)]]; [exists 1; cbn [issuer_keys]; now rewrite String.eqb_refl| |].
  - exists 1. cbn [issuer_keys]. destruct (String.eqb_spec iss (st_sub ta)); [contradiction|]. rewrite DS. unfold smart_payload.
    pose proof (asked_one e p (issuer_request iss ta) (st_sub ta) eq_refl) as A.
    change (Req iss [st_sub ta] []) with (issuer_request iss ta).
    destruct (ask_anchors e p 0 (rq_anchors (issuer_request iss ta)) (issuer_request iss ta)) as [pl0|]; [|exfalso; exact (A pl U)].
    rewrite (usable_det _ _ _ _ _ _ A U). cbn [rbind]. now apply told_spec.
  - destruct K as [[E _]|(_ & s & r & k & l & CT & _ & -> & EK)]; [contradiction|]. destruct CT as (f & cs & HR & Hc).
    exists (S f). cbn [issuer_keys]. destruct (String.eqb_spec iss (st_sub ta)); [contradiction|]. rewrite DS. unfold smart_payload.
    pose proof (asked_one e p (issuer_request iss ta) (st_sub ta) eq_refl) as A.
    change (Req iss [st_sub ta] []) with (issuer_request iss ta).
    destruct (ask_anchors e p 0 (rq_anchors (issuer_request iss ta)) (issuer_request iss ta)) as [pl0|]; [exfalso; exact (NU _ A)|].
    destruct (sort_path_len e cs) as [|c1 r1] eqn:ES.
    { pose proof (sort_path_len_perm e cs) as P. rewrite ES in P. apply Permutation_nil in P. subst. destruct Hc. }
    assert (Hc1 : In c1 cs) by (eapply Permutation_in; [apply (sort_path_len_perm e)|]; rewrite ES; now left).
    pose proof (resolve_valid_ok _ _ _ _ _ _ HR c1 Hc1) as V. destruct (chain_metadata c1) as [m| |] eqn:EM; try discriminate.
    assert (HP : local_plain f e p (issuer_request iss ta) = Done (Ok (Payload m [] (messages c1), c1))) by (apply local_plain_ok; exists cs, m, r1; auto).
    destruct (local_start _ _ _ _ _ _ _ HP) as (s1 & r2 & -> & EC1 & _ & _).
    destruct (chain_first (te_world e p (issuer_request iss ta)) [st_sub ta] iss (s :: r)) as (s2 & r3 & [= <- <-] & EC2); [exists f, cs; auto|].
    rewrite EC1 in EC2. injection EC2 as ->. unfold local_payload. rewrite HP. cbn [rbind fst snd].
    unfold infos_of. rewrite (BN _ _ EC1). cbn [map verified_federation rbind pl_chain pl_metadata]. cbn [messages map]. rewrite (DE _ _ _ EC1), EK. reflexivity.
Qed.

Theorem verify_mark_smart_iff e p t ta : te_default e = SmartR -> in_sync e t -> (forall iss, decodes e (te_world e p (issuer_request iss ta))) ->
  bears_none e p ta -> ((exists fuel, verify_mark fuel e p t ta = Done (Ok tt)) <-> recognised smart_keys e p t ta).
Proof.
  intros DS S DE BN. split; [intros (fuel & H); eapply verify_mark_smart; eauto|].
  intros (m & ks & HK & V & HI). destruct (smart_keys_reached e p (mk_iss m) ta DS (DE _) BN ks HK) as (fuel & K).
  exists fuel. eapply info_federation_conv; eauto.
Qed.
