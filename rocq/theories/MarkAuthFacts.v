(** Authenticity of trust marks. *)
From Verif Require Import Base GoVal Policy Schema Metadata Chain Resolver SpecResolver SpecChain SpecAuth FloatTime SpecTime Json SpecJson
  Jwt TrustMark SpecTrustMark SpecMarkAuth BaseFacts ResolverFacts ResolverLaws AuthFacts TrustMarkFacts TrustMarkLaws.
Local Open Scope nat_scope.
Local Open Scope string_scope.

Theorem mark_genuine fuel e p t ta dec owns signed :
  te_default e = LocalR -> in_sync e t ->
  (forall iss, decodes e (te_world e p (issuer_request iss ta))) ->
  names_issuer e p t ta -> has_superiors e p t ta -> marks_ideal e p ta dec owns signed ->
  verify_mark fuel e p t ta = Done (Ok tt) ->
  exists m, is_mark e (ti_jwt t) m /\ mk_type m = ti_type t /\ signed (mk_iss m) (ti_jwt t) /\
    forall o ks, lookup (mk_type m) (st_mark_owners ta) = Some (o, ks) -> signed o (mk_deleg m).
Proof.
  intros D Y DE NI HS [ID U AK TK OK CA] V.
  assert (IS : forall m s, is_mark e (ti_jwt t) m -> w_config (te_world e p (issuer_request (mk_iss m) ta)) [] (mk_iss m) = Some s ->
     st_hints s <> [] /\ st_iss s = mk_iss m /\ st_sub s = mk_iss m).
  { intros m s M W. destruct (NI _ _ M W). pose proof (HS _ _ M W). auto. }
  assert (R : recognised federation_keys e p t ta).
  { apply verify_mark_federation; auto; [|eauto]. intros m s M W. destruct (IS _ _ M W) as (? & ? & ?). auto. }
  destruct R as (m & ks & K & MV & _). destruct MV as [M T _ S O]. exists m. split; [exact M|]. split; [exact T|].
  assert (KO : forall l k, ks = Some l -> In k l -> owns (mk_iss m) k).
  { destruct K as [(E & ->)|(_ & s & r & k0 & l0 & CT & (SC & _) & -> & _)].
    - rewrite E. exact TK.
    - pose proof CT as (f & cs & HR & HI). set (w := te_world e p (issuer_request (mk_iss m) ta)) in *.
      assert (Ret : returned w [Anchor (st_sub ta) None] [] (mk_iss m) (s :: r)) by (exists f, cs; auto).
      assert (N : r <> []) by (intros ->; inversion SC).
      pose proof (returned_root _ _ _ _ _ Ret) as (e' & (_ & s0 & md & EC & _ & Ee) & RC).
      assert (e' = s) as ->. { destruct RC as [[Eq _]|(h & hs & _ & _ & Eq)]; injection Eq; auto. }
      assert (G : signed (st_iss s) (st_jwt s)).
      { eapply (returned_all_genuine w dec owns signed); [apply ID| |exact Ret|exact N| |now left].
        - intros a [<-|[]]. apply AK.
        - intros x Hx. eapply CA; [exact CT|exact N|now right]. }
      intros l k El Hk. destruct (IS _ _ M EC) as (_ & E1 & E2). rewrite <- E2.
      assert (Es : st_iss s = st_iss s0) by now rewrite Ee. assert (Ej : st_jwt s = st_jwt s0) by now rewrite Ee.
      assert (Ek : st_jwks s = st_jwks s0) by now rewrite Ee. rewrite Ek in El. rewrite Es, Ej in G.
      eapply (CA _ _ _ s CT N (or_introl eq_refl)); [rewrite Es; exact G|exact (id_config _ _ _ _ (ID _) _ _ _ EC)|now rewrite Es|exact El|exact Hk]. }
  split.
  - destruct S as (k & l & -> & SV). eapply U; [|exact SV]. intros k' Hk. exact (KO _ _ eq_refl Hk).
  - intros o oks L. destruct (O _ L) as (_ & d & _ & _ & _ & _ & _ & k & l & E & SV). cbn [snd] in E. rewrite E in L.
    eapply U; [|exact SV]. intros k' Hk. eapply OK; eauto.
Qed.

Theorem entity_panics cx s :
  (new_entity_jwks cx s = Panic <-> forall sg key, s = Some sg -> js_key sg <> Some key) /\ new_entity_jwks cx s <> Err.
Proof.
  unfold new_entity_jwks, signer_jwks. destruct s as [[[key|] alg]|]; cbn [js_key]; (split; [split|]); try discriminate; auto.
  - intros H. now destruct (H _ key eq_refl).
  - intros _ sg key [= <-]. discriminate.
Qed.
