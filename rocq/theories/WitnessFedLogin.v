(** A provider below an intermediate authority and a trust anchor. *)
From Coq Require Import QArith Lia.
From Verif Require Import Base BaseFacts GoVal Policy Schema Metadata SpecMetadata Chain Resolver SpecResolver SpecChain WitnessResolver FloatTime SpecTime Json SpecJson JsonFacts TrustMark SpecTrustMark TrustMarkLaws
  WitnessTrustMark Refresher Leaf SpecLeaf LeafFacts WitnessLeaf Config SpecConfig Jwt SpecJwt Statement SpecStatement WitnessStatement Encode SpecEncode EncodeFacts EncodeLaws WitnessEncode
  Federation SpecFederation FederationFacts WitnessFederation SpecFedLogin FedLoginFacts.
From Verif Require Import SpecEncode GoVal.
Local Open Scope nat_scope.
Local Open Scope string_scope.

Definition login_at := "https://leaf.example/login?tenant=1#top".
Definition token_at := "https://leaf.example/token".
Definition op_values : smap gval :=
  [("issuer", VStr LEAF); ("authorization_endpoint", VStr login_at); ("token_endpoint", VStr token_at); ("scopes_supported", strs ["openid"; "email"])].
Definition op_built : emeta := Eval vm_compute in build op_schema op_values [].
Lemma op_built_ok : entity_ok op_schema op_built.
Proof.
  change op_built with (build op_schema op_values []). constructor.
  - reflexivity.
  - apply build_type. intros r H. unfold op_schema in H. cbn [In] in H.
    each H; vm_compute; try exact Logic.I; eauto; right; eexists; (split; [reflexivity|]); intros w W; cbn in W; each W; eauto.
  - split; [constructor|intros k []].
  - constructor.
Qed.
(** It is also a federation entity. *)
Definition md_provider : metadata := Metadata (Some op_built) None None None None (Some fe_built) [].
Lemma md_provider_ok : metadata_ok md_provider.
Proof.
  constructor; try (intros a Ha; discriminate Ha); try (intros a [= <-]; first [exact op_built_ok|exact fe_built_ok]).
  - split; [constructor|intros k []].
  - constructor.
Qed.
Definition p_op := Participant LEAF (Signer (Some "kl") "ES512") ["kl"] ["https://down.example"; IM] md_provider 3600 [] [].
Definition c_op := configuration p_op (at_second 100) [] [].
(** The superior allows providers only. *)
Definition only_ops : constraints := Constraints (Some 1%Z) None (Some ["openid_provider"]).
Definition d_op (q : option policies) := about IM LEAF "kl" q (Some only_ops).
Definition op_parse (q : option policies) (jwt : string) : option message :=
  lookup jwt [("leaf", signed_with "kl" c_op); ("im", signed_with "ki" c_im); ("ta", signed_with "kt" c_ta);
              ("im:leaf", signed_with "ki" (d_op q)); ("ta:im", signed_with "kt" d_im)].
Definition op_net (q : option policies) : network :=
  Network (Crypto (op_parse q) (fun k => "thumb:" ++ k) (fun _ _ => true)) kc_texts
    (map (fun k => Jwk k (Some ("thumb:" ++ k)) (Some "ES512") (Some "sig")))
    (fun _ id => lookup id [(LEAF, "leaf"); (IM, "im"); (TA, "ta")])
    (fun _ ep sub _ => if String.eqb ep im_fetch then Some "im:leaf" else if String.eqb ep ta_fetch then Some "ta:im" else None)
    (fun _ _ => at_second 500)
    (fun id => lookup id [(LEAF, "leaf.example"); (IM, "im.example"); (TA, "ta.example")]).
Definition op_steps (q : option policies) : list step := [Step 1 p_im c_im (d_op q); Step 0 p_ta c_ta d_im].
Definition op_env (q : option policies) : env := env_of LocalR (seen (op_net q)) [] [] [] no_remote.

Lemma sound_op q : sound_participant (op_net q) p_op.
Proof. split; [reflexivity|discriminate|apply keys_ok_texts|exact md_provider_ok|cbn; lia|constructor|split; constructor]. Qed.
Lemma sound_op_im q : sound_participant (op_net q) p_im.
Proof. split; [reflexivity|discriminate|apply keys_ok_texts|apply md_at_ok|cbn; lia|constructor|split; constructor]. Qed.
Lemma sound_op_ta q : sound_participant (op_net q) p_ta.
Proof. split; [reflexivity|discriminate|apply keys_ok_texts|apply md_at_ok|cbn; lia|repeat constructor; intros []|split; [repeat constructor; intros []|constructor; [apply keys_ok_texts|constructor]]]. Qed.
Ltac publish j := eexists _, _, _, j; split; [reflexivity|]; split; [split; [constructor|intros k []]|];
  split; [unfold in_range; cbn; lia|]; split; [unfold in_range; cbn; lia|]; split; [reflexivity|]; eexists; split; reflexivity.
Lemma publishes_op q p : publishes (op_net q) p p_op c_op.
Proof. publish "leaf". Qed.
Lemma publishes_op_im q p : publishes (op_net q) p p_im c_im.
Proof. publish "im". Qed.
Lemma publishes_op_ta q p : publishes (op_net q) p p_ta c_ta.
Proof. publish "ta". Qed.
Lemma vouches_op p : vouches (op_net None) p p_im (as_provider p_op) (d_op None).
Proof.
  exists im_fetch, "im:leaf". split; [exists (fe_at im_fetch); split; [reflexivity|split; [reflexivity|discriminate]]|]. split; [reflexivity|].
  split; [eexists; split; reflexivity|]. split; [|auto]. apply about_ok; intros a Ha; try discriminate Ha. injection Ha as <-. split; [discriminate|]. split; [intros m Hm; discriminate Hm|]. intros m [= <-]. lia.
Qed.
Lemma vouches_op_im q p : vouches (op_net q) p p_ta p_im d_im.
Proof.
  exists ta_fetch, "ta:im". split; [exists (fe_at ta_fetch); split; [reflexivity|split; [reflexivity|discriminate]]|]. split; [reflexivity|].
  split; [eexists; split; reflexivity|]. split; [apply about_ok; intros a Ha; discriminate Ha|]. auto.
Qed.
Lemma op_line : line (op_net None) [Anchor TA None] [] (as_provider p_op) [] (op_steps None).
Proof.
  apply line_up.
  - intros [H|[]]; discriminate H.
  - reflexivity.
  - intros z [<-|[]]; discriminate.
  - apply sound_op_im.
  - apply publishes_op_im.
  - unfold current, in_force. cbn. lia.
  - apply vouches_op.
  - unfold current, in_force. cbn. lia.
  - intros k [= <-]. constructor; try (intros; discriminate).
    + intros m [= <-]. cbn. lia.
    + intros l z t [= <-] [<-|[]]. vm_compute. auto.
  - apply line_up.
    + intros [H|[]]; discriminate H.
    + reflexivity.
    + intros z [<-|[<-|[]]]; discriminate.
    + apply sound_op_ta.
    + apply publishes_op_ta.
    + unfold current, in_force. cbn. lia.
    + apply vouches_op_im.
    + unfold current, in_force. cbn. lia.
    + intros k Hk. discriminate Hk.
    + apply line_anchor. exists [], (Anchor TA None), []. split; [reflexivity|]. split; [reflexivity|]. split; [intros a []|]. now left.
Qed.
Definition rp_me : leaf := new_leaf ME fed_anchors.
Lemma asks_op q p : asks (op_env q) p rp_me p_op (op_net q).
Proof. split; reflexivity. Qed.
Lemma provider_vouched : vouched_provider (op_net None) rp_me p_op.
Proof.
  destruct (resolve_valid 4 (seen (op_net None)) [Anchor TA None] provider LEAF) as [[cs| |]|] eqn:E; try (vm_compute in E; discriminate E).
  exists (at_second 100), [], [], (op_steps None), 4, cs. split; [discriminate|]. split; [apply sound_op|]. split; [apply publishes_op|]. split; [discriminate|].
  split; [exact op_line|]. split; [|exact E]. intros ch F. eapply plain_provider; [exact op_line| |exact F]. intros s [<-|[<-|[]]]; split; reflexivity.
Qed.
Lemma provider_unruled a ch : provider_chain (op_net None) rp_me p_op ch -> unruled ch a.
Proof.
  intros (f & cs & R & I) s q J Q. assert (K : exists cs0, resolve_valid 4 (seen (op_net None)) [Anchor TA None] provider LEAF = Done (Ok cs0) /\
    forallb (fun c => forallb (fun s => match st_policy s with None => true | _ => false end) c) cs0 = true).
  { eexists. split; vm_compute; reflexivity. }
  destruct K as (cs0 & R0 & B). pose proof (resolve_valid_det _ _ _ _ _ _ _ _ R R0) as E. injection E as ->.
  rewrite forallb_forall in B. specialize (B ch I). rewrite forallb_forall in B. specialize (B s J). rewrite Q in B. discriminate.
Qed.
Definition x_op (body : json) : oracles := Oracles 1000 (Some "uuid") (fun _ => Some "signed") canon0 (fun u _ => if String.eqb u token_at then Some body else None).
Lemma c140_case : asks (op_env None) [] rp_me p_op (op_net None) /\ vouched_provider (op_net None) rp_me p_op /\ op_says p_op "authorization_endpoint" login_at /\
  (forall ch, provider_chain (op_net None) rp_me p_op ch -> unruled ch "authorization_endpoint") /\
  lo_canon (x_op JNull) (base_of login_at) <> None /\ lo_uuid (x_op JNull) <> None /\ (forall o, lo_sign (x_op JNull) (JObj o) <> None).
Proof.
  split; [apply asks_op|]. split; [exact provider_vouched|]. split; [eexists; split; reflexivity|]. split; [intros ch; apply provider_unruled|].
  split; [vm_compute; discriminate|]. split; discriminate.
Qed.
(** A policy for other attributes. *)
Definition pol_op : policies := Policies (Some [("scopes_supported", [("subset_of", strs ["openid"; "profile"])])]) None None None None None [].
Lemma c140_address_case : asks (op_env (Some pol_op)) [] rp_me p_op (op_net (Some pol_op)) /\ sound_participant (op_net (Some pol_op)) p_op /\
  publishes (op_net (Some pol_op)) [] p_op c_op /\ keeps_base (lo_canon (x_op JNull)) /\ NoDup (keys (read_values heap0 (Some 1))) /\
  op_says p_op "authorization_endpoint" login_at /\ op_says p_op "issuer" LEAF /\
  (forall ch, provider_chain (op_net (Some pol_op)) rp_me p_op ch -> unruled ch "authorization_endpoint" /\ unruled ch "issuer" /\ unruled ch "token_endpoint" /\ ~ unruled ch "scopes_supported") /\
  exists h', get_authorization_url 9 (op_env (Some pol_op)) [] (x_op JNull) rp_me heap0 LEAF "https://me.example/cb" "st" "openid" (Some 1)
    = (Done (Ok "https://leaf.example/login?client_id=https%3A%2F%2Fme.example&redirect_uri=https%3A%2F%2Fme.example%2Fcb&request=signed&response_type=code&scope=openid#top"), h').
Proof.
  split; [apply asks_op|]. split; [apply sound_op|]. split; [apply publishes_op|]. split; [exact canon0_keeps|]. split; [repeat constructor; cbn; intuition discriminate|].
  split; [eexists; split; reflexivity|]. split; [eexists; split; reflexivity|]. split.
  - intros ch (f & cs & R & I). assert (K : exists cs0, resolve_valid 4 (seen (op_net (Some pol_op))) [Anchor TA None] provider LEAF = Done (Ok cs0) /\
      forallb (fun c => forallb (fun s => match st_policy s with None => true | Some q => match pol (mp_op q) with [(k, _)] => String.eqb k "scopes_supported" | _ => false end end) c &&
                        existsb (fun s => match st_policy s with Some q => mem "scopes_supported" (keys (pol (mp_op q))) | None => false end) c) cs0 = true).
    { eexists. split; vm_compute; reflexivity. }
    destruct K as (cs0 & R0 & B). pose proof (resolve_valid_det _ _ _ _ _ _ _ _ R R0) as E. injection E as ->.
    rewrite forallb_forall in B. specialize (B ch I). clear R R0 I. apply andb_prop in B as [B B2].
    assert (G : forall a, a <> "scopes_supported" -> unruled ch a).
    { intros a N s q J Q X. rewrite forallb_forall in B. specialize (B s J). rewrite Q in B. clear -B X N. destruct (pol (mp_op q)) as [|[k v] [|]]; try discriminate B.
      apply String.eqb_eq in B. subst k. destruct X as [X|[]]. now apply N. }
    split; [apply G; discriminate|]. split; [apply G; discriminate|]. split; [apply G; discriminate|].
    intros U. apply existsb_exists in B2 as (s & J & B2). destruct (st_policy s) as [q|] eqn:Q; [|discriminate]. apply mem_In in B2. exact (U s q J Q B2).
  - eexists. vm_compute. reflexivity.
Qed.
Lemma c140_code_case : op_says p_op "token_endpoint" token_at /\
  exists ts ex h', code_exchange 9 (op_env (Some pol_op)) [] (x_op tokens0) rp_me heap0 LEAF "c0de" "https://me.example/cb" (Some 1) = (Done (Ok (Tokens ts ex)), h').
Proof. split; [eexists; split; reflexivity|]. eexists _, _, _. vm_compute. reflexivity. Qed.
