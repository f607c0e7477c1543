(** The federation of WitnessFederation.v, collected. *)
From Coq Require Import QArith Lia.
From Verif Require Import Base BaseFacts GoVal Policy Schema Metadata SpecMetadata Chain Resolver SpecResolver SpecChain WitnessResolver FloatTime SpecTime WitnessTrustMark
  Json SpecJson JsonFacts TrustMark SpecTrustMark TrustMarkFacts TrustMarkLaws Refresher Leaf Config SpecConfig Jwt SpecJwt Statement SpecStatement WitnessStatement
  Encode SpecEncode EncodeFacts EncodeLaws WitnessEncode Federation SpecFederation FederationFacts WitnessFederation SpecFedMark FedMarkFacts WitnessFedMark
  Discovery SpecDiscovery DiscoveryFacts WitnessDiscovery SpecCarried SpecFedCollect FedCollectFacts.
From Verif Require Import SpecEncode Json GoVal.
Local Open Scope nat_scope.
Local Open Scope string_scope.

Definition net0 (p : list nat) (rq : request) : Federation.network := n0.
Definition collector_env : env :=
  Env LocalR (fun _ _ => seen n0) (fun _ a => w_config (seen n0) [] a) (fun _ _ _ => ATransport) (fun _ _ => at_second 500) (read_jwt (nw_crypto n0))
      (fun jwt => ok_or_none (parse_statement (read_jwt (nw_crypto n0)) kc_texts jwt)) no_remote (verify_raw n0) (fun _ => []).
Definition collector : cenv :=
  CEnv collector_env (fun _ ep => lookup ep [("https://ta.example/fetch/all", [IM]); ("https://im.example/fetch/all", ["https://gone.example"; LEAF])]) (fun n h => has_prefix n h).
Lemma the_collector : collecting collector net0.
Proof. split; [split; intros; reflexivity|reflexivity]. Qed.
Definition wish : crequest := CReq "" 0 ["tm1"] TA (Some ["openid_relying_party"; "oauth_resource"]) "Ap" (Some ["trust_chain"; "metadata"; "trust_marks"]).
Definition fed_world : dworld :=
  DWorld (fun p a => listing_answer collector p a)
         (fun p b => match entity_answer 9 collector wish p b with Done (Ok r) => r | _ => (None, false) end).
Definition leaf_read : stmt := Eval vm_compute in match w_config (seen n0) [] LEAF with Some s => s | None => ta_read end.
Definition im_read : stmt := Eval vm_compute in match w_config (seen n0) [] IM with Some s => s | None => ta_read end.
Definition seen_configs : smap stmt := [(LEAF, leaf_read); (IM, im_read); (TA, ta_read)].
Lemma te_config_fed p a : te_config (ce_env collector) p a = lookup a seen_configs.
Proof.
  cbn [collector ce_env collector_env te_config]. cbn [seen world_of w_config n0 fed nw_config]. unfold seen_configs. cbn [lookup].
  destruct (String.eqb a LEAF); [vm_compute; reflexivity|]. destruct (String.eqb a IM); [vm_compute; reflexivity|]. destruct (String.eqb a TA); [vm_compute; reflexivity|]. reflexivity.
Qed.
Lemma fed_network : SpecDiscovery.network 9 collector wish fed_world.
Proof.
  split; [reflexivity|]. intros p b. cbn [dw_entity fed_world].
  assert (H : exists r, entity_answer 9 collector wish p b = Done (Ok r)); [|destruct H as [r ->]; reflexivity].
  unfold entity_answer. rewrite te_config_fed.
  destruct (lookup b seen_configs) as [s|] eqn:L; [|eauto]. apply lookup_In in L.
  destruct L as [[= <- <-]|[[= <- <-]|[[= <- <-]|[]]]]; eexists; vm_compute; reflexivity.
Qed.
Definition fed_schedule := Eval vm_compute in drive fed_world 200 (start TA).
Definition fed_result : list collected :=
  Eval vm_compute in match exec fed_world fed_schedule (start TA) with Some s => f_out (snd s) | None => [] end.
Lemma fed_returns : returns fed_world TA fed_result.
Proof.
  destruct (exec fed_world fed_schedule (start TA)) as [s|] eqn:E; [|vm_compute in E; discriminate].
  exists s. split; [now exists fed_schedule|].
  assert (K : match exec fed_world fed_schedule (start TA) with Some s => finished (snd s) = true /\ f_out (snd s) = fed_result | None => False end)
    by (vm_compute; auto).
  now rewrite E in K.
Qed.

Lemma answers_ta p : answers net0 p p_ta c_ta.
Proof. split; [apply sound_ta|apply publishes_ta]. Qed.
Lemma answers_im p : answers net0 p p_im c_im.
Proof. split; [apply sound_im|apply publishes_im]. Qed.
Lemma answers_leaf p : answers net0 p p_leaf c_leaf.
Proof. split; [apply sound_leaf|apply publishes_leaf]. Qed.
Lemma leaf_enlisted : enlisted collector net0 p_ta p_leaf.
Proof.
  apply (en_member _ _ _ p_im).
  - apply en_anchor; [|intros p; exists c_im; apply answers_im]. exists (ta_fetch ++ "/all"). split.
    + exists (fe_at ta_fetch). split; [reflexivity|]. split; [reflexivity|discriminate].
    + intros p. exists [IM]. split; [reflexivity|now left].
  - exists (im_fetch ++ "/all"). split.
    + exists (fe_at im_fetch). split; [reflexivity|]. split; [reflexivity|discriminate].
    + intros p. exists ["https://gone.example"; LEAF]. split; [reflexivity|right; now left].
  - intros p; exists c_leaf; apply answers_leaf.
Qed.
Lemma leaf_genuine q : genuine collector net0 p_ta q "tm1" "eyJ".
Proof.
  exists p_im, LEAF, "dlg", fed_mark. split; [right; apply im_below|]. split; [apply mark_issued|]. split; [apply im_may|reflexivity].
Qed.
Lemma leaf_suits : suits collector net0 p_ta wish p_leaf.
Proof.
  split.
  - intros l [= <-]. exists "openid_relying_party". split; [now left|]. split; [right; now left|discriminate].
  - intros _. exists "openid_relying_party", "App". split; [|reflexivity]. eexists. split; [split; [right; now left|discriminate]|]. split; [reflexivity|]. vm_compute. reflexivity.
  - intros q. exists c_leaf. split; [apply answers_leaf|]. intros [|[|i]] ty; try discriminate. intros [= <-]. exists "eyJ". split; [|apply leaf_genuine].
    exists [], []. split; [reflexivity|intros []].
Qed.
Lemma leaf_line : line n0 [Anchor TA None] [] p_leaf [] (WitnessFederation.steps None).
Proof.
  apply line_up.
  - intros [H|[]]; discriminate H.
  - reflexivity.
  - intros z [<-|[]]; discriminate.
  - apply sound_im.
  - apply publishes_im.
  - unfold current, in_force. cbn. lia.
  - apply vouches_leaf; intros a Ha; discriminate Ha.
  - unfold current, in_force. cbn. lia.
  - intros k [= <-]. apply allows_leaf.
  - apply line_up.
    + intros [H|[]]; discriminate H.
    + reflexivity.
    + intros z [<-|[<-|[]]]; discriminate.
    + apply sound_ta.
    + apply publishes_ta.
    + unfold current, in_force. cbn. lia.
    + apply vouches_im.
    + unfold current, in_force. cbn. lia.
    + intros k Hk. discriminate Hk.
    + apply line_anchor. exists [], (Anchor TA None), []. split; [reflexivity|]. split; [reflexivity|]. split; [intros a []|]. now left.
Qed.
Lemma leaf_below : SpecFedMark.below_anchor n0 p_ta p_leaf.
Proof.
  exists c_leaf, (WitnessFederation.steps None), 4. eexists. split; [discriminate|]. split; [discriminate|]. split; [apply sound_leaf|]. split; [apply publishes_leaf|]. split; [apply leaf_line|]. split.
  - intros ch F. destruct (federation_plain n0 [Anchor TA None] p_leaf c_leaf (WitnessFederation.steps None) ch (publishes_leaf _) leaf_line) as (m & E & _); [|exact F|eauto].
    intros s [<-|[<-|[]]]; split; reflexivity.
  - vm_compute. reflexivity.
Qed.

Lemma c139_case : collecting collector net0 /\ SpecDiscovery.network 9 collector wish fed_world /\ returns fed_world (cr_anchor wish) fed_result /\
  pa_id p_ta = cr_anchor wish /\ serves net0 p_ta /\ enlisted collector net0 p_ta p_leaf /\ suits collector net0 p_ta wish p_leaf /\
  cr_marks wish = ["tm1"] /\ map ce_id fed_result = [pa_id p_leaf].
Proof.
  split; [apply the_collector|]. split; [apply fed_network|]. split; [apply fed_returns|]. split; [reflexivity|]. split; [intros p; exists c_ta; apply answers_ta|].
  split; [apply leaf_enlisted|]. split; [apply leaf_suits|]. split; reflexivity.
Qed.
Lemma c139_carried_case : (forall q, SpecFedMark.below_anchor (net0 (4 :: q) (question wish (pa_id p_leaf))) p_ta p_leaf) /\
  bears collector net0 p_ta p_leaf "tm1" "eyJ" /\ asked_for wish "trust_chain" /\ asked_for wish "metadata" /\ asked_for wish "trust_marks" /\
  exists e, In e fed_result /\ ce_id e = pa_id p_leaf /\ ce_chain e = ["leaf"; "im:leaf"; "ta:im"; "ta"] /\ map ti_jwt (ce_marks e) = ["eyJ"] /\ ce_metadata e <> None.
Proof.
  split; [intros q; apply leaf_below|]. split.
  - intros q. exists c_leaf, 0. split; [apply answers_leaf|]. split; [reflexivity|apply leaf_genuine].
  - split; [eexists; split; [reflexivity|now left]|]. split; [eexists; split; [reflexivity|right; now left]|]. split; [eexists; split; [reflexivity|right; right; now left]|].
    destruct fed_result as [|x l] eqn:R; [discriminate R|]. vm_compute in R. injection R as <- <-.
    eexists. split; [now left|]. repeat split; vm_compute; try reflexivity. discriminate.
Qed.
