(** A federation with an anchor, a trust mark issuer and a leaf, collected with all claims. *)
From Coq Require Import QArith.
From Verif Require Import Base BaseFacts GoVal Policy Schema Metadata Chain Resolver SpecResolver FloatTime Json TrustMark SpecTrustMark
  WitnessResolver WitnessTrustMark Discovery SpecDiscovery DiscoveryFacts EvalFacts WitnessDiscovery SpecCarried.
Local Open Scope nat_scope.
Local Open Scope string_scope.

Definition md_both : option metadata :=
  Some (Metadata None None None None None
          (Some (decoded fe_schema [("federation_list_endpoint", VStr "ta/list"); ("federation_fetch_endpoint", VStr "https://ta.example/fetch")])) []).
Definition ta_both : stmt :=
  Stmt "kt:both" TA TA 100%Z 1000%Z (Some ["kt"]) [] md_both None None [] [] [] [("tm1", [ISS])] [].
Definition bearer : stmt :=
  Stmt "kl:bearer" LEAF LEAF 100%Z 1000%Z (Some ["kl"]) [TA] md_rp_only None None [] []
    [("tm1", "kiss:bare"); ("tm1", "junk")] [] [].
Definition configs_c : smap stmt := [(LEAF, bearer); (ISS, iss_cfg [TA]); (TA, ta_both)].
Definition net_c : world :=
  tables configs_c [(fetch_key "https://ta.example/fetch" LEAF, ta_leaf); (fetch_key "https://ta.example/fetch" ISS, ta_iss)].
Definition env_c : env := env_of LocalR net_c jwts0 [bearer; iss_cfg [TA]; ta_both] [] no_remote.
Definition cenv_c : cenv := CEnv env_c (fun _ ep => lookup ep [("ta/list", [LEAF; ISS; OTHER])]) (fun n h => has_prefix n h).
Definition rq_c : crequest := rq_of (Some ["openid_relying_party"]) "" (Some ["trust_chain"; "metadata"; "trust_marks"]).
Definition world_c : dworld :=
  DWorld (fun p a => listing_answer cenv_c p a)
         (fun p b => match entity_answer 9 cenv_c rq_c p b with Done (Ok r) => r | _ => (None, false) end).

Lemma te_config_c p a : te_config (ce_env cenv_c) p a = lookup a configs_c.
Proof. reflexivity. Qed.
Lemma network_c : network 9 cenv_c rq_c world_c.
Proof.
  split; [reflexivity|]. intros p b. cbn [dw_entity world_c].
  assert (H : exists r, entity_answer 9 cenv_c rq_c p b = Done (Ok r)); [|destruct H as [r ->]; reflexivity].
  unfold entity_answer. rewrite te_config_c.
  destruct (lookup b configs_c) as [s|] eqn:L; [|eauto]. apply lookup_In in L.
  destruct L as [[= <- <-]|[[= <- <-]|[[= <- <-]|[]]]]; eexists; vm_compute; reflexivity.
Qed.
Definition schedule_c := Eval vm_compute in drive world_c 200 (start TA).
Definition result_c : list collected :=
  Eval vm_compute in match exec world_c schedule_c (start TA) with Some s => f_out (snd s) | None => [] end.
Lemma returns_c : returns world_c TA result_c.
Proof.
  destruct (exec world_c schedule_c (start TA)) as [s|] eqn:E; [|vm_compute in E; discriminate].
  exists s. split; [now exists schedule_c|].
  assert (K : match exec world_c schedule_c (start TA) with Some s => finished (snd s) = true /\ f_out (snd s) = result_c | None => False end)
    by (vm_compute; auto).
  now rewrite E in K.
Qed.

Lemma c138_case : te_default (ce_env cenv_c) = LocalR /\ network 9 cenv_c rq_c world_c /\ returns world_c (cr_anchor rq_c) result_c /\
  asked_for rq_c "trust_chain" /\ asked_for rq_c "metadata" /\ asked_for rq_c "trust_marks" /\ ~ welcome rq_c "entity_types" /\
  exists e, In e result_c /\ ce_id e = LEAF /\ ce_types e = [] /\ map ti_jwt (ce_marks e) = ["kiss:bare"] /\
    ce_chain e = ["kl:bearer"; st_jwt ta_leaf; "kt:both"] /\ ce_metadata e <> None.
Proof.
  split; [reflexivity|]. split; [exact network_c|]. split; [exact returns_c|].
  split; [eexists; split; [reflexivity|now left]|]. split; [eexists; split; [reflexivity|right; now left]|].
  split; [eexists; split; [reflexivity|right; right; now left]|].
  split; [intros [E|(l & [= <-] & [E|[E|[E|[]]]])]; discriminate|].
  destruct result_c as [|x [|y l]] eqn:R; [discriminate R| |].
  { vm_compute in R. discriminate R. }
  vm_compute in R. injection R as <- <- <-.
  eexists. split; [now left|]. repeat split; vm_compute; try reflexivity. discriminate.
Qed.

(** The same leaf, with a resolver asked over the network. *)
Definition told : payload := Payload None [Info "tm9" "theirs" [] None] ["a"; "b"].
Definition env_r (a : answer) : env :=
  Env (SimpleR "https://ta.example/resolve") (fun _ _ => net_c) (fun _ a => w_config net_c [] a) (fun _ _ _ => a) (te_now env_c)
    (fun j => if String.eqb j "told" then Some (typ_resolve, JObj []) else te_parse env_c j) (te_stmt env_c) (fun _ => Some told) (te_verify env_c) (fun _ => []).
Definition cenv_r (a : answer) : cenv := CEnv (env_r a) (fun _ _ => None) (fun n h => has_prefix n h).
Lemma c138_remote_case : asked_for rq_c "trust_chain" /\
  resolve_payload 9 (ce_env (cenv_r (ABody "told"))) (SimpleR "https://ta.example/resolve") [4] (question rq_c LEAF) = Done (Ok told) /\
  (exists e, evaluate 9 (cenv_r (ABody "told")) rq_c [] LEAF bearer (match md_rp_only with Some m => m | None => Metadata None None None None None None [] end) = Done (Ok (Some e)) /\
     ce_chain e = ["a"; "b"] /\ map ti_jwt (ce_marks e) = ["theirs"]) /\
  resolve_payload 9 (ce_env (cenv_r ATransport)) (SimpleR "https://ta.example/resolve") [4] (question rq_c LEAF) = Done Err /\
  (exists e, evaluate 9 (cenv_r ATransport) rq_c [] LEAF bearer (match md_rp_only with Some m => m | None => Metadata None None None None None None [] end) = Done (Ok (Some e)) /\
     ce_chain e = [] /\ ce_marks e = []).
Proof.
  split; [eexists; split; [reflexivity|now left]|]. split; [vm_compute; reflexivity|].
  split; [eexists; split; [vm_compute; reflexivity|split; vm_compute; reflexivity]|]. split; [vm_compute; reflexivity|].
  eexists; split; [vm_compute; reflexivity|split; vm_compute; reflexivity].
Qed.
