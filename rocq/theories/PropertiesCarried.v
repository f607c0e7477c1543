(** Property theorems about the claims of collected entities (C138). [w] is what the network
    answers; [returns] ranges over all interleavings of the goroutines. *)
From Verif Require Import Base GoVal Policy Schema Metadata Chain Resolver FloatTime Json TrustMark SpecTrustMark Discovery SpecDiscovery
  SpecCarried CarriedFacts WitnessResolver WitnessTrustMark WitnessDiscovery WitnessCarried.
Local Open Scope nat_scope.
Local Open Scope string_scope.

(** ** C138 A collected entity carries what was asked for and nothing else *)

(** Nothing else, whatever resolver is used. *)
Theorem C138_nothing_else : forall fuel ce rq w l e, network fuel ce rq w -> returns w (cr_anchor rq) l -> In e l ->
  exists p cfg m, te_config (ce_env ce) (2 :: p) (ce_id e) = Some cfg /\ st_metadata cfg = Some m /\ modest rq (ce_id e) m e.
Proof. exact collected_modest. Qed.
Print Assumptions C138_nothing_else.

(** Trust chain, metadata and trust marks if asked for, with the local resolver. *)
Theorem C138_local : forall fuel ce rq w l e, te_default (ce_env ce) = LocalR -> network fuel ce rq w ->
  returns w (cr_anchor rq) l -> In e l ->
  exists p cfg m, te_config (ce_env ce) (2 :: p) (ce_id e) = Some cfg /\ st_metadata cfg = Some m /\
    complete_local fuel ce rq p (ce_id e) cfg e.
Proof. exact collected_local. Qed.
Print Assumptions C138_local.

Example C138_case : te_default (ce_env cenv_c) = LocalR /\ network 9 cenv_c rq_c world_c /\ returns world_c (cr_anchor rq_c) result_c /\
  asked_for rq_c "trust_chain" /\ asked_for rq_c "metadata" /\ asked_for rq_c "trust_marks" /\ ~ welcome rq_c "entity_types" /\
  exists e, In e result_c /\ ce_id e = LEAF /\ ce_types e = [] /\ map ti_jwt (ce_marks e) = ["kiss:bare"] /\
    ce_chain e = ["kl:bearer"; st_jwt ta_leaf; "kt:both"] /\ ce_metadata e <> None.
Proof. exact c138_case. Qed.

(** With a remote or smart default resolver: what it answers. (A trust mark list that is
    present but empty in the answer is not told apart from an absent one in the model.) *)
Theorem C138_remote : forall fuel ce rq q sub cfg m e pl, te_default (ce_env ce) <> LocalR ->
  asked_for rq "trust_chain" \/ asked_for rq "metadata" ->
  resolve_payload fuel (ce_env ce) (te_default (ce_env ce)) (4 :: q) (question rq sub) =
    Done (match pl with Some x => Ok x | None => Err end) ->
  evaluate fuel ce rq q sub cfg m = Done (Ok (Some e)) -> complete_remote fuel ce rq q cfg pl e.
Proof. exact evaluated_remote. Qed.
Print Assumptions C138_remote.

Example C138_remote_case : asked_for rq_c "trust_chain" /\
  resolve_payload 9 (ce_env (cenv_r (ABody "told"))) (SimpleR "https://ta.example/resolve") [4] (question rq_c LEAF) = Done (Ok told) /\
  (exists e, evaluate 9 (cenv_r (ABody "told")) rq_c [] LEAF bearer (match md_rp_only with Some m => m | None => Metadata None None None None None None [] end) = Done (Ok (Some e)) /\
     ce_chain e = ["a"; "b"] /\ map ti_jwt (ce_marks e) = ["theirs"]) /\
  resolve_payload 9 (ce_env (cenv_r ATransport)) (SimpleR "https://ta.example/resolve") [4] (question rq_c LEAF) = Done Err /\
  (exists e, evaluate 9 (cenv_r ATransport) rq_c [] LEAF bearer (match md_rp_only with Some m => m | None => Metadata None None None None None None [] end) = Done (Ok (Some e)) /\
     ce_chain e = [] /\ ce_marks e = []).
Proof. exact c138_remote_case. Qed.
