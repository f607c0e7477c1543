(** Collecting from a network that does not change. *)
From Verif Require Import Base GoVal Policy Schema Metadata Chain Resolver FloatTime Json TrustMark Discovery SpecDiscovery SpecSteady
  SteadyFacts WitnessResolver WitnessDiscovery WitnessSteady.
From Coq Require Import Permutation.
Local Open Scope nat_scope.
Local Open Scope string_scope.

(** ** C149 What is collected does not depend on scheduling *)

Theorem C149_same : forall fuel ce rq w l l', network fuel ce rq w -> steady fuel ce rq ->
  returns w (cr_anchor rq) l -> returns w (cr_anchor rq) l' -> Permutation l l'.
Proof. exact collected_same. Qed.
Print Assumptions C149_same.

(** It is what the entities below the anchor are evaluated to. *)
Theorem C149_exactly : forall fuel ce rq w l, network fuel ce rq w -> steady fuel ce rq -> returns w (cr_anchor rq) l ->
  forall e, In e l <-> below (lists_now ce) (authority_now ce) (cr_anchor rq) (ce_id e) /\
    exists nest, entity_answer fuel ce rq [] (ce_id e) = Done (Ok (Some e, nest)).
Proof. exact collected_exactly. Qed.
Print Assumptions C149_exactly.

Example C149_case : network 9 cenv0 rq0 world0 /\ steady 9 cenv0 rq0 /\ returns world0 (cr_anchor rq0) result0 /\
  returns world0 (cr_anchor rq0) result_last /\ map ce_id result0 = [I1; OP1; I2] /\ map ce_id result_last = [I1; I2; OP1].
Proof. exact steady_case. Qed.

(** ** C150 Narrower requests collect no more *)

Theorem C150_narrower : forall fuel ce rq rq' w w' l l', narrower rq rq' -> network fuel ce rq w -> network fuel ce rq' w' ->
  steady fuel ce rq -> steady fuel ce rq' -> steady_marks fuel ce ->
  returns w (cr_anchor rq) l -> returns w' (cr_anchor rq') l' -> incl (map ce_id l') (map ce_id l).
Proof. exact narrower_less. Qed.
Print Assumptions C150_narrower.

Example C150_case : narrower rq0 rq_ops /\ network 9 cenv0 rq0 world0 /\ network 9 cenv0 rq_ops world_ops /\
  steady 9 cenv0 rq0 /\ steady 9 cenv0 rq_ops /\ steady_marks 9 cenv0 /\
  returns world0 (cr_anchor rq0) result0 /\ returns world_ops (cr_anchor rq_ops) result_ops /\ map ce_id result_ops = [OP1].
Proof. exact narrower_case. Qed.
