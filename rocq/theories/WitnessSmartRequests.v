(** Cases for the theorems on the requests made when trust marks are verified with the smart
    resolver. *)
From Coq Require Import QArith.
From Verif Require Import Base BaseFacts GoVal Policy Schema Metadata Chain Resolver SpecResolver ResolverLaws SpecChain Requests SpecRequests WitnessResolver WitnessPolicy
  FloatTime SpecTime Json TrustMark SpecTrustMark TrustMarkFacts TrustMarkLaws WitnessTrustMark MarkRequests SpecMarkRequests SpecSmartRequests.
Local Open Scope nat_scope.
Local Open Scope string_scope.

Definition iss_bearing (marks : list (string * string)) : stmt :=
  Stmt "kiss:cfg" ISS ISS 100%Z 1000%Z (Some ["kiss"]) [TA] md_rp_only None None [] [] marks [] [].
Definition net_bearing (marks : list (string * string)) : world :=
  tables [(ISS, iss_bearing marks); (TA, ta0)] [(fetch_key "https://ta.example/fetch" ISS, ta_iss)].
Definition env_bearing (marks : list (string * string)) : env :=
  env_of SmartR (net_bearing marks) (("forged", (typ_mark, mark_json OTHER ISS "tm9" "" [])) :: jwts0) [iss_bearing marks; ta0] [] no_remote.

Lemma bearing_none iss leaf ch : In iss [ISS] -> chain_to_any (env_bearing []) (Req iss [st_sub ta0] []) (leaf :: ch) -> st_marks leaf = [].
Proof.
  intros [<-|[]] (p & fuel & pl & H). unfold local_plain in H.
  destruct (resolve_valid fuel (te_world (env_bearing []) p (Req ISS [st_sub ta0] []))
    (map (fun id => Anchor id None) (rq_anchors (Req ISS [st_sub ta0] []))) (rq_types (Req ISS [st_sub ta0] [])) (rq_sub (Req ISS [st_sub ta0] []))) as [r|] eqn:R;
    [|discriminate H].
  assert (R9 : resolve_valid 9 (net_bearing []) [Anchor TA None] [] ISS = Done (Ok [[iss_bearing []; ta_iss; ta0]])) by (vm_compute; reflexivity).
  pose proof (resolve_valid_det _ _ _ _ _ _ _ _ R R9) as E. subst r. vm_compute in H. injection H as _ <- _. reflexivity.
Qed.

(** The issuer has no marks. *)
Lemma c160_smart_case : te_default (env_bearing []) = SmartR /\ in_sync (env_bearing []) (info0 "tm1" "kiss:m") /\
  lookup "tm1" (st_mark_issuers ta0) = Some [ISS] /\
  (forall iss leaf ch, In iss [ISS] -> chain_to_any (env_bearing []) (Req iss [st_sub ta0] []) (leaf :: ch) -> st_marks leaf = []) /\
  verify_contacts 9 (env_bearing []) [] (info0 "tm1" "kiss:m") ta0 =
    ToEntity [0] TA :: map (Within [] (Req ISS [TA] [])) [ForConfig [] ISS; ForConfig [0] TA; ForStatement [0] "https://ta.example/fetch" ISS TA] /\
  verify_mark 9 (env_bearing []) [] (info0 "tm1" "kiss:m") ta0 = Done (Ok tt).
Proof. split; [reflexivity|]. split; [discriminate|]. split; [reflexivity|]. split; [exact bearing_none|]. split; vm_compute; reflexivity. Qed.

(** The issuer has one of a type of which the anchor says nothing, signed by nobody. *)
Lemma c160_smart_witness : exists e p t ta l c, te_default e = SmartR /\ in_sync e t /\ lookup (ti_type t) (st_mark_issuers ta) = Some l /\
  (forall q, te_config e q (st_sub ta) = Some ta) /\ verify_mark 9 e p t ta = Done (Ok tt) /\
  In c (verify_contacts 9 e p t ta) /\ ~ exists iss, In iss l /\ smartly_for e (st_sub ta) iss c.
Proof.
  exists (env_bearing [("tm9", "forged")]), [], (info0 "tm1" "kiss:m"), ta0, [ISS], (Within [0] (Req OTHER [TA] []) (ForConfig [] OTHER)).
  split; [reflexivity|]. split; [discriminate|]. split; [reflexivity|]. split; [intros; vm_compute; reflexivity|].
  split; [vm_compute; reflexivity|]. split; [vm_compute; tauto|]. intros (iss & [<-|[]] & E & _). discriminate E.
Qed.
