(** C40 and C94, continued: trust marks when a remote resolver is the default. *)
From Verif Require Import Base GoVal Policy Schema Metadata Chain Resolver SpecResolver FloatTime SpecTime Json TrustMark SpecTrustMark WitnessResolver
  WitnessTrustMark SpecAuth SpecMarkAuth SpecMarkDefault MarkDefaultFacts WitnessMarkDefault.
Local Open Scope string_scope.

(** ** C40 A trust mark is accepted exactly under the specified conditions *)

(** With a resolve endpoint as the default: exactly if the mark is valid under the keys the
    endpoint tells of the issuer. Missing: a chain to the anchor (C94_told_refuted). *)
Theorem C40_remote_partial : forall e p t ta ep, te_default e = SimpleR ep -> in_sync e t ->
  ((exists fuel, verify_mark fuel e p t ta = Done (Ok tt)) <-> recognised (remote_keys ep) e p t ta).
Proof. exact verify_mark_remote. Qed.
Print Assumptions C40_remote_partial.

Example C40_remote_case : exists e e', te_default e = SimpleR RES /\ in_sync e (info0 "tm1" "kiss:m") /\
  verify_mark 9 e [] (info0 "tm1" "kiss:m") ta0 = Done (Ok tt) /\ verify_mark 9 e [] (info0 "tm1" "kx:m") ta0 = Done Err /\
  te_default e' = SimpleR RES /\ verify_mark 9 e' [] (info0 "tm1" "kiss:m") ta0 = Done Err.
Proof. exact c40_remote_case. Qed.

(** With the smart resolver: only if it is valid under the keys the endpoint of the anchor
    tells or, if that gives no usable answer, those of a chain. *)
Theorem C40_smart_partial : forall e p t ta, te_default e = SmartR -> in_sync e t -> (forall iss, decodes e (te_world e p (issuer_request iss ta))) ->
  forall fuel, verify_mark fuel e p t ta = Done (Ok tt) -> recognised smart_keys e p t ta.
Proof. exact verify_mark_smart. Qed.
Print Assumptions C40_smart_partial.

(** And exactly then, if the issuers have no trust marks themselves. Missing: issuers that
    have some, the verification of which need not end (C72). *)
Theorem C40_smart_iff_partial : forall e p t ta, te_default e = SmartR -> in_sync e t -> (forall iss, decodes e (te_world e p (issuer_request iss ta))) ->
  bears_none e p ta -> ((exists fuel, verify_mark fuel e p t ta = Done (Ok tt)) <-> recognised smart_keys e p t ta).
Proof. exact verify_mark_smart_iff. Qed.
Print Assumptions C40_smart_iff_partial.

Example C40_smart_case : exists e e' pl, te_default e = SmartR /\ te_default e' = SmartR /\
  in_sync e (info0 "tm1" "kiss:m") /\ in_sync e' (info0 "tm1" "kiss:m") /\
  (forall iss, decodes e (te_world e [] (issuer_request iss ta0))) /\ (forall iss, decodes e' (te_world e' [] (issuer_request iss ta0))) /\
  bears_none e [] ta0 /\ bears_none e' [] ta0 /\
  usable e [0] (issuer_request ISS ta0) TA pl /\ (forall pl', ~ usable e' [0] (issuer_request ISS ta0) TA pl') /\
  verify_mark 9 e [] (info0 "tm1" "kiss:m") ta0 = Done (Ok tt) /\ verify_mark 9 e' [] (info0 "tm1" "kiss:m") ta0 = Done (Ok tt).
Proof. exact c40_smart_case. Qed.

(** ** C94 Outsiders cannot forge trust marks *)

(** With a resolve endpoint or the smart resolver as the default whoever answers in place of
    the endpoint can: the answer is not authenticated (C38). All else is as C94 demands; the
    issuer has superiors and is named by the anchor. *)
Theorem C94_told_refuted : forall d, d = SimpleR RES \/ d = SmartR -> exists fuel e p t ta dec owns signed m,
  te_default e = d /\ in_sync e t /\ (forall iss, decodes e (te_world e p (issuer_request iss ta))) /\
  names_issuer e p t ta /\ has_superiors e p t ta /\ marks_ideal e p ta dec owns signed /\
  verify_mark fuel e p t ta = Done (Ok tt) /\ is_mark e (ti_jwt t) m /\ forall id, ~ signed id (ti_jwt t).
Proof. exact c94_told. Qed.
Print Assumptions C94_told_refuted.
