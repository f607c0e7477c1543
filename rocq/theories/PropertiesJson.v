(** Properties of JSON encoding and decoding. *)
From Verif Require Import Base GoVal Policy Schema Metadata Chain FloatTime Json SpecJson JsonFacts WitnessJson.
Local Open Scope string_scope.

(** ** C17 Policies for entity types unknown to the library survive JSON *)

(** False: decoding always fails if there is a policy for an additional entity type, also
    for a document that the library has produced itself. *)
Theorem C17_refuted : exists p, policy_ok p /\
  unmarshal_policies (marshal_policies (JPolicies (repeat None 6) [("wallet_provider", p)])) = Err.
Proof. exact c17_witness. Qed.
Print Assumptions C17_refuted.

Theorem C17_always_fails : forall j k,
  ~ In k (tags policies_fields) -> claim k j <> None -> unmarshal_policies j = Err.
Proof. exact policies_extra_fail. Qed.
Print Assumptions C17_always_fails.

Example C17_fails_case : ~ In "wallet_provider" (tags policies_fields) /\ claim "wallet_provider" with_wallet <> None.
Proof. exact c17_case2. Qed.

(** Policies for the six known entity types survive. Missing: additional ones. *)
Theorem C17_known_partial : forall known,
  List.length known = 6 -> Forall policy_ok known ->
  unmarshal_policies (marshal_policies (JPolicies known [])) = Ok (JPolicies known []).
Proof. exact policies_roundtrip. Qed.
Print Assumptions C17_known_partial.

Example C17_case : List.length [None; rp_policy; None; None; None; None] = 6 /\
  Forall policy_ok [None; rp_policy; None; None; None; None].
Proof. exact c17_case. Qed.

(** ** C56 Unknown JSON claims are preserved *)

(** Decoding any document and encoding the result keeps every claim that is not a field of
    the struct. *)
Theorem C56_unknown_preserved : forall (V : Type) (fs : list (jfield V)) j vs extra k,
  distinct_names fs -> decode fs j = Ok (vs, extra) -> ~ In k (tags fs) ->
  claim k (marshal fs vs extra) = claim k j.
Proof. exact @unknown_preserved. Qed.
Print Assumptions C56_unknown_preserved.

Example C56_unknown_case : exists j vs x,
  decode mark_info_fields j = Ok (vs, x) /\ claim "note" j = Some (JStr "n") /\ ~ In "note" (tags mark_info_fields).
Proof. exact c56_unknown_case. Qed.

(** Encoding and decoding is the identity. Missing: additional claims whose name differs
    from that of a field only in case (C56_case_refuted), and values of single fields that
    do not survive on their own. *)
Theorem C56_roundtrip_partial : forall (V : Type) (fs : list (jfield V)) vs extra,
  distinct_names fs -> Forall2 survives fs vs -> no_clash fs extra ->
  decode fs (marshal fs vs extra) = Ok (vs, extra).
Proof. exact @marshal_roundtrip. Qed.
Print Assumptions C56_roundtrip_partial.

(** The struct types of the library meet the first hypothesis. *)
Theorem C56_types : forall fs, In fs extra_types -> distinct_names fs.
Proof. exact types_distinct. Qed.
Print Assumptions C56_types.

Example C56_case : In mark_fields extra_types /\ distinct_names mark_fields /\ Forall2 survives mark_fields mark_values /\
  no_clash mark_fields assurance.
Proof. exact c56_case. Qed.

(** Additional claims override known ones. *)
Theorem C56_override_refuted : exists vs extra,
  Forall2 survives mark_fields vs /\ nth_error vs 1 = Some (GStr "https://leaf.example") /\
  claim "sub" (marshal mark_fields vs extra) = Some (JStr "https://other.example").
Proof. exact c56_override. Qed.
Print Assumptions C56_override_refuted.

Theorem C56_case_refuted : exists vs extra vs' extra',
  Forall2 survives mark_fields vs /\ no_exact_clash mark_fields extra /\
  decode mark_fields (marshal mark_fields vs extra) = Ok (vs', extra') /\ vs' <> vs.
Proof. exact c56_case_fold. Qed.
Print Assumptions C56_case_refuted.

(** ** C57 Resolve responses survive JSON *)

(** False: issuer, subject, times and audience are always lost. *)
Theorem C57_refuted : exists r j r', marshal_response r = Ok j /\
  unmarshal_response j zero_response = Ok r' /\ rr_own r' <> rr_own r.
Proof. exact c57_loses. Qed.
Print Assumptions C57_refuted.

Theorem C57_always_lost : forall r j r',
  marshal_response r = Ok j -> unmarshal_response j zero_response = Ok r' -> rr_own r' = zeros resolve_own_fields.
Proof. exact response_loses. Qed.
Print Assumptions C57_always_lost.

(** A response without metadata, trust marks, chain and additional claims cannot be
    encoded. *)
Theorem C57_empty_refuted : exists r, nth_error (rr_own r) 0 = Some (GStr "https://ta.example") /\ marshal_response r = Err.
Proof. exact c57_empty. Qed.
Print Assumptions C57_empty_refuted.

(** The payload and the additional claims survive. *)
Theorem C57_payload_partial : forall r j r',
  Forall2 survives resolve_payload_fields (rr_payload r) ->
  no_clash (resolve_payload_fields ++ resolve_own_fields)%list (rr_extra r) ->
  marshal_response r = Ok j -> unmarshal_response j zero_response = Ok r' ->
  rr_payload r' = rr_payload r /\ forall k v, lookup k (rr_extra r) = Some v -> lookup k (rr_extra r') = Some v.
Proof. exact response_payload. Qed.
Print Assumptions C57_payload_partial.

Example C57_case : Forall2 survives resolve_payload_fields (rr_payload response) /\
  no_clash (resolve_payload_fields ++ resolve_own_fields)%list (rr_extra response) /\
  exists j r', marshal_response response = Ok j /\ unmarshal_response j zero_response = Ok r' /\ rr_own r' <> rr_own response.
Proof. exact c57_case. Qed.

(** ** C58 Slice-or-single values survive JSON *)

(** Missing: the nil list (C58_nil_refuted) and element types that a JSON array can be
    decoded into (C58_any_refuted). *)
Theorem C58_roundtrip_partial : forall (T : Type) (enc : T -> json) dec l,
  (forall x, In x l -> dec (enc x) = Some x) -> (forall js, dec (JArr js) = None) ->
  unmarshal_sos dec (marshal_sos enc (Some l)) = Ok (Some l).
Proof. exact @sos_roundtrip. Qed.
Print Assumptions C58_roundtrip_partial.

Example C58_case : (forall x, In x ["a"; "b"] -> dec_string (JStr x) = Some x) /\ forall js, dec_string (JArr js) = None.
Proof. exact c58_case. Qed.

Theorem C58_nil_refuted : unmarshal_sos dec_string (marshal_sos JStr None) = Ok (Some [""]).
Proof. exact c58_nil. Qed.
Print Assumptions C58_nil_refuted.

Theorem C58_any_refuted : unmarshal_sos (@Some json) (marshal_sos (fun j => j) (Some [JStr "a"; JStr "b"])) =
  Ok (Some [JArr [JStr "a"; JStr "b"]]).
Proof. exact c58_any. Qed.
Print Assumptions C58_any_refuted.
