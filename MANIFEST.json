{
 "claims": [
  {
   "property": "C01",
   "status": "partial",
   "theorems": [
    "C01_any_merge_partial",
    "C01_any_combination_partial",
    "C01_any_chain_partial",
    "C01_merge_never_relaxes_partial",
    "C01_refuted_duplicates",
    "C01_refuted_essential",
    "C01_combination_never_relaxes_partial",
    "C01_chain_never_relaxes_partial"
   ],
   "note": "Holds for entries with operands and attributes of any JSON type, without unknown operators and with duplicate-free value operands (C01_any_..., and with the effect spelled out for texts in the other theorems); for two entries, whole combinations and end to end for chain metadata except scope. Refuted: value operands with repeated elements ([a,a] swallows [a,b]); essential is not enforced on absent list attributes; a shared unknown operator drops both entries (C06_refuted_merge)."
  },
  {
   "property": "C02",
   "status": "partial",
   "theorems": [
    "C02_list_exact",
    "C02_list_exact_sets",
    "C02_list_operators_partial",
    "C02_refuted"
   ],
   "note": "Refuted: essential alone does not reject an absent list (C02_refuted). The deviations are known exactly: every entry that passes verification has the effect of the operator table unless it is essential alone on an absent list or is {\"value\": null, \"add\": []} (C02_list_exact), and if the add operand repeats elements the same elements result (C02_list_exact_sets). String attributes are in C10/C111."
  },
  {
   "property": "C03",
   "status": "partial",
   "theorems": [
    "C03_exact",
    "C03_exact_policy",
    "C03_chain_refuted",
    "C03_apply_no_panic_partial",
    "C03_apply_well_typed_partial",
    "C03_refuted"
   ],
   "note": "Refuted: JSON numbers arrive as float64 and cannot be assigned to int64 fields (panic), same for scalars into lists. With operands of the attribute's type, or null, an entry that passes verification crashes if and only if it is {\"value\": null, \"add\": []} or it is {\"default\": null, \"subset_of\": [...]} and the attribute is absent (C03_exact); such a policy crashes the resolution of a chain (C03_chain_refuted)."
  },
  {
   "property": "C04",
   "status": "partial",
   "theorems": [
    "C04_verify_no_panic_partial",
    "C04_refuted"
   ],
   "note": "Refuted: null operands panic in the subset verifiers. Partial: exact list of null operands excluded."
  },
  {
   "property": "C05",
   "status": "partial",
   "theorems": [
    "C05_combined_verified_partial",
    "C05_refuted"
   ],
   "note": "Refuted: empty first policy followed by one invalid policy. Partial: that is the only exception."
  },
  {
   "property": "C06",
   "status": "partial",
   "theorems": [
    "C06_apply_ignores_unknown",
    "C06_merge_ignores_unknown_partial",
    "C06_refuted_merge",
    "C06_verify_exact",
    "C06_refuted_verify"
   ],
   "note": "ApplyTo ignores unknown operators in full. Refuted for merging (a shared unknown operator drops the whole entry) and for Verify; C06_verify_exact says exactly when Verify rejects because of an unknown operator."
  },
  {
   "property": "C07",
   "status": "partial",
   "theorems": [
    "C07_verify_order",
    "C07_apply_order",
    "C07_combine_order_partial",
    "C07_refuted"
   ],
   "note": "Verify and ApplyTo in full. Combination for policies using known operators only; refuted with a shared unknown operator (first operator in iteration order decides)."
  },
  {
   "property": "C08",
   "status": "partial",
   "theorems": [
    "C08_any_elements",
    "C08_any_arrays",
    "C08_any_symmetric_partial",
    "C08_merge_symmetric_partial",
    "C08_merge_associative_partial",
    "C08_merge_self",
    "C08_merge_elements",
    "C08_merge_essential",
    "C08_essential",
    "C08_refuted"
   ],
   "note": "Refuted for value/default operands with repeated elements, otherwise in full for texts; for other JSON operands what is merged and symmetry of arrays; essential for all operands (C08_essential)."
  },
  {
   "property": "C09",
   "status": "partial",
   "theorems": [
    "C09_any_conflict_partial",
    "C09_conflict_rejected_partial",
    "C09_refuted",
    "C09_exact",
    "C09_null",
    "C09_both_ways"
   ],
   "note": "For operands of any JSON type. Refuted with repeated elements ([a,a] accepted against [a,b]); exactly when operands are taken for equal, also with repeated elements and null, is proved (C09_exact, C09_null), and that a conflict is noticed in at least one of the two orders (C09_both_ways)."
  },
  {
   "property": "C10",
   "status": "partial",
   "theorems": [
    "C10_essential_enforced_partial",
    "C10_essential_harmless_partial",
    "C10_refuted_absent",
    "C10_refuted_present"
   ],
   "note": "Refuted in both directions: absent list passes, present false/0/empty string fails. Partial: with 'there' = what the code can see of presence, both directions."
  },
  {
   "property": "C11",
   "status": "partial",
   "theorems": [
    "C11_idempotent_partial",
    "C11_refuted",
    "C11_again_partial",
    "C11_fails_again"
   ],
   "note": "Refuted: ApplyPolicy does not update its set-bookkeeping, so default + subset_of + essential fails the second time. Partial: C11_again_partial covers whole metadata with list and single-valued attributes except exactly this combination on an attribute the document lacks, where C11_fails_again proves that the second application never succeeds; a nil and an empty slice count as the same."
  },
  {
   "property": "C12",
   "status": "partial",
   "theorems": [
    "C12_frame_partial",
    "C12_local",
    "C12_other_types",
    "C12_refuted"
   ],
   "note": "Typed attributes, other entity types and locality in full; refuted for unknown attributes: an entry named '-' overwrites all of them."
  },
  {
   "property": "C13",
   "status": "partial",
   "theorems": [
    "C13_refuted"
   ],
   "note": "Refuted for every policy: entries on unknown attributes never have any effect."
  },
  {
   "property": "C14",
   "status": "partial",
   "theorems": [
    "C14_single_scope_partial",
    "C14_refuted"
   ],
   "note": "Refuted: scope is not split. Partial: exact for a scope attribute with a single value."
  },
  {
   "property": "C15",
   "status": "partial",
   "theorems": [
    "C15_crit_rejected_partial",
    "C15_crit_no_influence",
    "C15_refuted"
   ],
   "note": "Refuted for chains of one statement; full for longer chains."
  },
  {
   "property": "C16",
   "status": "proved",
   "theorems": [
    "C16_chain_metadata_sound",
    "C16_chain_metadata_complete"
   ],
   "note": ""
  },
  {
   "property": "C17",
   "status": "partial",
   "theorems": [
    "C17_refuted",
    "C17_always_fails",
    "C17_known_partial"
   ],
   "note": "Refuted: decoding metadata_policy with an additional entity type always fails (C17_always_fails); the six known types survive."
  },
  {
   "property": "C18",
   "status": "partial",
   "theorems": [
    "C18_cached_partial",
    "C18_refuted",
    "C18_refuted_alias"
   ],
   "note": "Refuted: default on an absent scalar is lost after caching; AS and OAuth client metadata lose the set-bookkeeping entirely. Partial: policies naming scalar attributes only where present."
  },
  {
   "property": "C19",
   "status": "partial",
   "theorems": [
    "C19_signed_partial",
    "C19_anchored_partial",
    "C19_length",
    "C19_refuted"
   ],
   "note": "Proved for every chain of more than one statement (all others have at least three). False for one-statement chains: a starting entity without authority_hints (or that is an anchor) is returned unverified (C19_refuted)."
  },
  {
   "property": "C20",
   "status": "partial",
   "theorems": [
    "C20_linked",
    "C20_self_issued_partial",
    "C20_refuted"
   ],
   "note": "Issuer/subject linking proved for all chains; self-issued anchor at the end for all but one-statement chains (C20_refuted)."
  },
  {
   "property": "C21",
   "status": "partial",
   "theorems": [
    "C21_time_valid_partial",
    "C21_refuted"
   ],
   "note": "Proved for every statement but the first: the starting entity's configuration is never checked for expiry (C21_refuted)."
  },
  {
   "property": "C22",
   "status": "partial",
   "theorems": [
    "C22_subject_partial",
    "C22_refuted"
   ],
   "note": "The first statement is the document served for the requested entity; its iss and sub are never compared with the requested identifier (C22_refuted)."
  },
  {
   "property": "C23",
   "status": "partial",
   "theorems": [
    "C23_loop_free_partial",
    "C23_refuted"
   ],
   "note": "Proved when the starting configuration has iss = sub; otherwise refuted (C23_refuted)."
  },
  {
   "property": "C24",
   "status": "proved",
   "theorems": [
    "C24_max_path_length"
   ],
   "note": "Proved in full."
  },
  {
   "property": "C25",
   "status": "partial",
   "theorems": [
    "C25_naming_partial",
    "C25_refuted"
   ],
   "note": "Proved when the starting configuration has iss = sub; otherwise the constraint is checked against an attacker-chosen name (C25_refuted)."
  },
  {
   "property": "C26",
   "status": "partial",
   "theorems": [
    "C26_entity_types_partial",
    "C26_refuted"
   ],
   "note": "Proved for the six entity types with a struct; additional entity types are not counted (C26_refuted)."
  },
  {
   "property": "C27",
   "status": "proved",
   "theorems": [
    "C27_complete",
    "C27_exactly"
   ],
   "note": "Proved in full: every valid signed path is returned, and (C27_exactly) nothing else is."
  },
  {
   "property": "C28",
   "status": "partial",
   "theorems": [
    "C28_terminates_partial",
    "C28_bound_irrelevant",
    "C28_refuted"
   ],
   "note": "Proved for networks naming finitely many superiors (any cycles); an endless tower of superiors is followed forever (C28_refuted)."
  },
  {
   "property": "C29",
   "status": "partial",
   "theorems": [
    "C29_independent_partial",
    "C29_independent_chains_partial",
    "C29_refuted"
   ],
   "note": "Proved whenever the resolution returns; another authority can prevent it from returning (C29_refuted)."
  },
  {
   "property": "C30",
   "status": "partial",
   "theorems": [
    "C30_panics_partial",
    "C30_chains_no_panic_partial",
    "C30_refuted"
   ],
   "note": "Exact characterisation of when it panics (C30_panics_partial) and a witness (C30_refuted)."
  },
  {
   "property": "C31",
   "status": "partial",
   "theorems": [
    "C31_memory_partial",
    "C31_refuted_memory",
    "C31_redis_forever",
    "C31_refuted_redis"
   ],
   "note": "The tree's expiration is always Go's zero time: with the in-memory cache nothing is ever cached (no stale data, but refuted: not cached at all); with redis the negative lifetime means no expiration (refuted: expired chains are served for ever, C31_redis_forever)."
  },
  {
   "property": "C32",
   "status": "proved",
   "theorems": [
    "C32_expires_at",
    "C32_empty"
   ],
   "note": ""
  },
  {
   "property": "C33",
   "status": "partial",
   "theorems": [
    "C33_refuted",
    "C33_negative",
    "C33_path_len",
    "C33_max_partial",
    "C33_min",
    "C33_anchor",
    "C33_valid_metadata",
    "C33_compose"
   ],
   "note": "Refuted for negative bounds: TrustChainsFilterMaxPathLength then keeps the shortest chains (C33_negative), however long. Proved for all other bounds."
  },
  {
   "property": "C34",
   "status": "partial",
   "theorems": [
    "C34_permutation",
    "C34_sort_permutation",
    "C34_two_sorted_partial",
    "C34_sorted_input_partial",
    "C34_refuted",
    "C34_any_permutation",
    "C34_any_sorted_partial",
    "C34_any_small",
    "C34_first_partial",
    "C34_first_exists",
    "C34_bound_irrelevant",
    "C34_any_refuted"
   ],
   "note": "Permutation in full, for any number of chains. Sortedness refuted, also for more than twelve: scores are looked up by position after elements moved. Partial: at most two chains, or sorted input of any length (C34_any_sorted_partial); of at most twelve chains the first is the one up to which the scores fall (C34_first_partial). Sort.v models all of sort.Slice (pdqsort of go1.24, from the standard library, not part of /repo); the permutation theorem holds for every sequence of swaps."
  },
  {
   "property": "C35",
   "status": "partial",
   "theorems": [
    "C35_chosen_partial",
    "C35_falling_partial",
    "C35_ascending_partial",
    "C35_sound",
    "C35_fails",
    "C35_complete",
    "C35_shortest_partial",
    "C35_refuted"
   ],
   "note": "Soundness, failure and success proved in full. Refuted for three chains (the scores are not moved with the elements while sorting). Which chain is used is exact for at most twelve: the one up to which the lengths fall (C35_chosen_partial). So it is a shortest one if the lengths fall until they reach the least (at most two chains always do) or never fall (any number of chains)."
  },
  {
   "property": "C36",
   "status": "partial",
   "theorems": [
    "C36_keys_ignored",
    "C36_refuted",
    "C36_op_partial"
   ],
   "note": "Refuted: the keys configured for anchors are dropped, the result does not depend on them (C36_keys_ignored); partial: what holds with keys taken from the network."
  },
  {
   "property": "C37",
   "status": "partial",
   "theorems": [
    "C37_first",
    "C37_fallback",
    "C37_possible_partial",
    "C37_refuted"
   ],
   "note": "Resolve and ResolveResponsePayload proved; ResolvePossible refuted for unreachable endpoints, proved for endpoints that answer."
  },
  {
   "property": "C38",
   "status": "partial",
   "theorems": [
    "C38_unverified",
    "C38_refuted",
    "C38_type_partial"
   ],
   "note": "Refuted: neither signature nor subject of a response is checked; only the JWT type is."
  },
  {
   "property": "C39",
   "status": "partial",
   "theorems": [
    "C39_never_examined",
    "C39_refuted"
   ],
   "note": "Refuted for every network: the crit claim of entity statements is never examined; the chains are the same whatever crit claims the documents carry (C39_never_examined)."
  },
  {
   "property": "C40",
   "status": "partial",
   "theorems": [
    "C40_remote_partial",
    "C40_smart_partial",
    "C40_smart_iff_partial",
    "C40_smart_marks_partial",
    "C40_accepted_partial",
    "C40_implemented_partial",
    "C40_refuted_unanchored",
    "C40_refuted_stale"
   ],
   "note": "Proved as an iff for issuers that have authority hints and infos whose cached mark is that of their JWT; refuted for an issuer without authority hints (accepted without any chain to the anchor) and for a stale cached mark. With a resolve endpoint or the smart resolver as the default a mark is accepted exactly if it is valid under the keys these tell (C40_remote_partial, C40_smart_partial, C40_smart_iff_partial; for issuers that bear marks themselves C40_smart_marks_partial)."
  },
  {
   "property": "C41",
   "status": "partial",
   "theorems": [
    "C41_remote_partial",
    "C41_smart_partial",
    "C41_told_refuted",
    "C41_reported_partial",
    "C41_refuted"
   ],
   "note": "Refuted: the subject is never compared; partial: reported marks are carried by the subject and recognised by the anchor. The same holds with remote resolvers as the default (C41_remote_partial, C41_smart_partial, C41_told_refuted)."
  },
  {
   "property": "C42",
   "status": "proved",
   "theorems": [
    "C42_federation",
    "C42_federation_returns",
    "C42_external",
    "C42_find"
   ],
   "note": "VerifiedFederation is exact whenever it returns and returns whenever every single verification does (see C72)."
  },
  {
   "property": "C43",
   "status": "partial",
   "theorems": [
    "C43_claims_partial",
    "C43_lifetime_partial",
    "C43_seconds_partial",
    "C43_unknown",
    "C43_refuted_rounding",
    "C43_refuted_extra"
   ],
   "note": "Exact for whole seconds until 2116; otherwise up to 1500 ns at both ends (rounding of float64 time stamps, refuted at the instant of issuance). Refuted for configured additional claims that replace claims of the mark."
  },
  {
   "property": "C44",
   "status": "partial",
   "theorems": [
    "C44_claims_partial",
    "C44_refuted_no_expiry",
    "C44_refuted_zero"
   ],
   "note": "Refuted: presence of exp is decided by the configured lifetime, also when another one is passed."
  },
  {
   "property": "C45",
   "status": "partial",
   "theorems": [
    "C45_live_partial",
    "C45_refuted"
   ],
   "note": "Proved for all interleavings in which the two writes storing a mark are not interrupted; refuted otherwise (data race: new mark seen with the old expiration)."
  },
  {
   "property": "C46",
   "status": "partial",
   "theorems": [
    "C46_attempts_partial",
    "C46_request_of_attempt",
    "C46_one_request",
    "C46_requests_partial",
    "C46_refuted_race",
    "C46_refuted_slow"
   ],
   "note": "Attempts are a minute apart unless two goroutines pass the check together (refuted: race); requests are, if sent when the attempt is recorded (refuted for delayed ones)."
  },
  {
   "property": "C47",
   "status": "partial",
   "theorems": [
    "C47_stays_partial",
    "C47_no_refresh",
    "C47_refuted"
   ],
   "note": "Proved for marks with an exp claim (all interleavings with uninterrupted stores); refuted for marks without exp claim, which are dropped and refused by the rate limit."
  },
  {
   "property": "C48",
   "status": "partial",
   "theorems": [
    "C48_window_partial",
    "C48_absent",
    "C48_values",
    "C48_refuted"
   ],
   "note": "Exact, except that a time stamp equal to Go's zero time counts as absent (C48_refuted); C48_absent shows this is the only deviation."
  },
  {
   "property": "C49",
   "status": "partial",
   "theorems": [
    "C49_refuted",
    "C49_present_partial"
   ],
   "note": "Refuted: a statement without exp is valid for ever. The exact acceptance condition is proved."
  },
  {
   "property": "C50",
   "status": "partial",
   "theorems": [
    "C50_seconds_partial",
    "C50_close_partial",
    "C50_zero_refuted",
    "C50_rounding_refuted",
    "C50_overflow_refuted"
   ],
   "note": "Proved for whole seconds from 1823 to 2116 (all instants 1677-2262 come back within 1500 ns). Refuted for the zero time, for odd seconds after 2116 (float64 rounding) and after 2262 (int64 overflow)."
  },
  {
   "property": "C51",
   "status": "partial",
   "theorems": [
    "C51_seconds_partial",
    "C51_refuted",
    "C51_rounding_refuted"
   ],
   "note": "Proved for whole seconds up to 146 years. Refuted for fractional seconds (truncated) and for longer durations (float64 rounding)."
  },
  {
   "property": "C52",
   "status": "partial",
   "theorems": [
    "C52_keys_partial",
    "C52_subsystems",
    "C52_statements",
    "C52_refuted"
   ],
   "note": "Proved for the library's subsystem names and for all statement keys (base64 modelled and proved injective); refuted only for subsystem names containing a colon."
  },
  {
   "property": "C53",
   "status": "partial",
   "theorems": [
    "C53_sound_partial",
    "C53_complete_partial",
    "C53_refuted_never",
    "C53_refuted_evicted"
   ],
   "note": "Sound and complete for every history; refuted for a duration of -1ns (never expires) and for values evicted after 100000 other keys. gocache itself is modelled from its documented behaviour."
  },
  {
   "property": "C54",
   "status": "partial",
   "theorems": [
    "C54_together_partial",
    "C54_memory_partial",
    "C54_redis_partial",
    "C54_cached_or_fresh",
    "C54_refuted_memory",
    "C54_refuted_redis"
   ],
   "note": "In memory: never later than the exp plus the time between the two clock readings; refuted for statements stored exactly 1ns after exp. Redis: within 2ms if live when obtained; refuted otherwise (kept for ever)."
  },
  {
   "property": "C55",
   "status": "partial",
   "theorems": [
    "C55_grace_partial",
    "C55_default_partial",
    "C55_refuted",
    "C55_refuted_early"
   ],
   "note": "Refuted for every statement with factor >= 1/2: the fraction compared is the remaining one, not the elapsed one. Proved: only within the grace period; exact condition of the code for the default factor."
  },
  {
   "property": "C56",
   "status": "partial",
   "theorems": [
    "C56_unknown_preserved",
    "C56_roundtrip_partial",
    "C56_types",
    "C56_override_refuted",
    "C56_case_refuted"
   ],
   "note": "Unknown claims are preserved by decode/encode (proved for every struct with distinct field names). Encode/decode is the identity unless an additional claim has a field's name up to case; additional claims override known ones (C56_override_refuted) and claims differing only in case are read as the field (C56_case_refuted)."
  },
  {
   "property": "C57",
   "status": "partial",
   "theorems": [
    "C57_refuted",
    "C57_always_lost",
    "C57_empty_refuted",
    "C57_payload_partial"
   ],
   "note": "Refuted: iss, sub, iat, exp and aud are always lost on decoding and a response with an empty payload cannot be encoded; payload and additional claims survive."
  },
  {
   "property": "C58",
   "status": "partial",
   "theorems": [
    "C58_roundtrip_partial",
    "C58_nil_refuted",
    "C58_any_refuted"
   ],
   "note": "Proved for non-nil lists of an element type that no JSON array decodes into; refuted for nil (becomes a list with one zero value) and for T = any."
  },
  {
   "property": "C59",
   "status": "proved",
   "theorems": [
    "C59_each_once"
   ],
   "note": "Proved for every interleaving of the goroutine machine (unbounded federations, nesting and workers)."
  },
  {
   "property": "C60",
   "status": "proved",
   "theorems": [
    "C60_sound",
    "C60_complete"
   ],
   "note": "Proved for every interleaving, with answers that may change during the collection (soundness: answered once; completeness: answered always). Assumes evaluating an entity neither panics nor diverges (hypothesis network)."
  },
  {
   "property": "C61",
   "status": "proved",
   "theorems": [
    "C61_completes",
    "C61_terminates",
    "C61_no_deadlock",
    "C61_endless"
   ],
   "note": "Proved: bounded executions in finite federations, no deadlock in any. C61_endless remarks that no bound exists for infinite federations. Any execution can be continued until the collection returns (C61_completes)."
  },
  {
   "property": "C62",
   "status": "proved",
   "theorems": [
    "C62_filters_exact",
    "C62_filters_exact_plain"
   ],
   "note": "Proved for arbitrary filters, also ones whose answer depends on the time of the call."
  },
  {
   "property": "C63",
   "status": "partial",
   "theorems": [
    "C63_refuted",
    "C63_never_filled_refuted",
    "C63_json_partial"
   ],
   "note": "Refuted: no field of UIInfo is ever set (values go to Extra) and keywords are never reported. Proved: the JSON form has exactly the requested string claims."
  },
  {
   "property": "C64",
   "status": "proved",
   "theorems": [
    "C64_no_aud_refused",
    "C64_claims",
    "C64_succeeds"
   ],
   "note": "Proved; exp is iat + lifetime in 64-bit arithmetic."
  },
  {
   "property": "C65",
   "status": "proved",
   "theorems": [
    "C65_authorization",
    "C65_code_exchange"
   ],
   "note": "Proved for every set of additional parameters, with the query read back by an independent decoder."
  },
  {
   "property": "C66",
   "status": "partial",
   "theorems": [
    "C66_refuted_request",
    "C66_refuted_exchange",
    "C66_authorization",
    "C66_request_partial",
    "C66_exchange_partial"
   ],
   "note": "Refuted for RequestObject and CodeExchange (the caller's map is written, CodeExchange leaves code and client assertion in it); proved for GetAuthorizationURL, and that no other map is touched."
  },
  {
   "property": "C67",
   "status": "partial",
   "theorems": [
    "C67_refuted",
    "C67_rest_partial"
   ],
   "note": "Refuted: the endpoint's query is dropped. Proved: the rest of the endpoint is retained."
  },
  {
   "property": "C68",
   "status": "partial",
   "theorems": [
    "C68_payload_partial",
    "C68_refuted"
   ],
   "note": "Proved for lifetimes up to 9223372036 s; refuted above (int64 overflow gives exp before iat)."
  },
  {
   "property": "C69",
   "status": "partial",
   "theorems": [
    "C69_absent_partial",
    "C69_additional_partial",
    "C69_known_never_filled",
    "C69_dash_refuted",
    "C69_refuted"
   ],
   "note": "Refuted: for every entity type the library has a struct for the call reports success and leaves the caller's object as it was. Proved: absent types are an error, additional types are decoded."
  },
  {
   "property": "C70",
   "status": "proved",
   "theorems": [
    "C70_restricts",
    "C70_chains_restricted",
    "C70_resolved_types"
   ],
   "note": "Proved, for the restriction itself, for the chains of a resolver run and for local metadata resolution."
  },
  {
   "property": "C71",
   "status": "partial",
   "theorems": [
    "C71_refuted",
    "C71_no_spare_partial"
   ],
   "note": "Refuted: a list decoded with spare capacity is extended in place, so that a later computation overwrites the value added by an earlier one. Proved if no list of a statement has spare capacity. TrustChain.Metadata keeps an encoded copy of its first result in the cache, which limits the exposure."
  },
  {
   "property": "C72",
   "status": "partial",
   "theorems": [
    "C72_remote_partial",
    "C72_remote_refuted",
    "C72_smart_partial",
    "C72_refuted_panic",
    "C72_refuted_diverges",
    "C72_external_partial",
    "C72_returns_partial"
   ],
   "note": "Refuted: nil key set of the issuer (panic), unbounded recursion with the smart resolver; proved for VerifyExternal and for local resolution in finite networks with keys. With a resolve endpoint as the default verification always ends and exactly when it crashes is proved (C72_remote_partial); with the smart resolver it ends if nobody bears, directly or through others, a mark of its own (C72_smart_partial)."
  },
  {
   "property": "C73",
   "status": "partial",
   "theorems": [
    "C73_refuted",
    "C73_accepted_partial"
   ],
   "note": "Refuted: the issuer of the delegation is not compared with the owner; time and signature are checked exactly."
  },
  {
   "property": "C74",
   "status": "partial",
   "theorems": [
    "C74_memory_partial",
    "C74_refuted"
   ],
   "note": "In-memory: proved (result equals that without cache). Redis: refuted, the cache key ignores the anchors' keys."
  },
  {
   "property": "C75",
   "status": "proved",
   "theorems": [
    "C75_own"
   ],
   "note": "Proved in full for both backends."
  },
  {
   "property": "C76",
   "status": "partial",
   "theorems": [
    "C76_deep_refuted",
    "C76_refuted",
    "C76_flat_partial",
    "C76_line_partial",
    "C76_two_refuted"
   ],
   "note": "Refuted: the set of visited entities is shared by the goroutines of nested calls without a lock. Proved for federations without intermediates (C76_flat_partial) and for those in which no authority has two subordinate authorities, whatever their depth (C76_line_partial). Two authorities directly below the anchor are enough for a race (C76_two_refuted). So are two authorities below an authority at any depth (C76_deep_refuted)."
  },
  {
   "property": "C77",
   "status": "partial",
   "theorems": [
    "C77_refuted",
    "C77_is_op_partial",
    "C77_supports",
    "C77_registers",
    "C77_no_op"
   ],
   "note": "Refuted for EntityCollectionFilterOPs when the request's claims lack entity_types; the other filters are exact."
  },
  {
   "property": "C78",
   "status": "proved",
   "theorems": [
    "C78_first_answer"
   ],
   "note": "Proved."
  },
  {
   "property": "C79",
   "status": "proved",
   "theorems": [
    "C79_form_encoding"
   ],
   "note": "Proved for all byte strings against an independent decoder."
  },
  {
   "property": "C80",
   "status": "proved",
   "theorems": [
    "C80_assertion"
   ],
   "note": "Proved."
  },
  {
   "property": "C81",
   "status": "partial",
   "theorems": [
    "C81_refuted",
    "C81_no_error_partial"
   ],
   "note": "Refuted: any JSON object without a string error member, e.g. {}, is reported as tokens. Proved: error answers are never reported as tokens and the token response is the decoded body."
  },
  {
   "property": "C82",
   "status": "partial",
   "theorems": [
    "C82_refuted",
    "C82_authorization_partial",
    "C82_code_exchange_partial"
   ],
   "note": "Refuted: an entity without OP metadata makes both calls panic. Proved: this and a panic of the resolver are the only reasons."
  },
  {
   "property": "C83",
   "status": "proved",
   "theorems": [
    "C83_statements_unchanged"
   ],
   "note": "Proved on a heap model of slices (array, length, capacity) in which reflect.Append writes in place when there is room; the runtime's growth strategy is an arbitrary function."
  },
  {
   "property": "C84",
   "status": "proved",
   "theorems": [
    "C84_history_independent"
   ],
   "note": "Proved: the heap model computes what the value model of Chain.v computes, after any history."
  },
  {
   "property": "C85",
   "status": "proved",
   "theorems": [
    "C85_own_metadata",
    "C85_errors_not_cached"
   ],
   "note": "Proved for every history, both caches and any digest function without collisions between chains of different JWTs; one chain may have several digests (map order)."
  },
  {
   "property": "C86",
   "status": "partial",
   "theorems": [
    "C86_memory_partial",
    "C86_redis_partial",
    "C86_refuted_redis",
    "C86_refuted_memory"
   ],
   "note": "In-memory: holds except when metadata is stored exactly 1ns after the expiration (gocache's NoExpiration; C86_refuted_memory). Redis: holds up to milliseconds for chains that had not expired when their metadata was computed; metadata of expired chains is kept forever (C86_refuted_redis)."
  },
  {
   "property": "C87",
   "status": "partial",
   "theorems": [
    "C87_history_partial",
    "C87_refuted"
   ],
   "note": "Refuted: the digest ignores which attributes were set, so a chain from the cache and the same chain decoded freshly share an entry although their metadata differs (absent scalar with a default). Partial: values agree for every history when policies only touch scalars the subject gives, and not authorization server or OAuth client metadata."
  },
  {
   "property": "C88",
   "status": "proved",
   "theorems": [
    "C88_own_listing"
   ],
   "note": "Proved for every history and both caches, to the millisecond for redis. Replies that are no listing count as empty, see C89."
  },
  {
   "property": "C89",
   "status": "partial",
   "theorems": [
    "C89_some",
    "C89_exact",
    "C89_fails",
    "C89_published_partial",
    "C89_refuted"
   ],
   "note": "Refuted: a reply that is neither a listing nor an OAuth error object (e.g. a 502 page) is reported as an empty listing and cached for an hour. Partial: all other replies. C89_exact and C89_fails say which HTTP replies are taken for which listing and which fail; subordinates only come from JSON arrays in successful replies (C89_some)."
  },
  {
   "property": "C90",
   "status": "partial",
   "theorems": [
    "C90_genuine_partial",
    "C90_metadata_partial",
    "C90_refuted"
   ],
   "note": "Partial: all chains of more than one statement. Refuted: one-statement chains (a starting entity without authority hints or that is an anchor itself) are returned although nobody signed them."
  },
  {
   "property": "C91",
   "status": "partial",
   "theorems": [
    "C91_payload",
    "C91_type_partial",
    "C91_own_kind",
    "C91_untyped",
    "C91_refuted",
    "C91_refuted_mark"
   ],
   "note": "Payloads are always authentic; the type is for JWTs with one signature. Refuted: in JSON serialization the typ header of the first signature is checked but any signature may verify, so a trust mark delegation can be passed off as a trust mark. Relies on jws.Parse accepting both serializations and jws.Verify accepting one valid signature (jwx v3, not part of /repo)."
  },
  {
   "property": "C92",
   "status": "proved",
   "theorems": [
    "C92_accepted",
    "C92_published",
    "C92_others",
    "C92_only",
    "C92_exact",
    "C92_signer"
   ],
   "note": "Proved for symbolic signatures; key selection by kid as in jwx v3 (stated in Jwt.v)."
  },
  {
   "property": "C93",
   "status": "partial",
   "theorems": [
    "C93_jwt",
    "C93_with_key_partial",
    "C93_refuted",
    "C93_panics"
   ],
   "note": "JWT reports an error. Refuted: JWKS and NewFederationEntity panic for a nil key. NewFederationEntity panics exactly when the signer or its key is nil (C93_panics)."
  },
  {
   "property": "C94",
   "status": "partial",
   "theorems": [
    "C94_genuine_partial",
    "C94_refuted",
    "C94_told_refuted"
   ],
   "note": "Partial: local default resolver, infos in sync with their JWT, issuers whose served configuration names them and has superiors. Refuted: a configuration without authority hints, served by an attacker, is enough. With a remote resolver as the default whoever answers in its place can forge marks (C94_told_refuted)."
  },
  {
   "property": "C95",
   "status": "partial",
   "theorems": [
    "C95_roundtrip_partial",
    "C95_strings",
    "C95_additional",
    "C95_include",
    "C95_refuted_override",
    "C95_refuted_fraction"
   ],
   "note": "What is read from a document is proved exactly. Round trip: partial for whole seconds and additional claims not named like a field; refuted otherwise (fractions are cut off, additional claims override fields)."
  },
  {
   "property": "C96",
   "status": "partial",
   "theorems": [
    "C96_whole_partial",
    "C96_floor_partial",
    "C96_refuted"
   ],
   "note": "Proved for whole seconds up to 292 years and, with the fraction cut off, from one second on. Refuted: a lifetime below one second gives marks that never expire."
  },
  {
   "property": "C97",
   "status": "partial",
   "theorems": [
    "C97_json_partial",
    "C97_yaml_partial",
    "C97_cache_partial",
    "C97_nil",
    "C97_nonempty",
    "C97_refuted"
   ],
   "note": "Proved for non-empty sets, relative to the JOSE library's own JSON. Refuted: an empty set comes back as a nil set, on which method calls panic."
  },
  {
   "property": "C98",
   "status": "partial",
   "theorems": [
    "C98_usable_partial",
    "C98_verified",
    "C98_defaults",
    "C98_refuted",
    "C98_refuted_signer",
    "C98_panics_exact",
    "C98_unknown_type"
   ],
   "note": "Proved for every history of calls. Refuted: self_issued together with a configured JWT, or without a signer, passes Verify and panics when the mark has to be refreshed; C98_panics_exact says exactly when."
  },
  {
   "property": "C99",
   "status": "partial",
   "theorems": [
    "C99_self_partial",
    "C99_remote_partial",
    "C99_kept",
    "C99_failed",
    "C99_refuted"
   ],
   "note": "Self-issued marks: proved. Refuted for marks from an endpoint: neither type, subject, issuer, signature nor expiration is checked; proved: which endpoint is asked and for what."
  },
  {
   "property": "C100",
   "status": "proved",
   "theorems": [
    "C100_same_host",
    "C100_same_port",
    "C100_ordinary",
    "C100_address",
    "C100_bad_port",
    "C100_no_separator"
   ],
   "note": "Proved for a model of url.Parse and Hostname (IPv6 zones are errors in it): for ordinary URLs, for IPv6 addresses and for URLs whose port is not one."
  },
  {
   "property": "C101",
   "status": "partial",
   "theorems": [
    "C101_labels",
    "C101_names_partial",
    "C101_refuted"
   ],
   "note": "Label-wise matching is characterised exactly. Permitted names: proved. Excluded names: partial for lower-case names and hosts; refuted for upper-case ones."
  },
  {
   "property": "C102",
   "status": "partial",
   "theorems": [
    "C102_distinct_partial",
    "C102_slash",
    "C102_refuted"
   ],
   "note": "Refuted: a final slash is dropped. Partial: this is the only way two identifiers share a URL."
  },
  {
   "property": "C103",
   "status": "partial",
   "theorems": [
    "C103_query",
    "C103_rest",
    "C103_fetch_partial",
    "C103_mark_partial",
    "C103_resolve_partial",
    "C103_collection_partial",
    "C103_name_query",
    "C103_refuted",
    "C103_refuted_own"
   ],
   "note": "Exactly what is sent is proved for endpoints with any query. Partial for endpoints without a query; refuted for endpoints that bring a sub of their own, and for the name query of collection requests, which is sent under the wrong name."
  },
  {
   "property": "C104",
   "status": "partial",
   "theorems": [
    "C104_from_partial",
    "C104_used_partial",
    "C104_any_status",
    "C104_refuted"
   ],
   "note": "Exactly which replies are used is proved. Refuted: the status is not looked at unless the body is a JSON error object."
  },
  {
   "property": "C105",
   "status": "partial",
   "theorems": [
    "C105_exact",
    "C105_panics",
    "C105_met_partial",
    "C105_refuted",
    "C105_refuted_superset"
   ],
   "note": "Exactly which entries are accepted, and on which Verify panics, is proved. Refuted: a value outside one_of or lacking elements of superset_of is accepted. Partial: exactly which accepted entries can be met."
  },
  {
   "property": "C106",
   "status": "partial",
   "theorems": [
    "C106_builtin",
    "C106_apply",
    "C106_enforced_partial",
    "C106_last",
    "C106_merge_partial",
    "C106_merge_fails_partial",
    "C106_conservative",
    "C106_calm",
    "C106_refuted",
    "C106_unordered_refuted",
    "C106_refuted_merge"
   ],
   "note": "Application in order, conservativity and absence of panics other than those of the registered functions: proved. Enforcement and merging partial (ordered and registered operators); refuted for registered operators not in OperatorOrder, and for ordered ones not registered."
  },
  {
   "property": "C107",
   "status": "partial",
   "theorems": [
    "C107_stricter",
    "C107_exact",
    "C107_refuted",
    "C107_never_combines_refuted"
   ],
   "note": "Verifiers: proved. Combination lists: exact criterion proved; refuted as the lists must be mutual and the built-in ones are closed, so a custom operator can only be combined with essential."
  },
  {
   "property": "C108",
   "status": "proved",
   "theorems": [
    "C108_chains",
    "C108_valid"
   ],
   "note": "Proved as an equivalence for chains and for valid chains."
  },
  {
   "property": "C109",
   "status": "proved",
   "theorems": [
    "C109_authentic"
   ],
   "note": "Proved; the first statement's own time window and chains of one statement are C21 and C19."
  },
  {
   "property": "C110",
   "status": "proved",
   "theorems": [
    "C110_metadata"
   ],
   "note": "Proved as an equivalence, for all chains of two or more statements and all policies."
  },
  {
   "property": "C111",
   "status": "partial",
   "theorems": [
    "C111_list_partial",
    "C111_refuted",
    "C111_list_exact",
    "C111_list_sets"
   ],
   "note": "Refuted: an essential list that the subject does not state is not rejected (C111_refuted). Exactly that is the deviation (C111_list_exact: all other list attributes resolve to what the table makes of them; C111_list_sets: with operands that repeat elements, to the same elements). Missing: a null value beside add and one_of, which verification rejects."
  },
  {
   "property": "C112",
   "status": "proved",
   "theorems": [
    "C112_values_agree"
   ],
   "note": "Proved."
  },
  {
   "property": "C113",
   "status": "proved",
   "theorems": [
    "C113_policy"
   ],
   "note": "Proved as an equivalence."
  },
  {
   "property": "C114",
   "status": "proved",
   "theorems": [
    "C114_external",
    "C114_no_panic"
   ],
   "note": "Proved as an equivalence."
  },
  {
   "property": "C115",
   "status": "partial",
   "theorems": [
    "C115_exclusive",
    "C115_local_yes",
    "C115_local_no",
    "C115_local_exact",
    "C115_remote_yes",
    "C115_remote_no_partial",
    "C115_refuted",
    "C115_smart_first",
    "C115_smart_rest"
   ],
   "note": "Local and remote yes: exact. Remote no: exact, but also given when the endpoint cannot be reached (partial). Refuted for the smart resolver, which then denies what Resolve would find. The smart resolver says what the first endpoint of an anchor says that does not leave it open, and else what the local resolver says (C115_smart_first, C115_smart_rest)."
  },
  {
   "property": "C116",
   "status": "proved",
   "theorems": [
    "C116_remote",
    "C116_no_panic"
   ],
   "note": "Proved as an equivalence."
  },
  {
   "property": "C117",
   "status": "proved",
   "theorems": [
    "C117_jwts",
    "C117_json",
    "C117_metadata",
    "C117_collections",
    "C117_yaml",
    "C117_configuration",
    "C117_replies",
    "C117_statements"
   ],
   "note": "Proved for every modelled decoder; the parsers of JWTs, JSON texts and keys themselves are those of libraries and assumed not to panic."
  },
  {
   "property": "C118",
   "status": "proved",
   "theorems": [
    "C118_refused",
    "C118_granted"
   ],
   "note": "Proved as equivalences, given that the OP's metadata resolves and the client assertion can be made (otherwise C82)."
  },
  {
   "property": "C119",
   "status": "proved",
   "theorems": [
    "C119_mark",
    "C119_mark_accepted",
    "C119_delegation",
    "C119_delegation_accepted",
    "C119_info",
    "C119_info_accepted"
   ],
   "note": "Proved in both directions. Names of members are matched without regard to (ASCII) case, as encoding/json does."
  },
  {
   "property": "C120",
   "status": "proved",
   "theorems": [
    "C120_mark",
    "C120_delegation"
   ],
   "note": "Proved; additional claims replace standard ones of the same name."
  },
  {
   "property": "C121",
   "status": "proved",
   "theorems": [
    "C121_parsed",
    "C121_basics",
    "C121_accepted",
    "C121_response",
    "C121_response_accepted"
   ],
   "note": "Proved in both directions. Nested claims are covered for payloads without repeated member names (up to case) and with integral numbers; iss, sub, iat, exp, jwks and authority_hints for all payloads."
  },
  {
   "property": "C122",
   "status": "partial",
   "theorems": [
    "C122_documents_partial",
    "C122_refuted"
   ],
   "note": "Partial: chains of one statement are excluded; C122_refuted: such a chain has metadata although nobody signed anything."
  },
  {
   "property": "C123",
   "status": "partial",
   "theorems": [
    "C123_set_partial",
    "C123_refuted",
    "C123_refuted_default"
   ],
   "note": "Partial: refuted for metadata with an additional member named like the Go field (e.g. ClientName), which makes the attribute count as set; the default of a superior is then not applied."
  },
  {
   "property": "C124",
   "status": "partial",
   "theorems": [
    "C124_understood_partial",
    "C124_refuted",
    "C124_refuted_none"
   ],
   "note": "Proved for all parameters of the standards and of the IANA registries (extensions for clients and servers included) but those in missing_parameters. Refuted for those: the library misnames nine algorithm parameters of providers (e.g. id_token_signed_response_alg_values_supported for id_token_signing_alg_values_supported) and three of relying parties (request_signed_response_alg for request_object_signing_alg), and lacks claim_types_supported, frontchannel_logout_session_supported, the DPoP parameters, four CIBA parameters of clients and four RFC 9728 parameters of protected resources. Policies on them are silently ignored: a provider offering only unsigned ID tokens passes a policy allowing RS256 only."
  },
  {
   "property": "C125",
   "status": "partial",
   "theorems": [
    "C125_read_partial",
    "C125_configuration",
    "C125_other_claims",
    "C125_refuted_policies",
    "C125_refuted_types",
    "C125_refuted_permitted"
   ],
   "note": "Proved for payloads as Go code can build them; integers in untyped places are read as floats, times to 1.5 microseconds. Missing and refuted: a policy for an entity type other than the six known ones is signed but the document cannot be parsed; an empty AllowedEntityTypes or Permitted list, which allows nothing, is dropped and read as no constraint; empty key sets (C97)."
  },
  {
   "property": "C126",
   "status": "partial",
   "theorems": [
    "C126_value_partial",
    "C126_default_partial",
    "C126_one_of_partial",
    "C126_refuted_value",
    "C126_refuted_default",
    "C126_refuted_one_of"
   ],
   "note": "Proved for texts, booleans and lists of texts. Refuted for all numbers, objects and key sets: JSON operands are float64 and map[string]any while the attributes are int64, map[string]string and *JWKS, so value and default panic in reflect.Value.Set for every operand, and one_of rejects every value, listed or not."
  },
  {
   "property": "C127",
   "status": "partial",
   "theorems": [
    "C127_lists_refuted",
    "C127_never_lists_refuted",
    "C127_crash_refuted",
    "C127_texts_partial",
    "C127_types_partial",
    "C127_names_partial"
   ],
   "note": "Proved for entity types, display names and text claims. Refuted for list claims: IterateStringSliceClaim looks for fields of kind string instead of slice, so it never reports a list, for any metadata; and it panics for exactly the claims that are texts in one of the entity types present."
  },
  {
   "property": "C128",
   "status": "partial",
   "theorems": [
    "C128_read_partial",
    "C128_claims",
    "C128_empty_refuted",
    "C128_written_partial",
    "C128_refused"
   ],
   "note": "Proved for responses that contain metadata, a mark, a chain or an additional claim. Refuted for empty responses: the payload {} and the other claims are joined to a text that is not JSON, so signing always fails. Issuer, subject and times are written but the library's reader does not look at them (C38, C57)."
  },
  {
   "property": "C129",
   "status": "partial",
   "theorems": [
    "C129_refuted",
    "C129_remote_partial",
    "C129_kept",
    "C129_types"
   ],
   "note": "Proved for documents without member names that differ from a known one by case only and without members named \"-\". Refuted otherwise: a leaf that writes Grant_Types instead of grant_types gets the policy applied to the attribute, but the original value stays among the additional members, is signed by the resolver, and is read by its clients as grant_types when the policy left the attribute empty. Additional members of trust marks inside statements are not modelled."
  },
  {
   "property": "C130",
   "status": "proved",
   "theorems": [
    "C130_endpoints",
    "C130_provider",
    "C130_filters"
   ],
   "note": ""
  },
  {
   "property": "C131",
   "status": "partial",
   "theorems": [
    "C131_refuted",
    "C131_entity_partial",
    "C131_metadata",
    "C131_policies",
    "C131_statement",
    "C131_constraints",
    "C131_naming",
    "C131_response"
   ],
   "note": "Proved for statements, constraints, policies, responses and all attributes except the nine that lack omitempty: issuer, authorization_endpoint, token_endpoint, response_types_supported, subject_types_supported, client_registration_types_supported (openid_provider and oauth_authorization_server), client_registration_types (RP, oauth_client) and the two resource_encryption lists. Refuted for those: they are written as \"\" or null when not set."
  },
  {
   "property": "C132",
   "status": "partial",
   "theorems": [
    "C132_read_partial",
    "C132_collected",
    "C132_shown",
    "C132_fields_refuted",
    "C132_metadata_refuted",
    "C132_nothing_skipped",
    "C132_filters_partial",
    "C132_null_refuted",
    "C132_panics",
    "C132_written",
    "C132_answer",
    "C132_first"
   ],
   "note": "Proved for non-empty collections: identifiers, types, marks, chains and UI claims arrive, and the claims of the entity's metadata are found in the client's fields (C132_shown). Refuted: metadata is never delivered; the UI claims are additional claims for a local caller and fields for a remote one; a collection of nothing is written as null and taken for no answer; a null entity in an answer makes the filtering collector panic (and nothing else does: C132_panics). The Extra members of CollectedEntity and of the response are not modelled."
  },
  {
   "property": "C133",
   "status": "partial",
   "theorems": [
    "C133_int_partial",
    "C133_refused",
    "C133_int_there",
    "C133_int_refuted",
    "C133_claim_partial",
    "C133_claim_int",
    "C133_claim_refuted",
    "C133_close",
    "C133_fails"
   ],
   "note": "Proved for integers in integer attributes and for additional claims with at most 53 significant bits (integers up to 2^53). Refuted: other numbers in additional claims pass through float64 and are rounded (9007199254740993 becomes 9007199254740992; C133_close: by at most one part in 2^53); integers written with a point or an exponent (1.0, 1e2) make the whole document unreadable. Exactly which numbers do not fit is C133_fails. That json.Marshal of a float64 writes a literal that is read as the same float64 is taken from strconv's documentation."
  },
  {
   "property": "C134",
   "status": "partial",
   "theorems": [
    "C134_window_partial",
    "C134_seconds",
    "C134_model",
    "C134_refuted",
    "C134_far_iat",
    "C134_far_exp",
    "C134_exp_refuted"
   ],
   "note": "Proved for seconds below 2^62, up to the precision of float64 (0.2 microseconds for current dates), and exactly for whole seconds. Refuted for numbers from 2^63 on: the conversion to int64 gives a date in the distant past on amd64 and arm64, so that a statement issued in the far future is accepted and one that expires there is never accepted. C134_model links the literals to the time stamps of the other files."
  },
  {
   "property": "C135",
   "status": "proved",
   "theorems": [
    "C135_resolves",
    "C135_valid",
    "C135_metadata",
    "C135_plain"
   ],
   "note": "Documents as in C125 (no policies for additional entity types, no empty list in constraints, key sets that survive JSON); the documents are in force with a margin of 1.5 microseconds, the precision of time stamps; the network names finitely many superiors (C28). C135_valid is the version with the metadata check."
  },
  {
   "property": "C136",
   "status": "proved",
   "theorems": [
    "C136_accepted",
    "C136_reported"
   ],
   "note": "Local resolution; the mark and the delegation are in force with a margin of 1.5 microseconds; additional claims do not have the name of a claim of the mark (C43_refuted_extra); a delegation whose configured lifetime is 0 does not expire (C44). The subject of the mark does not matter, because it is not compared with the entity that carries the mark (C41)."
  },
  {
   "property": "C137",
   "status": "partial",
   "theorems": [
    "C137_chain",
    "C137_exact_partial",
    "C137_no_panic",
    "C137_refuted"
   ],
   "note": "The value in the metadata of a chain, and the absence of crashes: proved. The equivalence is proved for attributes and operands that are not the empty text or false, and policies that do not contradict themselves (a policy that is the only one with entries is not verified if it is not the first, C05). Refuted: an essential attribute stated as false or as the empty text counts as missing."
  },
  {
   "property": "C138",
   "status": "proved",
   "theorems": [
    "C138_nothing_else",
    "C138_local",
    "C138_remote"
   ],
   "note": "Proved; UI claims that are present are C63 (with keywords and UIInfo fields refuted there). A remote resolver's trust mark list that is present but empty is not told apart from an absent one."
  },
  {
   "property": "C139",
   "status": "proved",
   "theorems": [
    "C139_found",
    "C139_chain",
    "C139_marks"
   ],
   "note": "Proved for a collector that resolves locally. Members must answer at every request of the collection, as in C60."
  },
  {
   "property": "C140",
   "status": "proved",
   "theorems": [
    "C140_started",
    "C140_address",
    "C140_code"
   ],
   "note": "Proved for a leaf that resolves locally. The query of the stated authorization endpoint is dropped (C67); a provider policy for an attribute changes what is used (C135). That the POST of the code succeeds is up to the provider."
  },
  {
   "property": "C141",
   "status": "proved",
   "theorems": [
    "C141_accepted",
    "C141_reported"
   ],
   "note": "Calls and refreshes are single steps here; what interleaved refreshes do to the pair of JWT and expiration is C45. Marks issued for less than the minimal lifetime are outside the statement: a call that obtains one returns it all the same."
  },
  {
   "property": "C142",
   "status": "partial",
   "theorems": [
    "C142_verified_partial",
    "C142_stepwise_partial",
    "C142_again_partial",
    "C142_new",
    "C142_refuted_redis",
    "C142_refuted_again"
   ],
   "note": "In-memory cache: proved for every history, except that a resolver used again while its starting entity cannot be reached returns the chains of the last time, expired or not (C142_refuted_again). Redis: refuted, chains read by one resolver before verification are stored and returned by every other resolver as verified ones (C142_refuted_redis)."
  },
  {
   "property": "C143",
   "status": "partial",
   "theorems": [
    "C143_memory_partial",
    "C143_revoked_partial",
    "C143_start_partial",
    "C143_gone_partial",
    "C143_expiring_partial",
    "C143_refuted_redis"
   ],
   "note": "In-memory cache: proved, also for the starting configuration and for statements without expiration time, up to the time that passes between the two clock readings when a statement is stored and the 1ns exception of C54. Redis: refuted, a statement without expiration time is kept for ever although it is no longer served (C143_refuted_redis); chains are kept for ever in any case (C31_redis_forever). Statements with expiration times are covered for redis too, as long as chains are not cached (C143_expiring_partial)."
  },
  {
   "property": "C144",
   "status": "partial",
   "theorems": [
    "C144_refuted",
    "C144_exactly_partial",
    "C144_valid_partial",
    "C144_keep_partial",
    "C144_first_entry",
    "C144_order"
   ],
   "note": "Refuted: resolution does not go beyond an anchor, so configuring an intermediate as an anchor removes every chain through it, and with wrong keys pinned for it the entities below become unresolvable (C144_refuted). Proved exactly: the chains to an anchor are those found with it alone that do not pass another anchor (C144_exactly_partial, C144_valid_partial); a change of the anchors keeps the chains clear of the new ones (C144_keep_partial); only the first entry for an entity counts (C144_first_entry) and the order of distinct anchors does not matter (C144_order)."
  },
  {
   "property": "C145",
   "status": "proved",
   "theorems": [
    "C145_chains",
    "C145_valid"
   ],
   "note": "Both for chains with and without verified metadata, including that resolution still ends with the same fuel."
  },
  {
   "property": "C146",
   "status": "partial",
   "theorems": [
    "C146_refuted",
    "C146_after_refuted",
    "C146_times_partial",
    "C146_times_chains_partial",
    "C146_interval_partial"
   ],
   "note": "Refuted in both directions (C146_refuted, C146_after_refuted); proved: the exact times at which a chain is found, and that they form an interval."
  },
  {
   "property": "C147",
   "status": "proved",
   "theorems": [
    "C147_chains",
    "C147_valid"
   ],
   "note": "Both for chains with and without verified metadata."
  },
  {
   "property": "C148",
   "status": "partial",
   "theorems": [
    "C148_refuted",
    "C148_kept_partial",
    "C148_kept_chains_partial",
    "C148_added_partial"
   ],
   "note": "Refuted (C148_refuted); proved: no chain is lost, the metadata of the kept chains are the same for the types asked for, and chains are added only where a superior does not allow one of the subject's types."
  },
  {
   "property": "C149",
   "status": "proved",
   "theorems": [
    "C149_same",
    "C149_exactly"
   ],
   "note": "For executions of the goroutine machine of Discovery.v."
  },
  {
   "property": "C150",
   "status": "proved",
   "theorems": [
    "C150_narrower"
   ],
   "note": "For executions of the goroutine machine of Discovery.v."
  },
  {
   "property": "C151",
   "status": "partial",
   "theorems": [
    "C151_refuted",
    "C151_order_partial",
    "C151_provided",
    "C151_min_last",
    "C151_min_first_partial",
    "C151_again"
   ],
   "note": "Refuted if TrustChainsFilterMinPathLength is among the filters, and proved for filters that judge each chain on its own, which all others the library offers do. The minimum given last keeps the shortest chains that pass; given first it keeps the same or nothing."
  },
  {
   "property": "C152",
   "status": "partial",
   "theorems": [
    "C152_exact",
    "C152_only",
    "C152_answers",
    "C152_bounded_partial",
    "C152_repeated_refuted"
   ],
   "note": "Proved: which requests are made, and that their answers determine the result. Refuted: the number of requests is not bounded by the number of entities, one server that does not answer can be asked 2^n times by 2n+2 entities without a single valid signature (C152_repeated_refuted); C152_bounded_partial gives the bound there is, linear if every entity names at most one superior."
  },
  {
   "property": "C153",
   "status": "partial",
   "theorems": [
    "C153_only",
    "C153_every",
    "C153_once_partial",
    "C153_twice_refuted",
    "C153_deep_refuted",
    "C153_two_refuted",
    "C153_line_partial",
    "C153_tree_partial",
    "C153_bounded_partial"
   ],
   "note": "Proved under every schedule: the authorities below the anchor are asked, and no others. Refuted: one may be asked more than once, because looking it up in the set of visited entities and adding it are two steps (C153_twice_refuted); C153_once_partial shows that this is the only reason. If no entity has two superiors, every authority is asked once under any schedule (C153_tree_partial). In general each authority is asked at most once for each request to one of its superiors (C153_bounded_partial). The same holds if no authority has two subordinate authorities, even if they list each other (C153_line_partial). Conversely, some schedule asks an authority twice whenever the anchor lists two authorities that both list it (C153_two_refuted, for lists of up to 127 entities). The same at any depth (C153_deep_refuted)."
  },
  {
   "property": "C154",
   "status": "partial",
   "theorems": [
    "C154_redis_once_partial",
    "C154_redis_linear_partial",
    "C154_once_partial",
    "C154_linear_partial",
    "C154_unanswered_refuted"
   ],
   "note": "In-memory cache: proved for requests that are answered, while the answers are valid beyond the grace period and fewer than 100000 requests are made (C154_once_partial), hence a linear bound (C154_linear_partial). Refuted for requests that fail: failures are not cached, so one server that is down is asked 2^n times by one resolution in a federation of 2n+2 entities (C154_unanswered_refuted). Redis: the same without a limit on the number of requests, if the grace period is at least a millisecond (C154_redis_once_partial, C154_redis_linear_partial); a redis server that drops entries for lack of memory is not considered."
  },
  {
   "property": "C155",
   "status": "proved",
   "theorems": [
    "C155_matches",
    "C155_part",
    "C155_exactly",
    "C155_longer"
   ],
   "note": "fuzzysearch's match is modelled from its source; its Unicode normalisation is an argument of the theorems, and C155_part is for ASCII texts."
  },
  {
   "property": "C156",
   "status": "proved",
   "theorems": [
    "C156_served",
    "C156_calls",
    "C156_returns",
    "C156_resolutions"
   ],
   "note": "The statement cache may be either one; the chains are those without the cache for trees and chains (in memory it never holds anything, C31). Accesses to the cache are atomic steps, as gocache and redis make them."
  },
  {
   "property": "C157",
   "status": "partial",
   "theorems": [
    "C157_forward_partial",
    "C157_refuted"
   ],
   "note": "Refuted, even for a program that makes one call after the other and with the default settings: a refresh in the background that got its answer before a change and stores it after a faster one has stored the new statement puts the old one back (C157_refuted). Proved: as long as no two answers to the same question are held at the same time, statements do not get older (C157_forward_partial)."
  },
  {
   "property": "C158",
   "status": "partial",
   "theorems": [
    "C158_each_partial",
    "C158_fresh_partial",
    "C158_refuted",
    "C158_refuted_slow"
   ],
   "note": "Refuted: any number of calls that begin at the same time each send a request (C158_refuted), and while a refresh in the background is slow so does every call of a program that makes one after the other (C158_refuted_slow). Proved: under every schedule at most one request per call, refreshes included (C158_each_partial), and none while the statement is cached and valid for longer than the grace period (C158_fresh_partial)."
  },
  {
   "property": "C159",
   "status": "proved",
   "theorems": [
    "C159_chains",
    "C159_valid"
   ],
   "note": "The conditions on the documents in circulation are fit_together in SpecChange.v; the redis cache must not have stored documents that had expired (C54). Resolution must end (C28)."
  },
  {
   "property": "C160",
   "status": "partial",
   "theorems": [
    "C160_only_partial",
    "C160_named_partial",
    "C160_list_partial",
    "C160_answers",
    "C160_list_answers",
    "C160_refuted",
    "C160_smart_only_partial",
    "C160_smart_named_partial",
    "C160_smart_refuted"
   ],
   "note": "Refuted for every type of which the anchor says nothing: the issuer is resolved before time and signature of the mark are checked, so a mark that nobody has signed makes its verifier contact any URL (C160_refuted). Proved if the anchor names issuers for the type (C160_named_partial, C160_list_partial), and exactly on whose behalf requests are made (C160_only_partial), with the local resolver or a resolve endpoint as the default. With the smart resolver the marks of the issuer are verified too, so naming issuers for the type does not suffice (C160_smart_refuted); proved if these carry no marks (C160_smart_named_partial), and exactly which issuers are asked about (C160_smart_only_partial). The list of requests is complete with every resolver (C160_answers, C160_list_answers)."
  },
  {
   "property": "C161",
   "status": "proved",
   "theorems": [
    "C161_spared",
    "C161_settled",
    "C161_unsettled",
    "C161_payload",
    "C161_metadata",
    "C161_possible"
   ],
   "note": "The list of requests is complete: in two environments that answer them alike all results are the same (C161_payload, C161_metadata, C161_possible)."
  },
  {
   "property": "C162",
   "status": "proved",
   "theorems": [
    "C162_kept"
   ],
   "note": "For the local resolver as default. A mark signed with a key that the issuer's previous, still unexpired configuration does not list is refused by those who have that configuration in their cache (C162_early_case)."
  },
  {
   "property": "C163",
   "status": "partial",
   "theorems": [
    "C163_fields_partial",
    "C163_companion_partial",
    "C163_once",
    "C163_tags_partial",
    "C163_refuted",
    "C163_tags_refuted",
    "C163_read_partial",
    "C163_read_refuted"
   ],
   "note": "Refuted: arrays of fixed size become slices (C163_refuted), interface and function types are written as nothing and embedded fields are dropped (C163_vanish_case), a claim declared again under another Go name gives two fields with one JSON name, which encoding/json ignores both (C163_tags_refuted), and decoding panics for fields of a struct type of another package (C163_read_refuted). Proved for names, pointers, slices and maps (C163_fields_partial, C163_companion_partial), for different tags (C163_tags_partial), and exactly which fields can be filled (C163_read_partial); C163_once without condition. The present input meets all conditions and gives the tables of Schema.v (C163_case)."
  },
  {
   "property": "C164",
   "status": "partial",
   "theorems": [
    "C164_partial",
    "C164_written",
    "C164_exported",
    "C164_refuses",
    "C164_refuted",
    "C164_package_refuted"
   ],
   "note": "Refuted: the order of the types depends on the run (C164_refuted) and the file is put into package pkg, so that the present package does not compile after go generate (C164_package_refuted). Proved up to order (C164_partial), and which types are written (C164_written). The names are those of the declarations with a capital (C164_exported), and exactly files without commonMetadata are refused (C164_refuses)."
  },
  {
   "property": "C165",
   "status": "partial",
   "theorems": [
    "C165_roundtrip_partial",
    "C165_readable",
    "C165_no_panic",
    "C165_written",
    "C165_same_partial",
    "C165_lifetime_partial",
    "C165_letters_refuted",
    "C165_twice_refuted",
    "C165_override_refuted",
    "C165_fraction_refuted"
   ],
   "note": "Refuted for lifetimes that are not whole seconds and for additional claims with the name of a field, as C51, C56 and C95 (C165_fraction_refuted, C165_override_refuted). JSON takes a member named Lifetime for the lifetime and the last of several members with the same name; YAML takes the first for an additional claim and refuses the others (C165_letters_refuted, C165_twice_refuted). Proved otherwise (C165_roundtrip_partial, C165_same_partial, C165_lifetime_partial); what is written is always the same (C165_written). Exactly which JSON documents can be read is proved (C165_readable), and that none crashes the reader (C165_no_panic)."
  },
  {
   "property": "C166",
   "status": "partial",
   "theorems": [
    "C166_two_refuted",
    "C166_only",
    "C166_every",
    "C166_as_listed",
    "C166_superiors",
    "C166_tree_partial",
    "C166_twice_refuted"
   ],
   "note": "Refuted: an entity is looked at as often as it is listed, hence once for each of its superiors (C166_twice_refuted, C166_as_listed, C166_superiors); the set of visited entities only prevents that listings are asked for again. Proved: only the entities below the anchor are looked at, all of them are, and each once if nobody has two superiors (C166_only, C166_every, C166_tree_partial). Conversely, in every federation with fixed lists an entity that two authorities list is looked at twice or more under every schedule (C166_two_refuted)."
  },
  {
   "property": "C167",
   "status": "partial",
   "theorems": [
    "C167_told_partial",
    "C167_read_back",
    "C167_distinct",
    "C167_yes",
    "C167_no",
    "C167_undeclared_refuted"
   ],
   "note": "Proved for errors sent as JSON with a status from 400 on; C167_yes and C167_no say exactly which replies count as a yes and a no. Refuted otherwise: an error that is not declared as JSON is a no (C167_undeclared_refuted)."
  },
  {
   "property": "C168",
   "status": "partial",
   "theorems": [
    "C168_list_partial",
    "C168_text_partial",
    "C168_text_fails",
    "C168_cut_refuted",
    "C168_fails_refuted",
    "C168_merged_refuted"
   ],
   "note": "Refuted: verification accepts defaults that the entry's own subset_of, superset_of or one_of forbid; they are cut (C168_cut_refuted) or make the entity fail (C168_fails_refuted). Proved: the default is what the entity gets exactly if the three checks accept the entry that the library has for this purpose but does not register (C168_list_partial, C168_text_partial). Fitting defaults may also become unfitting when policies are merged, which a federation operator cannot see in the single policies (C168_merged_refuted)."
  }
 ]
}