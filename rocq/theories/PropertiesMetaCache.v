(** Property theorems about cached metadata and subordinate listings (C85-C89).
    [..._refuted] gives a counterexample to the full statement of the property,
    [..._partial] the version that holds. *)
From Verif Require Import Base GoVal Policy Schema Metadata SpecMetadata Chain SpecChain Resolver TrustMark Refresher FloatTime SpecUnits Cache MetaCache SpecMetaCache MetaCacheFacts ListCache SpecListCache ListCacheFacts WitnessPolicy WitnessMetaCache WitnessListCache.
Local Open Scope nat_scope.
Local Open Scope string_scope.
Local Open Scope list_scope.

(** ** C85 Cached metadata belongs to the chain *)

Theorem C85_own_metadata : forall digest_of h k0 c d1 d2 t0 t1 t2,
  no_collision digest_of -> empty_cache k0 -> Forall (muse_ok digest_of) h -> digest_of c d1 ->
  fst (metadata_cached d1 d2 t0 t1 t2 c (after_muses h k0)) = chain_metadata c \/
  exists c' d1' d2' t0' t1' t2' m, In (MCall c' d1' d2' t0' t1' t2') h /\ same_statements c c' /\ 2 <= List.length c' /\
    chain_metadata c' = Ok (Some m) /\
    fst (metadata_cached d1 d2 t0 t1 t2 c (after_muses h k0)) = Ok (Some (md_msgpack m)).
Proof. exact meta_own. Qed.
Print Assumptions C85_own_metadata.

(** An error is never served from the cache, and a call that ends with an error stores nothing. *)
Theorem C85_errors_not_cached : forall d1 d2 t0 t1 t2 c k, fst (metadata_cached d1 d2 t0 t1 t2 c k) = Err ->
  forall d, fst (meta_cache_get t0 d (snd (metadata_cached d1 d2 t0 t1 t2 c k))) = None \/
            fst (meta_cache_get t0 d (snd (metadata_cached d1 d2 t0 t1 t2 c k))) = fst (meta_cache_get t0 d k).
Proof. exact meta_error_again. Qed.
Print Assumptions C85_errors_not_cached.

Example C85_case : exists m,
  no_collision (digests wchain) /\ Forall (muse_ok (digests wchain)) [mcall wchain 500%Z] /\ digests wchain wchain "d" /\
  chain_metadata wchain = Ok (Some m) /\
  fst (meta_cache_get 600%Z "d" (after_muses [mcall wchain 500%Z] (Memory []))) = Some (md_msgpack m) /\
  fst (meta_cache_get 600%Z "d" (after_muses [mcall wchain 500%Z] (Redis []))) = Some (md_msgpack m).
Proof. exact c85_case. Qed.

(** ** C86 Cached metadata is not used after the chain has expired *)

(** [t2' - t1'] is the time between two readings of the clock while storing. Missing:
    storing exactly 1ns after the expiration (C86_refuted_memory). *)
Theorem C86_memory_partial : forall digest_of h c d1 d2 t0 t1 t2,
  no_collision digest_of -> Forall (muse_ok digest_of) h -> Forall muse_in_range h -> digest_of c d1 ->
  (forall c' d1' d2' t0' t1' t2', In (MCall c' d1' d2' t0' t1' t2') h -> (expires_at c' - t1')%Z <> (-1)%Z) ->
  (forall c' d1' d2' t0' t1' t2', In (MCall c' d1' d2' t0' t1' t2') h -> (expires_at c + (t2' - t1') < t0)%Z) ->
  fst (metadata_cached d1 d2 t0 t1 t2 c (after_muses h (Memory []))) = chain_metadata c.
Proof. exact meta_memory_expires. Qed.
Print Assumptions C86_memory_partial.

(** Redis counts in milliseconds. Missing: metadata computed from chains that have already
    expired (C86_refuted_redis). *)
Theorem C86_redis_partial : forall digest_of h c d1 d2 t0 t1 t2,
  no_collision digest_of -> Forall (muse_ok digest_of) h -> Forall muse_in_range h -> digest_of c d1 ->
  (forall c' d1' d2' t0' t1' t2', In (MCall c' d1' d2' t0' t1' t2') h -> (t1' < expires_at c')%Z) ->
  (forall c' d1' d2' t0' t1' t2', In (MCall c' d1' d2' t0' t1' t2') h -> (expires_at c + (t2' - t1') + 2 * ms <= t0)%Z) ->
  fst (metadata_cached d1 d2 t0 t1 t2 c (after_muses h (Redis []))) = chain_metadata c.
Proof. exact meta_redis_expires. Qed.
Print Assumptions C86_redis_partial.

Example C86_case : Forall muse_in_range [mcall wchain 500%Z] /\ expires_at wchain = 1000%Z /\
  fst (meta_cache_get 1000%Z "d" (after_muses [mcall wchain 500%Z] (Memory []))) <> None /\
  fst (meta_cache_get 1001%Z "d" (after_muses [mcall wchain 500%Z] (Memory []))) = None.
Proof. exact c86_case. Qed.

Theorem C86_refuted_redis : forall now, exists c h m, Forall (muse_ok (digests c)) h /\ Forall muse_in_range h /\ digests c c "d" /\
  (expires_at c < 2000)%Z /\ fst (meta_cache_get now "d" (after_muses h (Redis []))) = Some m.
Proof. exact c86_redis. Qed.
Print Assumptions C86_refuted_redis.

Theorem C86_refuted_memory : forall now, exists c h m, Forall (muse_ok (digests c)) h /\ Forall muse_in_range h /\ digests c c "d" /\
  (expires_at c < 2000)%Z /\ fst (meta_cache_get now "d" (after_muses h (Memory []))) = Some m.
Proof. exact c86_memory. Qed.
Print Assumptions C86_refuted_memory.

(** ** C87 The metadata of a chain does not depend on what was cached *)

(** Missing: policies on absent scalar attributes (C87_refuted) and policies for
    authorization server and OAuth client metadata (C18_refuted_alias); see [cache_safe]. *)
Theorem C87_history_partial : forall digest_of dec h k0 c d1 d2 t0 t1 t2,
  no_collision digest_of -> empty_cache k0 -> Forall (muse_ok digest_of) h -> digest_of c d1 ->
  (forall c' d1' d2' t0' t1' t2', In (MCall c' d1' d2' t0' t1' t2') h -> Forall (from_jwt dec) c') -> Forall (from_jwt dec) c ->
  cache_safe (decoded dec c) ->
  result_values (fst (metadata_cached d1 d2 t0 t1 t2 c (after_muses h k0))) = result_values (chain_metadata (decoded dec c)).
Proof. exact meta_history. Qed.
Print Assumptions C87_history_partial.

(** With C85_case. *)
Example C87_case : decoded (dec3 leaf_st (sup_policy []) (bare "ta" "ta")) (map stmt_msgpack wchain) = wchain /\
  cache_safe wchain /\ Forall (from_jwt (dec3 leaf_st (sup_policy []) (bare "ta" "ta"))) (map stmt_msgpack wchain) /\
  Forall (from_jwt (dec3 leaf_st (sup_policy []) (bare "ta" "ta"))) wchain.
Proof. exact c87_case. Qed.

Theorem C87_refuted : exists dec h c digest_of,
  no_collision digest_of /\ Forall (muse_ok digest_of) h /\ digest_of c "d" /\
  (forall c' d1 d2 t0 t1 t2, In (MCall c' d1 d2 t0 t1 t2) h -> Forall (from_jwt dec) c') /\ Forall (from_jwt dec) c /\
  decode_meta rp_schema [] = Ok rp_empty /\
  logo_of (fst (metadata_cached "d" "d" 500 500 500 c (after_muses [] (Memory []))))%Z = Some (VStr "https://ta.example/logo.png") /\
  logo_of (fst (metadata_cached "d" "d" 500 500 500 c (after_muses h (Memory []))))%Z = Some (VStr "").
Proof. exact c87_witness. Qed.
Print Assumptions C87_refuted.

(** ** C88 Listings come from the endpoint asked, and are at most an hour old *)

(** [a_millisecond]: redis counts in milliseconds. *)
Theorem C88_own_listing : forall h k0 t0 t1 ep r l, (k0 = Memory [] \/ k0 = Redis []) -> Forall luse_ok h -> Forall luse_in_range h ->
  fst (fetch_list t0 t1 ep r (after_luses h k0)) = Ok l ->
  exists r', (r' = r \/ exists t0' t1', In (LFetch t0' t1' ep r') h /\ (t0 < t1' + an_hour + a_millisecond)%Z) /\
    (listing_in r' = Some l \/ (r' = ROther /\ l = [])).
Proof. exact listing_own. Qed.
Print Assumptions C88_own_listing.

Example C88_case : Forall luse_ok lhist /\ Forall luse_in_range lhist /\
  fst (fetch_list 4000 4000 EP RFailed (after_luses lhist (Memory [])))%Z = Ok ["https://rp.example"; "https://op.example"] /\
  fst (fetch_list 4000 4000 EP RFailed (after_luses lhist (Redis [])))%Z = Ok ["https://rp.example"; "https://op.example"] /\
  fst (fetch_list 3600000002001 3600000002001 EP RFailed (after_luses lhist (Memory [])))%Z = Err /\
  (forall t0 t1 ep, ~ In (LFetch t0 t1 ep ROther) lhist).
Proof. exact c88_case. Qed.

(** ** C89 A failing list endpoint is not an empty listing *)

(** Missing: replies that are neither a listing nor an error object, such as the error page
    of a proxy (C89_refuted). *)
Theorem C89_published_partial : forall h k0 t0 t1 ep r l, (k0 = Memory [] \/ k0 = Redis []) -> Forall luse_ok h -> Forall luse_in_range h ->
  r <> ROther -> (forall t0' t1' ep', ~ In (LFetch t0' t1' ep' ROther) h) ->
  fst (fetch_list t0 t1 ep r (after_luses h k0)) = Ok l ->
  listing_in r = Some l \/
  exists t0' t1' r', In (LFetch t0' t1' ep r') h /\ listing_in r' = Some l /\ (t0 < t1' + an_hour + a_millisecond)%Z.
Proof. exact listing_published. Qed.
Print Assumptions C89_published_partial.

Example C89_case : Forall luse_ok lhist /\ Forall luse_in_range lhist /\ RFailed <> ROther /\
  (forall t0 t1 ep, ~ In (LFetch t0 t1 ep ROther) lhist) /\
  fst (fetch_list 4000 4000 EP RFailed (after_luses lhist (Memory [])))%Z = Ok ["https://rp.example"; "https://op.example"].
Proof. destruct c88_case as (A & B & C & _ & _ & D). split; [exact A|]. split; [exact B|]. split; [discriminate|]. split; [exact D|exact C]. Qed.

Theorem C89_refuted : exists h, Forall luse_ok h /\ Forall luse_in_range h /\
  h = [LFetch 1000 1000 EP ROther]%Z /\
  fst (fetch_list 1000 1000 EP ROther (Memory []))%Z = Ok [] /\
  fst (fetch_list 2000 2000 EP (RListing (Some ["https://rp.example"])) (after_luses h (Memory [])))%Z = Ok [].
Proof. exact c89_witness. Qed.
Print Assumptions C89_refuted.
