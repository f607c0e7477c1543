{"id": "C01", "title": "Merging never relaxes a superior's policy", "statement": "If two metadata policies for one attribute merge (and verify) and the merged policy is then applied successfully, the resulting attribute value satisfies every value, one_of, subset_of, superset_of and essential restriction contained in either of the two original policies, and contains everything either of them adds.", "quantifier": "every pair of policy entries (any combination of the seven operators with any string-list or string operand) and every attribute value, set or unset", "why_tests_cant": "The pair of operator sets, operand lists and attribute values is unbounded; vectors only sample it and the cross-operator interaction (add inside subset_of, value inside subset_of, ...) depends on all of them at once.", "anchors": ["metadataPolicy.go:mergeMetadataPolicyEntries", "metadataPolicy.go:MetadataPolicyEntry.ApplyTo", "policyoperators.go"]}
{"id": "C02", "title": "Each operator has its specified effect on list attributes", "statement": "Applying a policy entry with string-list operands to a []string attribute gives exactly the result of the OpenID Federation operator table executed in the order value, add, default, one_of, subset_of, superset_of, essential (intersection keeps the attribute's order, add appends only missing elements in operand order).", "quantifier": "every policy entry over string lists, every attribute value (absent, empty, with or without duplicates)", "why_tests_cant": "Behaviour depends on unbounded lists and on which of 2^7 operator subsets is present.", "anchors": ["policyoperators.go", "internal/utils/slices.go", "metadataPolicy.go:MetadataPolicyEntry.ApplyTo"]}
{"id": "C03", "title": "Applying a policy never crashes the caller", "statement": "Applying any metadata policy decoded from JSON to any metadata decoded from JSON either returns metadata or an error; it never panics.", "quantifier": "every JSON policy operand (null, bool, number, string, array of anything, object) against every Go field type", "why_tests_cant": "The panics come from reflect on particular combinations of dynamic types; the shipped vectors use only well-typed operands.", "anchors": ["internal/utils/slices.go:ReflectSliceCast", "metadata.go:applyPolicy", "policyoperators.go"]}
{"id": "C04", "title": "Verifying a policy never crashes the caller", "statement": "MetadataPolicy.Verify returns nil or an error for every policy decoded from JSON; it never panics.", "quantifier": "every policy entry, including null operands", "why_tests_cant": "Panics only for particular null/operator combinations out of an unbounded input space.", "anchors": ["metadataPolicy.go:MetadataPolicyEntry.Verify", "policyverifiers.go", "internal/utils/slices.go:ReflectIsSubsetOf"]}
{"id": "C05", "title": "Combined policies are always verified", "statement": "Whenever CombineMetadataPolicy returns a policy without an error, that policy passes Verify ('at each step verifying that the result is valid').", "quantifier": "every list of policies, of every length", "why_tests_cant": "Quantifies over all lists of policies; the gap needs an empty policy in first position followed by an invalid one.", "anchors": ["metadataPolicy.go:CombineMetadataPolicy", "metadataPolicy.go:combineMetadataPolicy"]}
{"id": "C06", "title": "Unknown non-critical operators are ignored", "statement": "An operator the library does not know and that is not declared critical changes nothing: an entry with such operators verifies, merges and applies exactly as the entry without them.", "quantifier": "every pair of entries and every set of unknown operator names and operands", "why_tests_cant": "Operator names are arbitrary strings; interaction with merging is only visible with two statements both carrying the unknown name.", "anchors": ["metadataPolicy.go:mergeMetadataPolicyEntries", "metadataPolicy.go:MetadataPolicyEntry.Verify"]}
{"id": "C07", "title": "Policy results do not depend on Go map iteration order", "statement": "Merging, verifying and applying give the same verdict and the same operands whatever order Go iterates the policy maps in.", "quantifier": "every pair of entries/policies and every permutation of their iteration order", "why_tests_cant": "Go randomises map iteration, so a test sees an arbitrary sample of the orders.", "anchors": ["metadataPolicy.go:mergeMetadataPolicyEntries", "metadataPolicy.go:combineMetadataPolicy", "metadataPolicy.go:MetadataPolicyEntry.Verify"]}
{"id": "C08", "title": "Merging is symmetric and associative up to element order", "statement": "Merging two operand values of one operator gives the same set of elements (and the same success/failure) in either order, and merging three of them is associative; merging a policy with itself changes nothing.", "quantifier": "every operator and all operand lists", "why_tests_cant": "Algebraic law over all lists; duplicates break it in ways samples miss.", "anchors": ["policyoperators.go", "internal/utils/slices.go:ReflectUnion", "internal/utils/slices.go:ReflectIntersect", "internal/utils/slices.go:SliceEqual"]}
{"id": "C09", "title": "Conflicting value/default operands are rejected", "statement": "Merging two value (or default) operands succeeds only if they contain the same elements.", "quantifier": "all pairs of operand lists, including lists with duplicates", "why_tests_cant": "Requires all lists; the counterexample needs duplicates.", "anchors": ["internal/utils/slices.go:SliceEqual", "policyoperators.go:policyOperatorValue", "policyoperators.go:policyOperatorDefault"]}
{"id": "C10", "title": "essential is enforced", "statement": "If an entry has essential true and application succeeds, the attribute is present in the result; and an attribute that is present never fails because of essential.", "quantifier": "every attribute type and value, every entry", "why_tests_cant": "Depends on Go zero-value semantics per type; must hold for every field type and value.", "anchors": ["policyoperators.go:policyOperatorEssential", "metadata.go:applyPolicy"]}
{"id": "C11", "title": "Policy application is idempotent", "statement": "Applying the same entry a second time to an already successfully processed list attribute succeeds and changes nothing.", "quantifier": "every entry over string lists, every value", "why_tests_cant": "All inputs; interaction of seven operators.", "anchors": ["metadataPolicy.go:MetadataPolicyEntry.ApplyTo"]}
{"id": "C12", "title": "Policies touch only the attributes they name", "statement": "Applying a policy to an entity type's metadata leaves every attribute without a policy entry, every other entity type and all unknown attributes unchanged; each attribute's result depends only on its own entry and value.", "quantifier": "every metadata object and every policy set", "why_tests_cant": "Frame property over all attributes and policies.", "anchors": ["metadata.go:applyPolicy", "metadata.go:Metadata.ApplyPolicy"]}
{"id": "C13", "title": "Policies on attributes unknown to the library are enforced", "statement": "A policy entry for an attribute that is not one of the library's typed fields is still enforced (for example essential on a custom claim).", "quantifier": "every attribute name and entry", "why_tests_cant": "Attribute names are unbounded.", "anchors": ["metadata.go:applyPolicy"]}
{"id": "C14", "title": "scope is treated as a list of scopes", "statement": "Policies on the space separated scope attribute act on the individual scope values.", "quantifier": "every scope string and operand list", "why_tests_cant": "All strings.", "anchors": ["metadata.go:applyPolicy"]}
{"id": "C15", "title": "Critical operators that are not understood make the chain unusable", "statement": "If any statement of a chain lists a metadata_policy_crit operator the library does not implement, no metadata is returned for that chain; otherwise crit has no influence.", "quantifier": "every chain of every length, every position of the statement", "why_tests_cant": "All chains and positions.", "anchors": ["trustchain.go:TrustChain.Metadata"]}
{"id": "C16", "title": "Chain metadata is the leaf metadata with all policies of the chain applied, per entity type", "statement": "For a chain of at least two statements TrustChain.Metadata equals the first statement's metadata with, for each entity type, the combination of exactly that type's policies of all statements applied; a policy for one entity type never influences another type's attributes.", "quantifier": "every chain and every assignment of policies", "why_tests_cant": "All chains/policy sets.", "anchors": ["trustchain.go:TrustChain.Metadata", "metadataPolicy.go:MergeMetadataPolicies", "metadata.go:Metadata.ApplyPolicy"]}
{"id": "C17", "title": "Policies for entity types unknown to the library survive JSON", "statement": "A metadata_policy object containing a policy for an additional entity type can be decoded, and decoding the encoding gives the same policies back.", "quantifier": "every MetadataPolicies object", "why_tests_cant": "Round-trip law over all objects.", "anchors": ["metadataPolicy.go:MetadataPolicies.UnmarshalJSON", "metadataPolicy.go:MetadataPolicies.MarshalJSON"]}
{"id": "C18", "title": "Caching does not change policy results", "statement": "Metadata that was stored in and loaded from the cache gives the same result under every policy as the freshly decoded metadata.", "quantifier": "every metadata object, policy and entity type", "why_tests_cant": "Needs the set/unset bookkeeping for every field type in both codecs and every operator.", "anchors": ["metadata_generated.go:fromPointers", "metadata_generated.go:UnmarshalMsgpack", "metadata.go:applyPolicy"]}
{"id": "C19", "title": "Every returned chain is anchored and signed", "statement": "Every trust chain returned by ResolveToValidChains ends in the entity configuration of a configured trust anchor that verifies under the anchor's configured keys, every other statement verifies under the keys listed in the next statement, and the statement right below the anchor's configuration under the anchor's keys.", "quantifier": "every network (adversarial statements at every URL), every set of anchors, every depth", "why_tests_cant": "The adversary controls all documents; the set of networks and depths is unbounded.", "anchors": ["trustresolver.go:trustTree.resolve", "trustresolver.go:trustTree.verifySignatures", "trustresolver.go:trustTree.chains"]}
{"id": "C20", "title": "Chains are linked by issuer and subject", "statement": "In every returned chain each statement's issuer is the subject of the statement above it, inner statements are issued by the next entity about the previous one, and the last is self-issued by the anchor.", "quantifier": "every network, anchors, depth", "why_tests_cant": "unbounded adversarial networks", "anchors": ["trustresolver.go:trustTree.resolve", "trustresolver.go:trustTree.chains"]}
{"id": "C21", "title": "All statements of a returned chain are time-valid", "statement": "Every statement of a returned chain was within its iat/exp window at resolution time.", "quantifier": "every network, clock value, depth", "why_tests_cant": "unbounded adversarial networks", "anchors": ["trustresolver.go:trustTree.resolve", "entitystatement.go:TimeValid", "unixtime/unixtime.go:VerifyTime"]}
{"id": "C22", "title": "A returned chain is about the requested entity", "statement": "The first statement of every returned chain has the requested entity as issuer and subject.", "quantifier": "every network and starting entity", "why_tests_cant": "unbounded adversarial networks", "anchors": ["trustresolver.go:TrustResolver.Resolve"]}
{"id": "C23", "title": "Chains are loop free", "statement": "No entity occurs twice in a returned chain.", "quantifier": "every network, including cyclic authority hints", "why_tests_cant": "cycles of every length", "anchors": ["trustresolver.go:trustTree.resolve"]}
{"id": "C24", "title": "max_path_length constraints are enforced on every chain", "statement": "For every statement of a returned chain carrying max_path_length m, at most m intermediates lie between its issuer and the chain's subject.", "quantifier": "every network, depth, constraint values", "why_tests_cant": "all depths and positions of the constraint", "anchors": ["trustresolver.go:trustTree.checkConstraints"]}
{"id": "C25", "title": "naming constraints are enforced on every chain", "statement": "For every statement of a returned chain carrying naming constraints, no entity below its issuer matches an excluded name and every one matches a permitted name (if a permitted list is given).", "quantifier": "every network, depth, constraint set and entity identifier", "why_tests_cant": "all paths, all constraint sets", "anchors": ["trustresolver.go:trustTree.checkConstraints", "trustresolver.go:matchNamingConstraint"]}
{"id": "C26", "title": "allowed_entity_types constraints are enforced on every chain", "statement": "For every statement of a returned chain carrying allowed_entity_types, all entity types of the entities below its issuer are allowed (or federation_entity).", "quantifier": "every network, depth, constraint", "why_tests_cant": "all paths", "anchors": ["trustresolver.go:trustTree.checkConstraints", "metadata.go:GuessEntityTypes"]}
{"id": "C27", "title": "Resolution is complete", "statement": "If a loop-free path of time-valid, correctly linked, correctly signed, constraint-satisfying statements from the starting entity to a configured anchor exists in the network (and no earlier entity on the path is itself an anchor), the corresponding chain is returned.", "quantifier": "every network and every such path of every length", "why_tests_cant": "unbounded paths", "anchors": ["trustresolver.go:trustTree.resolve", "trustresolver.go:trustTree.verifySignatures", "trustresolver.go:trustTree.chains"]}
{"id": "C28", "title": "Resolution terminates", "statement": "Resolving any starting entity terminates for every network.", "quantifier": "every network, including cyclic and infinite ones", "why_tests_cant": "termination cannot be tested", "anchors": ["trustresolver.go:trustTree.resolve"]}
{"id": "C29", "title": "Authorities are independent", "statement": "Which chains are returned through one authority hint does not depend on the other hints; an unreachable, malicious or invalid authority never removes a chain through another authority.", "quantifier": "every network and hint list", "why_tests_cant": "all hint lists", "anchors": ["trustresolver.go:trustTree.resolve", "trustresolver.go:trustTree.verifySignatures"]}
{"id": "C30", "title": "Resolution never crashes", "statement": "Resolving never panics, whatever documents the network serves.", "quantifier": "every network", "why_tests_cant": "unbounded adversarial documents", "anchors": ["trustresolver.go:TrustResolver.Resolve", "internal/utils/structs.go:NilAllExceptByTag", "metadata.go:GuessEntityTypes"]}
{"id": "C31", "title": "Cached trust trees and chains expire with their statements", "statement": "The lifetime for which a resolved tree or its chains are cached never exceeds the earliest expiration of the statements in it, and they are cached at all when all statements are still valid.", "quantifier": "every tree, every clock value, both cache backends", "why_tests_cant": "time and histories", "anchors": ["trustresolver.go:trustTree.resolve", "trustresolver.go:cacheSetTrustChains", "cache/redis.go"]}
{"id": "C32", "title": "Chain expiration is the earliest statement expiration", "statement": "TrustChain.ExpiresAt is a member's expiration and no member expires earlier; the empty chain has the zero time.", "quantifier": "every chain", "why_tests_cant": "all lengths", "anchors": ["trustchain.go:TrustChain.ExpiresAt"]}
{"id": "C33", "title": "Path length filters are exact", "statement": "PathLen is the number of intermediates; the maximum-path-length filter keeps exactly the chains not longer than the bound, the minimum filter exactly those of minimal length, the trust anchor filter exactly those ending in the anchor, all in the original order; filters compose left to right.", "quantifier": "every list of chains and bounds", "why_tests_cant": "all lists", "anchors": ["trustchain.go:PathLen", "trustchainfilter.go"]}
{"id": "C34", "title": "SortAsc and SortDesc sort", "statement": "SortAsc/SortDesc return the same chains (nothing lost, nothing duplicated) ordered by score.", "quantifier": "every list of chains and scoring function", "why_tests_cant": "all lists; the fault needs three chains with particular scores", "anchors": ["trustchainfilter.go:SortAsc", "trustchainfilter.go:SortDesc"]}
{"id": "C35", "title": "Local resolution uses the shortest chain with valid metadata", "statement": "LocalMetadataResolver.Resolve returns the metadata of a chain of minimal path length among the chains with valid metadata, and fails only if there is none.", "quantifier": "every set of chains", "why_tests_cant": "all lists of chains", "anchors": ["metadata_resolver.go:LocalMetadataResolver"]}
{"id": "C36", "title": "Pinned trust anchor keys are used when a leaf resolves an OP", "statement": "FederationLeaf.ResolveOPMetadata accepts only chains whose anchor statements verify under the JWKS configured for that anchor.", "quantifier": "every network and key set", "why_tests_cant": "adversarial networks", "anchors": ["federation.go:ResolveOPMetadata", "trustanchor.go:EntityIDs", "metadata_resolver.go:resolveResponsePayloadWithoutTrustMarks"]}
{"id": "C37", "title": "Remote resolution falls back to local resolution", "statement": "SmartRemoteMetadataResolver answers from the first trust anchor whose resolve endpoint gives a usable answer and otherwise gives exactly the local resolver's answer; unreachable endpoints never decide the outcome.", "quantifier": "every assignment of endpoint behaviours to any number of anchors", "why_tests_cant": "all combinations of endpoint behaviours", "anchors": ["metadata_resolver.go:SmartRemoteMetadataResolver", "metadata_resolver.go:SimpleRemoteMetadataResolver"]}
{"id": "C38", "title": "Remote resolve responses are authenticated", "statement": "A remotely resolved answer is only accepted if it is signed by the queried entity and is about the requested subject.", "quantifier": "every response document", "why_tests_cant": "adversarial documents", "anchors": ["metadata_resolver.go:ParseResolveResponse", "metadata_resolver.go:SimpleRemoteMetadataResolver.ResolveResponse"]}
{"id": "C39", "title": "Statements with not-understood critical claims are rejected", "statement": "An entity statement whose crit claim lists a claim the library does not understand never appears in a returned chain.", "quantifier": "every statement", "why_tests_cant": "adversarial documents", "anchors": ["entitystatement.go:EntityStatementPayload", "trustresolver.go"]}
{"id": "C40", "title": "A trust mark is accepted exactly under the specified conditions", "statement": "TrustMarkInfo.VerifyFederation succeeds iff the JWT parses with the trust mark type header, the wrapped type equals the JWT's type, the issuer is allowed by the anchor's trust_mark_issuers (if the type is listed), the mark is time-valid, its signature verifies under the issuer's federation keys, and, if the anchor lists an owner, a valid delegation by that owner for that issuer and type is included.", "quantifier": "every mark, anchor configuration, key set, clock value", "why_tests_cant": "adversarial documents, all configurations", "anchors": ["trustmark.go:TrustMarkInfo.VerifyFederation", "trustmark.go:TrustMark.VerifyFederation", "trustmark.go:TrustMark.VerifyExternal", "trustmark.go:getTrustMarkIssuerJWKS"]}
{"id": "C41", "title": "A trust mark counts only for its subject", "statement": "A trust mark carried by an entity is reported as verified for that entity only if the mark's subject is that entity.", "quantifier": "every mark and carrier", "why_tests_cant": "adversarial documents", "anchors": ["trustmark.go:VerifiedFederation", "metadata_resolver.go:ResolveResponsePayload"]}
{"id": "C42", "title": "Lists of verified trust marks are exact", "statement": "VerifiedFederation/VerifiedExternal return exactly the marks that verify individually, in order; Find returns the first match.", "quantifier": "every list of marks", "why_tests_cant": "all lists", "anchors": ["trustmark.go:VerifiedFederation", "trustmark.go:VerifiedExternal", "trustmark.go:Find"]}
{"id": "C43", "title": "Issued trust marks verify until they expire", "statement": "A mark issued by TrustMarkIssuer.IssueTrustMark for a configured type parses, names that issuer, subject and type, verifies under the issuer's keys at every time from issuance until exactly its lifetime has elapsed (for ever if the lifetime is zero) and not afterwards; unknown types are refused.", "quantifier": "every issuer configuration, subject, lifetime and later clock value", "why_tests_cant": "all times and configurations", "anchors": ["trustmark.go:IssueTrustMark", "trustmark.go:VerifyExternal", "trustmark.go:NewTrustMarkIssuer", "trustmark.go:AddTrustMark"]}
{"id": "C44", "title": "Delegations live as long as requested", "statement": "TrustMarkOwner.DelegationJWT expires after the passed lifetime, or after the configured one if none is passed; zero means no expiry.", "quantifier": "every configured and passed lifetime", "why_tests_cant": "all combinations", "anchors": ["trustmark.go:TrustMarkOwner.DelegationJWT"]}
{"id": "C45", "title": "The refresher only serves live trust marks", "statement": "Whenever EntityConfigurationTrustMarkConfig.TrustMarkJWT with refreshing enabled returns without error, the returned mark was obtained in this call or is still valid for more than the configured minimum lifetime.", "quantifier": "every history of calls, clock values and endpoint answers", "why_tests_cant": "history property", "anchors": ["trustmark_refresher.go:TrustMarkJWT", "trustmark_refresher.go:refresh"]}
{"id": "C46", "title": "The trust mark endpoint is asked at most once a minute", "statement": "Two refresh requests for one trust mark are at least a minute apart.", "quantifier": "every history and every interleaving of concurrent calls", "why_tests_cant": "history/schedule property", "anchors": ["trustmark_refresher.go:refresh"]}
{"id": "C47", "title": "A held trust mark stays in the entity configuration", "statement": "Once a non-expired trust mark has been obtained every later entity configuration contains it until it is about to expire.", "quantifier": "every history of calls", "why_tests_cant": "history property", "anchors": ["trustmark_refresher.go:TrustMarkJWT", "federation.go:EntityConfigurationPayload"]}
{"id": "C48", "title": "Time window checks are exact", "statement": "VerifyTime accepts iff iat is absent or not after now and exp is absent or not before now.", "quantifier": "every iat, exp, now", "why_tests_cant": "all values incl. boundaries", "anchors": ["unixtime/unixtime.go:VerifyTime"]}
{"id": "C49", "title": "Statements without expiration are rejected", "statement": "An entity statement lacking exp is not treated as valid.", "quantifier": "every statement and clock", "why_tests_cant": "all values", "anchors": ["unixtime/unixtime.go:VerifyTime", "entitystatement.go:TimeValid"]}
{"id": "C50", "title": "Time stamps survive JSON", "statement": "Encoding a time stamp of whole seconds and decoding it gives the same instant.", "quantifier": "every whole-second instant representable in Go's time.Time", "why_tests_cant": "all 2^63 values incl. float rounding and int64 overflow", "anchors": ["unixtime/unixtime.go:MarshalJSON", "unixtime/unixtime.go:UnmarshalJSON"]}
{"id": "C51", "title": "Durations survive JSON", "statement": "Encoding a DurationInSeconds and decoding it gives the same duration.", "quantifier": "every duration", "why_tests_cant": "all values", "anchors": ["unixtime/unixtime.go:DurationInSeconds"]}
{"id": "C52", "title": "Cache keys never collide", "statement": "Two cache keys are equal only if they belong to the same subsystem and the same sub key; entity statement keys are equal only for the same subject and issuer.", "quantifier": "all strings", "why_tests_cant": "all strings", "anchors": ["cache/cache.go:Key", "cache/cache.go:EntityStmtCacheKey"]}
{"id": "C53", "title": "The in-memory cache returns the last live value", "statement": "After any history of Set and Get with any durations, Get returns exactly the value of the last Set for that key if its duration has not elapsed, otherwise nothing; a Set that expires immediately leaves nothing behind.", "quantifier": "every history of operations and clock values", "why_tests_cant": "history property", "anchors": ["cache/cache.go:cacheWrapper"]}
{"id": "C54", "title": "Cached entity statements are never served after their expiration", "statement": "GetEntityConfiguration/FetchEntityStatement never return a cached statement after its exp.", "quantifier": "every history, both cache backends", "why_tests_cant": "history property", "anchors": ["trustresolver.go:entityStmtCacheSet", "trustresolver.go:entityStmtCacheGet", "cache/redis.go"]}
{"id": "C55", "title": "Cached statements are refreshed as documented", "statement": "A cached statement is refreshed in the background iff it expires within the grace period and at least the configured fraction of its lifetime has elapsed.", "quantifier": "every iat, exp, now, grace period, factor", "why_tests_cant": "all values", "anchors": ["trustresolver.go:getEntityStatementOrConfiguration"]}
{"id": "C56", "title": "Unknown JSON claims are preserved", "statement": "For all types with additional claims decoding and re-encoding preserves unknown claims, and encode followed by decode is the identity when the additional claims do not clash with known ones; known claims are never overridden by additional ones.", "quantifier": "every object", "why_tests_cant": "round-trip over all objects", "anchors": ["entitystatement.go:extraMarshalHelper", "entitystatement.go:unmarshalWithExtra"]}
{"id": "C57", "title": "Resolve responses survive JSON", "statement": "Decoding an encoded ResolveResponse gives the same issuer, subject, times, audience and payload.", "quantifier": "every response", "why_tests_cant": "round-trip over all objects", "anchors": ["trustresolver.go:ResolveResponse"]}
{"id": "C58", "title": "Slice-or-single values survive JSON", "statement": "Decoding an encoded SliceOrSingleValue gives the same list.", "quantifier": "every list and element type", "why_tests_cant": "round-trip over all lists", "anchors": ["sliceorsinglevalue.go"]}
{"id": "C59", "title": "Entity collection returns every entity once", "statement": "CollectEntities never reports the same entity id twice, whatever the goroutine schedule.", "quantifier": "every federation graph and every interleaving", "why_tests_cant": "schedules", "anchors": ["discovery.go:SimpleEntityCollector.collect"]}
{"id": "C60", "title": "Entity collection is sound and complete", "statement": "Every reported entity is a (transitive) subordinate of the trust anchor passing the request's filters, and every such entity reachable through responding authorities is reported.", "quantifier": "every federation graph (including cycles), request and interleaving", "why_tests_cant": "unbounded graphs", "anchors": ["discovery.go:SimpleEntityCollector.collect"]}
{"id": "C61", "title": "Entity collection terminates", "statement": "CollectEntities terminates for every finite federation graph, including cyclic ones, and never deadlocks.", "quantifier": "every finite graph and schedule", "why_tests_cant": "termination", "anchors": ["discovery.go:SimpleEntityCollector.collect"]}
{"id": "C62", "title": "Collection filters are exact", "statement": "Filtered collectors report exactly the entities for which all filters hold, in the underlying order.", "quantifier": "every list of entities and filters", "why_tests_cant": "all lists", "anchors": ["discovery.go:filterableVerifiedChainsEntityCollector", "discovery.go:FilterableVerifiedChainsEntityCollector"]}
{"id": "C63", "title": "UI infos are filled", "statement": "A collected entity's UIInfos contain the display name, logo, keywords and other UI claims of its metadata in the corresponding fields.", "quantifier": "every metadata object", "why_tests_cant": "all objects", "anchors": ["discovery.go:setUIInfoField", "metadata.go:IterateStringSliceClaim", "metadata.go:IterateStringClaim"]}
{"id": "C64", "title": "Request objects carry exactly the mandated claims", "statement": "RequestObject refuses requests without aud; otherwise the signed claims have iss = client_id = the entity id, iat = now, exp = iat + lifetime (in 64-bit arithmetic), a jti (the caller's or a fresh one), no sub and no client_secret, and all other caller claims unchanged.", "quantifier": "every caller claim set", "why_tests_cant": "all maps", "anchors": ["authcode.go:RequestObject"]}
{"id": "C65", "title": "Callers cannot override protocol parameters", "statement": "GetAuthorizationURL/CodeExchange always send the given redirect_uri, state, scope, response_type, code and the entity's own client_id/iss, whatever additional parameters are passed; other additional parameters are passed on.", "quantifier": "every parameter map", "why_tests_cant": "all maps", "anchors": ["authcode.go:GetAuthorizationURL", "authcode.go:CodeExchange"]}
{"id": "C66", "title": "Caller data is not modified", "statement": "RequestObject, GetAuthorizationURL and CodeExchange leave the maps passed by the caller unchanged.", "quantifier": "every map", "why_tests_cant": "aliasing", "anchors": ["authcode.go"]}
{"id": "C67", "title": "Authorization endpoint query parameters are retained", "statement": "GetAuthorizationURL keeps the query component of the OP's authorization endpoint.", "quantifier": "every endpoint URL", "why_tests_cant": "all URLs", "anchors": ["authcode.go:GetAuthorizationURL"]}
{"id": "C68", "title": "Entity configurations are self-issued and live", "statement": "EntityConfigurationPayload has iss = sub = the entity id, exp = iat + lifetime with a positive lifetime, the entity's keys and hints, and exactly the trust marks that could be obtained.", "quantifier": "every entity and history", "why_tests_cant": "all configurations incl. overflow of the lifetime", "anchors": ["federation.go:NewFederationEntity", "federation.go:EntityConfigurationPayload"]}
{"id": "C69", "title": "Entity metadata lookup fills the caller's object", "statement": "FindEntityMetadata stores the requested entity type's metadata in the passed object if and only if the type is present.", "quantifier": "every metadata object and type name", "why_tests_cant": "all objects", "anchors": ["metadata.go:FindEntityMetadata"]}
{"id": "C70", "title": "Type filters keep exactly the requested metadata", "statement": "Restricting metadata to requested entity types keeps exactly those, known or unknown to the library, unchanged.", "quantifier": "every metadata object and list of types", "why_tests_cant": "all objects", "anchors": ["internal/utils/structs.go:NilAllExceptByTag"]}
{"id": "C71", "title": "Results for different chains are independent", "statement": "The metadata computed for one trust chain is never changed by computing the metadata of another chain of the same resolver run.", "quantifier": "every set of chains sharing statements, every slice capacity", "why_tests_cant": "aliasing of backing arrays", "anchors": ["internal/utils/slices.go:ReflectUnion", "metadata.go:applyPolicy"]}
{"id": "C72", "title": "Verifying a trust mark returns", "statement": "TrustMarkInfo.VerifyFederation and VerifyExternal return (with or without an error) for every mark, issuer and anchor; they never crash and never recurse without end.", "quantifier": "every mark, every behaviour of the network, every default resolver", "why_tests_cant": "adversarial issuers", "anchors": ["trustmark.go:VerifyFederation", "trustmark.go:getTrustMarkIssuerJWKS"]}
{"id": "C73", "title": "A delegation is accepted only from the owner of the type", "statement": "DelegationJWT.VerifyFederation succeeds only if the delegation is time-valid, issued by the owner the anchor lists for the type and signed with that owner's keys.", "quantifier": "every delegation and anchor configuration", "why_tests_cant": "all delegations", "anchors": ["trustmark.go:DelegationJWT.VerifyFederation"]}
{"id": "C74", "title": "Cached trust chains belong to the configured anchor keys", "statement": "The chains a resolver returns are valid under the keys configured for its own trust anchors, even if a resolver with the same anchor identifiers but other keys has run before and the results were cached.", "quantifier": "every history of resolutions, both cache backends", "why_tests_cant": "histories across resolvers", "anchors": ["trustresolver.go:TrustResolver.hash", "trustresolver.go:cacheGetTrustChains"]}
{"id": "C75", "title": "Cached statements are those of the requested entities", "statement": "A statement served from the cache for a subject and issuer was obtained earlier for exactly that subject and issuer.", "quantifier": "every history of calls, background refreshes and other cache uses, both backends, all identifiers", "why_tests_cant": "key collisions over all strings and histories", "anchors": ["cache/cache.go:EntityStmtCacheKey", "trustresolver.go:entityStmtCacheGet"]}
{"id": "C76", "title": "Entity collection is free of data races", "statement": "While CollectEntities runs, no two of its goroutines access shared data at the same time with one of them writing, without synchronisation.", "quantifier": "every federation graph and every interleaving", "why_tests_cant": "schedules", "anchors": ["discovery.go:SimpleEntityCollector.collect"]}
{"id": "C77", "title": "OP filters recognise OPs", "statement": "The collection filters for OPs (EntityCollectionFilterOPs, grant types, scopes, registration types) accept exactly the entities with OP metadata that has the required values, whatever claims the request asks for.", "quantifier": "every entity, metadata object and request", "why_tests_cant": "all requests and objects", "anchors": ["discovery.go:EntityCollectionFilterOPs", "discovery.go:EntityCollectionFilterOPSupportedScopesIncludes"]}
{"id": "C78", "title": "The smart collector asks the anchors in turn", "statement": "SmartRemoteEntityCollector returns the answer of the first anchor (the requested one first) that publishes a collection endpoint and answers, and falls back to local collection if there is none.", "quantifier": "every list of anchors and every behaviour of their endpoints", "why_tests_cant": "all lists and failures", "anchors": ["discovery.go:SmartRemoteEntityCollector.CollectEntities"]}
{"id": "C79", "title": "Parameter values cannot inject parameters", "statement": "Decoding the query of an authorization URL, or the body of a token request, gives for every name exactly the values that were set for it, whatever characters names and values contain.", "quantifier": "every parameter map with arbitrary strings", "why_tests_cant": "all byte strings", "anchors": ["authcode.go:GetAuthorizationURL", "authcode.go:CodeExchange"]}
{"id": "C80", "title": "Client assertions identify the client to the token endpoint", "statement": "Every client assertion sent has iss = sub = the entity id, aud = the token endpoint of the resolved OP, iat = now, exp = now + lifetime (in 64-bit arithmetic), a fresh jti and no other claims.", "quantifier": "every entity, OP and time", "why_tests_cant": "all configurations", "anchors": ["authcode.go:RequestObjectProducer.ClientAssertion", "authcode.go:CodeExchange"]}
{"id": "C81", "title": "A token response is reported only if tokens were issued", "statement": "CodeExchange returns a token response only if the OP answered with an access token; error answers are reported as an error response.", "quantifier": "every answer of the token endpoint", "why_tests_cant": "adversarial answers", "anchors": ["authcode.go:CodeExchange"]}
{"id": "C82", "title": "Starting a login never crashes", "statement": "GetAuthorizationURL and CodeExchange return a result or an error for every issuer, whatever the federation publishes about it.", "quantifier": "every issuer and network", "why_tests_cant": "adversarial metadata", "anchors": ["authcode.go:GetAuthorizationURL", "authcode.go:CodeExchange", "metadataresolver.go:ResolveOPMetadata"]}
{"id": "C83", "title": "Computing metadata never changes a statement", "statement": "Computing the metadata of trust chains leaves every decoded entity statement exactly as it was, whatever arrays the statements' lists live in and however many computations run one after the other.", "quantifier": "every sequence of computations over chains sharing statements, every slice capacity and growth strategy", "why_tests_cant": "aliasing of backing arrays across histories", "anchors": ["internal/utils/slices.go:ReflectUnion", "metadata.go:applyPolicy", "trustchain.go:TrustChain.Metadata"]}
{"id": "C84", "title": "Chain metadata does not depend on earlier computations", "statement": "What a caller reads directly after computing the metadata of a chain is determined by the statements of that chain alone, whatever was computed from the same statements before.", "quantifier": "every history of computations, every chain, every slice capacity", "why_tests_cant": "histories with shared arrays", "anchors": ["trustchain.go:TrustChain.Metadata", "metadataPolicy.go:MergeMetadataPolicies"]}
{"id": "C85", "title": "Cached metadata belongs to the chain", "statement": "Whatever was computed before, TrustChain.Metadata returns either what it computes from the chain, or what an earlier successful call computed from a chain of exactly the same signed statements; errors are never cached.", "quantifier": "every history of calls, cache evictions and other uses of the cache, both cache backends, every chain", "why_tests_cant": "all histories of a shared cache", "anchors": ["trustchain.go:TrustChain.Metadata", "trustchain.go:cacheGetMetadata", "trustchain.go:cacheSetMetadata", "trustchain.go:hash"]}
{"id": "C86", "title": "Cached metadata is not used after the chain has expired", "statement": "Once a chain has expired, TrustChain.Metadata no longer answers from the cache.", "quantifier": "every history of calls, every clock reading, both cache backends", "why_tests_cant": "all histories and clock readings", "anchors": ["trustchain.go:cacheSetMetadata", "cache/cache.go:Set"]}
{"id": "C87", "title": "The metadata of a chain does not depend on what was cached", "statement": "The values TrustChain.Metadata returns are determined by the JWTs of the chain, whether statements or results come from a cache or not.", "quantifier": "every history of calls on chains with freshly decoded or cached statements", "why_tests_cant": "all histories of a shared cache", "anchors": ["trustchain.go:TrustChain.Metadata", "entitystatement.go:MarshalMsgpack", "metadata_generated.go:UnmarshalMsgpack"]}
{"id": "C88", "title": "Listings come from the endpoint asked, and are at most an hour old", "statement": "The subordinates used for collecting are those in a reply of the list endpoint asked for, the current one or one stored at most an hour ago, never those of another endpoint.", "quantifier": "every history of fetches, cache evictions and other uses of the cache, both cache backends", "why_tests_cant": "all histories and clock readings", "anchors": ["discovery.go:fetchList", "discovery.go:subordinateListingCacheGet", "discovery.go:subordinateListingCacheSet"]}
{"id": "C89", "title": "A failing list endpoint is not an empty listing", "statement": "Subordinates are only taken from replies that are listings; any other reply of the list endpoint is an error and is not cached.", "quantifier": "every reply and every history of fetches", "why_tests_cant": "adversarial or failing endpoints", "anchors": ["discovery.go:httpFetchList", "internal/http/http.go:Get"]}
{"id": "C90", "title": "Outsiders cannot forge trust chains", "statement": "If the trust anchors' keys are known and superiors list only keys of their subjects, every statement of a returned trust chain was signed by the entity it names as issuer, and resolved metadata is published metadata of an entity with policies signed by its superiors applied, whoever answers the requests.", "quantifier": "every network, including adversarial ones, every federation, anchor configuration and starting entity", "why_tests_cant": "all adversarial networks and all chain lengths", "anchors": ["trustresolver.go:ResolveToValidChains", "trustresolver.go:verifySignatures", "trustchain.go:TrustChain.Metadata"]}
{"id": "C91", "title": "A JWT of one kind is never taken for another", "statement": "A JWT accepted as an entity statement, trust mark, trust mark delegation or resolve response under a set of keys was signed, as a document of that kind, with one of these keys.", "quantifier": "every byte string that parses as a JWS, every key set and document kind", "why_tests_cant": "all adversarial JWTs, in both serializations", "anchors": ["internal/jwx/jws.go:VerifyType", "internal/jwx/jws.go:VerifyWithSet", "entitystatement.go:ParseEntityStatement", "trustmark.go:ParseTrustMark"]}
{"id": "C92", "title": "What a signer signs, its published keys verify", "statement": "A document signed with a signer of the library is accepted as a document of its kind and verifies, with the payload that was signed, under the signer's JWKS and every key set containing it with unique kids, and under no key set without the signer's key.", "quantifier": "every signer, kind, payload and key set", "why_tests_cant": "all payloads and key sets", "anchors": ["jwtsigning.go:GeneralJWTSigner.JWT", "jwtsigning.go:GeneralJWTSigner.JWKS", "internal/jwx/jws.go:SignPayload", "jwks/jwks.go:KeyToJWKS"]}
{"id": "C93", "title": "A missing signing key is reported as an error", "statement": "Signing, publishing keys and creating an entity with a signer without key returns an error instead of crashing.", "quantifier": "every signer and payload", "why_tests_cant": "all call sites", "anchors": ["jwtsigning.go:GeneralJWTSigner.JWT", "jwtsigning.go:GeneralJWTSigner.JWKS", "federation.go:NewFederationEntity"]}
{"id": "C94", "title": "Outsiders cannot forge trust marks", "statement": "If the anchor's and owners' keys are theirs and superiors list only keys of their subjects, a trust mark accepted in a federation was signed by the issuer it names, and its delegation by the owner of its type, whoever answers the requests.", "quantifier": "every network, including adversarial ones, every trust mark and anchor", "why_tests_cant": "all adversarial networks and marks", "anchors": ["trustmark.go:TrustMarkInfo.VerifyFederation", "trustmark.go:getTrustMarkIssuerJWKS"]}
{"id": "C95", "title": "Trust mark specifications survive YAML", "statement": "Writing a trust mark specification as YAML and reading it back gives the same specification, and reading any accepted document gives exactly what its members say, with all other members as additional claims.", "quantifier": "every specification and every YAML document", "why_tests_cant": "all documents and claim names", "anchors": ["trustmark.go:TrustMarkSpec.UnmarshalYAML", "trustmark.go:TrustMarkSpec.MarshalYAML", "entitystatement.go:yamlUnmarshalWithExtra", "entitystatement.go:yamlExtraMarshalHelper", "unixtime/unixtime.go:DurationInSeconds.UnmarshalYAML"]}
{"id": "C96", "title": "Issued trust marks live as long as the configuration document says", "statement": "A trust mark issued from a specification read from a document with lifetime L expires L seconds after it was issued.", "quantifier": "every document, lifetime, subject and time of issuance", "why_tests_cant": "all numbers", "anchors": ["unixtime/unixtime.go:DurationInSeconds.UnmarshalYAML", "trustmark.go:TrustMarkIssuer.IssueTrustMark"]}
{"id": "C97", "title": "Key sets survive JSON, YAML and the cache", "statement": "Encoding a key set as JSON, YAML or for the cache and decoding it gives the same key set.", "quantifier": "every key set", "why_tests_cant": "all key sets", "anchors": ["jwks/jwks.go:JWKS.UnmarshalJSON", "jwks/jwks.go:JWKS.UnmarshalYAML", "jwks/jwks.go:JWKS.UnmarshalMsgpack"]}
{"id": "C98", "title": "A verified trust mark configuration can be used", "statement": "After Verify accepted the configuration of a trust mark, obtaining the mark never crashes, however often and with whatever answers.", "quantifier": "every configuration, every sequence of calls, answers and times", "why_tests_cant": "all histories of calls", "anchors": ["trustmark_refresher.go:EntityConfigurationTrustMarkConfig.Verify", "trustmark_refresher.go:EntityConfigurationTrustMarkConfig.TrustMarkJWT"]}
{"id": "C99", "title": "The refreshed trust mark is the one that was asked for", "statement": "A trust mark obtained for a configuration is of the configured type, about the entity, signed by the configured issuer, and not expired.", "quantifier": "every configuration, answer of the endpoint and time", "why_tests_cant": "all adversarial answers", "anchors": ["trustmark_refresher.go:EntityConfigurationTrustMarkConfig.refresh"]}
{"id": "C100", "title": "The host naming constraints are checked against is the host that is contacted", "statement": "The host name taken from an entity identifier for naming constraints is the host name of the URL the entity configuration is requested from.", "quantifier": "every entity identifier with a host, also with user, port, IPv6 address, path, query, fragment or escapes", "why_tests_cant": "all strings, including ones crafted to be parsed differently", "anchors": ["trustresolver.go:matchNamingConstraint", "trustresolver.go:httpGetEntityConfiguration"]}
{"id": "C101", "title": "Naming constraints hold for domain names label by label and whatever the case of letters", "statement": "No entity of a returned chain has a host that an excluded name of a constraint above it stands for, and each has a host some permitted name stands for, where names are compared as domain names: label by label, case-insensitively.", "quantifier": "every federation, chain, constraint and identifier", "why_tests_cant": "all names", "anchors": ["trustresolver.go:checkNamingConstraints", "trustresolver.go:matchNamingConstraint"]}
{"id": "C102", "title": "Different entities have different configuration URLs", "statement": "The entity configurations of two different entity identifiers are requested from different URLs.", "quantifier": "every pair of identifiers", "why_tests_cant": "all strings", "anchors": ["trustresolver.go:httpGetEntityConfiguration", "oidfedconst/constants.go:FederationSuffix"]}
{"id": "C103", "title": "Requests ask exactly for what the caller wants", "statement": "The URL of a fetch, trust mark, resolve or collection request carries the wanted parameters with exactly the wanted values, for whatever characters they contain, and no other value for them.", "quantifier": "every endpoint, subject, type, anchor and name", "why_tests_cant": "all strings", "anchors": ["trustresolver.go:httpFetchEntityStatement", "trustmark_refresher.go:EntityConfigurationTrustMarkConfig.refresh", "metadata_resolver.go:SimpleRemoteMetadataResolver", "discovery.go:SimpleRemoteEntityCollector", "apimodel/resolve.go:ResolveRequest", "apimodel/collection.go:EntityCollectionRequest", "internal/http/http.go:Get"]}
{"id": "C104", "title": "Documents are only taken from successful responses", "statement": "An entity configuration, entity statement or trust mark is taken only from a response with a 2xx status.", "quantifier": "every response", "why_tests_cant": "all statuses and bodies", "anchors": ["internal/http/http.go:Get", "trustresolver.go:httpGetEntityConfiguration", "trustresolver.go:httpFetchEntityStatement"]}
{"id": "C105", "title": "Accepted policy entries can be met", "statement": "Verify accepts exactly the entries whose operands agree with each other, never panics, and every accepted entry is met by some attribute value.", "quantifier": "every policy entry over strings and lists of strings, with any combination of operators", "why_tests_cant": "all operands and combinations of operators", "anchors": ["metadataPolicy.go:MetadataPolicyEntry.Verify", "policyverifiers.go"]}
{"id": "C106", "title": "Registered operators are enforced", "statement": "An operator registered by the application is applied to every attribute whose policy entry names it, at its place in OperatorOrder, merged with its own merge function, and leaves all other entries alone.", "quantifier": "every registry of operators with any functions, every entry and attribute value", "why_tests_cant": "all operator functions, registries and entries", "anchors": ["policyoperators.go:RegisterPolicyOperator", "policyoperators.go:OperatorOrder", "metadataPolicy.go:MetadataPolicyEntry.ApplyTo", "metadataPolicy.go:mergeMetadataPolicyEntries"]}
{"id": "C107", "title": "Registered verifiers and combination lists decide what is accepted", "statement": "A registered verifier makes Verify stricter by exactly what it rejects, and an operator may be combined with the operators its MayCombineWith names.", "quantifier": "every registry, verifier and entry", "why_tests_cant": "all verifier functions and registries", "anchors": ["policyverifiers.go:RegisterPolicyVerifier", "policyoperators.go:PolicyOperator", "metadataPolicy.go:MetadataPolicyEntry.Verify"]}
{"id": "C108", "title": "Resolution returns exactly the trust chains that exist", "statement": "When chain resolution returns, the chains returned are exactly the subject's own configuration alone (if it is an anchor or names no superiors) and the chains along the paths of superiors to an anchor on which all signatures verify; the valid chains are those of them whose metadata can be computed.", "quantifier": "every network (with answers that may differ at every request), set of anchors, entity types and starting entity", "why_tests_cant": "all federation topologies", "anchors": ["trustresolver.go:TrustResolver.ResolveToChains", "trustresolver.go:TrustResolver.ResolveToValidChains"]}
{"id": "C109", "title": "A chain through superiors is trustworthy in every respect", "statement": "Every returned chain that is not just the subject's own configuration has at least three statements, each signed under the keys the next one vouches for up to an anchor's keys, linked by issuer and subject, ends at a configured anchor, and all statements but the first are within their time window.", "quantifier": "every network, set of anchors, entity types and starting entity", "why_tests_cant": "all federation topologies and hostile entities", "anchors": ["trustresolver.go:TrustResolver.ResolveToChains"]}
{"id": "C110", "title": "The metadata of a chain is exactly what its policies make of the subject's", "statement": "Metadata is returned for a chain of two or more statements exactly if all critical operators are understood, the combined policy of every entity type can be applied, and policies for additional entity types do not concern the subject; what is returned is then the result of applying these policies.", "quantifier": "every chain of two or more statements, all policies and metadata", "why_tests_cant": "all chains and policies", "anchors": ["trustchain.go:TrustChain.Metadata", "metadata.go:Metadata.ApplyPolicy", "metadataPolicy.go:MergeMetadataPolicies"]}
{"id": "C111", "title": "A list attribute resolves to what the operator table makes of it", "statement": "The value of a list attribute in the metadata of a chain is the subject's value with value, add, default, subset_of and superset_of of all policies of the chain, taken together per operator, applied in the prescribed order; if this is an error the chain has no metadata.", "quantifier": "every chain, entity type, list attribute and combination of policies on it", "why_tests_cant": "all operand lists, chains and combinations", "anchors": ["trustchain.go:TrustChain.Metadata", "metadataPolicy.go:CombineMetadataPolicy", "metadata.go:applyPolicy"]}
{"id": "C112", "title": "Superiors that fix different values make the chain unusable", "statement": "If metadata is returned for a chain, any two policies of the chain that fix the value of the same attribute fix it to the same elements (or both to null).", "quantifier": "every chain, entity type, attribute and policies on it over strings and lists of strings", "why_tests_cant": "all chains and operand lists", "anchors": ["metadataPolicy.go:CombineMetadataPolicy", "policyoperators.go:PolicyOperatorValue"]}
{"id": "C113", "title": "A policy is accepted exactly if the operands of every attribute agree", "statement": "MetadataPolicy.Verify accepts a policy exactly if for each of its attributes the operands agree with each other pair by pair.", "quantifier": "every policy over strings and lists of strings", "why_tests_cant": "all policies", "anchors": ["metadataPolicy.go:MetadataPolicy.Verify", "policyverifiers.go"]}
{"id": "C114", "title": "With keys from elsewhere a trust mark is accepted exactly if it is valid", "statement": "TrustMarkInfo.VerifyExternal accepts exactly if the JWT is a trust mark of the stated type within its time window, signed under the given keys, and, if an owner is given, carries a live delegation by that owner to the mark's issuer for this type; it never panics.", "quantifier": "every trust mark info whose parsed mark (if any) is that of its JWT, every key set, owner and time", "why_tests_cant": "all JWTs, key sets and times", "anchors": ["trustmark.go:TrustMarkInfo.VerifyExternal", "trustmark.go:TrustMark.VerifyExternal"]}
{"id": "C115", "title": "ResolvePossible agrees with Resolve", "statement": "ResolvePossible never confirms both validity and invalidity; it confirms validity exactly if Resolve succeeds (or a remote resolver found a trust chain), and invalidity only if Resolve fails because there is no valid trust chain.", "quantifier": "every resolver, request, network and answer of remote resolvers", "why_tests_cant": "all networks and answers", "anchors": ["metadata_resolver.go:LocalMetadataResolver.ResolvePossible", "metadata_resolver.go:SimpleRemoteMetadataResolver.ResolvePossible", "metadata_resolver.go:SmartRemoteMetadataResolver.ResolvePossible"]}
{"id": "C116", "title": "Exactly the answers that are resolve responses are taken from a remote resolver", "statement": "The remote resolver returns a payload exactly if the endpoint answers with a JWT of type resolve-response+jwt whose payload decodes to it, and never panics.", "quantifier": "every answer of the endpoint", "why_tests_cant": "all answers", "anchors": ["metadata_resolver.go:SimpleRemoteMetadataResolver.ResolveResponsePayload", "metadata_resolver.go:ParseResolveResponse"]}
{"id": "C117", "title": "Malformed documents are reported as errors", "statement": "Parsing a JWT, decoding JSON or YAML into any of the library's types, reading the reply of another entity and verifying a trust mark configuration never panic, whatever the input.", "quantifier": "every JWT, JSON and YAML document, reply and trust mark configuration", "why_tests_cant": "all byte strings an attacker can send", "anchors": ["entitystatement.go:unmarshalWithExtra", "trustmark.go:ParseTrustMark", "metadataPolicy.go:MetadataPolicies.UnmarshalJSON", "sliceorsinglevalue.go", "jwks/jwks.go", "metadata_resolver.go:ParseResolveResponse", "trustmark_refresher.go:EntityConfigurationTrustMarkConfig.Verify"]}
{"id": "C118", "title": "A code exchange reports what the token endpoint answered", "statement": "CodeExchange returns an error response exactly if the answer is a JSON object with a non-empty error, with this error and its description, and a token response exactly if it has no error and well-typed members; the tokens, their type, lifetime and scope and all other claims are those of the answer.", "quantifier": "every answer of the token endpoint, code, redirect URI, parameters and OP", "why_tests_cant": "all answers", "anchors": ["authcode.go:FederationLeaf.CodeExchange", "authcode.go:OIDCTokenResponse", "authcode.go:OIDCErrorResponse"]}
{"id": "C119", "title": "Trust marks and delegations say what their claims say", "statement": "A parsed trust mark, delegation or member of a trust_marks claim has as issuer, subject, type, times, references and additional claims exactly what the claims of that name say, and parsing fails only if a claim has the wrong JSON type.", "quantifier": "every JWT and JSON object, with repeated members and names in any case", "why_tests_cant": "all JSON objects", "anchors": ["trustmark.go:ParseTrustMark", "trustmark.go:TrustMarkInfo.UnmarshalJSON", "trustmark.go:DelegationJWT.UnmarshalJSON"]}
{"id": "C120", "title": "Issued trust marks and delegations carry the standard claims", "statement": "The JWT signed by IssueTrustMark or DelegationJWT has exactly the claims iss, sub, trust_mark_type, iat, exp (unless the mark does not expire), the non-empty ones of logo_uri, ref and delegation, and the additional claims of its specification.", "quantifier": "every specification, subject, lifetime and time", "why_tests_cant": "all specifications and times", "anchors": ["trustmark.go:TrustMarkIssuer.IssueTrustMark", "trustmark.go:TrustMarkOwner.DelegationJWT", "entitystatement.go:extraMarshalHelper"]}
{"id": "C121", "title": "Entity statements and resolve responses say what their claims say", "statement": "A JWT that ParseEntityStatement accepts has type entity-statement+jwt and a JSON object as payload; every field of the statement, with its metadata, metadata policy, constraints, trust marks, issuers and owners down to the single attribute and operand, is what the claim of that name says, with the stated value for an absent claim. Every JWT with well-formed claims is accepted. The same holds for the payload of resolve responses.", "quantifier": "every JWT and payload; for nested claims, payloads whose member names differ by more than case and whose numbers are integers", "why_tests_cant": "all JSON documents", "anchors": ["entitystatement.go:ParseEntityStatement", "entitystatement.go:EntityStatementPayload.UnmarshalJSON", "metadata.go:Metadata.UnmarshalJSON", "metadata_generated.go", "metadataPolicy.go:MetadataPolicies.UnmarshalJSON", "metadata_resolver.go:ParseResolveResponse"]}
{"id": "C122", "title": "Resolved metadata is what signed documents say", "statement": "Whatever bytes the network delivers, metadata resolved through superiors is what the payload of a JWT says that the entity has signed, with the policies applied that the payloads of JWTs signed by its superiors say.", "quantifier": "every network (any bytes, different at every request), anchors, entity types, starting entity, chain of more than one statement", "why_tests_cant": "all networks and JWTs", "anchors": ["trustresolver.go:TrustResolver.ResolveToValidChains", "trustchain.go:TrustChain.Metadata", "entitystatement.go:ParseEntityStatement"]}
{"id": "C123", "title": "An attribute counts as set exactly if the metadata states it", "statement": "After decoding, an attribute of typed metadata counts as set (so that default does not apply and essential is met) exactly if the JSON object has a non-null member of that name.", "quantifier": "every JSON object, entity type and attribute", "why_tests_cant": "all JSON objects", "anchors": ["metadata_generated.go:fromPointers", "metadata.go:applyPolicy"]}
{"id": "C124", "title": "Standard metadata parameters are understood and subject to policies", "statement": "Every metadata parameter that OpenID Connect Discovery and Dynamic Client Registration, RFC 8414, RFC 7591, RFC 9728 and OpenID Federation define for an entity type is decoded into an attribute under its standard name and with its JSON type, so that metadata policies of superiors act on it.", "quantifier": "every metadata document, entity type and standard parameter", "why_tests_cant": "all documents and policies; the names are part of the statement", "anchors": ["metadata_input.go", "metadata_generated.go", "metadata.go:Metadata.UnmarshalJSON", "metadata.go:applyPolicy"]}
{"id": "C125", "title": "A signed entity statement is read as it was written", "statement": "Whatever entity statement payload a federation entity signs, the resulting JWT is parsed by the library, verifies under the signer's published keys, and gives the same issuer, subject, times, keys, authority hints, metadata, metadata policies, constraints, critical claims and operators, trust marks, trust mark issuers and owners; other claims are in the document unchanged. The entity configuration of a federation entity is self-issued, with its keys, and valid from now for its lifetime.", "quantifier": "every payload, signing key and clock value", "why_tests_cant": "all payloads: any metadata, policies, constraints and additional claims", "anchors": ["federation.go:SignEntityStatement", "federation.go:EntityConfigurationJWT", "federation.go:EntityConfigurationPayload", "entitystatement.go:EntityStatementPayload.MarshalJSON", "entitystatement.go:EntityStatementPayload.UnmarshalJSON", "jwtsigning.go:EntityStatementSigner.JWT"]}
{"id": "C126", "title": "Policies work for attributes of every JSON type", "statement": "For every attribute the library knows, a policy's value or default gives the attribute the JSON value stated in the policy, and one_of accepts exactly the listed values, whatever JSON type the attribute has.", "quantifier": "every attribute of every entity type, every current value and every operand of the attribute's JSON type", "why_tests_cant": "all operands of all attribute types", "anchors": ["metadataPolicy.go:MetadataPolicyEntry.ApplyTo", "metadata.go:applyPolicy", "internal/utils/slices.go:ReflectSliceCast", "metadata_generated.go"]}
{"id": "C127", "title": "Claims are collected over all entity types", "statement": "GuessEntityTypes returns exactly the entity types with metadata; GuessDisplayNames gives each of them its display name; IterateStringClaim and IterateStringSliceClaim report the claim exactly once for every entity type that states it, and never crash.", "quantifier": "every metadata object and every claim name", "why_tests_cant": "all metadata and all claim names", "anchors": ["metadata.go:Metadata.GuessEntityTypes", "metadata.go:Metadata.GuessDisplayNames", "metadata.go:Metadata.IterateStringClaim", "metadata.go:Metadata.IterateStringSliceClaim"]}
{"id": "C128", "title": "A signed resolve response is read as it was written", "statement": "A client that asks a resolve endpoint of this library gets the metadata, trust marks and trust chain that the resolver put into the response, and the signer's published keys verify it; the issuer, subject, times, audience and additional claims are stated in the document.", "quantifier": "every response Go code can build, every signing key, every client", "why_tests_cant": "all responses and signers", "anchors": ["trustresolver.go:ResolveResponse.MarshalJSON", "trustresolver.go:ResolveResponsePayload.MarshalJSON", "trustresolver.go:JWSMessages.MarshalJSON", "jwtsigning.go:ResolveResponseSigner", "metadata_resolver.go:ParseResolveResponse"]}
{"id": "C129", "title": "A client of a resolver gets the metadata the resolver has resolved", "statement": "If a resolver built with this library resolves an entity and signs the result, a client of its resolve endpoint reads the same metadata (attributes, additional members), trust marks and chain; in particular it never reads an attribute value that the policies removed. Resolved attributes always have their declared types.", "quantifier": "every set of documents served on the network, every chain resolved from them, every signer and client", "why_tests_cant": "all documents and chains", "anchors": ["metadata_resolver.go:LocalMetadataResolver.ResolveResponsePayload", "trustchain.go:TrustChain.Metadata", "metadata.go:applyPolicy", "trustresolver.go:ResolveResponse.MarshalJSON", "metadata_generated.go", "entitystatement.go:unmarshalWithExtra", "metadata_resolver.go:SimpleRemoteMetadataResolver.ResolveResponsePayload"]}
{"id": "C130", "title": "Requests go to the endpoints an entity states under the standard names", "statement": "The endpoints used to fetch subordinate statements, list subordinates, resolve and obtain trust marks are exactly the texts the entity's configuration states as federation_fetch_endpoint, federation_list_endpoint, federation_resolve_endpoint and federation_trust_mark_endpoint (none if it states none). The issuer, authorization endpoint and token endpoint a relying party uses, and the grant types, scopes and registration types the provider filters look at, are the provider's attributes of those names, and the filters decide exactly inclusion.", "quantifier": "every entity configuration document; every provider metadata, resolved or decoded; every list of needed values", "why_tests_cant": "all documents and provider metadata", "anchors": ["trustresolver.go:trustTree.resolve", "metadata_resolver.go:SmartRemoteMetadataResolver", "trustmark_refresher.go:refresh", "discovery.go:EntityCollectionFilterOPSupportedGrantTypesIncludes", "discovery.go:EntityCollectionFilterOPSupportedScopesIncludes", "authcode.go:GetAuthorizationURL", "authcode.go:CodeExchange", "metadata_generated.go"]}
{"id": "C131", "title": "Written documents state what is set and nothing else", "statement": "Entity statements, constraints, policies, metadata and resolve responses written by the library state iss, sub, iat, exp and jwks always and every other known member exactly when it is set: no known member is written as null or empty, and a path length of 0 is written.", "quantifier": "every statement payload, metadata of every entity type, policies, constraints and resolve response", "why_tests_cant": "all payloads", "anchors": ["entitystatement.go:EntityStatementPayload", "entitystatement.go:ConstraintSpecification", "metadata_generated.go", "metadata.go:Metadata.MarshalJSON", "metadataPolicy.go:MetadataPolicies.MarshalJSON", "trustresolver.go:ResolveResponse.MarshalJSON"]}
{"id": "C132", "title": "A collection that is served is read as it was collected", "statement": "The client of an entity collection endpoint gets the entities the endpoint's collector has returned, in the same order and with the same identifier, entity types, trust marks, trust chain, user interface claims and metadata, also if there are none; filtering them gives what filtering local entities gives, and no answer crashes the client.", "quantifier": "every list of collected entities, every set of user interface claims, every answer document, every list of filters", "why_tests_cant": "all collections and answers", "anchors": ["discovery.go:CollectedEntity.MarshalJSON", "discovery.go:CollectedEntity.UnmarshalJSON", "discovery.go:UIInfo.MarshalJSON", "discovery.go:UIInfo.UnmarshalJSON", "discovery.go:EntityCollectionResponse", "discovery.go:SimpleRemoteEntityCollector.CollectEntities", "discovery.go:FilterableVerifiedChainsEntityCollector.CollectEntities", "discovery.go:EntityCollectionFilterVerifiedChains.Filter"]}
{"id": "C133", "title": "Numbers in documents keep their value", "statement": "A number in a metadata attribute, in a constraint or in an additional claim of a document has, after the document has been read, the value it is written with, however it is written, and keeps it when the document is written again; documents are not rejected because of a number that fits.", "quantifier": "every number literal of JSON, of any size, precision and notation", "why_tests_cant": "all literals", "anchors": ["entitystatement.go:unmarshalWithExtra", "entitystatement.go:ConstraintSpecification", "metadata_generated.go:OpenIDRelyingPartyMetadata", "authcode.go:OIDCTokenResponse"]}
{"id": "C134", "title": "A document is accepted only between the instants its claims state", "statement": "A statement, trust mark or delegation whose iat and exp claims are the given numbers is accepted at an instant exactly if that instant is not before iat and not after exp, for all numbers.", "quantifier": "every pair of number literals, every instant, every processor", "why_tests_cant": "all literals and instants", "anchors": ["unixtime/unixtime.go:Unixtime.UnmarshalJSON", "unixtime/unixtime.go:VerifyTime", "entitystatement.go:EntityStatementPayload.TimeValid"]}
{"id": "C135", "title": "A federation run with this library is resolved by this library", "statement": "If an entity publishes its configuration with NewFederationEntity and EntityConfigurationJWT, every superior on a line up to a trust anchor publishes its own and signs a statement about the entity below it with SignEntityStatement that lists that entity's keys, the documents are in force, and the constraints allow the entities below, then resolving the entity returns a trust chain consisting of these documents, and the metadata of that chain are the configured ones as changed by the configured policies (the configured ones if there are none).", "quantifier": "every network, line of superiors of any length, key, metadata, policy and constraint that the entities are configured with (documents of C125), whatever else the network serves", "why_tests_cant": "all networks and lines", "anchors": ["federation.go:NewFederationEntity", "federation.go:FederationEntity.EntityConfigurationJWT", "federation.go:FederationEntity.SignEntityStatement", "entitystatement.go:ParseEntityStatement", "trustresolver.go:TrustResolver.ResolveToValidChainsWithoutVerifyingMetadata", "trustchain.go:TrustChain.Metadata"]}
{"id": "C136", "title": "Trust marks issued in a federation are accepted by its members", "statement": "If the issuer is a trust anchor or an entity below it (as in C135), the anchor's configuration lets it issue marks of the type, the owner of the type, if there is one, delegated it with DelegationJWT, and it issued the mark with IssueTrustMark, then VerifyFederation with the anchor's configuration accepts the mark while it and the delegation are in force; and if an entity carries the mark in its entity configuration, resolving the entity reports the mark.", "quantifier": "every network (which may answer each request differently), issuer, owner, anchor, line of superiors of any length, mark type, additional claims, lifetime and key", "why_tests_cant": "all networks, marks and lines", "anchors": ["trustmark.go:TrustMarkIssuer.IssueTrustMark", "trustmark.go:TrustMarkOwner.DelegationJWT", "trustmark.go:NewTrustMarkOwner", "trustmark.go:TrustMarkInfo.VerifyFederation", "metadata_resolver.go:LocalMetadataResolver.ResolveResponsePayload", "federation.go:FederationEntity.EntityConfigurationJWT"]}
{"id": "C137", "title": "A single-valued attribute resolves to what the operator table makes of it", "statement": "The value of a text or boolean attribute in the metadata of a chain is the value any policy of the chain fixes, else the subject's value, else the default any policy of the chain offers; it is in the one_of list of every policy that has one, and it is there if any policy calls it essential. Policies on such an attribute succeed exactly if they do not contradict each other and there is such a value, they then change nothing else, and operands of the attribute's type never crash the caller.", "quantifier": "every chain of two or more statements, entity type, text or boolean attribute, value of the subject, and any number of policies with value (also null), default, one_of and essential", "why_tests_cant": "all chains and operands", "anchors": ["policyoperators.go:OperatorOrder and the operators value, default, one_of, essential", "metadataPolicy.go:CombineMetadataPolicy", "metadataPolicy.go:MetadataPolicyEntry.ApplyTo", "metadata.go:applyPolicy", "trustchain.go:TrustChain.Metadata"]}
{"id": "C138", "title": "A collected entity carries what was asked for and nothing else", "statement": "Every entity CollectEntities returns carries its identifier; its entity types if the request names them or names no claims; its trust chain, metadata and trust marks if and only if the request names them. With local resolution the trust chain and the metadata are those of one chain from the entity to the anchor of the request and are missing only if there is none; the trust marks are those of the entity's configuration that verify against the anchor, in order. With a remote resolver they are what it answers.", "quantifier": "every federation, request, set of requested claims, interleaving of the goroutines, default resolver and collected entity", "why_tests_cant": "all federations, requests and schedules", "anchors": ["discovery.go:SimpleEntityCollector.CollectEntities", "discovery.go:SimpleEntityCollector.collect", "metadata_resolver.go:LocalMetadataResolver.resolveResponsePayloadWithoutTrustMarks", "trustmark.go:TrustMarkInfos.VerifiedFederation"]}
{"id": "C139", "title": "A federation run with this library is collected completely", "statement": "If the entities of a federation use this library - they publish configurations made with it, their superiors list them at their list endpoints, and their trust marks are issued and delegated with it - then a member that calls CollectEntities for the anchor gets every entity that is enlisted with the anchor, directly or through other members, and that has one of the requested entity types, a matching name and the requested trust marks. If it asks for them, the entity comes with a trust chain to the anchor and the metadata this chain gives, and with all its genuine trust marks.", "quantifier": "every federation of entities using the library, whatever other entities answer; every request, interleaving of the goroutines and collected member", "why_tests_cant": "all federations, requests and schedules", "anchors": ["discovery.go:SimpleEntityCollector.CollectEntities", "discovery.go:SimpleEntityCollector.collect", "federation_entity.go:FederationEntity.EntityConfigurationPayload", "trustmark.go:TrustMarkIssuer.IssueTrustMark", "metadata_resolver.go:LocalMetadataResolver.resolveResponsePayloadWithoutTrustMarks"]}
{"id": "C140", "title": "A login with a provider of the federation reaches that provider", "statement": "If a provider uses this library to publish its configuration and a line of superiors that use it vouches for the provider - their policies applicable to the provider metadata, none about the authorization endpoint -, then GetAuthorizationURL for it succeeds. Whenever it returns a URL, there is a valid trust chain from the provider to one of the caller's anchors such that, unless a policy of that chain is about the attribute, the URL is at the authorization endpoint in the provider's metadata, and the signed request object in it is addressed to the issuer stated there. Likewise CodeExchange redeems the code at the token endpoint stated there, with a client assertion addressed to that endpoint.", "quantifier": "every federation of entities using the library, every provider in it, whatever other entities answer; every caller, request and network behaviour", "why_tests_cant": "all federations and logins", "anchors": ["authcode.go:FederationLeaf.GetAuthorizationURL", "authcode.go:FederationLeaf.CodeExchange", "federation.go:FederationLeaf.ResolveOPMetadata", "federation_entity.go:FederationEntity.EntityConfigurationPayload", "metadata_resolver.go:LocalMetadataResolver.Resolve", "metadataPolicy.go:MetadataPolicy"]}
{"id": "C141", "title": "The trust marks a member keeps are accepted by the others", "statement": "An entity of a federation configures a trust mark to be obtained from an issuer of the federation, or issues it itself, and uses the configuration by calls of TrustMarkJWT, one after the other, each possibly followed by a background refresh that runs undisturbed. If the issuer - the trust anchor or an entity a line of superiors vouches for, allowed by the anchor to issue this type, with the owner's delegation if there is one - only hands out marks it issues with this library for at least the configured minimal lifetime, then whatever JWT a call returns is accepted by every member that trusts the anchor, until the minimal lifetime has passed since the call (up to the precision of time stamps), however many calls failed or succeeded before. When the entity publishes it in its configuration, resolvers report it for the entity.", "quantifier": "every federation, issuer, configuration, history of calls and background refreshes with any answers in between, and every verifying member", "why_tests_cant": "all histories of calls, failures and clock readings", "anchors": ["trustmark_refresher.go:EntityConfigurationTrustMarkConfig.Verify", "trustmark_refresher.go:EntityConfigurationTrustMarkConfig.TrustMarkJWT", "trustmark.go:TrustMarkIssuer.IssueTrustMark", "trustmark.go:TrustMark.VerifyFederation", "federation_entity.go:FederationEntity.EntityConfigurationPayload", "metadata_resolver.go:LocalMetadataResolver.ResolveResponsePayload"]}
{"id": "C142", "title": "The steps of a resolver can be called one by one, and again", "statement": "A TrustResolver can be used by its steps: Resolve, VerifySignatures, Chains. Whatever methods of whatever resolvers were called before, the chains that Chains returns when the last resolution of this resolver was followed by a verification are verified ones, exactly those ResolveToValidChainsWithoutVerifyingMetadata returns; further calls of VerifySignatures and Chains change nothing. Reading the chains of a tree that has not been verified has no effect on what other resolvers return, and a resolver used once more returns what the network has then.", "quantifier": "all sequences of method calls on any number of resolvers that share a cache, with a network that changes between the calls, other uses of the cache and evictions in between", "why_tests_cant": "all histories of calls on several objects", "anchors": ["trustresolver.go:TrustResolver.Resolve", "trustresolver.go:TrustResolver.VerifySignatures", "trustresolver.go:TrustResolver.Chains", "trustresolver.go:TrustResolver.ResolveToValidChainsWithoutVerifyingMetadata"]}
{"id": "C143", "title": "Changes take effect at the latest when the statements before them expire", "statement": "When an authority withdraws or replaces its statement about a subordinate, or an entity its configuration, the chains that are resolved after all the earlier versions have expired contain only the new one, and none if there is none; an entity whose configuration is no longer served has no chains. This holds whatever the process resolved and cached before.", "quantifier": "all histories of the statement cache, all networks that change over time, all resolutions", "why_tests_cant": "the history of the cache and of the network", "anchors": ["trustresolver.go:getEntityStatementOrConfiguration", "trustresolver.go:entityStmtCacheSet", "trustresolver.go:trustTree.resolve", "trustresolver.go:TrustResolver.ResolveToValidChains"]}
{"id": "C144", "title": "Trust anchors are independent of each other", "statement": "Configuring a further trust anchor, or taking one out, leaves the chains to the other anchors as they are; the keys pinned for one anchor do not bear on chains to another; and the order in which the anchors are configured does not matter.", "quantifier": "all networks, all lists of trust anchors, all entities", "why_tests_cant": "all networks and all anchor configurations", "anchors": ["trustresolver.go:trustTree.resolve", "trustresolver.go:trustTree.verifySignatures", "trustresolver.go:TrustResolver.ResolveToValidChains"]}
{"id": "C145", "title": "Failing servers and further constraints only take chains away", "statement": "If some requests fail that would otherwise succeed, or superiors put further or stricter constraints into their statements (a lower max_path_length, more excluded or fewer permitted names, fewer allowed entity types), every chain that is still returned is one that was returned before, up to the constraints stated in it; its metadata and its expiration are the same, and resolution still ends without crashing.", "quantifier": "all networks and all ways to restrict them, all trust anchors, type filters and starting entities", "why_tests_cant": "the networks and constraints are unbounded, and a restriction at any point of the trust tree might open another path", "anchors": ["trustresolver.go:trustTree.resolve", "trustresolver.go:trustTree.checkConstraints", "trustresolver.go:TrustResolver.ResolveToValidChains", "entitystatement.go:ConstraintSpecification"]}
{"id": "C146", "title": "A chain is found until the time at which it says it expires", "statement": "As long as the entities serve the same statements, a chain that was found is found at every later time up to its expiration and not after that. In any case it is found at exactly those times at which every statement of its superiors and every entity configuration of its superiors is valid, which is an interval.", "quantifier": "all networks, all chains found in them and all times", "why_tests_cant": "times and networks are unbounded", "anchors": ["trustresolver.go:trustTree.resolve", "trustchain.go:TrustChain.ExpiresAt", "entitystatement.go:EntityStatement.TimeValid"]}
{"id": "C147", "title": "A chain depends only on the entities it passes", "statement": "Whether a chain is returned depends only on what the subject and the issuers of the statements of the chain serve: if these serve the same in two networks, the chain is returned in both or in neither, whatever all other entities serve, provided that resolution ends in both.", "quantifier": "all pairs of networks, all trust anchors, type filters, starting entities and chains", "why_tests_cant": "the other entities are arbitrary, and there is no bound on their number or on what they serve", "anchors": ["trustresolver.go:trustTree.resolve", "trustresolver.go:trustTree.verifySignatures", "trustresolver.go:TrustResolver.ResolveToValidChains"]}
{"id": "C148", "title": "Asking for some entity types only hides the others", "statement": "Resolving with a list of entity types returns the chains that are returned without it, and their metadata are the same for the types asked for and absent for all others.", "quantifier": "all networks, trust anchors, starting entities and non-empty lists of types", "why_tests_cant": "networks, policies and constraints are unbounded, and the filter is applied before constraints and policies are evaluated", "anchors": ["trustresolver.go:TrustResolver.Resolve", "trustresolver.go:trustTree.checkConstraints", "internal/utils/structs.go:NilAllExceptByTag", "trustchain.go:TrustChain.Metadata"]}
{"id": "C149", "title": "What is collected does not depend on scheduling", "statement": "If every entity answers the same whenever it is asked during the collection, all executions of CollectEntities that finish return the same entities with the same contents, in whatever order the goroutines run; these are exactly the entities reachable from the anchor through listings of authorities, as far as they pass the filters.", "quantifier": "all networks, requests and schedules", "why_tests_cant": "the number of interleavings of the goroutines grows without bound with the number of entities", "anchors": ["discovery.go:SimpleEntityCollector.CollectEntities", "discovery.go:SimpleEntityCollector.collect"]}
{"id": "C150", "title": "Narrower requests collect no more", "statement": "A request for the same anchor with fewer entity types, further trust marks or a name where there was none, collects only entities the wider request collects, in a network that does not change.", "quantifier": "all networks, all pairs of requests and all schedules of both collections", "why_tests_cant": "networks, requests and schedules are unbounded", "anchors": ["discovery.go:SimpleEntityCollector.collect", "apimodel/collection.go:EntityCollectionRequest"]}
{"id": "C151", "title": "Filters may be given in any order", "statement": "The chains TrustChains.Filter keeps do not depend on the order in which the filters are given, and giving a filter twice changes nothing.", "quantifier": "all lists of chains, all lists of filters and all their orders", "why_tests_cant": "lists of chains and of filters are unbounded", "anchors": ["trustchainfilter.go:TrustChains.Filter", "trustchainfilter.go:TrustChainsFilterMinPathLength"]}
{"id": "C152", "title": "Resolution asks only where the entity leads", "statement": "Resolving an entity asks for exactly these documents: the configuration of that entity, and, for every entity it comes to that is not a trust anchor, the configurations of the superiors that entity names (other than those already passed on the way) and their statements about it, at the fetch endpoint stated in the superior's own configuration; it comes to a superior only if both documents are usable. The answers to these requests determine what is found. No server is asked more often than there are entities.", "quantifier": "all networks, trust anchors, entity types and starting entities; for the counts all finite federations", "why_tests_cant": "The requests depend on what arbitrary servers answer to earlier ones; a test sees the requests of one network, and the growth of their number only shows over a family of networks.", "anchors": ["trustresolver.go:trustTree.resolve", "trustresolver.go:Resolve", "trustresolver.go:GetEntityConfiguration", "trustresolver.go:FetchEntityStatement"]}
{"id": "C153", "title": "A collection asks every authority once", "statement": "While the entities below a trust anchor are collected, the list endpoints of the anchor and of every authority below it are asked, each of them exactly once, and no others.", "quantifier": "all networks, trust anchors and schedules of the goroutines", "why_tests_cant": "The collection runs up to 128 goroutines per call that share the set of visited entities; which of them run between two accesses to it is up to the scheduler.", "anchors": ["discovery.go:SimpleEntityCollector.collect", "discovery.go:SimpleEntityCollector.CollectEntities"]}
{"id": "C154", "title": "A resolution bothers every server once", "statement": "While the chains of an entity are resolved, every entity configuration and every subordinate statement is requested from its server at most once, so that the load on the servers of a federation grows with the number of its entities and not with the number of ways through it.", "quantifier": "all networks, anchors, entities, contents of the cache and clock readings", "why_tests_cant": "The number of ways through a federation is exponential in the number of its levels and the statement cache works across all of them; tests use federations of three or four entities that all answer.", "anchors": ["trustresolver.go:getEntityStatementOrConfiguration", "trustresolver.go:obtainAndSetEntityStatementOrConfiguration", "trustresolver.go:trustTree.resolve", "cache/cache.go:Set"]}
{"id": "C155", "title": "A name query finds exactly the entities whose names contain its characters in order", "statement": "CollectEntities with a name query returns exactly those entities it returns without the query one of whose names contains the characters of the query in the same order, accents and case aside. A part of a name finds the entity, and a query with further characters finds no further entities.", "quantifier": "all queries, names and normalisations, all unchanging networks, all requests and all schedules", "why_tests_cant": "names, queries, federations and schedules are unbounded", "anchors": ["discovery.go:SimpleEntityCollector.CollectEntities", "discovery.go:matchWithMode", "discovery.go:matchDisplayName"]}
{"id": "C156", "title": "Resolutions that run at the same time do not affect each other", "statement": "Any number of goroutines may call GetEntityConfiguration and FetchEntityStatement and resolve trust chains at the same time. Every call returns what was served in answer to its own question, a call returns after four steps of its own, and while entities do not change what they serve every resolution finds the chains it finds alone.", "quantifier": "all numbers of goroutines, all schedules of their steps and of the refreshes in the background, all networks and all requests", "why_tests_cant": "the number of goroutines and of interleavings is unbounded", "anchors": ["trustresolver.go:getEntityStatementOrConfiguration", "trustresolver.go:obtainAndSetEntityStatementOrConfiguration", "trustresolver.go:TrustResolver.ResolveToValidChains"]}
{"id": "C157", "title": "Once a newer statement has been used no older one is used again", "statement": "If an authority never again serves an older statement about an entity than it has served, then of two calls in one process that return statements of this authority about this entity the later one does not return an older statement.", "quantifier": "all networks in which statements are only replaced by newer ones, all histories of calls and all schedules of the refreshes in the background", "why_tests_cant": "it depends on the order in which goroutines store their answers", "anchors": ["trustresolver.go:getEntityStatementOrConfiguration", "trustresolver.go:entityStmtCacheSet"]}
{"id": "C158", "title": "A statement is requested once for all the calls that need it", "statement": "Calls of GetEntityConfiguration and FetchEntityStatement that ask for the same statement, in whatever number of goroutines, cause one request as long as the answer stays valid.", "quantifier": "all numbers of goroutines, all schedules of their steps and of the refreshes in the background, all networks", "why_tests_cant": "the number of goroutines and of interleavings is unbounded", "anchors": ["trustresolver.go:getEntityStatementOrConfiguration", "trustresolver.go:obtainAndSetEntityStatementOrConfiguration"]}
{"id": "C159", "title": "Keys and statements can be replaced without interruption", "statement": "If entities replace their keys and statements in such a way that all the documents in circulation (served lately, or served earlier and not expired) fit together along a way to a trust anchor, every resolution during the change finds a chain along this way, whichever of the documents it gets from the servers and which ones from the cache.", "quantifier": "all networks that change over time, all ways through them, all histories of the statement cache and all mixtures of old and new documents", "why_tests_cant": "which mixture of old and new documents a resolution gets depends on the history of the cache", "anchors": ["trustresolver.go:TrustResolver.ResolveToValidChains", "trustresolver.go:getEntityStatementOrConfiguration", "trustresolver.go:entityStmtCacheSet"]}
{"id": "C160", "title": "A trust mark cannot make its verifier contact arbitrary hosts", "statement": "Verifying a trust mark within a federation leads to requests only on behalf of issuers that the trust anchor names for the type of the mark: those of resolving such an issuer, and none for marks of the anchor itself or of another type than stated.", "quantifier": "all trust marks, anchors, networks and default resolvers", "why_tests_cant": "a test sees the requests of the marks it tries; the claim is about every mark an attacker can write", "anchors": ["trustmark.go:TrustMarkInfo.VerifyFederation", "trustmark.go:TrustMark.VerifyFederation", "trustmark.go:getTrustMarkIssuerJWKS", "trustmark.go:TrustMarkInfos.VerifiedFederation"]}
{"id": "C161", "title": "When a resolver answers nobody else is asked", "statement": "If the resolve endpoint of one of the trust anchors gives a usable answer, the smart resolver asks only the anchors up to this one and their endpoints; in general the answers to the listed requests determine the result of every resolver.", "quantifier": "all requests, networks, anchors and answers", "why_tests_cant": "requests that should not be made are invisible to a test that looks at results", "anchors": ["metadata_resolver.go:SmartRemoteMetadataResolver.ResolveResponsePayload", "metadata_resolver.go:SmartRemoteMetadataResolver.ResolvePossible", "metadata_resolver.go:LocalMetadataResolver.ResolveResponsePayload"]}
{"id": "C162", "title": "A trust mark stays accepted while its issuer and its superiors replace keys and statements", "statement": "If the documents served lately and those served earlier that have not expired fit together along a way from the issuer of a trust mark to the anchor, and the mark verifies under the keys in each configuration of the issuer among them, the mark is accepted, whichever of these documents the verifier gets from servers or from the cache.", "quantifier": "all histories of what is served, of the cache and of the clock, all marks, issuers and ways to the anchor", "why_tests_cant": "which combination of old and new documents a verifier meets depends on the times of all earlier requests; a test tries a few", "anchors": ["trustmark.go:TrustMarkInfo.VerifyFederation", "trustmark.go:getTrustMarkIssuerJWKS", "metadata_resolver.go:LocalMetadataResolver.ResolveResponsePayload", "trustresolver.go:TrustResolver.ResolveToValidChains", "trustresolver.go:GetEntityConfiguration"]}
{"id": "C163", "title": "Generated metadata types have exactly the declared claims", "statement": "For whatever structs are declared as input of the code generator, each generated metadata type has every field declared for it and every common field, once, with the declared type and JSON name, and decoding fills every one of them.", "quantifier": "all input declarations", "why_tests_cant": "the repository has one input file; whoever adds a claim or an entity type relies on the generator for input nobody has tested", "anchors": ["internal/generators/metadata.go:generateCombinedStruct", "internal/generators/metadata.go:fieldTypeAsString", "internal/generators/metadata.go:fieldTypeAsPtrString", "metadata_input.go", "metadata_generated.go:fromPointers"]}
{"id": "C164", "title": "Regenerating the metadata types reproduces them", "statement": "Running the code generator again on the same input gives the same file, which can replace the present one.", "quantifier": "all input declarations and all iteration orders of Go maps", "why_tests_cant": "a single run shows one iteration order", "anchors": ["internal/generators/metadata.go:main", "metadata_generated.go"]}
{"id": "C165", "title": "Trust mark specifications survive JSON and say the same there as in YAML", "statement": "Writing a TrustMarkSpec as JSON and reading it gives the same specification; what is written says the same in JSON and in YAML; a document read as JSON gives the specification it gives as YAML; and trust marks issued with a specification read from JSON live as long as the document says.", "quantifier": "all specifications, additional claims and lifetimes; all documents", "why_tests_cant": "There are infinitely many documents and additional claims; names that differ only in case, repeated members, fractions of seconds and large lifetimes matter.", "anchors": ["trustmark.go: TrustMarkSpec, TrustMarkSpec.MarshalJSON, TrustMarkSpec.UnmarshalJSON, TrustMarkSpec.MarshalYAML, TrustMarkSpec.UnmarshalYAML, IssueTrustMark", "entitystatement.go: extraMarshalHelper, unmarshalWithExtra", "unixtime/unixtime.go: DurationInSeconds"]}
{"id": "C166", "title": "A collection looks at every entity once", "statement": "While the entities below a trust anchor are collected, the configuration of every entity below it is fetched and evaluated (its trust chain and trust marks are checked and it is matched with the request), of each of them exactly once.", "quantifier": "all requests, federations, answers that change during the collection, and schedules of the goroutines", "why_tests_cant": "There are infinitely many federations, and how often an entity is looked at depends on the graph of its superiors and the order in which goroutines run.", "anchors": ["discovery.go: SimpleEntityCollector.CollectEntities, SimpleEntityCollector.collect"]}
{"id": "C167", "title": "Errors of the library keep their meaning on the way to a client", "statement": "If a resolve endpoint answers with one of the library's error objects, no client takes it for metadata; invalid_trust_chain is a no, invalid_metadata a yes (there is a valid chain), and every other error neither, whatever its description and the reply that carries it. Code and description arrive as given.", "quantifier": "every error, description, status and reply", "why_tests_cant": "all errors, descriptions, JSON objects and statuses; the two ends are different programs", "anchors": ["error.go:Error", "error.go:ErrorInvalidRequest", "internal/http/http.go:Get", "internal/http/http.go:HttpError", "metadata_resolver.go:SimpleRemoteMetadataResolver.ResolveResponse", "metadata_resolver.go:SimpleRemoteMetadataResolver.ResolvePossible"]}
{"id": "C168", "title": "An accepted policy gives the default it offers", "statement": "If a policy entry that passes verification offers a default and neither fixes nor adds a value, an entity that does not state the attribute gets the default.", "quantifier": "every policy entry over strings and lists of strings", "why_tests_cant": "all combinations of operators and operands", "anchors": ["policyverifiers.go:policyVerifyDefaultInOneOf", "policyverifiers.go:policyVerifyDefaultInSubset", "policyverifiers.go:policyVerifyDefaultSuperset", "policyverifiers.go:RegisterPolicyVerifier", "metadataPolicy.go:MetadataPolicyEntry.Verify", "metadataPolicy.go:MetadataPolicyEntry.ApplyTo"]}
