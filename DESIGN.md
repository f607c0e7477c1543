# Formal model of zachmann/go-oidfed in Rocq (Coq 8.16.1)

`/verif/properties.jsonl` lists the properties, `/verif/MANIFEST.json` maps each one
to theorems, `/verif/seeded/LOG.jsonl` records the wrong programs the theorems were tested
against. The development lives in `rocq/theories`.

## How the model is built

* Go functions become total Gallina functions. Errors are values. A Go panic
  (nil dereference, failed type assertion, reflect misuse) is its own outcome
  `Panic`, so "does not crash" is a statement that can be proved or refuted.
* `any` values are modelled by an inductive type of Go dynamic values which keeps
  the static element type of slices and the nil/non-nil distinction, because
  `reflect` observes both.
* Recursion over the network is recursion on explicit fuel with a distinct
  out-of-fuel outcome; theorems either hold for every fuel or exclude that outcome.
* The network, signature verification, URL host extraction, the clock and hash functions
  are function arguments (oracles). Theorems quantify over all of them. No axioms are added.
* Map iteration order is explicit: a Go map is a duplicate-free association list
  in iteration order and theorems quantify over permutations of it.
* Concurrency is a transition system over explicit atomic steps; theorems quantify over all
  interleavings.
* Histories are lists of events; invariants are proved by induction over them.
* Every definition of the model cites the file and lines of `/repo` it models and says where it
  simplifies.

A property that is false of the code is kept as stated: `..._refuted` proves that a
counterexample exists, `..._partial` proves the strongest version found to hold, and the
manifest says "partial". Where it was useful a later property states exactly what does hold.

## Trusted base

* Coq's kernel (8.16.1, coqc, no plugins, no flags changed).
* `Print Assumptions` prints "Closed under the global context" for every property theorem: no
  axioms, neither of the standard library nor of this development. (The checker lists a
  few axioms of Coq.ssr.ssrunder because that standard library module is loaded; no theorem
  depends on them.)
* That the model does what the Go code does. It was written by reading the code; it was not run
  against it. The comments make the comparison possible line by line.
* The behaviour assumed of code outside the repository, listed under "Not modelled".

## File layout

| file | content |
|---|---|
| `Base.v`, `BaseFacts.v` | outcome type (Ok/Err/Panic), string maps, list lemmas |
| `GoVal.v` | Go dynamic values with static types and nil-ness, reflect.DeepEqual, internal/utils/slices.go |
| `Policy.v` | policyoperators.go, policyverifiers.go, metadataPolicy.go: merge, verify, apply, combine |
| `Schema.v` | field tables of the metadata structs (metadata.go, metadata_generated.go) |
| `Metadata.v` | applyPolicy, Metadata.ApplyPolicy, MergeMetadataPolicies, JSON and msgpack bookkeeping |
| `Chain.v` | trustchain.go, trustchainfilter.go |
| `Resolver.v` | trustresolver.go: resolve, verifySignatures, chains, constraints |
| `TrustMark.v` | trustmark.go and metadata_resolver.go: verification, delegation, issuing; local, remote and smart resolvers |
| `Refresher.v` | trustmark_refresher.go as goroutine machine |
| `FloatTime.v` | unixtime: JSON numbers as binary64 |
| `Json.v` | additional claims, resolve response, slice-or-single |
| `Cache.v` | cache/cache.go, cache/redis.go, statement cache and tree cache of trustresolver.go |
| `Discovery.v` | discovery.go: collectors, filters, UI infos, goroutine machine |
| `Leaf.v` | federation.go, authcode.go: request objects, authorization URL, code exchange, entity configuration |
| `Lookup.v` | Metadata.FindEntityMetadata, internal/utils/structs.go |
| `Alias.v` | policy combination and application over slice headers and backing arrays |
| `Spec*.v` | independent specifications used in theorem statements |
| `*Facts.v`, `*Laws.v` | proofs |
| `Witness*.v` | concrete cases: hypotheses of the theorems met, counterexamples |
| `Properties*.v` | the property theorems, each closed by `exact`, each followed by Print Assumptions |
| `MetaCache.v`, `ListCache.v` | TrustChain.Metadata with its cache; subordinate listings with theirs (discovery.go fetchList) |
| `Jwt.v`, `SpecJwt.v`, `JwtFacts.v` | symbolic JWS messages, typed signers (jwtsigning.go), internal/jwx/jws.go, KeyToJWKS |
| `SpecAuth.v`, `SpecMarkAuth.v`, `AuthFacts.v`, `MarkAuthFacts.v` | who signed what: authenticity of chains and trust marks against adversarial networks |
| `Config.v`, `SpecConfig.v`, `ConfigFacts.v` | YAML documents (TrustMarkSpec, durations, slice-or-single values, key sets), verified trust mark configurations, obtaining a mark |
| `Vectors.v`, `UnitTests.v` | tests of the model against the repository's own tests (not proofs): all 2019 policy test vectors (metadata-policy-test-vectors-2025-02-13.json) through both unit tests of metadataPolicy_test.go, and 164 of the 168 table cases for the operators and the registered policy verifiers (policyoperators_test.go, policyverifiers_test.go); the other four use struct values, which are not in the model |
| `Web.v`, `SpecWeb.v`, `WebFacts.v` | url.Parse and Hostname, request URLs and queries, use of replies |
| `Custom.v`, `SpecCustom.v`, `CustomFacts.v` | policies with operators and verifiers registered by the application |
| `SpecExact.v`, `ExactFacts.v`, `ListResultFacts.v`, `PossibleFacts.v` | equivalences: exactly which chains, metadata, policies, marks and answers |
| `SpecUnits` | lengths of time used in statements |
| `UrlFacts` | proofs for C100 on ordinary URLs |
| `SpecDecode` | what the members of a JSON object say (C117-C120) |
| `DecodeFacts`, `DecodeLaws`, `NoPanicFacts` | proofs for C117-C120 |
| `WitnessDecode`, `PropertiesDecode` | cases and theorems C117-C120 |
| `Statement` | decoding of entity statements, metadata, policies, constraints, trust mark issuers and owners, resolve responses: entitystatement.go, metadata.go, metadata_generated.go, metadataPolicy.go, trustresolver.go |
| `SpecStatement` | what the claims of statements and responses say (C121-C123) |
| `StatementFacts`, `StatementLaws`, `StatementChains` | proofs for C121-C123 |
| `WitnessStatement`, `PropertiesStatement` | cases and theorems C121-C123 |
| `SpecParameters` | table of the standard metadata parameters (C124) |
| `ParameterFacts` | proofs for C124 |
| `WitnessParameters`, `PropertiesParameters` | cases and theorems C124 |
| `Encode` | marshalling of metadata, policies, constraints and entity statements; signing |
| `SpecEncode` | what may be signed and what must be read back (C125) |
| `EncodeFacts`, `EncodeLaws` | proofs for C125 |
| `WitnessEncode`, `PropertiesEncode` | cases and theorems C125 |
| `SpecGeneral` | what it means to obey an entry with JSON operands; attribute kinds (C01, C08, C09, C126) |
| `GeneralFacts` | DeepEqual as equality of JSON values, the reflection helpers on elements, merging and applying arbitrary operands |
| `KindFacts` | value, default and one_of on attributes of each type |
| `WitnessGeneral`, `PropertiesGeneral` | cases and theorems C01_any, C08_any, C09_any, C126 |
| `ClaimFacts`, `WitnessClaims`, `PropertiesClaims` | claims collected over entity types (C127) |
| `Respond` | signing of resolve responses: trustresolver.go:41-125, jwtsigning.go:106-108 |
| `SpecRespond`, `RespondFacts`, `WitnessRespond`, `PropertiesRespond` | what readers of a signed resolve response find (C128) |
| `SpecRemote` | documents whose metadata survives being passed on (C129) |
| `TypedFacts`, `RemoteFacts` | policies keep types; from documents through resolution and signing to the client |
| `WitnessRemote`, `PropertiesRemote` | cases and theorems C129 |
| `SpecEndpoint` | texts at a path of member names; attributes by JSON name (C130) |
| `EndpointFacts` | Go field names and JSON names select the same attribute |
| `WitnessEndpoint`, `PropertiesEndpoint` | cases and theorems C130 |
| `SpecWritten` | when a member is stated; the attributes written without a value (C131) |
| `WrittenFacts` | members of written documents |
| `WitnessWritten`, `PropertiesWritten` | cases and theorems C131 |
| `Collection` | codec of collection responses, remote collectors over answer documents, filtering of nil entities |
| `SpecCollection` | what can be served and what the client reads (C132) |
| `CollectionFacts` | round trip of collections, what the collector makes can be served |
| `WitnessCollection`, `PropertiesCollection` | cases and theorems C132 |
| `Numbers` | number literals, their decoding into int64, float64 and time stamps, int64 conversion and overflow |
| `SpecNumbers` | exactness and tolerance (C133, C134) |
| `NumberFacts` | float64 rounding, exact integers, time windows |
| `WitnessNumbers`, `PropertiesNumbers` | cases and theorems C133, C134 |
| `Federation` | the network of a federation: raw JWTs, verification of raw JWTs, the world the resolver sees |
| `SpecFederation` | participants, what they publish, lines of superiors (C135) |
| `FederationFacts` | from published documents to chains and metadata |
| `WitnessFederation`, `PropertiesFederation` | a federation of three, theorems C135 |
| `SpecFedMark` | members, issued marks, delegations, permission to issue (C136) |
| `FedMarkFacts` | from issued marks to acceptance and reports |
| `WitnessFedMark`, `PropertiesFedMark` | a delegated mark in the federation of three, theorems C136 |
| `SpecSingle` | policies on single-valued attributes and their outcome (C137) |
| `SingleFacts`, `SingleLaws` | merging, verification and application on scalars |
| `WitnessSingle`, `PropertiesSingle` | cases, theorems C137 |
| `SpecCarried` | what collected entities carry (C138) |
| `CarriedFacts` | evaluation and collection |
| `WitnessCarried`, `PropertiesCarried` | cases, theorems C138 |
| `SpecFedCollect` | collecting a federation that uses the library (C139) |
| `FedCollectFacts` | composition of C60, C125, C135, C136, C138 |
| `WitnessFedCollect`, `PropertiesFedCollect` | cases, theorems C139 |
| `SpecFedLogin` | logins with providers of a federation (C140) |
| `FedLoginFacts` | composition of C12, C36, C65, C80, C135 |
| `WitnessFedLogin`, `PropertiesFedLogin` | cases, theorems C140 |
| `SpecFedKeep` | histories of kept trust marks (C141) |
| `FedKeepFacts` | composition of C98, C99, C136 |
| `WitnessFedKeep`, `PropertiesFedKeep` | cases, theorems C141 |
| `MockNet.v`, `ResolverTests.v`, `MarkTests.v`, `CodecTests.v` | tests of the model (not proofs): the repository's mock federation, published with the model's encoders, and on it the cases of trustresolver_test.go, trustchainfilter_test.go, trustchain_test.go, discovery_test.go; the cases of trustmark_test.go (without the one with literal ECDSA signatures), metadata_test.go, entitystatement_test.go (without MessagePack), sliceorsinglevalue_test.go and authcode_test.go. All of them pass on the model |
| `Steps` | the methods of a TrustResolver as calls on an object (C142) |
| `SpecSteps` | histories of calls on resolvers that share a cache |
| `StepsFacts` | the invariant |
| `WitnessSteps`, `PropertiesSteps` | cases, theorems C142 |
| `SpecFresh` | networks that change over time, resolvers behind the statement cache |
| `FreshFacts` | the composition of resolver and statement cache |
| `WitnessFresh`, `PropertiesFresh` | cases, theorems C143 |
| `SpecCrit`, `CritFacts`, `PropertiesCrit` | crit claims have no influence on resolution (C39) |
| `SpecTwice`, `TwiceFacts`, `WitnessTwice`, `PropertiesTwice` | applying a policy a second time to whole metadata (C11) |
| `SpecAnchors` | keys pinned for an anchor, chains clear of other anchors |
| `AnchorFacts` | resolution with different lists of anchors |
| `WitnessAnchors`, `PropertiesAnchors` | cases, theorems C144 |
| `Sort` | sort.Slice for any number of elements: pdqsort, heapsort, insertion sort (go1.24) |
| `SpecSort` | the position up to which scores fall |
| `SortFacts`, `SortLaws` | permutation, sorted input, the bound on the recursion; the chain local resolution uses |
| `WitnessSort`, `PropertiesSort` | cases, further theorems C34, C35 |
| `SpecExactList`, `ExactListFacts`, `PropertiesList` | the exact set of entries that have the specified effect on lists (C02) |
| `ExactConfigFacts` | exactly when a verified trust mark configuration crashes (C98) |
| `SpecBracket`, `BracketFacts` | URLs with IPv6 addresses or malformed ports (C100) |
| `SpecCalm`, `CalmFacts` | panics with registered operators (C106) and of the collection decoders (C117) |
| `SpecMonotone`, `MonotoneFacts`, `WitnessMonotone`, `PropertiesMonotone` | how the chains depend on what is served and on the time (C145, C146) |
| `TypeFilterFacts`, `WitnessTypeFilter`, `PropertiesTypeFilter` | what a type filter changes about resolution (C148) |
| `SpecSteady`, `SteadyFacts`, `WitnessSteady`, `PropertiesSteady` | collecting from a network that does not change (C149, C150) |
| `SpecFilter`, `FilterFacts`, `WitnessFilter`, `PropertiesFilter` | the order of filters, negative path lengths (C151, C33) |
| `SpecNull`, `NullFacts`, `WitnessNull`, `PropertiesNull` | null operands and the exact crashes of verified policies (C02, C03, C111) |
| `SpecListSet`, `ListSetFacts`, `WitnessListSet` | list attributes when policy operands repeat elements (C111) |
| `Requests`, `SpecRequests`, `RequestFacts`, `WitnessRequests`, `PropertiesRequests` | the requests a resolution makes (C152) |
| `SpecAsked`, `AskedFacts`, `WitnessAsked`, `PropertiesAsked` | which authorities a collection asks for their subordinates (C153) |
| `Traffic` | the HTTP requests that remain when the requests of a resolution go through the statement cache |
| `SpecTraffic`, `TrafficFacts`, `WitnessTraffic`, `PropertiesTraffic` | how often a server is asked (C154) |
| `NameQuery`, `SpecNames`, `NameFacts`, `WitnessNames`, `PropertiesNames` | what a name query finds (C155) |
| `Together`, `SpecTogether`, `TogetherFacts`, `PackFacts`, `WitnessTogether`, `PropertiesTogether` | calls and resolutions that run at the same time (C156, C157) |
| `SpecBusy`, `BusyFacts`, `LateFacts`, `WitnessBusy`, `PropertiesBusy` | requests and delays of calls that run at the same time (C158, C54) |
| `SpecChange`, `ChangeFacts`, `WitnessChange`, `PropertiesChange` | key rollover and other changes during resolution (C159) |
| `RedisTrafficFacts`, `WitnessRedisTraffic`, `PropertiesRedisTraffic` | C154 for redis |
| `MarkRequests`, `SpecMarkRequests`, `MarkRequestFacts`, `MarkRequestLaws`, `WitnessMarkRequests`, `PropertiesMarkRequests`, `SettledFacts` | whom the verification of trust marks and the resolution of metadata ask (C160, C161) |
| `SpecMarkChange`, `MarkChangeFacts`, `WitnessMarkChange`, `PropertiesMarkChange` | trust marks of issuers that change their keys (C162) |
| `Gen`, `SpecGen`, `GenFacts`, `WitnessGen`, `PropertiesGen` | the generator of the metadata types, internal/generators/metadata.go, and its input metadata_input.go (C163, C164) |
| `SpecSmartRequests`, `SmartRequestFacts`, `WitnessSmartRequests`, `PropertiesSmartRequests` | the same with the smart resolver as the default (C160) |
| `MarkSpecJson`, `SpecMarkSpec`, `MarkSpecFacts`, `WitnessMarkSpec`, `PropertiesMarkSpec` | trust mark specifications in JSON (C165) |
| `SpecMarkDefault`, `MarkDefaultFacts`, `WitnessMarkDefault`, `PropertiesMarkDefault` | acceptance of trust marks with a remote resolver as the default (C40, C94) |
| `SpecMarkReturns`, `MarkReturnFacts`, `WitnessMarkReturns`, `PropertiesMarkReturns` | end of trust mark verification and reported marks with a remote resolver as the default (C72, C40, C41) |
| `RepeatFacts`, `PropertiesRepeat` | value and default operands with repeated elements (C09) |
| `SpecTree`, `TreeFacts`, `WitnessTree`, `PropertiesTree` | how often entities are looked at; federations in which nobody has two superiors (C153, C166) |
| `SpecLine`, `LineFacts`, `RaceFacts`, `WitnessLine`, `WitnessRace`, `PropertiesLine` | federations in which no authority has two subordinate authorities (C76, C153) |
| `ErrorReply`, `SpecErrorReply`, `ErrorReplyFacts`, `WitnessErrorReply`, `PropertiesErrorReply` | error.go and what a client of a resolve endpoint makes of error replies (C167) |
| `ListReply`, `SpecListReply`, `ListReplyFacts`, `WitnessListReply`, `DocumentReplyFacts`, `PropertiesListReply` | HTTP replies of list endpoints and with documents (C89, C104) |
| `SmartPossibleFacts`, `PropertiesSmartPossible` | ResolvePossible of the smart resolver (C115) |
| `DiamondFacts`, `CompletionFacts`, `WitnessDiamond`, `WitnessCompletion`, `PropertiesDiamond` | federations in which entities have two superiors (C61, C153, C166) |
| `DefaultChecks`, `SpecDefault`, `DefaultFacts`, `DefaultMore`, `WitnessDefault`, `PropertiesDefault` | the unregistered verifiers for default, defaults that the same entry forbids (C168) |
| `SpecDeep`, `DeepRaceFacts`, `DeepDiamondFacts`, `WitnessDeep`, `WitnessDeepDiamond`, `PropertiesDeep` | races and repeated requests below an authority at any depth (C76, C153) |

## Per property

| id | title | modelled and proved how | status |
|---|---|---|---|
| C01 | Merging never relaxes a superior's policy | entries over string operands; induction over the operator pipeline; "satisfies" is a predicate over lists of strings (SpecPolicy.v) | partial |
| C02 | Each operator has its specified effect on list attributes | refinement of ApplyTo on Go values to a function on `option (list string)` written from the operator table | partial |
| C03 | Applying a policy never crashes the caller | panics are outcomes; typing invariant of applyPolicy; witness for the refutation | partial |
| C04 | Verifying a policy never crashes the caller | as C03 for the verifiers | partial |
| C05 | Combined policies are always verified | induction over the policy list | partial |
| C06 | Unknown non-critical operators are ignored | entries with and without the unknown operators compared (strip) | partial |
| C07 | Policy results do not depend on Go map iteration order | association lists up to Permutation | partial |
| C08 | Merging is symmetric and associative up to element order | laws of union, intersection and equality of lists | partial |
| C09 | Conflicting value/default operands are rejected | as C08 | partial |
| C10 | essential is enforced | per attribute type; `there` is what the code can see of presence | partial |
| C11 | Policy application is idempotent | algebra of the specification function of C02 | partial |
| C12 | Policies touch only the attributes they name | struct = table of tagged fields (Schema.v, copied from the Go structs); frame lemma | partial |
| C13 | Policies on attributes unknown to the library are enforced | as C12 | partial |
| C14 | scope is treated as a list of scopes | as C12 | partial |
| C15 | Critical operators that are not understood make the chain unusable | model of TrustChain.Metadata | partial |
| C16 | Chain metadata is the leaf metadata with all policies of the chain applied, per entity type | as C15, in both directions | proved |
| C17 | Policies for entity types unknown to the library survive JSON | JSON objects as association lists; decoder of metadata_policy | partial |
| C18 | Caching does not change policy results | set-bookkeeping of the JSON and msgpack codecs per field type | partial |
| C19 | Every returned chain is anchored and signed | induction on the resolution tree, network and signatures as arbitrary functions | partial |
| C20 | Chains are linked by issuer and subject | same model as the preceding ones | partial |
| C21 | All statements of a returned chain are time-valid | same model as the preceding ones | partial |
| C22 | A returned chain is about the requested entity | same model as the preceding ones | partial |
| C23 | Chains are loop free | same model as the preceding ones | partial |
| C24 | max_path_length constraints are enforced on every chain | same model as the preceding ones | proved |
| C25 | naming constraints are enforced on every chain | same model as the preceding ones | partial |
| C26 | allowed_entity_types constraints are enforced on every chain | same model as the preceding ones | partial |
| C27 | Resolution is complete | induction on paths against an independent definition of valid path | proved |
| C28 | Resolution terminates | fuel bound from the number of entities named by the network; infinite tower as witness | partial |
| C29 | Authorities are independent | chains distribute over hints | partial |
| C30 | Resolution never crashes | panic outcome of resolution characterised | partial |
| C31 | Cached trust trees and chains expire with their statements | expiry bookkeeping in cached trees, both cache backends | partial |
| C32 | Chain expiration is the earliest statement expiration | fold over lists | proved |
| C33 | Path length filters are exact | list predicates | partial |
| C34 | SortAsc and SortDesc sort | insertion sort as in sort.Slice for up to 12 elements (Chain.v), the whole of sort.Slice for any number (Sort.v); permutation for arbitrary swap sequences; invariant on the first element for insertion sort | partial |
| C35 | Local resolution uses the shortest chain with valid metadata | front end over the resolver model | partial |
| C36 | Pinned trust anchor keys are used when a leaf resolves an OP | as C35 | partial |
| C37 | Remote resolution falls back to local resolution | endpoint answers as arbitrary functions | partial |
| C38 | Remote resolve responses are authenticated | as C37 | partial |
| C39 | Statements with not-understood critical claims are rejected | witness over the resolver model; CritFacts.v: the resolver run on a network with other crit claims gives the same chains (simulation) | partial |
| C40 | A trust mark is accepted exactly under the specified conditions | trust mark verification with signature and clock oracles, iff against an independent condition | partial |
| C41 | A trust mark counts only for its subject | same model as the preceding ones | partial |
| C42 | Lists of verified trust marks are exact | same model as the preceding ones | proved |
| C43 | Issued trust marks verify until they expire | issuing with the float64 time stamps of Time/FloatTime | partial |
| C44 | Delegations live as long as requested | same model as the preceding ones | partial |
| C45 | The refresher only serves live trust marks | goroutine step machine over arbitrary interleavings (Refresher.v), invariants | partial |
| C46 | The trust mark endpoint is asked at most once a minute | same model as the preceding ones | partial |
| C47 | A held trust mark stays in the entity configuration | same model as the preceding ones | partial |
| C48 | Time window checks are exact | integers (ns since 1970) | partial |
| C49 | Statements without expiration are rejected | same model as the preceding ones | partial |
| C50 | Time stamps survive JSON | own model of binary64 rounding over Z/Q (FloatTime.v) | partial |
| C51 | Durations survive JSON | same model as the preceding ones | partial |
| C52 | Cache keys never collide | base64 over bytes modelled and proved injective | partial |
| C53 | The in-memory cache returns the last live value | cache as timed map, histories of events | partial |
| C54 | Cached entity statements are never served after their expiration | histories on top of C53 | partial |
| C55 | Cached statements are refreshed as documented | condition of the code against the documented one | partial |
| C56 | Unknown JSON claims are preserved | struct table and JSON objects | partial |
| C57 | Resolve responses survive JSON | as C56 | partial |
| C58 | Slice-or-single values survive JSON | as C56 | partial |
| C59 | Entity collection returns every entity once | goroutine machine of the collector with nested calls, visited sets, semaphores; invariants over all interleavings | proved |
| C60 | Entity collection is sound and complete | same model as the preceding ones | proved |
| C61 | Entity collection terminates | well-founded measure; progress lemma | proved |
| C62 | Collection filters are exact | same model as the preceding ones | proved |
| C63 | UI infos are filled | field table of UIInfo | partial |
| C64 | Request objects carry exactly the mandated claims | claim maps | proved |
| C65 | Callers cannot override protocol parameters | query encoding read back by an independent decoder | proved |
| C66 | Caller data is not modified | maps passed by reference returned explicitly | partial |
| C67 | Authorization endpoint query parameters are retained | same model as the preceding ones | partial |
| C68 | Entity configurations are self-issued and live | int64 arithmetic with wrap-around | partial |
| C69 | Entity metadata lookup fills the caller's object | struct table | partial |
| C70 | Type filters keep exactly the requested metadata | same model as the preceding ones | proved |
| C71 | Results for different chains are independent | heap of backing arrays with capacities (Alias.v) | partial |
| C72 | Verifying a trust mark returns | same model as the preceding ones | partial |
| C73 | A delegation is accepted only from the owner of the type | same model as the preceding ones | partial |
| C74 | Cached trust chains belong to the configured anchor keys | same model as the preceding ones | partial |
| C75 | Cached statements are those of the requested entities | same model as the preceding ones | proved |
| C76 | Entity collection is free of data races | same model as the preceding ones | partial |
| C77 | OP filters recognise OPs | same model as the preceding ones | partial |
| C78 | The smart collector asks the anchors in turn | same model as the preceding ones | proved |
| C79 | Parameter values cannot inject parameters | same model as the preceding ones | proved |
| C80 | Client assertions identify the client to the token endpoint | same model as the preceding ones | proved |
| C81 | A token response is reported only if tokens were issued | same model as the preceding ones | partial |
| C82 | Starting a login never crashes | same model as the preceding ones | partial |
| C83 | Computing metadata never changes a statement | simulation between the heap model and the value model | proved |
| C84 | Chain metadata does not depend on earlier computations | as C83 | proved |
| C85 | Cached metadata belongs to the chain | MetaCache.v: TrustChain.Metadata with its cache; invariant over histories: every entry under a key of this cache was stored by a call | proved |
| C86 | Cached metadata is not used after the chain has expired | as C85, with the expiration of the entry | partial |
| C87 | The metadata of a chain does not depend on what was cached | as C85, and chain_metadata commutes with the msgpack round trip on cache_safe chains (via C18's lemma) | partial |
| C88 | Listings come from the endpoint asked, and are at most an hour old | ListCache.v: fetchList with its cache and the replies resty distinguishes; invariant over histories | proved |
| C89 | A failing list endpoint is not an empty listing | as C88 | partial |
| C90 | Outsiders cannot forge trust chains | AuthFacts.v: induction from the anchor downwards over signed_chain; idealised signatures as hypotheses (owner of a key, who signed what) | partial |
| C91 | A JWT of one kind is never taken for another | Jwt.v: symbolic JWS with several signatures; case analysis on the signature that verifies; counterexample with two signatures, also run through the trust mark model | partial |
| C92 | What a signer signs, its published keys verify | Jwt.v: signers, kid selection | proved |
| C93 | A missing signing key is reported as an error | Jwt.v | partial |
| C94 | Outsiders cannot forge trust marks | MarkAuthFacts.v: C40 and C90 combined | partial |
| C95 | Trust mark specifications survive YAML | Config.v: YAML nodes; induction over the members of a mapping | partial |
| C96 | Issued trust marks live as long as the configuration document says | Config.v, TrustMark.v: composition of decoding and issuing; rational arithmetic | partial |
| C97 | Key sets survive JSON, YAML and the cache | Config.v: jwk.Set abstracted as a codec (hypothesis: it survives its own JSON) | partial |
| C98 | A verified trust mark configuration can be used | Config.v: sequential TrustMarkJWT; invariant over histories | partial |
| C99 | The refreshed trust mark is the one that was asked for | Config.v: obtain; C43 for self-issued marks | partial |
| C100 | The host naming constraints are checked against is the host that is contacted | Web.v: url.Parse and Hostname on strings; induction over the parts of a URL | proved |
| C101 | Naming constraints hold for domain names label by label and whatever the case of letters | Web.v, C25; list of labels against suffix of the string | partial |
| C102 | Different entities have different configuration URLs | Web.v: induction over strings | partial |
| C103 | Requests ask exactly for what the caller wants | Web.v: resty's query, go-querystring's names; C65's lemmas on encoding | partial |
| C104 | Documents are only taken from successful responses | Web.v: http_get; case analysis | partial |
| C105 | Accepted policy entries can be met | Policy.v; decision table of all verifiers against a record of pairwise conditions | partial |
| C106 | Registered operators are enforced | Custom.v: registry of operators as a parameter; induction over OperatorOrder and over entries; Policy.v as the special case | partial |
| C107 | Registered verifiers and combination lists decide what is accepted | Custom.v: as C106 | partial |
| C108 | Resolution returns exactly the trust chains that exist | Resolver.v; C27 and the two one-statement cases, against the path specification of SpecResolver.v | proved |
| C109 | A chain through superiors is trustworthy in every respect | Resolver.v; conjunction of the invariants of the tree | proved |
| C110 | The metadata of a chain is exactly what its policies make of the subject's | Chain.v, Metadata.v; both directions by evaluation of MergeMetadataPolicies and ApplyPolicy per entity type | proved |
| C111 | A list attribute resolves to what the operator table makes of it | Chain.v; merge of denoted entries by induction over the chain, then C02 | partial |
| C112 | Superiors that fix different values make the chain unusable | Chain.v; invariant on the value operand by induction over the chain | proved |
| C113 | A policy is accepted exactly if the operands of every attribute agree | Policy.v; induction over the policy, C105 | proved |
| C114 | With keys from elsewhere a trust mark is accepted exactly if it is valid | TrustMark.v | proved |
| C115 | ResolvePossible agrees with Resolve | TrustMark.v; case analysis over resolvers and answers | partial |
| C116 | Exactly the answers that are resolve responses are taken from a remote resolver | TrustMark.v | proved |
| C117 | Malformed documents are reported as errors | Case analysis of each decoder; inductions over members and elements. | proved |
| C118 | A code exchange reports what the token endpoint answered | The generic decoder assigns each field the fold of its codec over the members with its name (induction over members); instantiated for both response types. | proved |
| C119 | Trust marks and delegations say what their claims say | The same generic theorem for the fields of marks, delegations and infos. | proved |
| C120 | Issued trust marks and delegations carry the standard claims | Lookup in the encoded fields and in the overlay of additional claims. | proved |
| C121 | Entity statements and resolve responses say what their claims say | Generic decoder (each field is the fold of its codec over the members of its name) instantiated for all structs; induction over JSON values for interface{} targets and attribute types. | proved |
| C122 | Resolved metadata is what signed documents say | Instance of C90 for the world whose statements are the parsed bodies. | partial |
| C123 | An attribute counts as set exactly if the metadata states it | Shape of the decoded metadata; counterexample by computation. | partial |
| C124 | Standard metadata parameters are understood and subject to policies | Instance of C121 for each row of the table of standard parameters; the table is compared with the field tables by computation. | partial |
| C125 | A signed entity statement is read as it was written | Encode.v models the MarshalJSON methods over the field tables used for decoding; by induction over the tables and values each field is decoded to what was encoded, then the parts are composed; signature by C92. | partial |
| C126 | Policies work for attributes of every JSON type | KindFacts.v: a policy on one attribute is one application of apply_field (tags are unique per schema); by cases on the attribute type. | partial |
| C127 | Claims are collected over all entity types | ClaimFacts.v: tags are unique per schema, so the first field with the tag and kind string is the attribute, if it is a text. | partial |
| C128 | A signed resolve response is read as it was written | RespondFacts.v: the members of payload, additional claims and own claims do not overlap, so the document is their concatenation; field-wise decoding of what was encoded (EncodeFacts.v) and parsing with the type header (JwtFacts.v). | partial |
| C129 | A client of a resolver gets the metadata the resolver has resolved | TypedFacts.v: operands decoded from JSON or merged from such, and values of their own type, are closed under merging and applying. RemoteFacts.v: so policies keep attribute types; decoded tidy documents give such metadata and policies; then C128. | partial |
| C130 | Requests go to the endpoints an entity states under the standard names | EndpointFacts.v: in each schema a Go field name and its JSON name select the same row (decided by computation); then es_attributes of C121. | proved |
| C131 | Written documents state what is set and nothing else | WrittenFacts.v: lookup in the fields written before additional members, which have other names; per struct by its field table. | partial |
| C132 | A collection that is served is read as it was collected | CollectionFacts.v: members with distinct names decode one by one (dec_members), so that additional claims named like fields end up in these fields; the rest by the lemmas on struct codecs. | partial |
| C133 | Numbers in documents keep their value | NumberFacts.v: round64 is a complete float64 rounding (subnormals, overflow) over exact rationals; error bound, exactness on short numbers and the overflow threshold by properties of nearest and magnitude. | partial |
| C134 | A document is accepted only between the instants its claims state | NumberFacts.v: int64 conversion per processor and the wrap-around in time.Unix; in range the stamp equals decode_time, whose error is bounded; out of range it is below -2^62 seconds. | partial |
| C135 | A federation run with this library is resolved by this library | FederationFacts.v: by induction along the line, the signing and parsing round trip (C125) gives the statements the resolver sees, which form a signed path (C27), so that the chain is found; its metadata by C110 with the policies as read. | proved |
| C136 | Trust marks issued in a federation are accepted by its members | FedMarkFacts.v: the marks and delegations decode to what was issued (C43) and verify under the signer's keys, the issuer's keys are found along the line (C135), so the mark is recognised in the sense of C40; for the report, verification does not depend on fuel and the last statement of the chain is a configuration of the anchor. | proved |
| C137 | A single-valued attribute resolves to what the operator table makes of it | SingleFacts.v: merging, verification and application computed on entries with scalar operands, with the meaning of a combination (what is fixes, offers, restricts, requires) kept invariant; SingleLaws.v: over chains (as C111), and the converse for policies on this attribute alone. | partial |
| C138 | A collected entity carries what was asked for and nothing else | CarriedFacts.v: the parts of the evaluation of one entity (Discovery.v), lifted to every returned entity by the invariant of the goroutine machine (C60); chains by C35, marks by C42. | proved |
| C139 | A federation run with this library is collected completely | FedCollectFacts.v: configurations and names are read as written (C125), so list endpoints are found and filters pass; trust marks by C136 and the determinism of verification; then C60, C135 and C138. | proved |
| C140 | A login with a provider of the federation reaches that provider | FedLoginFacts.v: the configuration restricted to the provider metadata is the configuration of a participant that has only this metadata, so C135's path construction applies with requested types; attributes no policy is about survive the combined policy (C12); then C36, C65 and C80. | proved |
| C141 | The trust marks a member keeps are accepted by the others | FedKeepFacts.v: invariant over the history - the kept JWT is empty or was issued by the issuer at a time not later than now, and the kept expiration is at most its own (plus rounding) -, so a kept mark outlives the minimal lifetime; the endpoint is the one in the issuer's configuration (C135's reading of configurations); then C136. | proved |
| C142 | The steps of a resolver can be called one by one, and again | Steps.v: a resolver as an object with its tree and the flag signaturesVerified; StepsFacts.v: invariant over the histories of all resolvers - the in-memory cache never holds a tree or chains, the tree of a resolver is that of one of its resolutions, verified if the last changing call verified; verification is idempotent. | partial |
| C143 | Changes take effect at the latest when the statements before them expire | SpecFresh.v: a network as a relation between times and answers, a resolver whose every request goes through the statement cache after its own history; FreshFacts.v: every statement of a chain is the answer to a request (path_up), and by C54/C75 was served after the change or before it and has not expired. | partial |
| C144 | Trust anchors are independent of each other | SpecAnchors.v: keys pinned for an entity, the entity a chain leads to, the entities below it; AnchorFacts.v: the exact characterisation of the chains (C108), by induction on the path; resolve and verifySignatures depend on the list of anchors only through the pinned keys. | partial |
| C145 | Failing servers and further constraints only take chains away | a relation between two networks; monotonicity of the declarative characterisation of chains (C108), and induction over the resolver for termination | proved |
| C146 | A chain is found until the time at which it says it expires | networks that do not change, looked at at different times; C108 and induction over paths | partial |
| C147 | A chain depends only on the entities it passes | two networks that agree on the entities of the chain; C108 and induction over paths | proved |
| C148 | Asking for some entity types only hides the others | C108, monotonicity of constraints in the subject's types, and commutation of policy application with the restriction of metadata | partial |
| C149 | What is collected does not depend on scheduling | soundness and completeness of collection (C60) for networks that do not change, and uniqueness of entities (C59) | proved |
| C150 | Narrower requests collect no more | soundness for the narrower request, completeness for the wider one (C60), and monotonicity of the filters | proved |
| C151 | Filters may be given in any order | filters keep the chains with a property, in order; such filters commute | partial |
| C152 | Resolution asks only where the entity leads | Requests.v is the sequence of calls of GetEntityConfiguration and FetchEntityStatement that trustTree.resolve makes, read off the same lines as Resolver.v. Exactness by induction over the tree against an inductive specification of the entities that are reached; that the trace misses nothing the result depends on is C152_answers; the lower bound is an induction over a family of ladder-shaped federations. | partial |
| C153 | A collection asks every authority once | Over the step machine of C59-C61: the authorities asked so far together with the goroutines about to ask are a permutation of the set of visited entities; schedules that keep the two accesses to that set together keep it free of repetitions. | partial |
| C154 | A resolution bothers every server once | The requests of Requests.v are run through the statement cache of Cache.v; an answer stays among the first entries of the list that models gocache, so it is neither evicted nor expired when it is asked for again; with redis it stays, rounded to milliseconds. The linear bound counts the keys. The refutation reuses the ladder of C152 and shows that the cache sees the same network. | partial |
| C155 | A name query finds exactly the entities whose names contain its characters in order | the greedy loop of fuzzysearch succeeds exactly if the query is a subsequence; the collection theorems of C59 and C149 do the rest | proved |
| C156 | Resolutions that run at the same time do not affect each other | a machine of goroutines whose steps are cache accesses, clock readings and requests; an invariant says where the statements in the cache and in the hands of goroutines come from; the resolver commutes with the cache's encoding of statements | proved |
| C157 | Once a newer statement has been used no older one is used again | an invariant bounds what is in the cache and on its way into it from below by what has been returned; a concrete schedule refutes the general statement | partial |
| C158 | A statement is requested once for all the calls that need it | a potential that counts the goroutines that may still send a request; an invariant for a cached statement that is not due; schedules of every length that refute the rest. C54 for calls that run at the same time: an invariant about when the goroutines made their last steps | partial |
| C159 | Keys and statements can be replaced without interruption | what a call returns is in circulation (C54); a path along the way is built hop by hop from whatever is returned, and complete resolution (C27) finds it | proved |
| C160 | A trust mark cannot make its verifier contact arbitrary hosts | MarkRequests.v gives the requests of every function of trustmark.go and metadata_resolver.go, next to the functions in TrustMark.v; completeness is proved by comparing two environments that agree on the answers to them; the requests of the local resolution are those of C152. | partial |
| C161 | When a resolver answers nobody else is asked | as C160; the loop over the anchors ends at the first usable answer, by induction | proved |
| C162 | A trust mark stays accepted while its issuer and its superiors replace keys and statements | as C159, which gives a chain; the issuer's keys are read from the JWT at the end of the first chain, a configuration of the issuer in circulation; with C40's description of what is then checked | proved |
| C163 | Generated metadata types have exactly the declared claims | Gen.v models the generator on declarations instead of text; the loops are folded over the flattened fields, with an invariant on the names seen; reflect's panics as a function of kinds | partial |
| C164 | Regenerating the metadata types reproduces them | invariant of the loop over the declarations: the map holds the last struct of each name | partial |
| C165 | Trust mark specifications survive JSON and say the same there as in YAML | MarkSpecJson.v gives the field table of TrustMarkSpec with codecs for durations and booleans; round trip from C56; agreement with the YAML model of Config.v by induction over the members | partial |
| C166 | A collection looks at every entity once | the executions of Discovery.v with the entities looked at; accounting of the entities listed, waiting and looked at through every step, as permutations; in trees what is newly listed is new, by induction over the execution | partial |
| C167 | Errors of the library keep their meaning on the way to a client | ErrorReply.v models error.go, the decoding into HttpError and http.Get; the replies are fed to the resolver of TrustMark.v. Induction over the members of the object. | partial |
| C168 | An accepted policy gives the default it offers | DefaultChecks.v models the three verifiers whose registration is commented out. From the exact effect of an entry on a list attribute (C02_list_exact); text attributes by evaluation of the operators in order. | partial |

## Findings

What the refutation theorems show about the code (theorem in parentheses):

* A list attribute that is absent passes `essential` (C01_refuted_essential, C02_refuted, C10_refuted_absent); a present `false`, `0` or empty string fails it (C10_refuted_present).
* `value`/`default` operands are compared by containment of the first in the second with equal length, so [a,a] and [a,b] count as equal (C09_refuted, C01_refuted_duplicates, C08_refuted).
* An unknown operator occurring in both merged entries drops the whole entry, restrictions included, and with Go's random map order only sometimes (C06_refuted_merge, C07_refuted). An unknown operator beside a known one makes Verify fail (C06_refuted_verify, C06_verify_exact).
* JSON numbers are float64 and cannot be assigned to int64 attributes: applying a policy to them panics, as does a scalar for a list attribute (C03_refuted). `null` operands panic in Verify (C04_refuted).
* CombineMetadataPolicy returns an unverified policy if the first one is empty (C05_refuted).
* Policies on attributes without a struct field are silently ignored (C13_refuted); a policy entry named `-` replaces all additional claims (C12_refuted); `scope` is not split before operators are applied (C14_refuted).
* metadata_policy_crit is not looked at for chains of one statement (C15_refuted).
* metadata_policy with an additional entity type can never be decoded (C17_always_fails).
* Cached metadata loses which attributes were set: `default` has no effect after caching (C18_refuted, C18_refuted_alias).
* A starting entity without authority hints, or one that is itself an anchor, is returned as a chain of one statement whose signature, time window, subject and anchor are not checked (C19_refuted to C23_refuted, C25_refuted).
* The starting entity's configuration is never checked for expiry nor for naming the requested entity (C21_refuted, C22_refuted).
* allowed_entity_types does not see additional entity types (C26_refuted). Host names in naming constraints are compared case-sensitively.
* An endless tower of superiors is followed for ever (C28_refuted, C29_refuted). Statements without metadata panic (C30_refuted).
* Trust trees are cached with the zero expiration time: never in memory, for ever in redis, where expired chains are then served (C31_refuted_memory, C31_redis_forever), and under a key that ignores the anchors' keys (C74_refuted).
* SortAsc/SortDesc do not sort three or more chains, because scores are not moved with the elements (C34_refuted); the shortest chain is therefore not always used (C35_refuted).
* FederationLeaf.ResolveOPMetadata drops the configured anchor keys (C36_keys_ignored).
* Resolve responses are accepted unsigned and for any subject (C38_unverified); ResolvePossible trusts unreachable endpoints (C37_refuted).
* `crit` of entity statements is never examined (C39_refuted).
* Trust marks of issuers without authority hints are accepted without a chain to the anchor (C40_refuted_unanchored); the subject of a mark is never compared with its bearer (C41_refuted); the issuer of a delegation is never compared with the owner (C73_refuted); a nil key set of the issuer panics and the smart resolver may recurse without end (C72_refuted_panic, C72_refuted_diverges). An empty trust_mark_issuers list for a type rejects every issuer.
* Additional claims configured for a trust mark replace its own claims (C43_refuted_extra); time stamps are rounded as float64 (C43_refuted_rounding, C50_*). The expiry of delegations depends on the configured lifetime even if another one is passed (C44_refuted_no_expiry).
* Refresher: data races on the stored mark and on the time of the last attempt (C45_refuted, C46_refuted_race); marks without exp are dropped from the entity configuration (C47_refuted).
* A statement without exp is valid for ever (C49_refuted); a time stamp equal to Go's zero time counts as absent (C48_refuted).
* Cache: a duration of -1ns never expires (C53_refuted_never), redis keeps entries with negative duration for ever (C54_refuted_redis), the refresh condition is inverted with respect to the documentation (C55_refuted).
* JSON: additional claims override known ones (C56_override_refuted); resolve responses lose iss, sub, iat, exp, aud (C57_always_lost); a nil SliceOrSingleValue becomes a list with one zero value (C58_nil_refuted). An additional claim named like a Go field marks that field as set.
* UI infos are never filled, keywords never reported (C63_never_filled_refuted); the set of visited entities is shared between goroutines without lock (C76_refuted); the OP filter depends on the requested claims (C77_refuted). The limit and from parameters of a collection request are ignored; the limit of 128 workers is per nested call; an infinite federation is collected without end (C61_endless).
* RequestObject and CodeExchange write into the caller's map (C66_refuted_*); the query of the authorization endpoint is dropped (C67_refuted); a lifetime above 9223372036 s overflows (C68_refuted); `{}` is taken for a token response (C81_refuted); an entity without OP metadata makes GetAuthorizationURL and CodeExchange panic (C82_refuted). The response body of the token endpoint is never closed and its status not looked at.
* FindEntityMetadata reports success without filling the object for every type the library has a struct for (C69_known_never_filled).
* reflect.Append extends lists of decoded statements in place, so results of computations that share a statement can change afterwards (C71_refuted); the statements themselves never change (C83).
* The key of the metadata cache does not cover which attributes were set: the same chain, once from the statement cache and once decoded freshly, has one entry but two results (C87_refuted). Metadata of an expired chain stays in redis forever (C86_refuted_redis).
* A reply of a list endpoint that is neither a listing nor an OAuth error object, such as a proxy's error page, is taken for an empty listing and cached for an hour (C89_refuted).
* VerifyType looks at the first signature of a JWS only, jws.Verify accepts the message if any signature verifies. In JSON serialization an attacker can therefore choose the typ of a JWT somebody else has signed; e.g. a trust mark delegation passes as a trust mark of the owner for the delegate (C91_refuted_mark).
* GeneralJWTSigner.JWT reports a nil key, JWKS and NewFederationEntity panic on it (C93_refuted).
* A trust mark lifetime below one second in a configuration document is read as 0, which means no expiration (C96_refuted).
* EntityConfigurationTrustMarkConfig.Verify accepts self_issued with a trust_mark_jwt without building the own issuer; with refresh the first refresh dereferences nil (C98_refuted).
* The refresher publishes whatever JWT with typ trust-mark+jwt the endpoint returns: type, subject, issuer, signature and expiration are not looked at (C99_refuted).
* An empty JWKS is decoded as a nil set (C97_refuted).
* Naming constraints are compared case-sensitively: https://leaf.EVIL.example passes the excluded name .evil.example (C101_refuted).
* EntityCollectionRequest.NameQuery has no url tag: SimpleRemoteEntityCollector sends the name query as NameQuery, which the endpoint ignores (C103_refuted).
* An entity configuration served with status 404 or 500 is accepted (C104_refuted).
* An endpoint URL with its own sub parameter leads to requests with two subjects (C103_refuted_own).
* An entry with value [a] and one_of [b], or value [a] and superset_of [b], is accepted by Verify although no attribute value meets it (C105_refuted, C105_refuted_superset): the verifiers for these pairs are not registered.
* A custom operator cannot be combined with any built-in operator other than essential, whatever its MayCombineWith says, as the built-in operators' lists do not name it (C107_never_combines_refuted).
* A name added to OperatorOrder without registering an operator counts as understood; merging two entries with it yields an entry without restrictions (C106_refuted_merge).
* SmartRemoteMetadataResolver.ResolvePossible reports (false, true) for an entity its Resolve succeeds on, when the anchor's resolve endpoint cannot be reached (C115_refuted).
* C123: fromPointers marks the names of additional members as set under the same map as Go field names (metadata_generated.go:103-105). Metadata with an additional member "ClientName" makes client_name count as set although it is absent, so a default in a superior's policy is not applied.
* C124: metadata_input.go:45-47,101-109 name the algorithm parameters of requests and of providers differently from the standards; claim_types_supported (providers) the DPoP parameters (RFC 9449), frontchannel_logout_session_supported, the CIBA parameters of clients and four RFC 9728 parameters of protected resources have no field. Since policies on unknown attributes have no effect (C13), a superior cannot restrict e.g. id_token_signing_alg_values_supported or request_object_signing_alg.
* C125: constraints.AllowedEntityTypes and NamingConstraints.Permitted are tagged omitempty, so an empty list (only federation_entity allowed, no name permitted) is not written: a superior that means to forbid everything forbids nothing. MetadataPolicies.Extra is written but UnmarshalJSON rejects any policy under an unknown entity type (C17), so such statements make every chain through them fail.
* C126: default_max_age, client_id_issued_at, client_secret_expires_at, mtls_endpoint_aliases, request_authentication_methods_supported and jwks cannot be subject to value or default: any such policy of any superior, or of the trust anchor, makes the resolving process panic.
* C127: IterateStringSliceClaim (metadata.go:137) tests for reflect.String instead of reflect.Slice: list claims are never reported, text claims panic.
* C128: a resolve response with an empty payload (no metadata, marks, chain, additional claims) cannot be marshalled: ResolveResponse.MarshalJSON joins "{" and ",\"iss\"..." (trustresolver.go:76-77).
* C129: policy bypass through resolvers. unmarshalWithExtra (entitystatement.go:136-152) removes known member names from Extra by exact comparison, while encoding/json matches them regardless of case. {"Grant_Types": ["password"]} is both the attribute and an additional member; a policy (subset_of, value: null) that empties the attribute makes it omitted when written, so the resolve response states only Grant_Types, which clients read as grant_types.
* C131: nine metadata attributes have no omitempty. A relying party without client_registration_types, or an OAuth authorization server, which has no subject_types_supported, is published and resolved with null members; a missing token_endpoint becomes "" and counts as set for policies of whoever reads the document.
* C132: the answer {"federation_entities":[null]} of a collection endpoint crashes a client that uses FilterableVerifiedChainsEntityCollector with a remote collector: EntityCollectionFilterVerifiedChains reads e.EntityID of a nil entity, while all other filters check for nil.
* C132: the metadata of a CollectedEntity is an unexported field. A client that requests the claim metadata from a collection endpoint never receives it, and its filters resolve it anew.
* C132: if nothing was collected, federation_entities is null (required to be an array) and SmartRemoteEntityCollector asks the next anchor and finally collects locally, as if the endpoint had failed.
* C133: numbers in additional claims pass through float64: integers above 2^53 are silently rounded when a document is read and written again. Integer attributes written as 1.0 or 1e2 (valid JSON for an integer) make the whole document unreadable.
* C134: iat = 1e19 is read as a date in the distant past (overflow of int64), so that the check for statements from the future passes; exp = 1e19 makes a document expired for ever.
* C142: With redis, calling Resolve and then Chains on a TrustResolver without VerifySignatures in between stores unverified chains in the cache without expiration, under the key that ResolveToValidChains of every other resolver for the same entity and anchors reads first: forged chains are returned as verified ones. A TrustResolver that is used a second time while the configuration of its starting entity cannot be obtained keeps its old tree and returns the old chains, expired or not.
* C143: With redis a subordinate statement without exp stays in the cache, and in chains, after the superior has withdrawn it.
* C144: Resolution stops at the first anchor it meets. Configuring an intermediate as a further anchor removes all chains through it to the anchor above it; if the keys pinned for the intermediate are outdated, entities that were resolvable before no longer are.
* C146: The expiration of a chain (TrustChain.ExpiresAt) does not take the entity configurations of intermediates into account, although resolution checks them: such a chain can disappear before the time it names. Conversely the subject's own configuration is counted but not checked, so that chains are found after their expiration.
* C148: With a type filter, allowed_entity_types constraints of superiors are checked against the types asked for only, not against the types the subject has. An entity that no superior would vouch for in full is resolved when asking for an allowed type.
* C33: TrustChainsFilterMaxPathLength(n) with a negative n keeps the shortest chains instead of none (C33_refuted, C33_negative).
* C151: the minimum path length filter before another filter can remove all chains although chains pass both in the other order (C151_refuted).
* C03: a policy entry {"value": null, "add": []} on a list attribute passes verification and makes applying it panic: add returns its untyped operand, which cannot be assigned to a []string (policyoperators.go:108-118, metadata.go:307). {"default": null, "subset_of": [...]} panics on an absent attribute (policyoperators.go:317-322, 139-168). A superior can so crash every resolver below it (C03_chain_refuted).
* C152: trustTree.resolve (trustresolver.go:328-372) follows every route to a superior separately, verifies signatures only afterwards, and does not remember failures (trustresolver.go:534-593 caches statements, not errors). Whoever serves n pairs of unsigned configurations can make a resolver ask a third party's server 2^n times (C152_repeated_refuted).
* C153: collect looks up and adds to visitedEntities in two steps (discovery.go:272-276), so two goroutines can both ask an authority that two superiors list, and its subordinates are then evaluated twice (C153_twice_refuted).
* C154: obtainAndSetEntityStatementOrConfiguration does not remember failures (trustresolver.go:560-571), so a server that is down is asked once for every way through the federation that leads to it, each time until the HTTP timeout (C154_unanswered_refuted).
* C157: a slow refresh in the background overwrites a newer statement in the cache with an older one, so that a replaced (e.g. revoked) statement is used again after its replacement has been seen (C157_refuted).
* C158: calls that run at the same time do not share a request, and every call that finds a statement due for a refresh starts another refresh while one is under way (C158_refuted, C158_refuted_slow).
* C160: for a trust mark type that is not in trust_mark_issuers of the anchor any issuer is resolved, before the mark's time and signature are checked; an entity that presents unsigned marks makes its verifier send requests to URLs of its choice.
* C163: the generator writes fixed-size arrays as slices, and for a field of a struct type of another package (jwks.JWKS without *) code that panics on every decoding.
* C164: go generate writes `package pkg` into metadata_generated.go, which belongs to package oidfed; the file has to be corrected by hand after every run.
* C160: with the smart resolver as the default, verifying a mark of a named issuer also verifies the marks in the configuration of this issuer; one of a type that is not in trust_mark_issuers there leads to requests to URLs of the issuer's choice, although the type that was asked about is restricted.
* C165: in JSON a member that is a field name in other letters (Lifetime) sets the field and is kept as an additional claim as well; in YAML it is only an additional claim.
* C94: with a resolve endpoint or the smart resolver as the default, the keys of a trust mark issuer are taken from the first statement of the chain in an unauthenticated answer; whoever answers in place of the endpoint can have any mark accepted.
* C72: with a resolve endpoint as the default resolver, an answer whose first statement has no key set crashes the verifier of a trust mark (C72_remote_refuted); exactly then (C72_remote_partial).
* C166: the collector checks an entity (configuration, trust chain, trust marks) again for every superior that lists it; only its listing is not asked for twice.
* C167: ResolvePossible confirms that an entity is invalid whenever the reply cannot be parsed, so an error page or an error without JSON content type counts as a confirmed no (C167_no, C167_undeclared_refuted).
* C168: the verifiers that compare default with one_of, subset_of and superset_of are not registered (policyverifiers.go:243-245). A policy whose default is outside its one_of makes every entity that does not state the attribute fail, one whose default is outside its subset_of gives part of the default or an empty list (C168_fails_refuted, C168_cut_refuted).

## Modelled

All of policyoperators.go, policyverifiers.go (registered verifiers), metadataPolicy.go,
metadata.go and metadata_generated.go, entitystatement.go, trustchain.go, trustchainfilter.go,
trustresolver.go, metadata_resolver.go, trustmark.go, trustmark_refresher.go, discovery.go,
authcode.go, federation.go, trustanchor.go, jwtsigning.go, sliceorsinglevalue.go, unixtime,
cache (both backends), jwks/jwks.go (KeyToJWKS), apimodel (requests and their parameters),
internal/jwx/jws.go, internal/http/http.go (what becomes of replies), internal/utils/slices.go,
internal/utils/structs.go, error.go.

## Not modelled

* Cryptography: in Resolver.v and TrustMark.v verification is an arbitrary relation between a
  message and a key set; in Jwt.v it is symbolic (a key pair is a name, a signature records the
  pair that made it). Parsing the JWS text is an arbitrary function. Key generation and reading
  key files are not modelled.
* HTTP, TLS, DNS: an answer is an arbitrary function of the request (and, where histories
  matter, of time). url.Parse is modelled in Web.v as far as the host name goes; in the other
  files host extraction is an arbitrary function.
* The text syntax of JSON and YAML (documents are values; JSON numbers are binary64 where that
  matters), msgpack bytes (the effect on struct fields is modelled).
* gocache and the redis server are modelled from their documented behaviour (TTL rules,
  eviction at the configured size). sha3 is an arbitrary function; so is the fuzzy matcher, except in C155, where it is modelled from its source up to Unicode normalisation.
* The Go memory model below the granularity of the steps given in Refresher.v and Discovery.v;
  runtime.growslice (arbitrary function in Alias.v); sort.Slice above 12 elements where
  Sort.v is not used (any sequence of swaps).
* Logging, HTTP client configuration, the text written by the code generator (its declarations are modelled in Gen.v), mocks.
