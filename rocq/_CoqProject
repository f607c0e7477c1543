-Q theories Verif
theories/Base.v
theories/GoVal.v
theories/Policy.v
theories/Schema.v
theories/Metadata.v
theories/Chain.v
theories/BaseFacts.v
theories/SpecPolicy.v
theories/PolicyFacts.v
theories/MergeFacts.v
theories/RespectFacts.v
theories/ListFacts.v
theories/OpFacts.v
theories/CombineFacts.v
theories/PolicyLaws.v
theories/SpecMetadata.v
theories/MetadataFacts.v
theories/SpecChain.v
theories/ChainFacts.v
theories/Resolver.v
theories/SpecResolver.v
theories/ResolverFacts.v
theories/ResolverLaws.v
theories/WitnessPolicy.v
theories/PropertiesPolicy.v
theories/WitnessResolver.v
theories/PropertiesResolver.v
theories/FloatTime.v
theories/FloatFacts.v
theories/SpecUnits.v
theories/SpecTime.v
theories/TimeFacts.v
theories/WitnessTime.v
theories/PropertiesTime.v
theories/Json.v
theories/SpecJson.v
theories/JsonFacts.v
theories/WitnessJson.v
theories/PropertiesJson.v
theories/TrustMark.v
theories/SpecTrustMark.v
theories/TrustMarkFacts.v
theories/TrustMarkLaws.v
theories/WitnessTrustMark.v
theories/PropertiesTrustMark.v
theories/Refresher.v
theories/SpecRefresher.v
theories/RefresherFacts.v
theories/WitnessRefresher.v
theories/PropertiesRefresher.v
theories/Cache.v
theories/SpecCache.v
theories/CacheFacts.v
theories/CacheLaws.v
theories/WitnessCache.v
theories/PropertiesCache.v
theories/Discovery.v
theories/SpecDiscovery.v
theories/DiscoveryFacts.v
theories/EvalFacts.v
theories/DiscoveryLaws.v
theories/WitnessDiscovery.v
theories/PropertiesDiscovery.v
theories/Leaf.v
theories/SpecLeaf.v
theories/LeafFacts.v
theories/WitnessLeaf.v
theories/PropertiesLeaf.v
theories/Lookup.v
theories/SpecLookup.v
theories/LookupFacts.v
theories/WitnessLookup.v
theories/PropertiesMetadata.v
theories/Alias.v
theories/SpecAlias.v
theories/AliasFacts.v
theories/WitnessAlias.v
theories/PropertiesAlias.v
theories/MetaCache.v
theories/SpecMetaCache.v
theories/MetaCacheFacts.v
theories/WitnessMetaCache.v
theories/ListCache.v
theories/SpecListCache.v
theories/ListCacheFacts.v
theories/WitnessListCache.v
theories/PropertiesMetaCache.v
theories/SpecAuth.v
theories/AuthFacts.v
theories/WitnessAuth.v
theories/Jwt.v
theories/SpecJwt.v
theories/JwtFacts.v
theories/SpecMarkAuth.v
theories/MarkAuthFacts.v
theories/WitnessJwt.v
theories/PropertiesAuth.v
theories/Config.v
theories/SpecConfig.v
theories/ConfigFacts.v
theories/WitnessConfig.v
theories/PropertiesConfig.v
theories/Vectors.v
theories/UnitTests.v
theories/Web.v
theories/SpecWeb.v
theories/WebFacts.v
theories/UrlFacts.v
theories/SpecBracket.v
theories/BracketFacts.v
theories/WitnessWeb.v
theories/PropertiesWeb.v
theories/Custom.v
theories/SpecCustom.v
theories/CustomFacts.v
theories/SpecCalm.v
theories/CalmFacts.v
theories/WitnessCustom.v
theories/PropertiesCustom.v
theories/SpecExact.v
theories/ExactFacts.v
theories/ListResultFacts.v
theories/PossibleFacts.v
theories/WitnessExact.v
theories/PropertiesExact.v
theories/SpecDecode.v
theories/DecodeFacts.v
theories/DecodeLaws.v
theories/NoPanicFacts.v
theories/WitnessDecode.v
theories/PropertiesDecode.v
theories/Statement.v
theories/SpecStatement.v
theories/StatementFacts.v
theories/StatementLaws.v
theories/StatementChains.v
theories/WitnessStatement.v
theories/PropertiesStatement.v
theories/SpecParameters.v
theories/ParameterFacts.v
theories/WitnessParameters.v
theories/PropertiesParameters.v
theories/Encode.v
theories/SpecEncode.v
theories/EncodeFacts.v
theories/EncodeLaws.v
theories/WitnessEncode.v
theories/PropertiesEncode.v
theories/SpecGeneral.v
theories/GeneralFacts.v
theories/KindFacts.v
theories/WitnessGeneral.v
theories/PropertiesGeneral.v
theories/ClaimFacts.v
theories/WitnessClaims.v
theories/PropertiesClaims.v
theories/Respond.v
theories/SpecRespond.v
theories/RespondFacts.v
theories/WitnessRespond.v
theories/PropertiesRespond.v
theories/SpecRemote.v
theories/TypedFacts.v
theories/RemoteFacts.v
theories/WitnessRemote.v
theories/PropertiesRemote.v
theories/SpecEndpoint.v
theories/EndpointFacts.v
theories/WitnessEndpoint.v
theories/PropertiesEndpoint.v
theories/SpecWritten.v
theories/WrittenFacts.v
theories/WitnessWritten.v
theories/PropertiesWritten.v
theories/Collection.v
theories/SpecCollection.v
theories/CollectionFacts.v
theories/WitnessCollection.v
theories/PropertiesCollection.v
theories/Numbers.v
theories/SpecNumbers.v
theories/NumberFacts.v
theories/WitnessNumbers.v
theories/PropertiesNumbers.v
theories/Federation.v
theories/SpecFederation.v
theories/FederationFacts.v
theories/WitnessFederation.v
theories/PropertiesFederation.v
theories/SpecFedMark.v
theories/FedMarkFacts.v
theories/WitnessFedMark.v
theories/PropertiesFedMark.v
theories/SpecSingle.v
theories/SingleFacts.v
theories/SingleLaws.v
theories/WitnessSingle.v
theories/PropertiesSingle.v
theories/SpecCarried.v
theories/CarriedFacts.v
theories/WitnessCarried.v
theories/PropertiesCarried.v
theories/SpecFedCollect.v
theories/FedCollectFacts.v
theories/WitnessFedCollect.v
theories/PropertiesFedCollect.v
theories/SpecFedLogin.v
theories/FedLoginFacts.v
theories/WitnessFedLogin.v
theories/PropertiesFedLogin.v
theories/SpecFedKeep.v
theories/FedKeepFacts.v
theories/WitnessFedKeep.v
theories/PropertiesFedKeep.v
theories/MockNet.v
theories/ResolverTests.v
theories/MarkTests.v
theories/CodecTests.v
theories/Steps.v
theories/SpecSteps.v
theories/StepsFacts.v
theories/WitnessSteps.v
theories/PropertiesSteps.v
theories/SpecFresh.v
theories/FreshFacts.v
theories/WitnessFresh.v
theories/PropertiesFresh.v
theories/SpecCrit.v
theories/CritFacts.v
theories/PropertiesCrit.v
theories/SpecTwice.v
theories/TwiceFacts.v
theories/WitnessTwice.v
theories/PropertiesTwice.v
theories/SpecAnchors.v
theories/AnchorFacts.v
theories/WitnessAnchors.v
theories/PropertiesAnchors.v
theories/Sort.v
theories/SpecSort.v
theories/SortFacts.v
theories/SortLaws.v
theories/WitnessSort.v
theories/PropertiesSort.v
theories/SpecExactList.v
theories/ExactListFacts.v
theories/ExactConfigFacts.v
theories/PropertiesList.v
theories/SpecMonotone.v
theories/MonotoneFacts.v
theories/WitnessMonotone.v
theories/PropertiesMonotone.v
theories/TypeFilterFacts.v
theories/WitnessTypeFilter.v
theories/PropertiesTypeFilter.v
theories/SpecSteady.v
theories/SteadyFacts.v
theories/WitnessSteady.v
theories/PropertiesSteady.v
theories/SpecFilter.v
theories/FilterFacts.v
theories/WitnessFilter.v
theories/PropertiesFilter.v
theories/SpecNull.v
theories/NullFacts.v
theories/WitnessNull.v
theories/PropertiesNull.v
theories/SpecListSet.v
theories/ListSetFacts.v
theories/WitnessListSet.v
theories/Requests.v
theories/SpecRequests.v
theories/RequestFacts.v
theories/WitnessRequests.v
theories/PropertiesRequests.v
theories/SpecAsked.v
theories/AskedFacts.v
theories/WitnessAsked.v
theories/PropertiesAsked.v
theories/Traffic.v
theories/SpecTraffic.v
theories/TrafficFacts.v
theories/WitnessTraffic.v
theories/PropertiesTraffic.v
theories/NameQuery.v
theories/SpecNames.v
theories/NameFacts.v
theories/WitnessNames.v
theories/PropertiesNames.v
theories/Together.v
theories/SpecTogether.v
theories/TogetherFacts.v
theories/PackFacts.v
theories/WitnessTogether.v
theories/PropertiesTogether.v
theories/SpecBusy.v
theories/BusyFacts.v
theories/LateFacts.v
theories/WitnessBusy.v
theories/PropertiesBusy.v
theories/SpecChange.v
theories/ChangeFacts.v
theories/WitnessChange.v
theories/PropertiesChange.v
theories/RedisTrafficFacts.v
theories/WitnessRedisTraffic.v
theories/PropertiesRedisTraffic.v
theories/MarkRequests.v
theories/SpecMarkRequests.v
theories/MarkRequestFacts.v
theories/MarkRequestLaws.v
theories/WitnessMarkRequests.v
theories/PropertiesMarkRequests.v
theories/SpecMarkChange.v
theories/MarkChangeFacts.v
theories/WitnessMarkChange.v
theories/PropertiesMarkChange.v
theories/Gen.v
theories/SpecGen.v
theories/GenFacts.v
theories/WitnessGen.v
theories/PropertiesGen.v
theories/SpecSmartRequests.v
theories/SmartRequestFacts.v
theories/WitnessSmartRequests.v
theories/PropertiesSmartRequests.v
theories/MarkSpecJson.v
theories/SpecMarkSpec.v
theories/MarkSpecFacts.v
theories/WitnessMarkSpec.v
theories/PropertiesMarkSpec.v
theories/SpecMarkDefault.v
theories/MarkDefaultFacts.v
theories/WitnessMarkDefault.v
theories/PropertiesMarkDefault.v
theories/SpecMarkReturns.v
theories/MarkReturnFacts.v
theories/WitnessMarkReturns.v
theories/PropertiesMarkReturns.v
theories/RepeatFacts.v
theories/PropertiesRepeat.v
theories/SpecTree.v
theories/TreeFacts.v
theories/WitnessTree.v
theories/PropertiesTree.v
theories/SpecLine.v
theories/LineFacts.v
theories/WitnessLine.v
theories/PropertiesLine.v
theories/SettledFacts.v
theories/ErrorReply.v
theories/SpecErrorReply.v
theories/ErrorReplyFacts.v
theories/WitnessErrorReply.v
theories/PropertiesErrorReply.v
theories/ListReply.v
theories/SpecListReply.v
theories/ListReplyFacts.v
theories/WitnessListReply.v
theories/PropertiesListReply.v
theories/DocumentReplyFacts.v
theories/RaceFacts.v
theories/WitnessRace.v
theories/SmartPossibleFacts.v
theories/PropertiesSmartPossible.v
theories/DiamondFacts.v
theories/WitnessDiamond.v
theories/PropertiesDiamond.v
theories/CompletionFacts.v
theories/WitnessCompletion.v
theories/DefaultChecks.v
theories/SpecDefault.v
theories/DefaultFacts.v
theories/WitnessDefault.v
theories/PropertiesDefault.v
theories/DefaultMore.v
theories/SpecDeep.v
theories/DeepRaceFacts.v
theories/WitnessDeep.v
theories/PropertiesDeep.v
theories/DeepDiamondFacts.v
theories/WitnessDeepDiamond.v
