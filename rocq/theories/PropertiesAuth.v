(** Property theorems about authenticity (C90-C94): chains, JWT types, signing, trust marks.
    The statements use the models in Resolver.v, TrustMark.v and Jwt.v and the vocabulary of
    SpecResolver.v, SpecChain.v, SpecAuth.v, SpecTrustMark.v, SpecMarkAuth.v and SpecJwt.v. *)
From Verif Require Import Base GoVal Policy Schema Metadata Chain Resolver SpecResolver SpecChain SpecAuth FloatTime SpecTime Json SpecJson
  TrustMark SpecTrustMark SpecMarkAuth Jwt SpecJwt AuthFacts MarkAuthFacts JwtFacts
  WitnessResolver WitnessTrustMark WitnessAuth WitnessJwt.
Local Open Scope nat_scope.
Local Open Scope string_scope.

(** ** C90 Outsiders cannot forge trust chains *)

(** Whoever answers the requests: a statement of a returned chain was signed by its issuer,
    provided the issuers of the statements above it list only keys of their subjects.
    Missing: chains of one statement (C90_refuted). *)
Theorem C90_genuine_partial : forall w dec owns signed,
  ideal w dec owns signed -> forall tas types start c,
  (forall ta, In ta tas -> anchor_known w owns ta) ->
  returned w tas types start c -> List.length c <> 1 ->
  forall lower s upper, c = (lower ++ s :: upper)%list ->
    (forall x, In x upper -> careful dec owns signed (st_iss x)) -> signed (st_iss s) (st_jwt s).
Proof. exact returned_genuine. Qed.
Print Assumptions C90_genuine_partial.

(** The resolved metadata is what an entity has published and signed, of the requested
    types, with policies applied that the superiors have signed. *)
Theorem C90_metadata_partial : forall w dec owns signed tas types start e r md,
  ideal w dec owns signed -> (forall ta, In ta tas -> anchor_known w owns ta) ->
  returned w tas types start (e :: r) -> r <> [] ->
  (forall x, In x r -> careful dec owns signed (st_iss x)) ->
  chain_metadata (e :: r) = Ok md ->
  exists m pub pm, md = Some m /\ st_metadata pub = Some pm /\
    dec (st_jwt pub) = Some pub /\ signed (st_iss pub) (st_jwt pub) /\
    (forall s, In s r -> dec (st_jwt s) = Some s /\ signed (st_iss s) (st_jwt s)) /\
    leaf_metadata (e :: r) = match types with [] => pm | _ => nil_all_except pm types end /\
    forall t, In t entity_types -> type_result t (e :: r) m.
Proof. exact returned_metadata. Qed.
Print Assumptions C90_metadata_partial.

Example C90_case :
  ideal net0 dec0 owns0 signed0 /\ (forall ta, In ta tas0 -> anchor_known net0 owns0 ta) /\
  returned net0 tas0 [] LEAF (chain0 leaf0 None None []) /\ List.length (chain0 leaf0 None None []) = 4 /\
  (forall id, careful dec0 owns0 signed0 id) /\
  signed0 LEAF (st_jwt leaf0) /\ ~ signed0 IM (st_jwt leaf0) /\ ~ signed0 TA (st_jwt leaf0).
Proof. exact c90_case. Qed.

(** A chain whose only statement nobody has signed. *)
Theorem C90_refuted : exists w dec owns signed tas types start c s,
  ideal w dec owns signed /\ (forall ta, In ta tas -> anchor_known w owns ta) /\
  (forall id, careful dec owns signed id) /\ returned w tas types start c /\ In s c /\
  forall id, ~ signed id (st_jwt s).
Proof. exact c90_witness. Qed.
Print Assumptions C90_refuted.

(** ** C91 A JWT of one kind is never taken for another *)

(** What is accepted has a payload that the holder of one of the keys has signed. *)
Theorem C91_payload : forall cx k ks jwt m, accepted_as cx k ks jwt m ->
  cx_parse cx jwt = Some m /\ verify_message m (Some ks) = Ok (ms_payload m) /\ exists s, made_by ks m s.
Proof. exact accepted_payload. Qed.
Print Assumptions C91_payload.

(** And signed as a document of that kind. Missing: JWTs in JSON serialization with several
    signatures (C91_refuted). *)
Theorem C91_type_partial : forall cx k ks jwt m, accepted_as cx k ks jwt m -> List.length (ms_sigs m) = 1 ->
  exists s, made_by ks m s /\ sg_typ s = Some (typ_of k).
Proof. exact accepted_type. Qed.
Print Assumptions C91_type_partial.

(** What a signer makes is rejected by the parsers of the other kinds; request objects and
    client assertions are rejected by all of them. *)
Theorem C91_own_kind : forall cx k k' s p m jwt, typed_jwt cx k s p = Ok m -> cx_parse cx jwt = Some m -> k' <> k ->
  parse_typed cx (typ_of k') jwt = Err.
Proof. exact own_kind_only. Qed.
Print Assumptions C91_own_kind.
Theorem C91_untyped : forall cx k s j m jwt, untyped_jwt cx s j = Ok m -> cx_parse cx jwt = Some m ->
  parse_typed cx (typ_of k) jwt = Err.
Proof. exact untyped_rejected. Qed.
Print Assumptions C91_untyped.

Example C91_case : exists m ks, typed_jwt cx0 DelegationJWT owner_signer (Ok deleg_payload) = Ok m /\ signer_jwks cx0 owner_signer = Ok ks /\
  accepted_as cx0 DelegationJWT ks "compact" m /\ List.length (ms_sigs m) = 1 /\
  parse_typed cx0 (typ_of MarkJWT) "compact" = Err.
Proof. exact c91_case. Qed.

(** A JWT is accepted as a trust mark although the holder of the key has only ever signed a
    delegation. *)
Theorem C91_refuted : exists cx ks jwt m,
  accepted_as cx MarkJWT ks jwt m /\
  forall s, made_by ks m s -> sg_typ s = Some "trust-mark-delegation+jwt".
Proof. exact c91_witness. Qed.
Print Assumptions C91_refuted.

(** The delegate thereby gets a trust mark for itself, issued by the owner. *)
Theorem C91_refuted_mark : exists e cx key ks jwt m t,
  env_matches e cx key /\ cx_parse cx jwt = Some m /\
  (forall s, made_by (map key ks) m s -> sg_typ s = Some "trust-mark-delegation+jwt") /\
  fst (info_verify_external e [] (Info "tm1" jwt [] None) (Some ks) []) = Ok tt /\
  parse_mark e jwt = Ok t /\ mk_iss t = OWNER /\ mk_sub t = ISS /\ mk_type t = "tm1".
Proof. exact c91_mark. Qed.
Print Assumptions C91_refuted_mark.

(** ** C92 What a signer signs, its published keys verify *)

Theorem C92_accepted : forall cx k s p m jwt ks, typed_jwt cx k s p = Ok m -> cx_parse cx jwt = Some m ->
  signer_jwks cx s = Ok ks -> parse_typed cx (typ_of k) jwt = Ok m /\ verify_message m (Some ks) = p.
Proof. exact own_accepted. Qed.
Print Assumptions C92_accepted.

(** Also when the key is published together with others. *)
Theorem C92_published : forall cx k s p m own ks, typed_jwt cx k s p = Ok m ->
  signer_jwks cx s = Ok own -> incl own ks -> kids_differ ks -> verify_message m (Some ks) = p.
Proof. exact published_accepted. Qed.
Print Assumptions C92_published.

(** And no set without the key does; in particular not a missing or empty one. *)
Theorem C92_others : forall cx k s p m ks key, typed_jwt cx k s p = Ok m -> js_key s = Some key ->
  (forall l x, ks = Some l -> In x l -> jk_pub x <> key) -> verify_message m ks = Err.
Proof. exact foreign_keys. Qed.
Print Assumptions C92_others.

(** What verifies at all: exactly the messages with a signature made with a key of the set
    that is meant for it. *)
Theorem C92_only : forall m ks p, verify_message m ks = Ok p ->
  p = ms_payload m /\ exists l s k, ks = Some l /\ In s (ms_sigs m) /\ In k l /\ signed_with s k.
Proof. exact verify_only. Qed.
Print Assumptions C92_only.
Theorem C92_exact : forall payload s l p, kids_differ l ->
  verify_message (Msg payload [s]) (Some l) = Ok p <-> p = payload /\ exists k, In k l /\ signed_with s k.
Proof. exact verify_one. Qed.
Print Assumptions C92_exact.

Example C92_case : exists m own, typed_jwt cx0 DelegationJWT owner_signer (Ok deleg_payload) = Ok m /\
  cx_parse cx0 "compact" = Some m /\ signer_jwks cx0 owner_signer = Ok own /\
  incl own (own ++ key_to_jwks cx0 "kt" "ES512") /\ kids_differ (own ++ key_to_jwks cx0 "kt" "ES512") /\
  (forall x, In x (key_to_jwks cx0 "kt" "ES512") -> jk_pub x <> "ko").
Proof. exact c92_case. Qed.

(** So the signers of this library meet the assumptions on signers in the theorems about
    issued trust marks (C43). *)
Theorem C92_signer : forall e cx key alg (sign : string -> json -> option string),
  env_matches e cx (fun k => Jwk k (Some (cx_thumb cx k)) (Some alg) (Some "sig")) ->
  (forall k k', cx_thumb cx k = cx_thumb cx k' -> k = k') ->
  (forall typ j jwt, sign typ j = Some jwt -> exists m, general_jwt cx (Signer (Some key) alg) (Ok j) typ = Ok m /\ cx_parse cx jwt = Some m) ->
  signer e sign key.
Proof. exact signer_instance. Qed.
Print Assumptions C92_signer.

Example C92_signer_case : exists e cx key alg (sign : string -> json -> option string),
  env_matches e cx (fun k => Jwk k (Some (cx_thumb cx k)) (Some alg) (Some "sig")) /\
  (forall k k', cx_thumb cx k = cx_thumb cx k' -> k = k') /\
  (forall typ j jwt, sign typ j = Some jwt -> exists m, general_jwt cx (Signer (Some key) alg) (Ok j) typ = Ok m /\ cx_parse cx jwt = Some m) /\
  sign "trust-mark-delegation+jwt" deleg_payload = Some "compact".
Proof. exact c92_link_case. Qed.

(** ** C93 A missing signing key is reported as an error *)

Theorem C93_jwt : forall cx k s p j, js_key s = None -> typed_jwt cx k s p = Err /\ untyped_jwt cx s j = Err.
Proof. exact no_key_jwt. Qed.
Print Assumptions C93_jwt.

(** Missing: publishing the keys of such a signer, or creating an entity with it
    (C93_refuted). *)
Theorem C93_with_key_partial : forall cx s key, js_key s = Some key ->
  exists ks, new_entity_jwks cx (Some s) = Ok ks /\ List.length ks = 1.
Proof. exact key_no_panic. Qed.
Print Assumptions C93_with_key_partial.

Example C93_case : js_key owner_signer = Some "ko" /\ js_key (Signer None "ES512") = None.
Proof. split; reflexivity. Qed.

Theorem C93_refuted : exists cx s, js_key s = None /\ signer_jwks cx s = Panic /\ new_entity_jwks cx (Some s) = Panic.
Proof. exact c93_witness. Qed.
Print Assumptions C93_refuted.

(** An entity is never refused: it panics exactly without a signer or without a key. *)
Theorem C93_panics : forall cx s,
  (new_entity_jwks cx s = Panic <-> forall sg key, s = Some sg -> js_key sg <> Some key) /\ new_entity_jwks cx s <> Err.
Proof. exact entity_panics. Qed.
Print Assumptions C93_panics.

(** ** C94 Outsiders cannot forge trust marks *)

(** Missing: a remote default resolver, infos whose parsed mark is not that of their JWT,
    issuers for which the network serves a configuration without superiors (C94_refuted) or
    one that names another entity. *)
Theorem C94_genuine_partial : forall fuel e p t ta dec owns signed,
  te_default e = LocalR -> in_sync e t ->
  (forall iss, decodes e (te_world e p (issuer_request iss ta))) ->
  names_issuer e p t ta -> has_superiors e p t ta -> marks_ideal e p ta dec owns signed ->
  verify_mark fuel e p t ta = Done (Ok tt) ->
  exists m, is_mark e (ti_jwt t) m /\ mk_type m = ti_type t /\ signed (mk_iss m) (ti_jwt t) /\
    forall o ks, lookup (mk_type m) (st_mark_owners ta) = Some (o, ks) -> signed o (mk_deleg m).
Proof. exact mark_genuine. Qed.
Print Assumptions C94_genuine_partial.

Example C94_case :
  te_default env0 = LocalR /\ in_sync env0 (info0 "tm1" "kiss:m") /\
  (forall iss, decodes env0 (te_world env0 [] (issuer_request iss ta0))) /\
  names_issuer env0 [] (info0 "tm1" "kiss:m") ta0 /\ has_superiors env0 [] (info0 "tm1" "kiss:m") ta0 /\
  marks_ideal env0 [] ta0 dec_m owns_m signed_m /\
  verify_mark 9 env0 [] (info0 "tm1" "kiss:m") ta0 = Done (Ok tt) /\ ~ signed_m TA "kiss:m".
Proof. exact c94_case. Qed.

(** A mark that nobody in the federation has signed is accepted. *)
Theorem C94_refuted : exists fuel e p t ta dec owns signed m,
  te_default e = LocalR /\ in_sync e t /\ (forall iss, decodes e (te_world e p (issuer_request iss ta))) /\
  names_issuer e p t ta /\ marks_ideal e p ta dec owns signed /\
  verify_mark fuel e p t ta = Done (Ok tt) /\ is_mark e (ti_jwt t) m /\
  forall id, ~ signed id (ti_jwt t).
Proof. exact c94_witness. Qed.
Print Assumptions C94_refuted.
