(** Property theorems about metadata resolvers and trust marks (C35-C38, C40-C44, C72, C73).
    Each is closed by a lemma proved elsewhere; the Example beside it shows a concrete case
    meeting the hypotheses. [..._refuted] gives a counterexample to the full statement of
    the property, [..._partial] the version that holds. *)
From Verif Require Import Base GoVal Policy Schema Metadata Chain Resolver SpecResolver SpecChain FloatTime SpecTime
  WitnessResolver Json SpecJson TrustMark SpecTrustMark TrustMarkFacts TrustMarkLaws WitnessTrustMark.
Local Open Scope string_scope.

(** ** C35 Local resolution uses the shortest chain with valid metadata *)

(** Whatever local resolution returns is the metadata of a chain to one of the anchors. *)
Theorem C35_sound : forall fuel e p rq m, local_resolve fuel e p rq = Done (Ok m) ->
  exists c, chain_to (te_world e p rq) (rq_anchors rq) (rq_sub rq) (rq_types rq) c /\ chain_metadata c = Ok m.
Proof. exact local_sound. Qed.
Print Assumptions C35_sound.

(** It fails only if there is no such chain, and succeeds if there is one. *)
Theorem C35_fails : forall fuel e p rq, local_resolve fuel e p rq = Done Err ->
  forall c, ~ chain_to (te_world e p rq) (rq_anchors rq) (rq_sub rq) (rq_types rq) c.
Proof. exact local_fails. Qed.
Print Assumptions C35_fails.
Theorem C35_complete : forall e p rq c, chain_to (te_world e p rq) (rq_anchors rq) (rq_sub rq) (rq_types rq) c ->
  exists fuel m, local_resolve fuel e p rq = Done (Ok m).
Proof. exact local_complete. Qed.
Print Assumptions C35_complete.

(** Missing: three or more chains that are not found in ascending order (C35_refuted). *)
Theorem C35_shortest_partial : forall fuel e p rq cs m,
  resolve_valid fuel (te_world e p rq) (map (fun id => Anchor id None) (rq_anchors rq)) (rq_types rq) (rq_sub rq) = Done (Ok cs) ->
  List.length cs <= 2 \/ (List.length cs <= 12 /\ sorted_by (fun c => Z.of_nat (path_len c)) cs) ->
  local_resolve fuel e p rq = Done (Ok m) ->
  exists c, minimal cs c /\ chain_metadata c = Ok m.
Proof. exact local_shortest. Qed.
Print Assumptions C35_shortest_partial.

Example C35_case : exists cs m,
  resolve_valid 9 net_carrier [Anchor TA None] [] LEAF = Done (Ok cs) /\ List.length cs <= 2 /\ cs <> [] /\
  local_resolve 9 env_carrier [] (Req LEAF [TA] []) = Done (Ok (Some m)).
Proof. exact c35_case. Qed.

(** With three chains the result can differ from the metadata of every shortest chain. *)
Theorem C35_refuted : exists fuel e p rq cs m,
  resolve_valid fuel (te_world e p rq) (map (fun id => Anchor id None) (rq_anchors rq)) (rq_types rq) (rq_sub rq) = Done (Ok cs) /\
  local_resolve fuel e p rq = Done (Ok m) /\ forall c, minimal cs c -> chain_metadata c <> Ok m.
Proof. exact c35_witness. Qed.
Print Assumptions C35_refuted.

(** ** C36 Pinned trust anchor keys are used when a leaf resolves an OP *)

(** The result does not depend on the configured keys at all. *)
Theorem C36_keys_ignored : forall fuel e p tas tas' issuer,
  anchor_ids tas = anchor_ids tas' -> resolve_op fuel e p tas issuer = resolve_op fuel e p tas' issuer.
Proof. exact op_ignores_keys. Qed.
Print Assumptions C36_keys_ignored.

(** With keys pinned, an OP is accepted although no chain verifies under them. *)
Theorem C36_refuted : exists e p tas issuer fuel op,
  te_default e = LocalR /\ (forall a, In a tas -> ta_jwks a <> None) /\
  resolve_op fuel e p tas issuer = Done (Ok (Some op)) /\
  forall f cs, resolve_valid f (te_world e p (Req issuer (anchor_ids tas) ["openid_provider"])) tas ["openid_provider"] issuer = Done (Ok cs) -> cs = [].
Proof. exact c36_witness. Qed.
Print Assumptions C36_refuted.

(** Missing: the configured keys. The OP metadata is that of a chain to an anchor whose
    keys are taken from the network. *)
Theorem C36_op_partial : forall fuel e p tas issuer op, te_default e = LocalR ->
  resolve_op fuel e p tas issuer = Done (Ok op) ->
  exists c m, chain_to (te_world e p (Req issuer (anchor_ids tas) ["openid_provider"])) (anchor_ids tas) issuer ["openid_provider"] c /\
    chain_metadata c = Ok (Some m) /\ op = md_op m.
Proof. exact op_sound. Qed.
Print Assumptions C36_op_partial.

Example C36_case : te_default env_evil = LocalR /\ exists op, resolve_op 9 env_evil [] [Anchor TA None] LEAF = Done (Ok (Some op)).
Proof. exact c36_case. Qed.

(** ** C37 Remote resolution falls back to local resolution *)

Theorem C37_first : forall fuel e p rq k id pl,
  nth_error (rq_anchors rq) k = Some id -> usable e (k :: p) rq id pl ->
  (forall k' id' pl', k' < k -> nth_error (rq_anchors rq) k' = Some id' -> ~ usable e (k' :: p) rq id' pl') ->
  resolve_payload fuel e SmartR p rq = Done (Ok pl) /\ resolve_metadata fuel e SmartR p rq = Done (Ok (pl_metadata pl)).
Proof. exact smart_first. Qed.
Print Assumptions C37_first.

Theorem C37_fallback : forall fuel e p rq,
  (forall k id pl, nth_error (rq_anchors rq) k = Some id -> ~ usable e (k :: p) rq id pl) ->
  resolve_payload fuel e SmartR p rq = resolve_payload fuel e LocalR p rq /\
  (forall pl, resolve_payload fuel e LocalR p rq = Done (Ok pl) ->
     resolve_metadata fuel e SmartR p rq = resolve_metadata fuel e LocalR p rq) /\
  (resolve_metadata fuel e LocalR p rq = Done Err <-> resolve_payload fuel e LocalR p rq = Done Err).
Proof. exact smart_local. Qed.
Print Assumptions C37_fallback.

(** Missing: endpoints that cannot be reached or answer with garbage (C37_refuted). *)
Theorem C37_possible_partial : forall fuel e p rq,
  (forall k id, nth_error (rq_anchors rq) k = Some id -> undecided e (k :: p) rq id) ->
  resolve_possible fuel e SmartR p rq = resolve_possible fuel e LocalR p rq.
Proof. exact possible_local. Qed.
Print Assumptions C37_possible_partial.

Example C37_case :
  usable (env_res (ABody "forged")) [0] (Req LEAF [TA] []) TA pl_forged /\
  resolve_payload 9 (env_res (ABody "forged")) SmartR [] (Req LEAF [TA] []) = Done (Ok pl_forged) /\
  (forall k id pl, nth_error [TA] k = Some id -> ~ usable (env_res (AError "server_error")) [k] (Req LEAF [TA] []) id pl) /\
  (forall k id, nth_error [TA] k = Some id -> undecided (env_res (AError "server_error")) [k] (Req LEAF [TA] []) id) /\
  resolve_possible 9 (env_res (AError "server_error")) SmartR [] (Req LEAF [TA] []) = Done (Ok (true, false)).
Proof. exact c37_case. Qed.

(** ResolvePossible takes an unreachable endpoint for a definite "no". *)
Theorem C37_refuted : exists fuel e p rq,
  (forall k id, nth_error (rq_anchors rq) k = Some id -> unreachable e (k :: p) rq id) /\
  resolve_possible fuel e LocalR p rq = Done (Ok (true, false)) /\
  resolve_possible fuel e SmartR p rq = Done (Ok (false, true)).
Proof. exact c37_witness. Qed.
Print Assumptions C37_refuted.

(** ** C38 Remote resolve responses are authenticated *)

(** No signature check has any influence on what is accepted. *)
Theorem C38_unverified : forall e v p ep rq, remote_payload (with_verify e v) p ep rq = remote_payload e p ep rq.
Proof. exact remote_unverified. Qed.
Print Assumptions C38_unverified.

Theorem C38_refuted : exists e p ep rq b j pl,
  te_remote e p ep rq = ABody b /\ (forall ks, te_verify e b ks = false) /\
  te_parse e b = Some ("resolve-response+jwt", j) /\ claim "sub" j <> Some (JStr (rq_sub rq)) /\
  resolve_payload 9 e (SimpleR ep) p rq = Done (Ok pl).
Proof. exact c38_witness. Qed.
Print Assumptions C38_refuted.

(** Missing: signature and subject. What is accepted is a JWT of the right type sent by the
    endpoint. *)
Theorem C38_type_partial : forall e p ep rq pl, remote_payload e p ep rq = Ok pl ->
  exists b j, te_remote e p ep rq = ABody b /\ te_parse e b = Some ("resolve-response+jwt", j) /\ te_payload e j = Some pl.
Proof. exact remote_typ. Qed.
Print Assumptions C38_type_partial.


Example C38_case : exists e p ep rq pl, remote_payload e p ep rq = Ok pl.
Proof.
  exists (with_verify (env_res (ABody "forged")) (fun _ _ => false)), [], RES, (Req LEAF [TA] []). eexists. vm_compute. reflexivity.
Qed.
(** ** C40 A trust mark is accepted exactly under the specified conditions *)

(** Missing: a remote default resolver, infos whose parsed mark is not that of their JWT
    (C40_refuted_stale), and issuers without authority hints (C40_refuted_unanchored; the
    next theorem covers them). *)
Theorem C40_accepted_partial : forall e p t ta, te_default e = LocalR -> in_sync e t ->
  (forall iss, decodes e (te_world e p (issuer_request iss ta))) ->
  (forall m s, is_mark e (ti_jwt t) m -> w_config (te_world e p (issuer_request (mk_iss m) ta)) [] (mk_iss m) = Some s ->
     st_hints s <> [] /\ st_iss s = mk_iss m) ->
  ((exists fuel, verify_mark fuel e p t ta = Done (Ok tt)) <-> recognised federation_keys e p t ta).
Proof. exact verify_mark_federation. Qed.
Print Assumptions C40_accepted_partial.

(** The conditions as implemented: the issuer's keys are those of any chain
    ResolveToValidChains returns, also a chain consisting of the issuer alone. *)
Theorem C40_implemented_partial : forall e p t ta, te_default e = LocalR -> in_sync e t ->
  (forall iss, decodes e (te_world e p (issuer_request iss ta))) ->
  ((exists fuel, verify_mark fuel e p t ta = Done (Ok tt)) <-> recognised (chain_keys (fun _ => True)) e p t ta).
Proof. exact verify_mark_iff. Qed.
Print Assumptions C40_implemented_partial.

Example C40_case :
  te_default env0 = LocalR /\ in_sync env0 (info0 "tm1" "kiss:m") /\
  (forall iss, decodes env0 (te_world env0 [] (issuer_request iss ta0))) /\
  (forall m s, is_mark env0 "kiss:m" m -> w_config (te_world env0 [] (issuer_request (mk_iss m) ta0)) [] (mk_iss m) = Some s ->
     st_hints s <> [] /\ st_iss s = mk_iss m) /\
  verify_mark 9 env0 [] (info0 "tm1" "kiss:m") ta0 = Done (Ok tt) /\
  verify_mark 9 env0 [] (info0 "tm1" "kiss:bare") ta0 = Done Err /\
  verify_mark 9 env0 [] (info0 "tm2" "kiss:m") ta0 = Done Err.
Proof. exact c40_case. Qed.

(** A mark is accepted although its issuer has no chain to the anchor. *)
Theorem C40_refuted_unanchored : exists e p t ta,
  te_default e = LocalR /\ in_sync e t /\ (forall iss, decodes e (te_world e p (issuer_request iss ta))) /\
  (exists fuel, verify_mark fuel e p t ta = Done (Ok tt)) /\ ~ recognised federation_keys e p t ta.
Proof. exact c40_witness. Qed.
Print Assumptions C40_refuted_unanchored.

(** An info that was verified and then decoded from another document is accepted although
    its JWT does not parse. *)
Theorem C40_refuted_stale : exists e p t j t' ta fuel,
  verify_mark fuel e p t ta = Done (Ok tt) /\
  unmarshal_info j (snd (info_verify_federation (issuer_keys fuel e) e p t ta)) = Ok t' /\
  ti_jwt t' = "garbage" /\ te_parse e "garbage" = None /\
  verify_mark fuel e p t' ta = Done (Ok tt).
Proof. exact c40_stale. Qed.
Print Assumptions C40_refuted_stale.

(** ** C41 A trust mark counts only for its subject *)

(** Missing: the subject (C41_refuted). A reported mark is carried by the subject and
    recognised by the anchor. *)
Theorem C41_reported_partial : forall fuel e p rq pl t, te_default e = LocalR ->
  (forall q iss ta, decodes e (te_world e q (issuer_request iss ta))) ->
  resolve_payload fuel e LocalR p rq = Done (Ok pl) -> In t (pl_marks pl) ->
  exists leaf c, chain_to (te_world e p rq) (rq_anchors rq) (rq_sub rq) (rq_types rq) (leaf :: c) /\
    In (ti_type t, ti_jwt t) (st_marks leaf) /\
    exists k, recognised (chain_keys (fun _ => True)) e (k :: p) t (last (leaf :: c) leaf).
Proof. exact reported_marks. Qed.
Print Assumptions C41_reported_partial.

Example C41_case : exists pl t, te_default env_carrier = LocalR /\
  (forall q iss ta, decodes env_carrier (te_world env_carrier q (issuer_request iss ta))) /\
  resolve_payload 9 env_carrier LocalR [] (Req LEAF [TA] []) = Done (Ok pl) /\ In t (pl_marks pl).
Proof. exact c41_case. Qed.

Theorem C41_refuted : exists fuel e p rq pl t m,
  te_default e = LocalR /\ resolve_payload fuel e LocalR p rq = Done (Ok pl) /\ In t (pl_marks pl) /\
  is_mark e (ti_jwt t) m /\ mk_sub m <> rq_sub rq.
Proof. exact c41_witness. Qed.
Print Assumptions C41_refuted.

(** ** C42 Lists of verified trust marks are exact *)

Theorem C42_federation : forall fuel e p ts ta r,
  verified_marks fuel e p ts ta = Done (Ok r) ->
  map visible r = map visible (picked (fun i t => succeeds (verify_mark fuel e (i :: p) t ta)) 0 ts).
Proof. exact verified_marks_exact. Qed.
Print Assumptions C42_federation.

(** It returns whenever every single verification does. *)
Theorem C42_federation_returns : forall fuel e p ts ta,
  (forall k t, nth_error ts k = Some t -> exists x, verify_mark fuel e (k :: p) t ta = Done x /\ x <> Panic) ->
  exists r, verified_marks fuel e p ts ta = Done (Ok r).
Proof. exact verified_marks_total. Qed.
Print Assumptions C42_federation_returns.

Theorem C42_external : forall e p ts ks tmo, exists r,
  verified_external e p 0 ts ks tmo = Ok r /\
  map visible r = map visible (picked (fun i t => is_ok (fst (info_verify_external e (i :: p) t ks tmo))) 0 ts).
Proof. exact verified_external_exact. Qed.
Print Assumptions C42_external.

Theorem C42_find : forall f ts,
  match find_info f ts with
  | Some t => exists pre post, ts = (pre ++ t :: post)%list /\ f t = true /\ forall x, In x pre -> f x = false
  | None => forall x, In x ts -> f x = false
  end.
Proof. exact find_info_first. Qed.
Print Assumptions C42_find.

Example C42_case : exists r, verified_marks 9 env0 [] marks3 ta0 = Done (Ok r) /\
  map ti_jwt r = ["kiss:m"; "kiss:m"] /\
  (forall k t, nth_error marks3 k = Some t -> exists x, verify_mark 9 env0 [k] t ta0 = Done x /\ x <> Panic) /\
  (exists r', verified_external env0 [] 0 marks3 (Some ["kiss"]) [] = Ok r' /\ map ti_jwt r' = ["kiss:m"; "kiss:bare"; "kiss:m"]) /\
  find_by_id "tm2" marks3 = Some (info0 "tm2" "x").
Proof. exact c42_case. Qed.

(** ** C43 Issued trust marks verify until they expire *)

(** Missing: additional claims named like a claim of the mark (C43_refuted_extra). *)
Theorem C43_claims_partial : forall e sign k ent specs spec now typ sub lf t,
  signer e sign k -> issuer_specs specs -> lookup typ specs = Some spec -> no_clash mark_fields (ms_extra spec) ->
  issue_mark sign ent specs now typ sub lf = Ok t ->
  let life := match lf with Some l => l | None => ms_lifetime spec end in
  exists m, is_mark e (ti_jwt t) m /\ mk_iss m = ent /\ mk_sub m = sub /\ mk_type m = typ /\ ti_type t = typ /\
    mk_iat m = json_time now /\ mk_exp m = (if Z.eqb life 0 then None else Some (json_time (now + life)%Z)) /\
    mk_deleg m = ms_deleg spec /\ mk_extra m = ms_extra spec /\
    in_sync e t /\ forall ks, te_verify e (ti_jwt t) ks = true <-> In k ks.
Proof. exact issued_mark. Qed.
Print Assumptions C43_claims_partial.

(** Missing: the 1500 ns around the two ends (C43_refuted_rounding) and times before 1677 or
    after 2262. *)
Theorem C43_lifetime_partial : forall e p sign k ent specs spec now typ sub lf t ks,
  signer e sign k -> issuer_specs specs -> lookup typ specs = Some spec -> no_clash mark_fields (ms_extra spec) ->
  issue_mark sign ent specs now typ sub lf = Ok t -> In k ks ->
  let life := match lf with Some l => l | None => ms_lifetime spec end in
  in_range now -> in_range (now + life)%Z ->
  (now + 1500 <= te_now e p false)%Z ->
  ((life = 0 \/ te_now e p false <= now + life - 1500)%Z -> fst (info_verify_external e p t (Some ks) []) = Ok tt) /\
  ((life <> 0 /\ now + life + 1500 < te_now e p false)%Z -> fst (info_verify_external e p t (Some ks) []) = Err).
Proof. exact issued_valid. Qed.
Print Assumptions C43_lifetime_partial.

(** Exact for whole seconds up to the year 2116. *)
Theorem C43_seconds_partial : forall e p sign k ent specs spec s typ sub lf t ks l,
  signer e sign k -> issuer_specs specs -> lookup typ specs = Some spec -> no_clash mark_fields (ms_extra spec) ->
  issue_mark sign ent specs (seconds s) typ sub lf = Ok t -> In k ks ->
  match lf with Some l => l | None => ms_lifetime spec end = seconds l ->
  (Z.abs s <= 4611686018)%Z -> (Z.abs (s + l) <= 4611686018)%Z ->
  (fst (info_verify_external e p t (Some ks) []) = Ok tt <->
   (seconds s <= te_now e p false)%Z /\ (l = 0%Z \/ (te_now e p false <= seconds (s + l))%Z)).
Proof. exact issued_exact. Qed.
Print Assumptions C43_seconds_partial.

Theorem C43_unknown : forall sign ent specs now typ sub lf,
  ~ In typ (mark_types specs) -> issue_mark sign ent specs now typ sub lf = Err.
Proof. exact issue_unknown. Qed.
Print Assumptions C43_unknown.

Example C43_case :
  let e t := env_at t typ_mark (mark1 (seconds S0) []) in
  let sign := sign_only typ_mark (mark1 (seconds S0) []) in
  (forall t, signer (e t) sign "ki") /\ issuer_specs (new_issuer [spec1 []]) /\
  lookup "tm1" (new_issuer [spec1 []]) = Some (spec1 []) /\ no_clash mark_fields (ms_extra (spec1 [])) /\
  ms_lifetime (spec1 []) = seconds 60 /\ (Z.abs S0 <= 4611686018)%Z /\ (Z.abs (S0 + 60) <= 4611686018)%Z /\
  exists t, issue_mark sign ISS (new_issuer [spec1 []]) (seconds S0) "tm1" LEAF None = Ok t /\
    fst (info_verify_external (e (seconds (S0 + 60))) [] t (Some ["ki"]) []) = Ok tt /\
    fst (info_verify_external (e (seconds (S0 + 60) + 1)%Z) [] t (Some ["ki"]) []) = Err /\
    issue_mark sign ISS (new_issuer [spec1 []]) (seconds S0) "tm2" LEAF None = Err.
Proof. exact c43_case. Qed.

(** A mark can fail to verify at the instant it was issued. *)
Theorem C43_refuted_rounding : exists e p sign k ent specs spec now typ sub t,
  signer e sign k /\ issuer_specs specs /\ lookup typ specs = Some spec /\ no_clash mark_fields (ms_extra spec) /\
  (0 < ms_lifetime spec)%Z /\ issue_mark sign ent specs now typ sub None = Ok t /\
  te_now e p false = now /\ fst (info_verify_external e p t (Some [k]) []) = Err.
Proof. exact c43_rounding. Qed.
Print Assumptions C43_refuted_rounding.

(** An additional claim configured for the type can replace the subject. *)
Theorem C43_refuted_extra : exists e sign k ent specs spec now typ sub t m,
  signer e sign k /\ issuer_specs specs /\ lookup typ specs = Some spec /\
  issue_mark sign ent specs now typ sub None = Ok t /\ is_mark e (ti_jwt t) m /\ mk_sub m <> sub.
Proof. exact c43_extra. Qed.
Print Assumptions C43_refuted_extra.

(** ** C44 Delegations live as long as requested *)

(** Missing: exp is present iff the configured lifetime is not zero, whatever is passed. *)
Theorem C44_claims_partial : forall sign ent specs spec now typ sub lf jwt,
  lookup typ specs = Some spec -> no_exact_clash delegation_fields (ow_extra spec) ->
  delegate sign ent specs now typ sub lf = Ok jwt ->
  exists j, sign "trust-mark-delegation+jwt" j = Some jwt /\
    claim "iss" j = Some (JStr ent) /\ claim "sub" j = Some (JStr sub) /\ claim "trust_mark_type" j = Some (JStr (ow_id spec)) /\
    claim "iat" j = Some (JNum (encode_time now)) /\
    claim "exp" j = (if Z.eqb (ow_lifetime spec) 0 then None
                     else Some (JNum (encode_time (now + match lf with Some l => l | None => ow_lifetime spec end)%Z))).
Proof. exact delegation_lifetime. Qed.
Print Assumptions C44_claims_partial.

Example C44_case : no_exact_clash delegation_fields (ow_extra (own (seconds 60))) /\
  exists jwt, delegate sign_any OWNER [("tm1", own (seconds 60))] (seconds S0) "tm1" ISS None = Ok jwt.
Proof. exact c44_case. Qed.

(** A lifetime is passed, but the delegation does not expire. *)
Theorem C44_refuted_no_expiry : exists sign ent specs spec now typ sub l jwt j,
  lookup typ specs = Some spec /\ l <> 0%Z /\ delegate sign ent specs now typ sub (Some l) = Ok jwt /\
  (forall j', sign "trust-mark-delegation+jwt" j' = Some jwt -> j' = j) /\ claim "exp" j = None.
Proof. exact c44_witness1. Qed.
Print Assumptions C44_refuted_no_expiry.
(** Zero is passed, but the delegation expires at once. *)
Theorem C44_refuted_zero : exists sign ent specs spec now typ sub jwt j,
  lookup typ specs = Some spec /\ delegate sign ent specs now typ sub (Some 0%Z) = Ok jwt /\
  (forall j', sign "trust-mark-delegation+jwt" j' = Some jwt -> j' = j) /\ claim "exp" j = claim "iat" j /\ claim "exp" j <> None.
Proof. exact c44_witness2. Qed.
Print Assumptions C44_refuted_zero.

(** ** C72 Verifying a trust mark returns *)

(** An issuer whose configuration has an empty key set crashes the verifier. *)
Theorem C72_refuted_panic : exists fuel e p t ta, te_default e = LocalR /\ verify_mark fuel e p t ta = Done Panic.
Proof. exact c72_panic. Qed.
Print Assumptions C72_refuted_panic.

(** With the smart resolver as default, an issuer that carries a mark issued by itself makes
    verification recurse for ever. *)
Theorem C72_refuted_diverges : exists e p t ta, forall fuel, verify_mark fuel e p t ta = OutOfFuel.
Proof. exact c72_diverges. Qed.
Print Assumptions C72_refuted_diverges.

(** Missing: VerifyFederation. Verification against given keys never crashes. *)
Theorem C72_external_partial : forall e p t ks tmo, fst (info_verify_external e p t ks tmo) <> Panic.
Proof. exact info_external_no_panic. Qed.
Print Assumptions C72_external_partial.

(** Missing: the smart resolver, issuers without keys, networks naming infinitely many
    superiors, and metadata policies that crash the resolver (C30). Otherwise verification
    returns. *)
Theorem C72_returns_partial : forall U e p t ta fuel, te_default e = LocalR -> in_sync e t ->
  (forall iss, decodes e (te_world e p (issuer_request iss ta))) ->
  (forall iss q a ec, w_config (te_world e p (issuer_request iss ta)) q a = Some ec ->
     incl (st_hints ec) U /\ st_jwks ec <> None) ->
  (forall m f, is_mark e (ti_jwt t) m ->
     resolve_valid f (te_world e p (issuer_request (mk_iss m) ta)) [Anchor (st_sub ta) None] [] (mk_iss m) <> Done Panic) ->
  S (List.length U) < fuel ->
  exists r, verify_mark fuel e p t ta = Done r /\ r <> Panic.
Proof. exact verify_mark_returns. Qed.
Print Assumptions C72_returns_partial.

Example C72_case : te_default env0 = LocalR /\ in_sync env0 (info0 "tm1" "kiss:m") /\
  (forall iss, decodes env0 (te_world env0 [] (issuer_request iss ta0))) /\
  (forall iss q a ec, w_config (te_world env0 [] (issuer_request iss ta0)) q a = Some ec ->
     incl (st_hints ec) [TA] /\ st_jwks ec <> None) /\
  (forall m f, is_mark env0 "kiss:m" m ->
     resolve_valid f (te_world env0 [] (issuer_request (mk_iss m) ta0)) [Anchor (st_sub ta0) None] [] (mk_iss m) <> Done Panic).
Proof. exact c72_case. Qed.

(** ** C73 A delegation is accepted only from the owner of the type *)

Theorem C73_refuted : exists e p jwt d ta owner ks,
  is_delegation e jwt d /\ lookup (dg_type d) (st_mark_owners ta) = Some (owner, ks) /\ dg_iss d <> owner /\
  deleg_verify_federation e p d ta = Ok tt.
Proof. exact c73_witness. Qed.
Print Assumptions C73_refuted.

(** Missing: the issuer of the delegation. *)
Theorem C73_accepted_partial : forall e p jwt d ta, is_delegation e jwt d ->
  (deleg_verify_federation e p d ta = Ok tt <->
   live (te_now e p true) (dg_iat d) (dg_exp d) /\
   exists owner ks, lookup (dg_type d) (st_mark_owners ta) = Some (owner, ks) /\ signed_with e jwt ks).
Proof. exact delegation_federation. Qed.
Print Assumptions C73_accepted_partial.

Example C73_case : exists d, is_delegation env0 "ko:d" d /\ deleg_verify_federation env0 [] d ta0 = Ok tt.
Proof. exact c73_case. Qed.
