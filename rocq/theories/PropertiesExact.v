(** Exact characterisations: what is returned or accepted is what should be, no more and no
    less. *)
From Verif Require Import Base GoVal Policy Schema Metadata Chain SpecPolicy SpecMetadata Resolver SpecResolver SpecChain
  ChainFacts Custom SpecCustom WitnessResolver WitnessPolicy WitnessCustom SpecExact ExactFacts ListResultFacts.
From Verif Require Import FloatTime SpecTime Json SpecJson TrustMark SpecTrustMark TrustMarkFacts TrustMarkLaws PossibleFacts
  WitnessTrustMark WitnessExact.
From Verif Require Import GoVal.
Local Open Scope nat_scope.
Local Open Scope string_scope.

(** ** C108 Resolution returns exactly the trust chains that exist *)

Theorem C108_chains : forall fuel w tas types start cs,
  resolve_chains fuel w tas types start = Done (Ok cs) ->
  forall c, In c cs <-> trust_chain w tas types start c.
Proof. exact chains_exact. Qed.
Print Assumptions C108_chains.

Theorem C108_valid : forall fuel w tas types start cs,
  resolve_valid fuel w tas types start = Done (Ok cs) ->
  forall c, In c cs <-> trust_chain w tas types start c /\ exists m, chain_metadata c = Ok m.
Proof. exact valid_exact. Qed.
Print Assumptions C108_valid.

Example C108_case : trust_chain net0 tas0 [] LEAF (chain0 leaf0 None None []).
Proof. exact net0_trust_chain. Qed.
Example C108_returned_case :
  exists cs, resolve_chains 5 net0 tas0 [] LEAF = Done (Ok cs) /\ In (chain0 leaf0 None None []) cs /\ List.length cs = 1.
Proof. exact net0_chains. Qed.

(** ** C109 A chain through superiors is trustworthy in every respect *)

Theorem C109_authentic : forall w tas types start c,
  returned w tas types start c -> List.length c <> 1 -> authentic w tas c.
Proof. exact chains_authentic. Qed.
Print Assumptions C109_authentic.

Example C109_case : returned net0 tas0 [] LEAF (chain0 leaf0 None None []) /\ List.length (chain0 leaf0 None None []) <> 1.
Proof. exact c19_case. Qed.

(** ** C110 The metadata of a chain is exactly what its policies make of the subject's *)

Theorem C110_metadata : forall c m, 2 <= List.length c ->
  (chain_metadata c = Ok (Some m) <->
   crit_supported c /\ (forall t, In t entity_types -> type_result t c m) /\ additional_types_ok c /\
   md_extra m = md_extra (leaf_metadata c)).
Proof. exact chain_metadata_exact. Qed.
Print Assumptions C110_metadata.

Example C110_case : exists md, chain_metadata chain3 = Ok (Some md) /\ 2 <= List.length chain3 /\ additional_types_ok chain3 /\
  crit_supported chain3.
Proof. exact chain3_metadata. Qed.

(** ** C111 A list attribute resolves to what the operator table makes of it *)

(** Missing: essential attributes that are absent and not supplied (C111_refuted), null values beside add or
    default, and operands with repeated elements. *)
Theorem C111_list_partial : forall c md t k ss em r n cur,
  2 <= List.length c -> chain_metadata c = Ok (Some md) -> In t entity_types ->
  Forall2 (list_entry k) (policies_of (snd t) c) ss ->
  fst t (leaf_metadata c) = Some em ->
  find (fun fv : frow * gval => String.eqb k (fr_tag (fst fv))) (em_fields em) = Some (r, VSlice TStr n (map VStr cur)) ->
  fr_ty r = TSlice TStr -> fr_name r <> "Scope" ->
  let set := mem (fr_name r) (em_set em) in
  (set = false -> n = true /\ cur = []) ->
  table_form (all_merged ss) set ->
  exists out em' n',
    table_result (all_merged ss) (if set then Some cur else None) = Ok out /\
    fst t md = Some em' /\
    em_tag k em' = Some (VSlice TStr n' (map VStr (match out with Some l => l | None => [] end))).
Proof. exact chain_list_result. Qed.
Print Assumptions C111_list_partial.

Example C111_case : exists md em, chain_metadata chain3 = Ok (Some md) /\
  Forall2 (list_entry "contacts") (policies_of mp_rp chain3) [Some s_contacts; Some xs_emails] /\
  md_rp (leaf_metadata chain3) = Some em /\ mem "Contacts" (em_set em) = true /\
  find (fun fv : frow * gval => String.eqb "contacts" (fr_tag (fst fv))) (em_fields em)
    = Some (FRow "Contacts" "contacts" true (TSlice TStr), VSlice TStr false (map VStr ["admin@rp.example"])) /\
  table_form (all_merged [Some s_contacts; Some xs_emails]) true /\
  table_result (all_merged [Some s_contacts; Some xs_emails]) (Some ["admin@rp.example"])
    = Ok (Some ["admin@rp.example"; "ops@ta.example"; "noc@ta.example"]).
Proof. exact chain3_list. Qed.

(** An essential list that the subject does not state: the table rejects it, the chain has metadata. *)
Theorem C111_refuted : exists c md t k ss em r,
  2 <= List.length c /\ chain_metadata c = Ok (Some md) /\ In t entity_types /\
  Forall2 (list_entry k) (policies_of (snd t) c) ss /\ fst t (leaf_metadata c) = Some em /\
  find (fun fv : frow * gval => String.eqb k (fr_tag (fst fv))) (em_fields em) = Some (r, VSlice TStr true []) /\
  fr_ty r = TSlice TStr /\ fr_name r <> "Scope" /\ mem (fr_name r) (em_set em) = false /\
  table_result (all_merged ss) None = Err.
Proof. exact c111_witness. Qed.
Print Assumptions C111_refuted.

(** ** C112 Superiors that fix different values make the chain unusable *)

Theorem C112_values_agree : forall c md t k ss,
  2 <= List.length c -> chain_metadata c = Ok (Some md) -> In t entity_types ->
  Forall2 (policy_denotes k) (policies_of (snd t) c) ss ->
  forall s s' x y, In (Some s) ss -> In (Some s') ss -> se_value s = Some x -> se_value s' = Some y -> same_value x y.
Proof. exact chain_values_agree. Qed.
Print Assumptions C112_values_agree.

Example C112_case : exists md, chain_metadata chain_agree = Ok (Some md) /\ chain_metadata chain_conflict = Err /\
  Forall2 (policy_denotes "contacts") (policies_of mp_rp chain_agree) [Some (s_fix ["a"; "b"]); Some (s_fix ["b"; "a"])].
Proof. exact values_case. Qed.

(** ** C113 A policy is accepted exactly if the operands of every attribute agree *)

Theorem C113_policy : forall p : policy, (forall k e, In (k, e) p -> exists s, denotes e s) ->
  (verify_policy p = Ok tt <-> forall k e s, In (k, e) p -> denotes e s -> consistent s).
Proof. exact policy_exact. Qed.
Print Assumptions C113_policy.

Example C113_case : verify_policy [("a", c105_entry); ("b", c105_entry)] = Ok tt /\
  verify_policy [("a", c105_entry); ("b", [("value", jarr ["z"]); ("subset_of", jarr ["a"])])] = Err /\
  (forall k e, In (k, e) [("a", c105_entry); ("b", c105_entry)] -> exists s, denotes e s).
Proof. exact policy_case. Qed.

(** ** C114 With keys from elsewhere a trust mark is accepted exactly if it is valid *)

Theorem C114_external : forall e p t ks tmo, in_sync e t ->
  (fst (info_verify_external e p t ks tmo) = Ok tt <-> exists m, mark_valid e p t m ks (hd_error tmo)).
Proof. exact info_external_spec. Qed.
Print Assumptions C114_external.

Theorem C114_no_panic : forall e p t ks tmo, fst (info_verify_external e p t ks tmo) <> Panic.
Proof. exact info_external_no_panic. Qed.
Print Assumptions C114_no_panic.

Example C114_case : in_sync env0 (info0 "tm1" "kiss:m") /\
  fst (info_verify_external env0 [] (info0 "tm1" "kiss:m") (Some ["kiss"]) [(OWNER, Some ["ko"])]) = Ok tt /\
  fst (info_verify_external env0 [] (info0 "tm1" "kiss:m") (Some ["kx"]) []) = Err.
Proof. exact external_case. Qed.

(** ** C115 ResolvePossible agrees with Resolve *)

(** Never yes and no at once. *)
Theorem C115_exclusive : forall fuel e r p rq yes no,
  resolve_possible fuel e r p rq = Done (Ok (yes, no)) -> (yes && no)%bool = false.
Proof. exact possible_exclusive. Qed.
Print Assumptions C115_exclusive.

(** The local resolver: yes exactly if Resolve succeeds, no exactly if it fails, *)
Theorem C115_local_yes : forall fuel e p rq,
  resolve_possible fuel e LocalR p rq = Done (Ok (true, false)) <-> exists m, resolve_metadata fuel e LocalR p rq = Done (Ok m).
Proof. exact local_yes. Qed.
Print Assumptions C115_local_yes.

Theorem C115_local_no : forall fuel e p rq,
  resolve_possible fuel e LocalR p rq = Done (Ok (false, true)) <-> resolve_metadata fuel e LocalR p rq = Done Err.
Proof. exact local_no. Qed.
Print Assumptions C115_local_no.

(** ... that is, exactly if there is a trust chain with valid metadata. *)
Theorem C115_local_exact : forall fuel e p rq yes no,
  resolve_possible fuel e LocalR p rq = Done (Ok (yes, no)) ->
  no = negb yes /\
  (yes = true <-> exists c m, trust_chain (te_world e p rq) (map (fun id => Anchor id None) (rq_anchors rq)) (rq_types rq) (rq_sub rq) c /\
                              chain_metadata c = Ok m).
Proof. exact local_possible_exact. Qed.
Print Assumptions C115_local_exact.

(** A given resolve endpoint: yes exactly if Resolve succeeds or only the metadata is wrong, *)
Theorem C115_remote_yes : forall fuel e p ep rq,
  resolve_possible fuel e (SimpleR ep) p rq = Done (Ok (true, false)) <->
  (exists m, resolve_metadata fuel e (SimpleR ep) p rq = Done (Ok m)) \/ te_remote e p ep rq = AError "invalid_metadata".
Proof. exact simple_yes. Qed.
Print Assumptions C115_remote_yes.

(** ... and no if the endpoint says so. Missing: also if it cannot be reached or understood. *)
Theorem C115_remote_no_partial : forall fuel e p ep rq,
  resolve_possible fuel e (SimpleR ep) p rq = Done (Ok (false, true)) <->
  te_remote e p ep rq = AError "invalid_trust_chain" \/ te_remote e p ep rq = ATransport \/
  (exists b, te_remote e p ep rq = ABody b /\ forall pl, parse_response e b <> Ok pl).
Proof. exact simple_no. Qed.
Print Assumptions C115_remote_no_partial.

Example C115_case :
  resolve_possible 9 (env_res ATransport) LocalR [] (Req LEAF [TA] []) = Done (Ok (true, false)) /\
  resolve_possible 9 (env_res ATransport) LocalR [] (Req OTHER [TA] []) = Done (Ok (false, true)) /\
  resolve_possible 9 (env_res (ABody "forged")) (SimpleR RES) [] (Req LEAF [TA] []) = Done (Ok (true, false)) /\
  resolve_possible 9 (env_res (AError "invalid_metadata")) (SimpleR RES) [] (Req LEAF [TA] []) = Done (Ok (true, false)) /\
  resolve_possible 9 (env_res (AError "invalid_trust_chain")) (SimpleR RES) [] (Req LEAF [TA] []) = Done (Ok (false, true)) /\
  resolve_possible 9 (env_res (AError "invalid_subject")) (SimpleR RES) [] (Req LEAF [TA] []) = Done (Ok (false, false)).
Proof. exact possible_case. Qed.

(** The smart resolver denies what it resolves. *)
Theorem C115_refuted : exists fuel e p rq m,
  resolve_metadata fuel e SmartR p rq = Done (Ok m) /\ resolve_possible fuel e SmartR p rq = Done (Ok (false, true)).
Proof. exact smart_denies. Qed.
Print Assumptions C115_refuted.

(** ** C116 Exactly the answers that are resolve responses are taken from a remote resolver *)

Theorem C116_remote : forall fuel e p ep rq pl, resolve_payload fuel e (SimpleR ep) p rq = Done (Ok pl) <->
  exists b j, te_remote e p ep rq = ABody b /\ te_parse e b = Some ("resolve-response+jwt", j) /\ te_payload e j = Some pl.
Proof. exact remote_exact. Qed.
Print Assumptions C116_remote.

Theorem C116_no_panic : forall fuel e p ep rq, resolve_payload fuel e (SimpleR ep) p rq <> Done Panic.
Proof. exact remote_no_panic. Qed.
Print Assumptions C116_no_panic.

Example C116_case : usable (env_res (ABody "forged")) [0] (Req LEAF [TA] []) TA pl_forged.
Proof. exact (proj1 c37_case). Qed.
