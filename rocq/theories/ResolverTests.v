(** The unit tests of the repository that use its mock federation, run on the model: they are
    tests of the model, not proofs. trustresolver_test.go, trustchainfilter_test.go,
    trustchain_test.go, discovery_test.go. The federation: MockNet.v. *)
From Coq Require Import QArith.
From Verif Require Import Base GoVal Policy Schema Metadata Chain Resolver FloatTime Json TrustMark Refresher Leaf Config Jwt Statement Encode SpecEncode
  WitnessStatement WitnessEncode WitnessTrustMark Federation Discovery WitnessDiscovery MockNet.
From Verif Require Import SpecEncode GoVal.
Local Open Scope nat_scope.
Local Open Scope string_scope.

(** compareTrustChains (trustchainfilter_test.go:322-345): the same number of chains, and the
    same sequences of issuers; nil only equals nil. *)
Definition issuers (c : chain) : list string := map st_iss c.
Fixpoint same_texts (a b : list string) : bool :=
  match a, b with [], [] => true | x :: a', y :: b' => (String.eqb x y && same_texts a' b')%bool | _, _ => false end.
Definition includes (a b : list (list string)) : bool := forallb (fun x => existsb (same_texts x) b) a.
Definition same_chains (a b : list (list string)) : bool := (Nat.eqb (List.length a) (List.length b) && includes a b && includes b a)%bool.

Definition rp_ia1_ta1 := [rp1; ia1; ta1; ta1].
Definition rp_ia2_ta1 := [rp1; ia2; ta1; ta1].
Definition rp_ia1_ia2_ta1 := [rp1; ia1; ia2; ta1; ta1].
Definition rp_ia2_ta2 := [rp1; ia2; ta2; ta2].
Definition rp_ia1_ia2_ta2 := [rp1; ia1; ia2; ta2; ta2].
Definition all_ids := [rp_ia1_ta1; rp_ia1_ia2_ta1; rp_ia1_ia2_ta2; rp_ia2_ta2; rp_ia2_ta1].
Definition ia1_ids := [rp_ia1_ta1; rp_ia1_ia2_ta1; rp_ia1_ia2_ta2].
Definition ia2_ids := [rp_ia2_ta2; rp_ia2_ta1].
Definition ta1_ids := [rp_ia1_ta1; rp_ia1_ia2_ta1; rp_ia2_ta1].
Definition ta2_ids := [rp_ia1_ia2_ta2; rp_ia2_ta2].

(** TestTrustResolver_ResolveToValidChains: trustresolver_test.go:29-285. The case "cached"
    repeats the one before it, from the cache; see C104. *)
Definition resolves (t : list string * string * list (list string)) : bool :=
  let '(tas, start, expected) := t in
  match resolve_valid 20 mock_world (map anchor_of tas) [] start with
  | Done (Ok cs) => same_chains (map issuers cs) expected
  | _ => false
  end.
Example TestTrustResolver_ResolveToValidChains : forallb resolves
  [ ([ta1; ta2], "", [])
  ; ([], rp1, [])
  ; ([ta1], rp1, ta1_ids)
  ; ([ta2], rp1, ta2_ids)
  ; ([ta1; ta2], rp1, all_ids)
  ; ([ta1], proxy, [[proxy; ia1; ta1; ta1]; [proxy; ia1; ia2; ta1; ta1]])
  ; ([ta_path], op2, [[op2; ia2; ta_path; ta_path]])
  ; ([ta_path], op1, [[op1; ia2; ta_path; ta_path]])
  ; ([ta_path], op3, [])
  ; ([ta_types], op2, [[op2; ia2; ta_types; ta_types]])
  ; ([ta_types], rp1, [])
  ; ([ta_naming], op2, [])
  ; ([ta_naming], op3, [[op3; ia1; ia2; ta_naming; ta_naming]])
  ; ([ta_naming], op1, [[op1; ia2; ta_naming; ta_naming]; [op1; ia1; ia2; ta_naming; ta_naming]])
  ; ([ta_naming], proxy, []) ] = true.
Proof. vm_compute. reflexivity. Qed.

(** TestTrustResolver_ResolveWithType: trustresolver_test.go:287-403 *)
Definition there {A} (o : option A) : bool := match o with Some _ => true | None => false end.
Definition includes_types (t : list string * list string) : bool :=
  let '(types, expected) := t in
  match resolve_valid 20 mock_world [anchor_of ta1] types proxy with
  | Done (Ok cs) =>
      (negb (Nat.eqb (List.length cs) 0) &&
       forallb (fun c => match chain_metadata c with
                         | Ok (Some m) => forallb (fun te => Bool.eqb (snd te) (mem (fst te) expected))
                             [("openid_provider", there (md_op m)); ("openid_relying_party", there (md_rp m));
                              ("oauth_authorization_server", there (md_as m)); ("oauth_client", there (md_oc m));
                              ("oauth_resource", there (md_pr m)); ("federation_entity", there (md_fe m));
                              ("-", negb (Nat.eqb (List.length (md_extra m)) 0))]
                         | _ => false
                         end) cs)%bool
  | _ => false
  end.
Example TestTrustResolver_ResolveWithType : forallb includes_types
  [ ([], ["federation_entity"; "openid_provider"; "openid_relying_party"])
  ; (["openid_provider"], ["openid_provider"])
  ; (["openid_relying_party"], ["openid_relying_party"])
  ; (["openid_provider"; "openid_relying_party"], ["openid_provider"; "openid_relying_party"]) ] = true.
Proof. vm_compute. reflexivity. Qed.

(** The chains as they are written in the tests, from payloads that were never encoded:
    trustchainfilter_test.go:186-285. *)
Definition statement_by (iss sub : string) : stmt :=
  match find (fun s => (String.eqb (st_iss s) iss && String.eqb (st_sub s) sub)%bool) mock_statements with
  | Some s => s
  | None => leaf_statement "" (md_rp1 [])
  end.
Fixpoint above (sub : string) (l : list string) : chain :=
  match l with [] => [] | a :: l' => statement_by a sub :: match l' with [] => [] | _ => above a l' end end.
Definition chain_of (ids : list string) : chain :=
  match ids with [] => [] | leaf :: l => statement_by leaf leaf :: above leaf l end.
Example chains_written : forallb (fun ids => same_texts (issuers (chain_of ids)) ids) all_ids = true.
Proof. vm_compute. reflexivity. Qed.

(** TestTrustChainFiltersTrustAnchor, ...MinPath, ...PathLength, TestTrustChains_Filter:
    trustchainfilter_test.go:347-end *)
Definition filters (f : chains -> chains) (t : list (list string) * list (list string)) : bool :=
  same_chains (map issuers (f (map chain_of (fst t)))) (snd t).
Definition unknown := "https://ta.unknown.com".
Example TestTrustChainFiltersTrustAnchor : forallb (fun t => filters (filter_anchor (fst t)) (snd t))
  [ (ta2, (all_ids, ta2_ids)); (ta1, (all_ids, ta1_ids)); (ta1, (ta1_ids, ta1_ids)); (ta2, (ta1_ids, [])); (unknown, (all_ids, []))
  ; (ta1, (ia1_ids, [rp_ia1_ta1; rp_ia1_ia2_ta1])); (ta2, (ia1_ids, [rp_ia1_ia2_ta2])) ] = true.
Proof. vm_compute. reflexivity. Qed.
Example TestTrustChainFiltersMinPath : forallb (filters filter_min_path_len)
  [ (all_ids, [rp_ia1_ta1; rp_ia2_ta2; rp_ia2_ta1]); (ta1_ids, [rp_ia1_ta1; rp_ia2_ta1]); (ta2_ids, [rp_ia2_ta2])
  ; (ia1_ids, [rp_ia1_ta1]); (ia2_ids, [rp_ia2_ta2; rp_ia2_ta1]) ] = true.
Proof. vm_compute. reflexivity. Qed.
Example TestTrustChainFiltersPathLength : forallb (fun t => filters (filter_max_path_len (fst t)) (all_ids, snd t))
  [ (3%Z, all_ids); (2%Z, all_ids); (1%Z, [rp_ia2_ta2; rp_ia2_ta1; rp_ia1_ta1]); (0%Z, []) ] = true.
Proof. vm_compute. reflexivity. Qed.
Example TestTrustChains_Filter : forallb (fun t => filters (run_filters (fst t)) (snd t))
  [ ([filter_anchor ta2; filter_min_path_len], (all_ids, [rp_ia2_ta2]))
  ; ([filter_min_path_len; filter_anchor ta2], (all_ids, [rp_ia2_ta2]))
  ; ([filter_anchor ta1; filter_min_path_len], (all_ids, [rp_ia1_ta1; rp_ia2_ta1]))
  ; ([filter_anchor ta1; filter_min_path_len], (ta1_ids, [rp_ia1_ta1; rp_ia2_ta1]))
  ; ([filter_anchor ta2; filter_min_path_len], (ta1_ids, []))
  ; ([filter_anchor unknown; filter_min_path_len], (all_ids, []))
  ; ([filter_min_path_len; filter_anchor unknown], (all_ids, []))
  ; ([filter_anchor ta1; filter_min_path_len], (ia1_ids, [rp_ia1_ta1]))
  ; ([filter_anchor ta2; filter_min_path_len], (ia1_ids, [rp_ia1_ia2_ta2]))
  ; ([filter_min_path_len; filter_anchor ta2], (ia1_ids, [])) ] = true.
Proof. vm_compute. reflexivity. Qed.

(** TestTrustChains_ExpiresAt: trustchain_test.go:11-98 *)
Definition expiring (s : Z) : stmt := Stmt "" "" "" zero_time (at_second s) None [] None None None [] [] [] [] [].
Example TestTrustChains_ExpiresAt :
  expires_at [] = zero_time /\ expires_at [expiring 5] = at_second 5 /\ expires_at [expiring 5; expiring 10; expiring 100] = at_second 5 /\
  expires_at [expiring 10; expiring 5; expiring 100] = at_second 5.
Proof. vm_compute. repeat split. Qed.

(** TestTrustChain_Metadata, TestTrustChain_MetaDataPolicyCrit: trustchain_test.go:100-235. The
    tests append to the contacts of rp1's metadata, which all payloads share (the metadata is a
    pointer), so both contacts are there in every case, before and after. *)
Definition both_contacts : metadata := md_rp1 ["ia@example.org"; "ta@foundation.example.org"].
Definition chain_of_rp1 (ids : list string) : chain := leaf_statement rp1 both_contacts :: above rp1 ids.
Example TestTrustChain_Metadata :
  chain_metadata [] = Err /\ chain_metadata [leaf_statement rp1 both_contacts] = Ok (Some both_contacts) /\
  chain_metadata (chain_of_rp1 [ia1; ta1; ta1]) = Ok (Some both_contacts) /\
  chain_metadata (chain_of_rp1 [ia2; ta1; ta1]) = Ok (Some both_contacts) /\
  chain_metadata (chain_of_rp1 [ia2; ta2; ta2]) = Ok (Some both_contacts).
Proof. vm_compute. repeat split. Qed.
Example TestTrustChain_MetaDataPolicyCrit :
  chain_metadata (chain_of_rp1 [ia2; ta2; ta2]) = Ok (Some both_contacts) /\
  chain_metadata (chain_of_rp1 [ia2; ta2_remove; ta2_remove]) = Ok (Some both_contacts) /\
  chain_metadata (chain_of_rp1 [ia2; ta2_remove_crit; ta2_remove_crit]) = Err.
Proof. vm_compute. repeat split. Qed.
(** What the tests mean to check: the contacts are added in the order of the chain. *)
Definition rp_contacts (r : res (option metadata)) : option (list string) :=
  match r with Ok (Some m) => option_map (op_list "Contacts") (md_rp m) | _ => None end.
Example contacts_added :
  rp_contacts (chain_metadata (chain_of [rp1; ia1; ta1; ta1])) = Some [] /\
  rp_contacts (chain_metadata (chain_of [rp1; ia2; ta1; ta1])) = Some ["ia@example.org"] /\
  rp_contacts (chain_metadata (chain_of [rp1; ia2; ta2; ta2])) = Some ["ia@example.org"; "ta@foundation.example.org"].
Proof. vm_compute. repeat split. Qed.

(** TestSimpleOPCollector_CollectEntities, TestFilterableVerifiedChainsEntityCollector_...:
    discovery_test.go:10-end, for one schedule of the goroutines (for all of them, see C61). *)
Definition mock_env : env :=
  Env LocalR (fun _ _ => mock_world) (fun _ a => w_config mock_world [] a) (fun _ _ _ => ATransport) (fun _ _ => at_second 200) (read_jwt (nw_crypto mock))
      (fun jwt => ok_or_none (parse_statement (read_jwt (nw_crypto mock)) kc_texts jwt)) no_remote (verify_raw mock) (fun _ => []).
Definition mock_collector : cenv :=
  CEnv mock_env (fun _ ep => option_map au_subs (find (fun a => String.eqb ep (au_id a ++ "/list")) authorities)) (fun _ _ => true).
Definition collects (rq : crequest) : option (list collected) :=
  let w := DWorld (listing_answer mock_collector)
                  (fun p b => match entity_answer 20 mock_collector rq p b with Done (Ok r) => r | _ => (None, false) end) in
  match exec w (drive w 500 (start (cr_anchor rq))) (start (cr_anchor rq)) with
  | Some s => if finished (snd s) then Some (f_out (snd s)) else None
  | None => None
  end.
Definition op_wish (ta : string) : crequest := op_request (CReq "" 0 [] ta None "" None).
Definition the_ops (out : option (list collected)) (expected : list string) : bool :=
  match out with
  | Some l => (Nat.eqb (List.length l) (List.length expected) && forallb (fun x => mem (ce_id x) expected) l)%bool
  | None => false
  end.
Example TestSimpleOPCollector_CollectEntities : forallb (fun t => the_ops (collects (op_wish (fst t))) (snd t))
  [ (ta1, [op1; op2; op3; proxy]); (ta2, [op1; op2; op3; proxy]); (ia1, [op1; op3; proxy]); (ia2, [op1; op2; op3; proxy]) ] = true.
Proof. vm_compute. reflexivity. Qed.

Definition with_md (ta : string) (f : option metadata -> bool) (i : nat) (x : collected) : bool :=
  match metadata_of 20 mock_env [i] [ta] x with Done (Ok m) => f m | _ => false end.
Definition ok_true (r : res bool) : bool := match r with Ok b => b | _ => false end.
Definition automatic (ta : string) := with_md ta (registers "automatic").
Definition scopes (ta : string) (l : list string) := with_md ta (fun m => ok_true (supports_scopes l m)).
Definition grants (ta : string) (l : list string) := with_md ta (fun m => ok_true (supports_grants l m)).
Definition verified (ta : string) (i : nat) (x : collected) : bool :=
  match chain_answer 20 mock_env [i] ta x with Done (Ok b) => b | _ => false end.
Example TestFilterableVerifiedChainsEntityCollector_CollectEntities :
  forallb (fun t => let '(ta, fs, expected) := t in the_ops (option_map (filterable (verified ta) fs) (collects (op_wish ta))) expected)
  [ (ta2, [], [op1; op2; op3; proxy])
  ; (ta2, [automatic ta2], [op1; op2; op3; proxy])
  ; (ta2, [automatic ta2; scopes ta2 ["openid"; "profile"; "email"]], [op1; op3; proxy])
  ; (ia1, [], [op1; op3; proxy])
  ; (ia1, [automatic ia1; scopes ia1 ["address"]], [op1])
  ; (ia1, [automatic ia1; scopes ia1 ["address"]; grants ia1 ["refresh_token"]], []) ] = true.
Proof. vm_compute. reflexivity. Qed.
