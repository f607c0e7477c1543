(** Property theorems about metadata policies and trust chain metadata (C01-C18, C32-C34).
    Each is closed by a lemma proved elsewhere; the Example beside it shows a concrete case
    meeting the hypotheses. [..._refuted] gives a counterexample to the full statement of
    the property, [..._partial] the version that holds. *)
From Verif Require Import Base GoVal Policy Schema Metadata Chain SpecPolicy SpecMetadata SpecChain
  OpFacts CombineFacts RespectFacts PolicyLaws MetadataFacts ChainFacts WitnessPolicy ExactListFacts.
Local Open Scope string_scope.

(** ** C01 Merging never relaxes a superior's policy *)

(** Missing: [value] operands with repeated elements (C01_refuted_duplicates), essential on
    list attributes (C01_refuted_essential), entries that share an unknown operator
    (C06_refuted_merge; excluded here by [denotes]). *)
Theorem C01_merge_never_relaxes_partial : forall a b m sa sb v set v',
  denotes a sa -> denotes b sb -> value_nodup sa ->
  merge_entries a b = Ok m -> verify_entry m = Ok tt ->
  (exists l, strs v l) -> (set = false -> absent v) ->
  apply_to m v set = Ok v' ->
  (respects sa v' /\ respects sb v') /\
  (is_slice v' = false -> respects_essential sa v' /\ respects_essential sb v').
Proof. exact merge_never_relaxes. Qed.
Print Assumptions C01_merge_never_relaxes_partial.

Example C01_case :
  denotes x_sub xs_sub /\ denotes x_sup xs_sup /\ value_nodup xs_sub /\ (exists l, strs x_val l) /\
  exists m, merge_entries x_sub x_sup = Ok m /\ verify_entry m = Ok tt /\
            apply_to m x_val true = Ok (VSlice TStr false [VStr "a"; VStr "b"]).
Proof. exact c01_case. Qed.

Theorem C01_refuted_duplicates : exists a b sa sb m v v',
  denotes a sa /\ denotes b sb /\ merge_entries a b = Ok m /\ verify_entry m = Ok tt /\
  apply_to m v true = Ok v' /\ (exists l, strs v l) /\ ~ respects sb v'.
Proof. exact c01_duplicates. Qed.
Print Assumptions C01_refuted_duplicates.

Theorem C01_refuted_essential : exists a sa m v',
  denotes a sa /\ merge_entries a [] = Ok m /\ verify_entry m = Ok tt /\
  apply_to m (VSlice TStr true []) false = Ok v' /\ ~ respects_essential sa v'.
Proof. exact c01_essential. Qed.
Print Assumptions C01_refuted_essential.

(** The same for any number of policies. *)
Theorem C01_combination_never_relaxes_partial : forall k ps ss o m v set v',
  Forall2 (policy_denotes k) ps ss ->
  combine_policies ps = Ok o -> verify_policy (pol o) = Ok tt ->
  lookup k (pol o) = Some m ->
  (exists l, strs v l) -> (set = false -> absent v) ->
  apply_to m v set = Ok v' ->
  forall s, In (Some s) ss ->
    respects s v' /\ (is_slice v' = false -> respects_essential s v').
Proof. exact combine_policies_never_relax. Qed.
Print Assumptions C01_combination_never_relaxes_partial.


Example C01_combination_case : let ps := policies_of mp_rp chain3 in exists o m v',
  Forall2 (policy_denotes "contacts") ps [Some s_contacts; Some xs_emails] /\
  combine_policies ps = Ok o /\ verify_policy (pol o) = Ok tt /\ lookup "contacts" (pol o) = Some m /\
  strs (VSlice TStr false [VStr "admin@rp.example"]) ["admin@rp.example"] /\
  apply_to m (VSlice TStr false [VStr "admin@rp.example"]) true = Ok v'.
Proof.
  cbv zeta. destruct c01_chain_case as (md & em & _ & _ & F & _). do 3 eexists. split; [exact F|].
  split; [vm_compute; reflexivity|]. split; [vm_compute; reflexivity|]. split; [vm_compute; reflexivity|].
  split; [right; exists TStr, false; split; [now right|reflexivity]|vm_compute; reflexivity].
Qed.
(** ... and end to end: the attribute in the metadata of a trust chain respects the policy
    of every statement of the chain. *)
Theorem C01_chain_never_relaxes_partial : forall c md t k (ss : list (option sentry)),
  2 <= List.length c -> chain_metadata c = Ok (Some md) -> In t entity_types ->
  Forall2 (policy_denotes k) (policies_of (snd t) c) ss ->
  Forall (fun p => verify_policy (pol p) = Ok tt) (policies_of (snd t) c) ->
  (exists s, In (Some s) ss) ->
  forall em r v, fst t (leaf_metadata c) = Some em ->
    find (fun fv : frow * gval => String.eqb k (fr_tag (fst fv))) (em_fields em) = Some (r, v) ->
    fr_name r <> "Scope" ->
    (exists l, strs v l) -> (mem (fr_name r) (em_set em) = false -> absent v) ->
  exists em' v', fst t md = Some em' /\
    (exists v0, assign (fr_ty r) v' = Ok v0 /\ em_tag k em' = Some v0) /\
    forall s, In (Some s) ss -> respects s v' /\ (is_slice v' = false -> respects_essential s v').
Proof. exact chain_never_relaxes. Qed.
Print Assumptions C01_chain_never_relaxes_partial.

Example C01_chain_case :
  exists md em, chain_metadata chain3 = Ok (Some md) /\ In (md_rp, mp_rp) entity_types /\
    Forall2 (policy_denotes "contacts") (policies_of mp_rp chain3) [Some s_contacts; Some xs_emails] /\
    Forall (fun p => verify_policy (pol p) = Ok tt) (policies_of mp_rp chain3) /\
    md_rp (leaf_metadata chain3) = Some em /\
    find (fun fv : frow * gval => String.eqb "contacts" (fr_tag (fst fv))) (em_fields em)
      = Some (FRow "Contacts" "contacts" true (TSlice TStr), VSlice TStr false [VStr "admin@rp.example"]).
Proof. exact c01_chain_case. Qed.

(** ** C02 Each operator has its specified effect on list attributes *)

(** Missing: essential on an absent list without value, add or default (C02_refuted), add
    operands with repeated elements, and a null value combined with add or default. *)
Theorem C02_list_operators_partial : forall e s n cur set,
  denotes e s -> list_operands e -> opt (se_add s) (@NoDup string) ->
  (se_value s = Some None -> se_add s = None /\ se_default s = None) ->
  (set = false -> n = true /\ cur = []) ->
  (se_essential s = Some true ->
     set = true \/ se_value s <> None \/ se_add s <> None \/ se_default s <> None) ->
  list_outcome (apply_to e (VSlice TStr n (map VStr cur)) set)
               (spec_apply s (if set then Some cur else None)).
Proof. exact list_operators. Qed.
Print Assumptions C02_list_operators_partial.

Example C02_case :
  denotes x_sup xs_sup /\ list_operands x_sup /\ opt (se_add xs_sup) (@NoDup string) /\
  spec_apply xs_sup (Some ["d"; "a"]) = Ok (Some ["a"; "b"]).
Proof. exact c02_case. Qed.

Theorem C02_refuted : exists e s, denotes e s /\ list_operands e /\
  ~ list_outcome (apply_to e (VSlice TStr true []) false) (spec_apply s None).
Proof. exact c02_essential. Qed.
Print Assumptions C02_refuted.

(** ** C03 Applying a policy never crashes the caller *)

(** Missing: operands that do not have the attribute's type (C03_refuted), and null operands
    beside others (C03_exact says exactly which of them crash). *)
Theorem C03_apply_no_panic_partial : forall sch obj m p,
  In sch entity_schemas -> decode_meta sch obj = Ok m ->
  (forall r e, In r sch -> lookup (fr_tag r) p = Some e -> fits r e) ->
  apply_policy m p <> Panic.
Proof. exact decode_apply_no_panic. Qed.
Print Assumptions C03_apply_no_panic_partial.

(** The result is again metadata of the right types, so policies can be applied in turn. *)
Theorem C03_apply_well_typed_partial : forall m p,
  known_entity m -> well_typed m ->
  (forall r e, In r (map fst (em_fields m)) -> lookup (fr_tag r) p = Some e -> fits r e) ->
  apply_policy m p <> Panic /\ forall m', apply_policy m p = Ok m' -> well_typed m'.
Proof. exact apply_policy_no_panic. Qed.
Print Assumptions C03_apply_well_typed_partial.

Example C03_case :
  exists m m', decode_meta rp_schema rp_contacts = Ok m /\ known_entity m /\ well_typed m /\
    (forall r e, In r (map fst (em_fields m)) -> lookup (fr_tag r) contacts_policy = Some e -> fits r e) /\
    apply_policy m contacts_policy = Ok m' /\
    em_tag "contacts" m' = Some (VSlice TStr false [VStr "admin@rp.example"; VStr "ops@ta.example"]).
Proof. exact c03_case. Qed.

Theorem C03_refuted : exists m p,
  decode_meta rp_schema rp_doc = Ok m /\ verify_policy p = Ok tt /\ apply_policy m p = Panic.
Proof. exact c03_witness. Qed.
Print Assumptions C03_refuted.

(** ** C04 Verifying a policy never crashes the caller *)

(** Missing: null operands of add, value and superset_of beside subset_of, and of add beside
    value (C04_refuted). *)
Theorem C04_verify_no_panic_partial : forall p : policy,
  (forall k e, In (k, e) p ->
     (lookup "subset_of" e <> None ->
        lookup "add" e <> Some VNil /\ lookup "value" e <> Some VNil /\ lookup "superset_of" e <> Some VNil) /\
     (lookup "value" e <> None -> lookup "add" e <> Some VNil)) ->
  verify_policy p <> Panic.
Proof. exact policy_no_panic. Qed.
Print Assumptions C04_verify_no_panic_partial.

Example C04_case : exists p : policy,
  p <> [] /\ (forall k e o v, In (k, e) p -> In (o, v) e -> v <> VNil) /\ verify_policy p = Err.
Proof. exact c04_case. Qed.

Theorem C04_refuted : exists e : entry, verify_entry e = Panic.
Proof. exact c04_witness. Qed.
Print Assumptions C04_refuted.

(** ** C05 Combined policies are always verified *)

(** Missing: exactly the case that all policies but one are empty and the first is. *)
Theorem C05_combined_verified_partial : forall ps o,
  Forall (fun p => NoDup (keys (pol p))) ps ->
  combine_policies ps = Ok o ->
  verify_policy (pol o) = Ok tt \/
  exists first pre post, ps = first :: pre ++ o :: post /\ pnil first /\ Forall pnil pre /\ Forall pnil post.
Proof. exact combine_policies_verified. Qed.
Print Assumptions C05_combined_verified_partial.

Example C05_case :
  Forall (fun p => NoDup (keys (pol p)))
    [Some contacts_policy; Some [("contacts", [("superset_of", jarr ["a"])])]] /\
  pol (Some contacts_policy) <> [] /\
  exists o, combine_policies [Some contacts_policy; Some [("contacts", [("superset_of", jarr ["a"])])]] = Ok o.
Proof. exact c05_case. Qed.

Theorem C05_refuted : exists ps o, combine_policies ps = Ok o /\ verify_policy (pol o) = Err.
Proof. exact c05_witness. Qed.
Print Assumptions C05_refuted.

(** ** C06 Unknown non-critical operators are ignored *)

Theorem C06_apply_ignores_unknown : forall e v set, apply_to (strip e) v set = apply_to e v set.
Proof. exact apply_to_strip. Qed.
Print Assumptions C06_apply_ignores_unknown.

(** Missing: entries that share an unknown operator, and verification. *)
Theorem C06_merge_ignores_unknown_partial : forall a b m,
  NoDup (keys a) -> NoDup (keys b) -> shared_known a b ->
  merge_entries a b = Ok m -> merge_entries (strip a) (strip b) = Ok (strip m).
Proof. exact merge_strip. Qed.
Print Assumptions C06_merge_ignores_unknown_partial.

Example C06_case :
  exists a b m : entry, NoDup (keys a) /\ NoDup (keys b) /\ shared_known a b /\ merge_entries a b = Ok m /\
    strip a <> a /\ strip m = [("subset_of", jarr ["b"])].
Proof. exact c06_case. Qed.

Theorem C06_refuted_merge : exists a b : entry,
  NoDup (keys a) /\ NoDup (keys b) /\ merge_entries a b = Ok [] /\
  merge_entries (strip a) (strip b) = Ok [("value", VStr "x")].
Proof. exact c06_merge_drops. Qed.
Print Assumptions C06_refuted_merge.

(** Verification: an unknown operator changes nothing unless a known operator other than
    essential stands beside it; then the entry is rejected, whatever the operands. *)
Theorem C06_verify_exact : forall e, verify_entry e =
  if (existsb (fun k => negb (known k)) (keys e) && existsb (fun k => known k && negb (String.eqb k "essential")) (keys e))%bool
  then Err else verify_entry (strip e).
Proof. exact verify_unknown. Qed.
Print Assumptions C06_verify_exact.

Example C06_verify_case :
  verify_entry [("acme", VNil); ("essential", VBool true)] = Ok tt /\
  verify_entry [("acme", VNil); ("value", VStr "x")] = Err.
Proof. split; reflexivity. Qed.

Theorem C06_refuted_verify : exists a : entry, verify_entry a = Err /\ verify_entry (strip a) = Ok tt.
Proof. exact c06_verify_rejects. Qed.
Print Assumptions C06_refuted_verify.

(** ** C07 Policy results do not depend on Go map iteration order *)

Theorem C07_verify_order : forall e e', order_variant e e' -> verify_entry e = verify_entry e'.
Proof. exact verify_entry_variant. Qed.
Print Assumptions C07_verify_order.

Theorem C07_apply_order : forall e e' v set, order_variant e e' -> apply_to e v set = apply_to e' v set.
Proof. exact apply_to_variant. Qed.
Print Assumptions C07_apply_order.

(** Missing: policies with unknown operators. *)
Theorem C07_combine_order_partial : forall ps ps',
  Forall (fun p => all_known (pol p)) ps -> Forall2 gpolicy_variant ps ps' ->
  is_ok (combine_policies ps) = is_ok (combine_policies ps') /\
  forall o, combine_policies ps = Ok o -> exists o', combine_policies ps' = Ok o' /\ gpolicy_variant o o'.
Proof. exact combine_order. Qed.
Print Assumptions C07_combine_order_partial.

Example C07_case :
  exists ps ps' o, Forall (fun p => all_known (pol p)) ps /\ Forall2 gpolicy_variant ps ps' /\ ps <> ps' /\
    combine_policies ps = Ok o.
Proof. exact c07_case. Qed.

Theorem C07_refuted : exists ps ps', Forall2 gpolicy_variant ps ps' /\ Forall (fun p => clean (pol p)) ps /\
  combine_policies ps = Err /\ exists o, combine_policies ps' = Ok o.
Proof. exact c07_witness. Qed.
Print Assumptions C07_refuted.

(** ** C08 Merging is symmetric and associative up to element order *)

(** Missing in all three: value and default operands with repeated elements. *)
Theorem C08_merge_symmetric_partial : forall o a b la lb,
  set_op o \/ (eq_op o /\ NoDup la /\ NoDup lb) -> strs a la -> strs b lb ->
  same_outcome (merge_op o a b) (merge_op o b a).
Proof. exact merge_symmetric. Qed.
Print Assumptions C08_merge_symmetric_partial.

Theorem C08_merge_associative_partial : forall o a b c la lb lc,
  set_op o \/ (eq_op o /\ NoDup la /\ NoDup lb /\ NoDup lc) -> strs a la -> strs b lb -> strs c lc ->
  same_outcome (ab <- merge_op o a b ;; merge_op o ab c) (bc <- merge_op o b c ;; merge_op o a bc).
Proof. exact merge_associative. Qed.
Print Assumptions C08_merge_associative_partial.

Theorem C08_merge_self : forall o a la,
  set_op o \/ eq_op o -> strs a la ->
  exists c lc, merge_op o a a = Ok c /\ strs c lc /\ same_elements lc la.
Proof. exact merge_self. Qed.
Print Assumptions C08_merge_self.

(** What the merged operand contains: union for add and superset_of, intersection for
    subset_of and one_of. *)
Theorem C08_merge_elements : forall o a b la lb,
  set_op o -> strs a la -> strs b lb ->
  exists c lc, merge_op o a b = Ok c /\ strs c lc /\ forall x, In x lc <-> op_elements o x la lb.
Proof. exact merge_set_outcome. Qed.
Print Assumptions C08_merge_elements.

Theorem C08_merge_essential : forall a b c,
  merge_op OEssential (VBool a) (VBool b) = Ok (VBool (a || b)) /\
  (ab <- merge_op OEssential (VBool a) (VBool b) ;; merge_op OEssential ab (VBool c)) =
  (bc <- merge_op OEssential (VBool b) (VBool c) ;; merge_op OEssential (VBool a) bc).
Proof. exact merge_essential_laws. Qed.
Print Assumptions C08_merge_essential.

(** The combination is essential if and only if one of the two is, whatever the operands are. *)
Theorem C08_essential : forall a b, exists x, merge_op OEssential a b = Ok (VBool x) /\
  (x = true <-> a = VBool true \/ b = VBool true).
Proof. exact merge_essential_any. Qed.
Print Assumptions C08_essential.

Example C08_case :
  set_op OSubsetOf /\ strs (jarr ["a"; "b"]) ["a"; "b"] /\ strs (VStr "b") ["b"] /\
  merge_op OSubsetOf (jarr ["a"; "b"]) (VStr "b") = Ok (VSlice TAny false [VStr "b"]) /\
  eq_op OValue /\ NoDup ["a"; "b"] /\ NoDup ["b"; "a"] /\
  merge_op OValue (jarr ["a"; "b"]) (jarr ["b"; "a"]) = Ok (jarr ["a"; "b"]).
Proof. exact c08_case. Qed.

Theorem C08_refuted : exists a b la lb,
  strs a la /\ strs b lb /\ merge_op OValue a b = Ok a /\ merge_op OValue b a = Err.
Proof. exact c08_witness. Qed.
Print Assumptions C08_refuted.

(** ** C09 Conflicting value/default operands are rejected *)

Theorem C09_conflict_rejected_partial : forall o a b la lb c,
  eq_op o -> NoDup la -> NoDup lb -> strs a la -> strs b lb ->
  merge_op o a b = Ok c -> same_elements la lb /\ c = a.
Proof. exact conflict_rejected. Qed.
Print Assumptions C09_conflict_rejected_partial.

Example C09_case :
  eq_op OValue /\ NoDup ["a"; "b"] /\ NoDup ["b"; "a"] /\
  merge_op OValue (jarr ["a"; "b"]) (jarr ["b"; "a"]) = Ok (jarr ["a"; "b"]) /\
  merge_op OValue (jarr ["a"; "b"]) (jarr ["b"; "c"]) = Err.
Proof. exact c09_case. Qed.

Theorem C09_refuted : exists a b la lb,
  strs a la /\ strs b lb /\ ~ same_elements la lb /\
  merge_op OValue a b = Ok a /\ merge_op ODefault a b = Ok a.
Proof. exact c09_witness. Qed.
Print Assumptions C09_refuted.

(** ** C10 essential is enforced *)

(** [there] accepts every list, also the nil list of an absent attribute
    (C10_refuted_absent), and no zero value of a scalar (C10_refuted_present). *)
Theorem C10_essential_enforced_partial : forall (e : entry) v set v',
  lookup "essential" e = Some (VBool true) -> apply_to e v set = Ok v' -> there v'.
Proof. exact essential_enforced. Qed.
Print Assumptions C10_essential_enforced_partial.

Theorem C10_essential_harmless_partial : forall (e : entry) v v',
  v <> VNil -> lookup "value" e <> Some VNil ->
  apply_to (remove_key "essential" e) v true = Ok v' -> there v' -> apply_to e v true = Ok v'.
Proof. exact essential_harmless. Qed.
Print Assumptions C10_essential_harmless_partial.

Example C10_case :
  lookup "essential" [("default", VStr "x"); ("essential", VBool true)] = Some (VBool true) /\
  apply_to [("default", VStr "x"); ("essential", VBool true)] (VStr "") false = Ok (VStr "x") /\ there (VStr "x").
Proof. exact c10_case. Qed.

Example C10_harmless_case : let e := [("subset_of", jarr ["a"]); ("essential", VBool true)] in let v := VSlice TStr false [VStr "a"; VStr "b"] in
  v <> VNil /\ lookup "value" e <> Some VNil /\ there (VSlice TStr false [VStr "a"]) /\
  apply_to (remove_key "essential" e) v true = Ok (VSlice TStr false [VStr "a"]).
Proof. cbv zeta. split; [discriminate|]. split; [discriminate|]. split; [|vm_compute; reflexivity]. split; [discriminate|now left]. Qed.
Theorem C10_refuted_absent : exists m m',
  decode_meta rp_schema [] = Ok m /\ attr_set "contacts" m = false /\
  apply_policy m (essential_on "contacts") = Ok m' /\ em_tag "contacts" m' = Some (VSlice TStr true []).
Proof. exact c10_absent_passes. Qed.
Print Assumptions C10_refuted_absent.

Theorem C10_refuted_present : exists m,
  decode_meta rp_schema [("require_auth_time", VBool false)] = Ok m /\
  attr_set "require_auth_time" m = true /\ apply_policy m (essential_on "require_auth_time") = Err.
Proof. exact c10_present_fails. Qed.
Print Assumptions C10_refuted_present.

(** ** C11 Policy application is idempotent *)

(** For one list attribute, when the second application knows whether the attribute is set.
    [set1] is that knowledge; the struct does not keep it (C11_refuted). *)
Theorem C11_idempotent_partial : forall e s n cur set v1,
  denotes e s -> list_operands e -> opt (se_add s) (@NoDup string) ->
  (se_value s = Some None -> se_add s = None /\ se_default s = None) ->
  (set = false -> n = true /\ cur = []) ->
  (se_essential s = Some true ->
     set = true \/ se_value s <> None \/ se_add s <> None \/ se_default s <> None) ->
  apply_to e (VSlice TStr n (map VStr cur)) set = Ok v1 ->
  exists n1 l set1,
    assign (TSlice TStr) v1 = Ok (VSlice TStr n1 (map VStr l)) /\
    (set1 = false <-> spec_apply s (if set then Some cur else None) = Ok None) /\
    exists v2 n2, apply_to e (VSlice TStr n1 (map VStr l)) set1 = Ok v2 /\
                  assign (TSlice TStr) v2 = Ok (VSlice TStr n2 (map VStr l)).
Proof. exact apply_idempotent. Qed.
Print Assumptions C11_idempotent_partial.

Example C11_case :
  denotes x_sup xs_sup /\ list_operands x_sup /\ opt (se_add xs_sup) (@NoDup string) /\
  apply_to x_sup x_val true = Ok (VSlice TStr false [VStr "a"; VStr "b"]).
Proof. exact c11_case. Qed.

Theorem C11_refuted : exists m m1,
  decode_meta rp_schema [] = Ok m /\ apply_policy m twice = Ok m1 /\ apply_policy m1 twice = Err.
Proof. exact c11_witness. Qed.
Print Assumptions C11_refuted.

(** ** C12 Policies touch only the attributes they name *)

Theorem C12_frame_partial : forall m p m' t,
  apply_policy m p = Ok m' -> lookup t p = None -> same_attribute t m m'.
Proof. exact apply_policy_frame. Qed.
Print Assumptions C12_frame_partial.

Theorem C12_local : forall m m2 p p2 m' m2' t,
  apply_policy m p = Ok m' -> apply_policy m2 p2 = Ok m2' ->
  map fst (em_fields m) = map fst (em_fields m2) ->
  lookup t p = lookup t p2 -> em_tag t m = em_tag t m2 -> attr_set t m = attr_set t m2 ->
  em_tag t m' = em_tag t m2'.
Proof. exact apply_policy_local. Qed.
Print Assumptions C12_local.

Theorem C12_other_types : forall m p m',
  md_apply m (Some p) = Ok m' ->
  apply_one (md_op m) (mp_op p) = Ok (md_op m') /\ apply_one (md_rp m) (mp_rp p) = Ok (md_rp m') /\
  apply_one (md_as m) (mp_as p) = Ok (md_as m') /\ apply_one (md_oc m) (mp_oc p) = Ok (md_oc m') /\
  apply_one (md_pr m) (mp_pr p) = Ok (md_pr m') /\ apply_one (md_fe m) (mp_fe p) = Ok (md_fe m') /\
  md_extra m' = md_extra m.
Proof. exact md_apply_types. Qed.
Print Assumptions C12_other_types.

Example C12_case :
  exists m m', decode_meta rp_schema rp_contacts = Ok m /\ apply_policy m contacts_policy = Ok m' /\
    lookup "client_name" contacts_policy = None /\ em_tag "client_name" m' = Some (VStr "RP") /\
    em_tag "contacts" m' <> em_tag "contacts" m.
Proof. exact c12_case. Qed.

Example C12_local_case : let q := ("client_name", [("value", VStr "x")]) :: contacts_policy in
  exists m m' m2', decode_meta rp_schema rp_contacts = Ok m /\ apply_policy m contacts_policy = Ok m' /\
    apply_policy m q = Ok m2' /\ lookup "contacts" contacts_policy = lookup "contacts" q /\ m' <> m2'.
Proof. eexists. eexists. eexists. repeat split; try (vm_compute; reflexivity). intros E. apply (f_equal (em_tag "client_name")) in E. vm_compute in E. discriminate. Qed.
(** A policy entry named "-" removes all unknown attributes. *)
Theorem C12_refuted : exists m p m',
  decode_meta rp_schema [("my_claim", VStr "1")] = Ok m /\ lookup "my_claim" p = None /\
  extra_value m = [("my_claim", VStr "1")] /\ apply_policy m p = Ok m' /\ extra_value m' = [].
Proof. exact c12_witness. Qed.
Print Assumptions C12_refuted.

(** ** C13 Policies on attributes unknown to the library are enforced *)

(** False for every policy: an entry for an unknown attribute has no effect at all. *)
Theorem C13_refuted : forall m p k e,
  ~ In k (map (fun fv : frow * gval => fr_tag (fst fv)) (em_fields m)) ->
  apply_policy m ((k, e) :: p) = apply_policy m p.
Proof. exact apply_policy_unknown. Qed.
Print Assumptions C13_refuted.

Example C13_case :
  exists m, decode_meta rp_schema [] = Ok m /\
    ~ In "my_claim" (map (fun fv : frow * gval => fr_tag (fst fv)) (em_fields m)).
Proof. exact c13_case. Qed.

(** ** C14 scope is treated as a list of scopes *)

(** Missing: scope attributes with more than one value (C14_refuted), one_of. *)
Theorem C14_single_scope_partial : forall w, w <> "" -> forall e s,
  denotes e s -> list_operands e -> opt (se_add s) (@NoDup string) ->
  (se_value s = Some None -> se_add s = None /\ se_default s = None) ->
  se_one_of s = None ->
  (v' <- apply_to e (VStr w) true ;; assign TStr (scope_fix "Scope" v')) =
  match spec_apply s (Some [w]) with
  | Ok (Some l) => Ok (VStr (String.concat " " l))
  | Ok None => Ok (VStr "")
  | Err => Err
  | Panic => Panic
  end.
Proof. exact scope_single. Qed.
Print Assumptions C14_single_scope_partial.

Example C14_case :
  denotes x_sup xs_sup /\ list_operands x_sup /\ se_one_of xs_sup = None /\
  spec_apply xs_sup (Some ["a"]) = Ok (Some ["a"; "b"]).
Proof. exact c14_case. Qed.

Theorem C14_refuted : exists m p m',
  decode_meta rp_schema [("scope", VStr "openid profile email")] = Ok m /\
  p = [("scope", [("subset_of", jarr ["openid"; "profile"])])] /\
  apply_policy m p = Ok m' /\ em_tag "scope" m' = Some (VStr "").
Proof. exact c14_witness. Qed.
Print Assumptions C14_refuted.

(** ** C15 Critical operators that are not understood make the chain unusable *)

(** Missing: chains of one statement (C15_refuted). *)
Theorem C15_crit_rejected_partial : forall c,
  2 <= List.length c -> ~ crit_supported c -> chain_metadata c = Err.
Proof. exact crit_rejected. Qed.
Print Assumptions C15_crit_rejected_partial.

Theorem C15_crit_no_influence : forall c,
  crit_supported c -> chain_metadata c = chain_metadata (map without_crit c).
Proof. exact crit_no_influence. Qed.
Print Assumptions C15_crit_no_influence.

Example C15_case :
  2 <= List.length [leaf_st; sup_policy ["regexp"]] /\ ~ crit_supported [leaf_st; sup_policy ["regexp"]] /\
  crit_supported [leaf_st; sup_policy ["subset_of"]] /\
  exists md, chain_metadata [leaf_st; sup_policy ["subset_of"]] = Ok md.
Proof. exact c15_case. Qed.

Theorem C15_refuted : exists c md, chain_metadata c = Ok md /\ ~ crit_supported c.
Proof. exact c15_witness. Qed.
Print Assumptions C15_refuted.

(** ** C16 Chain metadata is the leaf metadata with all policies of the chain applied *)

Theorem C16_chain_metadata_sound : forall c md,
  2 <= List.length c -> chain_metadata c = Ok md ->
  exists m, md = Some m /\ (forall t, In t entity_types -> type_result t c m) /\
            md_extra m = md_extra (leaf_metadata c).
Proof. exact chain_metadata_types. Qed.
Print Assumptions C16_chain_metadata_sound.

Theorem C16_chain_metadata_complete : forall c m,
  2 <= List.length c -> crit_supported c ->
  (forall t, In t entity_types -> type_result t c m) ->
  (forall s p, In s c -> st_policy s = Some p -> mp_extra p = []) ->
  md_extra m = md_extra (leaf_metadata c) ->
  chain_metadata c = Ok (Some m).
Proof. exact chain_metadata_complete. Qed.
Print Assumptions C16_chain_metadata_complete.

Example C16_case :
  exists m em, chain_metadata [leaf_st; sup_policy []; bare "ta" "ta"] = Ok (Some m) /\ md_rp m = Some em /\
    em_tag "contacts" em = Some (VSlice TStr false [VStr "admin@rp.example"; VStr "ops@ta.example"]).
Proof. exact c16_case. Qed.

Example C16_complete_case : let c := [leaf_st; sup_policy []; bare "ta" "ta"] in exists m,
  2 <= List.length c /\ crit_supported c /\ (forall t, In t entity_types -> type_result t c m) /\
  (forall s p, In s c -> st_policy s = Some p -> mp_extra p = []) /\ md_extra m = md_extra (leaf_metadata c).
Proof.
  cbv zeta. destruct c16_case as (m & em & E & _). exists m. split; [cbn; repeat constructor|].
  assert (L : 2 <= List.length [leaf_st; sup_policy []; bare "ta" "ta"]) by (cbn; repeat constructor).
  destruct (chain_metadata_types _ _ L E) as (m' & [= <-] & T & X).
  split; [intros s o [<-|[<-|[<-|[]]]] []|]. split; [exact T|]. split; [intros s p [<-|[<-|[<-|[]]]] [= <-]; reflexivity|exact X].
Qed.
(** ** C18 Caching does not change policy results *)

(** Missing: policies on absent scalar attributes (C18_refuted), and authorization server
    and OAuth client metadata (C18_refuted_alias). *)
Theorem C18_cached_partial : forall sch obj m p,
  In sch entity_schemas -> decode_meta sch obj = Ok m ->
  (forall r, In r sch -> scalar (fr_ty r) = true -> lookup (fr_tag r) p <> None ->
     exists j, lookup (fr_tag r) obj = Some j /\ j <> VNil) ->
  (m1 <- apply_policy m p ;; Ok (em_fields m1)) =
  (m2 <- apply_policy (msgpack_roundtrip m) p ;; Ok (em_fields m2)).
Proof. exact decode_cached. Qed.
Print Assumptions C18_cached_partial.

Example C18_case :
  exists m, decode_meta rp_schema rp_contacts = Ok m /\
    (forall r, In r rp_schema -> scalar (fr_ty r) = true -> lookup (fr_tag r) contacts_policy <> None ->
       exists j, lookup (fr_tag r) rp_contacts = Some j /\ j <> VNil).
Proof. exact c18_case. Qed.

Theorem C18_refuted : exists m m1 m2,
  decode_meta rp_schema [] = Ok m /\
  apply_policy m logo_default = Ok m1 /\ apply_policy (msgpack_roundtrip m) logo_default = Ok m2 /\
  em_tag "logo_uri" m1 = Some (VStr "https://ta.example/logo.png") /\ em_tag "logo_uri" m2 = Some (VStr "").
Proof. exact c18_witness. Qed.
Print Assumptions C18_refuted.

Theorem C18_refuted_alias : exists m p m1 m2,
  decode_meta op_schema [("scopes_supported", jarr ["openid"; "email"])] = Ok m /\
  apply_policy m p = Ok m1 /\ apply_policy (msgpack_roundtrip_alias m) p = Ok m2 /\
  em_tag "scopes_supported" m1 = Some (VSlice TStr false [VStr "openid"]) /\
  em_tag "scopes_supported" m2 = Some (VSlice TStr false [VStr "openid"; VStr "email"]).
Proof. exact c18_alias. Qed.
Print Assumptions C18_refuted_alias.

(** ** C32 Chain expiration is the earliest statement expiration *)

Theorem C32_expires_at : forall c, c <> [] -> is_min (expires_at c) c.
Proof. exact expires_at_min. Qed.
Print Assumptions C32_expires_at.

Theorem C32_empty : expires_at [] = zero_time.
Proof. exact eq_refl. Qed.
Print Assumptions C32_empty.

Example C32_case : [bare "a" "b"] <> [] /\ expires_at [bare "a" "b"] = 1000%Z.
Proof. exact c32_case. Qed.

(** ** C33 Path length filters are exact *)

Theorem C33_path_len : forall c, path_len c = intermediates c.
Proof. exact path_len_intermediates. Qed.
Print Assumptions C33_path_len.

(** Missing: negative bounds, which do not bound the length (C33_refuted, C33_negative). *)
Theorem C33_max_partial : forall n cs, (0 <= n)%Z ->
  exactly (fun c => (Z.of_nat (intermediates c) <= n)%Z) (filter_max_path_len n cs) cs.
Proof. exact filter_max_exact. Qed.
Print Assumptions C33_max_partial.

Theorem C33_min : forall cs,
  exactly (fun c => forall d, In d cs -> intermediates c <= intermediates d) (filter_min_path_len cs) cs.
Proof. exact filter_min_exact. Qed.
Print Assumptions C33_min.

Theorem C33_anchor : forall id cs, exactly (ends_at id) (filter_anchor id cs) cs.
Proof. exact filter_anchor_exact. Qed.
Print Assumptions C33_anchor.

Theorem C33_valid_metadata : forall cs,
  exactly (fun c => exists md, chain_metadata c = Ok md) (filter_valid_metadata cs) cs.
Proof. exact filter_valid_exact. Qed.
Print Assumptions C33_valid_metadata.

Theorem C33_compose : forall fs cs,
  (forall f, In f fs -> f [] = []) -> run_filters fs cs = fold_left (fun c f => f c) fs cs.
Proof. exact run_filters_compose. Qed.
Print Assumptions C33_compose.

Example C33_case :
  filter_min_path_len [scored 5; scored 4; scored 6; scored 4] = [scored 4; scored 4] /\
  filter_max_path_len 2 [scored 5; scored 4; scored 6] = [scored 5; scored 4] /\
  (forall f, In f [filter_min_path_len; filter_anchor "a"] -> f [] = []).
Proof. exact c33_case. Qed.

(** ** C34 SortAsc and SortDesc sort *)

(** Nothing is lost or duplicated, whatever positions sort.Slice swaps. *)
Theorem C34_permutation : forall A (swaps : list (nat * nat)) (l : list A), Permutation (sort_swaps swaps l) l.
Proof. exact @sort_swaps_perm. Qed.
Print Assumptions C34_permutation.

Theorem C34_sort_permutation : forall score cs,
  Permutation (sort_asc score cs) cs /\ Permutation (sort_desc score cs) cs.
Proof. exact sort_perms. Qed.
Print Assumptions C34_sort_permutation.

(** Missing: three or more chains that are not already in order (C34_refuted). *)
Theorem C34_two_sorted_partial : forall score cs, List.length cs <= 2 ->
  sorted_by score (sort_asc score cs) /\ sorted_by (fun c => (- score c)%Z) (sort_desc score cs).
Proof. exact sort_two. Qed.
Print Assumptions C34_two_sorted_partial.

Theorem C34_sorted_input_partial : forall score cs,
  (sorted_by score cs -> sort_asc score cs = cs) /\
  (sorted_by (fun c => (- score c)%Z) cs -> sort_desc score cs = cs).
Proof. exact sort_sorted_input. Qed.
Print Assumptions C34_sorted_input_partial.

Example C34_case : sort_asc score_len [scored 3; scored 1] = [scored 1; scored 3] /\
  sorted_by score_len [scored 1; scored 2; scored 3].
Proof. exact c34_case. Qed.

Theorem C34_refuted :
  (exists cs, ~ sorted_by score_len (sort_asc score_len cs)) /\
  (exists cs, ~ sorted_by (fun c => (- score_len c)%Z) (sort_desc score_len cs)).
Proof. exact c34_witnesses. Qed.
Print Assumptions C34_refuted.
