(** Policies with arbitrary JSON operands: theorems. *)
From Coq Require Import QArith.
From Verif Require Import Base GoVal Policy Schema Metadata SpecPolicy SpecMetadata Chain SpecChain WitnessPolicy Json Statement SpecStatement SpecEncode SpecGeneral GeneralFacts KindFacts WitnessGeneral.
From Verif Require Import GoVal.
Local Open Scope nat_scope.
Local Open Scope string_scope.

(** ** C01 Merging never relaxes a superior's policy: operands of any JSON type *)

Theorem C01_any_merge_partial : forall a b m v set v',
  json_entry a -> json_entry b -> merge_entries a b = Ok m -> verify_entry m = Ok tt -> proper v -> apply_to m v set = Ok v' ->
  obeys a set v v' /\ obeys b set v v'.
Proof. exact any_merge. Qed.
Print Assumptions C01_any_merge_partial.

Example C01_any_merge_case : json_entry kinds_sup /\ json_entry kinds_sub /\ proper kinds_value /\
  exists m, merge_entries kinds_sup kinds_sub = Ok m /\ verify_entry m = Ok tt /\ apply_to m kinds_value true = Ok (arr [kind "b"]).
Proof. exact any_merge_case. Qed.

Theorem C01_any_combination_partial : forall k ps o m v set v',
  Forall json_policy ps -> combine_policies ps = Ok o -> verify_policy (pol o) = Ok tt -> lookup k (pol o) = Some m ->
  proper v -> apply_to m v set = Ok v' ->
  forall p e, In p ps -> lookup k (pol p) = Some e -> obeys e set v v'.
Proof. exact any_combination. Qed.
Print Assumptions C01_any_combination_partial.

Example C01_any_combination_case : Forall json_policy [Some time_ia; Some time_ta] /\ exists o m,
  combine_policies [Some time_ia; Some time_ta] = Ok o /\ verify_policy (pol o) = Ok tt /\ lookup "require_auth_time" (pol o) = Some m /\ apply_to m (VBool false) false = Ok (VBool true).
Proof. exact any_combination_case. Qed.

(** ... and end to end. An attribute that is removed has the zero value of its type. *)
Theorem C01_any_chain_partial : forall c md t k,
  2 <= List.length c -> chain_metadata c = Ok (Some md) -> In t entity_types ->
  Forall json_policy (policies_of (snd t) c) ->
  Forall (fun p => verify_policy (pol p) = Ok tt) (policies_of (snd t) c) ->
  (exists p e, In p (policies_of (snd t) c) /\ lookup k (pol p) = Some e) ->
  forall em r v, fst t (leaf_metadata c) = Some em ->
    find (fun fv : frow * gval => String.eqb k (fr_tag (fst fv))) (em_fields em) = Some (r, v) ->
    fr_name r <> "Scope" -> proper v ->
  exists em' v', fst t md = Some em' /\
    (em_tag k em' = Some v' \/ (v' = VNil /\ em_tag k em' = Some (zero_of (fr_ty r)))) /\
    forall p e, In p (policies_of (snd t) c) -> lookup k (pol p) = Some e -> obeys e (mem (fr_name r) (em_set em)) v v'.
Proof. exact any_chain. Qed.
Print Assumptions C01_any_chain_partial.

Example C01_any_chain_case : exists md em em', chain_metadata chain_time = Ok (Some md) /\ In (md_rp, mp_rp) entity_types /\
  Forall json_policy (policies_of mp_rp chain_time) /\ Forall (fun p => verify_policy (pol p) = Ok tt) (policies_of mp_rp chain_time) /\
  md_rp (leaf_metadata chain_time) = Some em /\
  find (fun fv : frow * gval => String.eqb "require_auth_time" (fr_tag (fst fv))) (em_fields em) = Some (FRow "RequireAuthTime" "require_auth_time" true TBool, VBool false) /\
  proper (VBool false) /\ md_rp md = Some em' /\ em_tag "require_auth_time" em' = Some (VBool true).
Proof. exact any_chain_case. Qed.

(** ** C08 Merging is symmetric: operands of any JSON type *)

(** What a merged operand contains. *)
Theorem C08_any_elements : forall o a b c,
  set_op o -> proper a -> proper b -> a <> VNil -> b <> VNil -> merge_op o a b = Ok c ->
  forall x, among x (elements c) <-> merged_contains o x a b.
Proof. exact any_elements. Qed.
Print Assumptions C08_any_elements.

(** Arrays always merge, to arrays. *)
Theorem C08_any_arrays : forall o a b, set_op o -> an_array a -> an_array b -> exists c, merge_op o a b = Ok c /\ an_array c.
Proof. exact any_arrays. Qed.
Print Assumptions C08_any_arrays.

Theorem C08_any_symmetric_partial : forall o a b,
  (set_op o /\ an_array a /\ an_array b) \/ (eq_op o /\ a <> VNil /\ b <> VNil /\ distinct (elements a) /\ distinct (elements b)) ->
  proper a -> proper b -> same_merge (merge_op o a b) (merge_op o b a).
Proof. exact any_symmetric. Qed.
Print Assumptions C08_any_symmetric_partial.


Example C08_any_case : let a := arr [kind "a"; kind "b"] in let b := arr [kind' "b"; kind' "a"] in
  set_op OSubsetOf /\ eq_op OValue /\ proper a /\ proper b /\ an_array a /\ an_array b /\ distinct (elements a) /\ distinct (elements b) /\
  merge_op OSubsetOf a b = Ok a.
Proof.
  destruct any_fixed_case as (A & B & C & D & _ & _ & E). cbv zeta. split; [now right; right; left|]. split; [now left|].
  repeat (split; [first [assumption | eexists; eexists; reflexivity]|]). exact E.
Qed.
(** ** C09 Conflicting value/default operands are rejected: operands of any JSON type *)

Theorem C09_any_conflict_partial : forall o a b,
  eq_op o -> a <> VNil -> b <> VNil -> proper a -> proper b -> distinct (elements a) -> distinct (elements b) ->
  (same_content a b -> merge_op o a b = Ok a) /\ (~ same_content a b -> merge_op o a b = Err).
Proof. exact any_fixed. Qed.
Print Assumptions C09_any_conflict_partial.

Example C09_any_case : let a := arr [kind "a"; kind "b"] in let b := arr [kind' "b"; kind' "a"] in
  proper a /\ proper b /\ distinct (elements a) /\ distinct (elements b) /\ merge_op OValue a b = Ok a /\ merge_op OValue a (arr [kind "b"; kind "c"]) = Err /\
  merge_op OSubsetOf a b = Ok a.
Proof. exact any_fixed_case. Qed.

(** ** C126 Policies work for attributes of every JSON type *)

(** value: the attribute becomes what the policy says. [any_of] decodes an operand. *)
Theorem C126_value_partial : forall m r j0 j, given_as m r j0 -> simple_type (fr_ty r) -> of_kind (fr_ty r) j ->
  exists m' v', apply_policy m [(fr_tag r, [("value", any_of j)])] = Ok m' /\ In (r, v') (em_fields m') /\ attribute (fr_ty r) j v'.
Proof. exact value_simple. Qed.
Print Assumptions C126_value_partial.

Theorem C126_default_partial : forall m r j, given_as m r JNull -> ~ is_set m r -> simple_type (fr_ty r) -> of_kind (fr_ty r) j ->
  exists m' v', apply_policy m [(fr_tag r, [("default", any_of j)])] = Ok m' /\ In (r, v') (em_fields m') /\ attribute (fr_ty r) j v'.
Proof. exact default_simple. Qed.
Print Assumptions C126_default_partial.

(** one_of: exactly the listed values are accepted. *)
Theorem C126_one_of_partial : forall m r j0 js, given_as m r j0 -> is_set m r -> fr_ty r = TStr \/ fr_ty r = TBool -> of_kind (fr_ty r) j0 ->
  (In j0 js -> exists m' v', apply_policy m [(fr_tag r, [("one_of", any_of (JArr js))])] = Ok m' /\ In (r, v') (em_fields m') /\ attribute (fr_ty r) j0 v') /\
  (~ In j0 js -> apply_policy m [(fr_tag r, [("one_of", any_of (JArr js))])] = Err).
Proof. exact one_of_simple. Qed.
Print Assumptions C126_one_of_partial.

(** For numbers, objects and key sets every value and default crashes the caller, and one_of
    rejects every value, listed or not. *)
Theorem C126_refuted_value : forall m r j0 j, given_as m r j0 -> other_type (fr_ty r) -> of_kind (fr_ty r) j ->
  apply_policy m [(fr_tag r, [("value", any_of j)])] = Panic.
Proof. exact value_other. Qed.
Print Assumptions C126_refuted_value.

Theorem C126_refuted_default : forall m r j, given_as m r JNull -> ~ is_set m r -> other_type (fr_ty r) -> of_kind (fr_ty r) j ->
  apply_policy m [(fr_tag r, [("default", any_of j)])] = Panic.
Proof. exact default_other. Qed.
Print Assumptions C126_refuted_default.

Theorem C126_refuted_one_of : forall m r j0 js, given_as m r j0 -> is_set m r -> other_type (fr_ty r) -> of_kind (fr_ty r) j0 ->
  apply_policy m [(fr_tag r, [("one_of", any_of (JArr js))])] = Err.
Proof. exact one_of_other. Qed.
Print Assumptions C126_refuted_one_of.

Example C126_given_case : dec_entity rp_schema client = Ok client_meta /\
  given_as client_meta (row "ClientName" "client_name" TStr) (JStr "RP") /\ given_as client_meta (row "RequireAuthTime" "require_auth_time" TBool) (JBool true) /\
  given_as client_meta (row "Contacts" "contacts" (TSlice TStr)) (JArr [JStr "admin@rp.example"]) /\
  given_as client_meta (row "DefaultMaxAge" "default_max_age" TInt) (JNum 60) /\ given_as client_meta (row "JWKS" "jwks" TJwks) (JObj [("keys", JArr [])]) /\
  given_as client_meta (row "LogoURI" "logo_uri" TStr) JNull /\ given_as client_meta (row "ClientIDIssuedAt" "client_id_issued_at" TInt) JNull.
Proof. exact client_given. Qed.

Example C126_given_object_case : dec_entity op_schema provider = Ok provider_meta /\
  given_as provider_meta (row "MTLSEndpointAliases" "mtls_endpoint_aliases" (TMap TStr)) (JObj [("token_endpoint", JStr "https://mtls.op.example")]).
Proof. exact provider_given. Qed.

Example C126_set_case : is_set client_meta (row "ClientName" "client_name" TStr) /\ is_set client_meta (row "DefaultMaxAge" "default_max_age" TInt) /\
  ~ is_set client_meta (row "LogoURI" "logo_uri" TStr) /\ ~ is_set client_meta (row "ClientIDIssuedAt" "client_id_issued_at" TInt).
Proof. exact set_cases. Qed.

Example C126_case : exists m1 m2 m3,
  apply_policy client_meta [("client_name", [("value", any_of (JStr "Shop"))])] = Ok m1 /\ em_tag "client_name" m1 = Some (VStr "Shop") /\
  apply_policy client_meta [("logo_uri", [("default", any_of (JStr "https://ta.example/logo"))])] = Ok m2 /\ em_tag "logo_uri" m2 = Some (VStr "https://ta.example/logo") /\
  apply_policy client_meta [("client_name", [("one_of", any_of (JArr [JStr "Shop"; JStr "RP"]))])] = Ok m3 /\
  apply_policy client_meta [("client_name", [("one_of", any_of (JArr [JStr "Shop"; JNum 1]))])] = Err /\
  apply_policy client_meta [("default_max_age", [("value", any_of (JNum 60))])] = Panic /\
  apply_policy client_meta [("default_max_age", [("one_of", any_of (JArr [JNum 60]))])] = Err /\
  apply_policy client_meta [("client_id_issued_at", [("default", any_of (JNum 0))])] = Panic.
Proof. exact c126_case. Qed.
