(** Concrete cases for the theorems on standard parameters. *)
From Coq Require Import QArith Qround.
From Verif Require Import Base BaseFacts GoVal Policy Schema Metadata SpecPolicy SpecMetadata Chain Resolver SpecResolver SpecChain SpecAuth WitnessResolver WitnessAuth
  FloatTime SpecTime Json SpecJson JsonFacts TrustMark Leaf Config SpecDecode Statement SpecStatement SpecParameters ParameterFacts WitnessStatement.
From Verif Require Import GoVal.
Local Open Scope nat_scope.
Local Open Scope string_scope.

Definition op_doc : json := JObj [("openid_provider", JObj
  [("issuer", JStr LEAF); ("scopes_supported", JArr [JStr "openid"; JStr "email"]); ("request_parameter_supported", JBool true);
   ("jwks", kc_enc kc_texts ["kl"]); ("id_token_signing_alg_values_supported", JArr [JStr "none"])])].
Lemma op_plain : plain op_doc. Proof. plain_doc. Qed.
Lemma c124_case : plain op_doc /\ exists m x, dec_metadata op_doc = Ok m /\ claim "openid_provider" op_doc = Some x /\
  In ("scopes_supported", Texts) (standard_parameters "openid_provider") /\ ~ In "scopes_supported" (missing_parameters "openid_provider") /\
  claim "scopes_supported" x = Some (JArr (map JStr ["openid"; "email"])) /\
  exists em, typed "openid_provider" m = Some em /\ em_tag "scopes_supported" em = Some (VSlice TStr false [VStr "openid"; VStr "email"]).
Proof.
  split; [exact op_plain|]. eexists _, _. split; [vm_compute; reflexivity|]. split; [vm_compute; reflexivity|].
  split; [apply (in_or_app _ _ _ (or_introl (in_or_app _ _ _ (or_introl (nth_In openid_provider_parameters ("", Text) (n := 6) ltac:(cbn; repeat constructor))))))|].
  split; [vm_compute; intuition discriminate|]. split; [vm_compute; reflexivity|].
  eexists. split; vm_compute; reflexivity.
Qed.

(** The trust anchor allows RS256 only; the provider supports "none" only. *)
Definition op_leaf_doc : json := document LEAF LEAF "kl" [("authority_hints", JArr [JStr TA]); ("metadata", op_doc)].
Definition op_sub_doc : json := document TA LEAF "kl"
  [("metadata_policy", JObj [("openid_provider", JObj [("id_token_signing_alg_values_supported", JObj [("subset_of", JArr [JStr "RS256"]); ("essential", JBool true)])])]);
   ("metadata_policy_crit", JArr [JStr "subset_of"])].
Definition parse2 (jwt : string) : option (string * json) :=
  option_map (fun j => ("entity-statement+jwt", j)) (lookup jwt [("kl:leaf", op_leaf_doc); ("kt:ta", ta_doc); ("kt:sub", op_sub_doc)]).
Definition net2 : world :=
  world_of parse2 kc_texts (fun _ id => lookup id [(LEAF, "kl:leaf"); (TA, "kt:ta")])
    (fun _ ep sub _ => lookup (fetch_key ep sub) [(fetch_key "https://ta.example/fetch" LEAF, "kt:sub")])
    (fun _ _ => (500 * 1000000000)%Z) (fun jwt keys => existsb (fun k => has_prefix k jwt) keys) host_of.
Definition chain2 : chain := Eval vm_compute in
  map (fun jwt => match parse_statement parse2 kc_texts jwt with Ok s => s | _ => orphan end) ["kl:leaf"; "kt:sub"; "kt:ta"].
Lemma c124_witness : exists w tas types start e s r p m em,
  returned w tas types start (e :: s :: r) /\ st_iss s = TA /\ option_map mp_op (st_policy s) = Some (Some p) /\
  lookup "id_token_signing_alg_values_supported" p = Some [("subset_of", VSlice TAny false [VStr "RS256"]); ("essential", VBool true)] /\
  chain_metadata (e :: s :: r) = Ok (Some m) /\ typed "openid_provider" m = Some em /\
  lookup "id_token_signing_alg_values_supported" (extra_value em) = Some (VSlice TAny false [VStr "none"]).
Proof.
  exists net2, tas0, [], LEAF. do 6 eexists. split.
  { exists 5; eexists; split; [right; vm_compute; reflexivity|vm_compute; left; reflexivity]. }
  split; [reflexivity|]. split; [vm_compute; reflexivity|]. split; [vm_compute; reflexivity|].
  split; [vm_compute; reflexivity|]. split; vm_compute; reflexivity.
Qed.
