(** Concrete cases for the theorems on written documents (C131). *)
From Coq Require Import QArith.
From Verif Require Import Base BaseFacts GoVal Policy Schema Metadata SpecMetadata Chain Resolver SpecResolver FloatTime Json SpecJson JsonFacts TrustMark Refresher Leaf Config SpecConfig Jwt SpecDecode Statement SpecStatement
  Encode SpecEncode Respond SpecRespond SpecWritten WitnessResolver WitnessStatement WitnessEncode WitnessRespond.
From Verif Require Import GoVal.
Local Open Scope nat_scope.
Local Open Scope string_scope.

(** An authorization server without any attribute but its issuer. *)
Definition as_built : emeta := Eval vm_compute in build op_schema [("issuer", VStr "https://as.example")] [].
Lemma as_built_ok : entity_ok op_schema as_built.
Proof.
  change as_built with (build op_schema [("issuer", VStr "https://as.example")] []). constructor.
  - reflexivity.
  - apply build_type. intros r H. unfold op_schema in H. cbn [In] in H. each H; vm_compute; try exact Logic.I; eauto.
  - split; [constructor|intros k []].
  - constructor.
Qed.
Lemma c131_refuted : exists m, entity_ok op_schema m /\ em_tag "token_endpoint" m = Some (VStr "") /\ em_tag "subject_types_supported" m = Some (VSlice TStr true []) /\
  claim "token_endpoint" (enc_entity m) = Some (JStr "") /\ claim "subject_types_supported" (enc_entity m) = Some JNull.
Proof. exists as_built. split; [exact as_built_ok|]. repeat split; vm_compute; reflexivity. Qed.
Lemma c131_case : entity_ok rp_schema rp_built /\ In (rp_schema, ["client_registration_types"]) always_written /\
  claim "client_name" (enc_entity rp_built) = Some (JStr "App") /\ claim "contacts" (enc_entity rp_built) = None /\ claim "require_auth_time" (enc_entity rp_built) = None /\
  claim "client_registration_types" (enc_entity rp_built) = Some JNull.
Proof. split; [exact rp_built_ok|]. split; [cbn; tauto|]. repeat split; vm_compute; reflexivity. Qed.
Lemma c131_statement_case : let p := sub_payload (Some pol_built) (Some (Constraints (Some 0%Z) (Some (Naming (Some [".example"]) [])) (Some []))) in let d := enc_statement kc_texts p in
  apart claim_names (sp_extra p) /\ claim "authority_hints" d = None /\ claim "crit" d = Some (JArr [JStr "jti"]) /\
  claim "constraints" d = Some (JObj [("max_path_length", JNum 0); ("naming_constraints", JObj [("permitted", JArr [JStr ".example"])])]) /\
  claim "metadata_policy" d = Some (JObj [("openid_relying_party", JObj [("contacts", JObj [("add", JArr [JStr "ops@ta.example"])]); ("default_max_age", JObj [("value", JNum 60)])])]).
Proof.
  intros p d. split; [|repeat split; vm_compute; reflexivity].
  split; [apply nodupb_ok; reflexivity|]. intros k Hk. change (In k ["jti"; "level"]) in Hk. each Hk; vm_compute; intros X; repeat destruct X as [X|X]; try discriminate X; exact X.
Qed.
Lemma c131_response_case : apart response_claims (rp_extra answer0) /\ exists j, enc_response answer0 = Ok j /\ claim "trust_chain" j = Some (JArr [JStr "eyJ.leaf.s"; JStr "eyJ.ta.s"]).
Proof.
  split.
  - split; [repeat constructor; intros []|]. intros k [<-|[]]; vm_compute; intros X; repeat destruct X as [X|X]; try discriminate X; exact X.
  - eexists. split; [vm_compute; reflexivity|]. vm_compute. reflexivity.
Qed.
