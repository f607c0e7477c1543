(** Concrete cases for the theorems on endpoints (C130). *)
From Coq Require Import QArith.
From Verif Require Import Base BaseFacts GoVal Policy Schema Metadata SpecMetadata Chain Resolver SpecResolver FloatTime Json SpecJson TrustMark Leaf Discovery Config SpecDecode Statement SpecStatement StatementLaws Encode SpecEncode
  SpecRemote RemoteFacts SpecEndpoint WitnessResolver WitnessStatement WitnessRemote.
From Verif Require Import GoVal.
Local Open Scope nat_scope.
Local Open Scope string_scope.

Definition provider_doc : json := document LEAF LEAF "kl"
  [("metadata", JObj [("federation_entity", JObj [("federation_fetch_endpoint", JStr "https://op.example/fetch"); ("federation_list_endpoint", JStr "https://op.example/list");
                         ("federation_resolve_endpoint", JStr "https://op.example/resolve"); ("federation_trust_mark_endpoint", JStr "https://op.example/mark");
                         ("federation_trust_mark_list_endpoint", JStr "https://op.example/marks")]);
                      ("openid_provider", JObj [("issuer", JStr "https://op.example"); ("authorization_endpoint", JStr "https://op.example/auth"); ("token_endpoint", JStr "https://op.example/token");
                         ("grant_types_supported", JArr [JStr "authorization_code"; JStr "refresh_token"]); ("scopes_supported", JArr [JStr "openid"; JStr "email"]);
                         ("client_registration_types_supported", JArr [JStr "automatic"])])])].
Definition parse_provider (jwt : string) : option (string * json) := option_map (fun j => ("entity-statement+jwt", j)) (lookup jwt [("kl:op", provider_doc)]).
Definition provider1 : stmt := Eval vm_compute in match parse_statement parse_provider kc_texts "kl:op" with Ok s => s | _ => orphan end.
Definition provider_op : emeta := Eval vm_compute in match st_metadata provider1 with Some m => match md_op m with Some op => op | None => EMeta [] [] end | None => EMeta [] [] end.
Lemma provider_plain : plain provider_doc. Proof. plain_doc. Qed.
Lemma provider_tidy : tidy provider_doc. Proof. apply tidyb_ok; [exact provider_plain|vm_compute; reflexivity]. Qed.

Lemma c130_case : plain provider_doc /\ parse_statement parse_provider kc_texts "kl:op" = Ok provider1 /\
  fetch_endpoint provider1 = "https://op.example/fetch" /\ list_endpoint provider1 = "https://op.example/list" /\
  resolve_endpoint provider1 = "https://op.example/resolve" /\ mark_endpoint provider1 = "https://op.example/mark".
Proof. split; [exact provider_plain|]. repeat split; vm_compute; reflexivity. Qed.
Lemma c130_provider_case : exists m, st_metadata provider1 = Some m /\ md_op m = Some provider_op /\ entity_ok op_schema provider_op /\
  op_str "Issuer" provider_op = "https://op.example" /\ op_str "AuthorizationEndpoint" provider_op = "https://op.example/auth" /\ op_str "TokenEndpoint" provider_op = "https://op.example/token" /\
  attr_texts "grant_types_supported" provider_op = ["authorization_code"; "refresh_token"] /\ attr_texts "scopes_supported" provider_op = ["openid"; "email"] /\
  supports_grants ["refresh_token"] (Some m) = Ok true /\ supports_scopes ["openid"; "phone"] (Some m) = Ok false /\
  registers "automatic" (Some m) = true /\ registers "explicit" (Some m) = false.
Proof.
  eexists. split; [reflexivity|]. split; [reflexivity|]. split.
  - assert (T : given metadata_ok (st_metadata provider1)).
    { destruct (parsed_says parse_provider kc_texts "kl:op" provider1) as (j & E & _ & S); [vm_compute; reflexivity|]. injection E as <-.
      apply (statement_tidy kc_texts provider_doc provider1); [apply S; exact provider_plain|exact provider_tidy]. }
    apply (mo_op _ (T _ eq_refl)). reflexivity.
  - repeat split; vm_compute; reflexivity.
Qed.
