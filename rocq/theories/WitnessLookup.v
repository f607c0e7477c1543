(** Concrete cases for PropertiesMetadata.v (metadata lookup and restriction). *)
From Verif Require Import Base GoVal Policy Schema Metadata Chain Resolver SpecResolver WitnessResolver TrustMark
  WitnessTrustMark Lookup SpecLookup LookupFacts.
Local Open Scope nat_scope.
Local Open Scope string_scope.

(** Metadata with one known and one additional entity type. *)
Definition rp_named : emeta :=
  match decode_meta rp_schema [("client_name", VStr "shop")] with Ok m => m | _ => zero_meta rp_schema end.
Definition lookup_md : metadata :=
  Metadata None (Some rp_named) None None None (Some (zero_meta fe_schema)) [("acme_wallet", VMap TAny false [("level", VStr "high")])].

(** The caller's object is a decoded JSON value; filling it replaces it. *)
Definition fill0 (j : gval) (_ : gval) : bool * gval := (true, j).

Lemma c69_cases :
  shown_at lookup_md "acme_wallet" = Some (Additional (VMap TAny false [("level", VStr "high")])) /\
  find_metadata fill0 lookup_md true "acme_wallet" VNil = (true, VMap TAny false [("level", VStr "high")]) /\
  shown_at lookup_md "openid_provider" = None /\
  find_metadata fill0 lookup_md true "openid_provider" VNil = (false, VNil).
Proof. repeat split. Qed.

Lemma c69_witness : exists (m : metadata) (t : string) (em : emeta),
  shown_at m t = Some (Known em) /\ em_set em <> [] /\
  forall T (fill : gval -> T -> bool * T) alloc target, find_metadata fill m alloc t target = (true, target).
Proof.
  exists lookup_md, "openid_relying_party", rp_named. split; [reflexivity|]. split; [vm_compute; discriminate|].
  reflexivity.
Qed.

Lemma c70_case : let m' := nil_all_except lookup_md ["acme_wallet"; "federation_entity"] in
  restricted ["acme_wallet"; "federation_entity"] lookup_md m' /\
  shown_at lookup_md "openid_relying_party" <> None /\ shown_at m' "openid_relying_party" = None /\
  shown_at m' "acme_wallet" = Some (Additional (VMap TAny false [("level", VStr "high")])) /\
  shown_at m' "federation_entity" = Some (Known (zero_meta fe_schema)).
Proof. split; [apply LookupFacts.restriction|]. repeat split. discriminate. Qed.

Lemma c70_resolve_case : exists m, local_resolve 9 env_carrier [] (Req LEAF [TA] ["openid_relying_party"; "acme"]) = Done (Ok (Some m)) /\
  shown_at m "openid_relying_party" <> None.
Proof. eexists. split; [vm_compute; reflexivity|]. discriminate. Qed.
