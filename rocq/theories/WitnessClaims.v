(** Metadata with two entity types for the theorems in PropertiesClaims.v. *)
From Verif Require Import Base BaseFacts GoVal Policy Schema Metadata MetadataFacts Chain Resolver FloatTime Json TrustMark Discovery SpecMetadata SpecDiscovery
  EvalFacts ClaimFacts WitnessDiscovery.
From Verif Require Import GoVal.
Local Open Scope nat_scope.
Local Open Scope string_scope.

Definition md_both : metadata :=
  Metadata (Some (decoded op_schema op_obj)) None None None None
    (Some (decoded fe_schema [("display_name", VStr "Example"); ("logo_uri", VStr "https://fe.example/logo");
                              ("contacts", VSlice TAny false [VStr "ops"])])) [].

Lemma both_known : known_types md_both /\ (forall ty x, typed_field md_both ty = Some x -> well_typed x).
Proof.
  split; intros ty x; unfold typed_field, md_both; cbn [md_op md_rp md_as md_oc md_pr md_fe];
    destruct (String.eqb ty "openid_provider"); intros H.
  1, 3: injection H as <-.
  3, 4: destruct (String.eqb ty "openid_relying_party"); [discriminate|]; destruct (String.eqb ty "oauth_authorization_server"); [discriminate|];
     destruct (String.eqb ty "oauth_client"); [discriminate|]; destruct (String.eqb ty "oauth_resource"); [discriminate|];
     destruct (String.eqb ty "federation_entity"); [|discriminate]; injection H as <-.
  all: try (unfold known_entity, entity_schemas; vm_compute; tauto).
  all: unfold well_typed, decoded; match goal with |- context [decode_meta ?s ?o] =>
     let d := eval vm_compute in (decode_meta s o) in replace (decode_meta s o) with d by (vm_compute; reflexivity) end;
     cbn [em_fields]; repeat constructor; cbn [well_typed_value fr_ty fst snd typeof]; try reflexivity;
     first [exists true, []; reflexivity|exists false, []; reflexivity|eexists; eexists (_ :: nil); reflexivity
           |eexists; eexists (_ :: _ :: nil); reflexivity].
Qed.

Lemma both_claims : string_claims "logo_uri" md_both =
    [("openid_provider", "https://op.example/logo"); ("federation_entity", "https://fe.example/logo")] /\
  guess_entity_types md_both = ["openid_provider"; "federation_entity"] /\
  guess_display_names md_both = [("openid_provider", "University"); ("federation_entity", "Example")].
Proof. vm_compute. tauto. Qed.

Lemma both_lists : exists x, md_op md_both = Some x /\ em_tag "keywords" x = Some (VSlice TStr false [VStr "edu"]) /\
  slice_claims "keywords" md_both = Ok [] /\ slice_claims "logo_uri" md_both = Panic.
Proof. eexists. split; [reflexivity|]. vm_compute. tauto. Qed.

Lemma both_missing : exists m x, known_types m /\ md_op m = Some x /\
  em_tag "keywords" x = Some (VSlice TStr false [VStr "edu"]) /\ slice_claims "keywords" m = Ok [].
Proof. exists md_both. destruct both_lists as (x & A & B & C & _). exists x. split; [exact (proj1 both_known)|auto]. Qed.
Lemma both_case : known_types md_both /\ (forall ty x, typed_field md_both ty = Some x -> well_typed x) /\
  string_claims "logo_uri" md_both = [("openid_provider", "https://op.example/logo"); ("federation_entity", "https://fe.example/logo")] /\
  guess_entity_types md_both = ["openid_provider"; "federation_entity"] /\
  guess_display_names md_both = [("openid_provider", "University"); ("federation_entity", "Example")] /\
  slice_claims "logo_uri" md_both = Panic.
Proof.
  destruct both_known as [K W], both_claims as (A & B & C), both_lists as (x & _ & _ & _ & D). auto 8.
Qed.
