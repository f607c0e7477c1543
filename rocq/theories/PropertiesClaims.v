(** Collecting claims over the metadata of all entity types: theorems (C127). *)
From Verif Require Import Base GoVal Policy Schema Metadata Chain Resolver FloatTime Json TrustMark Discovery SpecMetadata SpecDiscovery
  ClaimFacts WitnessDiscovery WitnessClaims.
From Verif Require Import GoVal.
Local Open Scope nat_scope.
Local Open Scope string_scope.

(** ** C127 Claims are collected over all entity types *)

(** A list claim is never reported, whatever the metadata; and asking for a claim that is a
    text in any of the entity types crashes. *)
Theorem C127_lists_refuted : exists m x, known_types m /\ md_op m = Some x /\
  em_tag "keywords" x = Some (VSlice TStr false [VStr "edu"]) /\ slice_claims "keywords" m = Ok [].
Proof. exact both_missing. Qed.
Print Assumptions C127_lists_refuted.

Theorem C127_never_lists_refuted : forall tag m l, slice_claims tag m = Ok l -> l = [].
Proof. exact lists_none. Qed.
Print Assumptions C127_never_lists_refuted.

Theorem C127_crash_refuted : forall tag m, known_types m -> (forall t x, typed_field m t = Some x -> well_typed x) ->
  (slice_claims tag m = Panic <-> exists ty x v, has_type m ty /\ typed_field m ty = Some x /\ em_tag tag x = Some (VStr v)).
Proof. exact lists_panic. Qed.
Print Assumptions C127_crash_refuted.

(** A text claim is reported exactly once for every entity type that states it. *)
Theorem C127_texts_partial : forall tag m, known_types m -> (forall t x, typed_field m t = Some x -> well_typed x) ->
  NoDup (map fst (string_claims tag m)) /\
  forall ty v, In (ty, v) (string_claims tag m) <->
    v <> "" /\ has_type m ty /\ exists x, typed_field m ty = Some x /\ em_tag tag x = Some (VStr v).
Proof. exact texts_all. Qed.
Print Assumptions C127_texts_partial.

(** The entity types are exactly those with metadata, and each has the name shown for it. *)
Theorem C127_types_partial : forall m, NoDup (guess_entity_types m) /\ (forall ty, In ty (guess_entity_types m) <-> has_type m ty).
Proof. exact types_all. Qed.
Print Assumptions C127_types_partial.

Theorem C127_names_partial : forall m ty name, lookup ty (guess_display_names m) = Some name <-> shown_name m ty name.
Proof. exact names_all. Qed.
Print Assumptions C127_names_partial.

Example C127_case : known_types md_both /\ (forall ty x, typed_field md_both ty = Some x -> well_typed x) /\
  string_claims "logo_uri" md_both = [("openid_provider", "https://op.example/logo"); ("federation_entity", "https://fe.example/logo")] /\
  guess_entity_types md_both = ["openid_provider"; "federation_entity"] /\
  guess_display_names md_both = [("openid_provider", "University"); ("federation_entity", "Example")] /\
  slice_claims "logo_uri" md_both = Panic.
Proof. exact both_case. Qed.
