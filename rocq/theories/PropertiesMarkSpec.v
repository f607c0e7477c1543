(** C165: trust mark specifications in JSON. *)
From Coq Require Import QArith Qround.
From Verif Require Import Base GoVal Policy Schema Metadata Chain Resolver FloatTime SpecTime Json TrustMark WitnessResolver WitnessTrustMark Refresher Config
  SpecConfig WitnessConfig MarkSpecJson SpecMarkSpec MarkSpecFacts WitnessMarkSpec.
Local Open Scope nat_scope.
Local Open Scope string_scope.

(** ** C165 Trust mark specifications survive JSON and say the same there as in YAML *)

(** Missing: lifetimes that are not whole seconds or longer than 146 years, and additional
    claims with the name of a field (refuted below). *)
Theorem C165_roundtrip_partial : forall s l, ms_lifetime s = seconds l -> (Z.abs l <= 4611686018)%Z -> set_apart (ms_extra s) -> read_json (marshal_jspec s) s.
Proof. exact jspec_roundtrip. Qed.
Print Assumptions C165_roundtrip_partial.

Example C165_case : ms_lifetime spec165 = seconds 3600 /\ (Z.abs 3600 <= 4611686018)%Z /\ set_apart (ms_extra spec165) /\ read_json (marshal_jspec spec165) spec165.
Proof. exact c165_case. Qed.

(** Exactly which documents can be read; no document crashes the reader. *)
Theorem C165_readable : forall s j, (exists s', unmarshal_jspec j s = Ok s') <-> j = JNull \/ exists o, j = JObj o /\ Forall member_fits o.
Proof. exact jspec_readable. Qed.
Print Assumptions C165_readable.
Theorem C165_no_panic : forall s j, unmarshal_jspec j s <> Panic.
Proof. exact jspec_no_panic. Qed.
Print Assumptions C165_no_panic.

Example C165_readable_case : Forall member_fits doc165 /\ ~ member_fits ("Lifetime", JStr "1h").
Proof. exact c165_readable_case. Qed.

(** What is written is the same document in JSON and in YAML. *)
Theorem C165_written : forall show s, to_json (marshal_yspec show s) = marshal_jspec (spec_of s).
Proof. exact written_alike. Qed.
Print Assumptions C165_written.

(** A document read as JSON can be read as YAML and says the same there. Missing: documents
    with repeated names or names of fields in other letters (refuted below). *)
Theorem C165_same_partial : forall show o s, well_named o -> read_json (JObj o) s -> exists s', read_spec (to_yaml show (JObj o)) s' /\ spec_of s' = s.
Proof. exact json_as_yaml. Qed.
Print Assumptions C165_same_partial.

(** Marks issued after such a document live as long as it says, up to fractions of a
    second. *)
Theorem C165_lifetime_partial : forall o s q sign ent now sub t, well_named o -> read_json (JObj o) s -> lookup "lifetime" o = Some (JNum q) ->
  (1 <= q)%Q -> (q < inject_Z 9223372037)%Q -> issue_mark sign ent (new_issuer [s]) now (ms_type s) sub None = Ok t ->
  exists m, ti_mark t = Some m /\ mk_exp m = Some (now + seconds (Qfloor q))%Z.
Proof. exact json_lifetime. Qed.
Print Assumptions C165_lifetime_partial.

Example C165_read_case : exists s t, well_named doc165 /\ read_json (JObj doc165) s /\ lookup "lifetime" doc165 = Some (JNum (86400 # 1)) /\
  issue_mark sign96 ISS (new_issuer [s]) (seconds 100) (ms_type s) LEAF None = Ok t.
Proof. exact c165_read_case. Qed.

Theorem C165_letters_refuted : exists o s, (forall show, unique (to_yaml show (JObj o)) = true) /\ read_json (JObj o) s /\ ms_lifetime s = seconds 60 /\
  forall show, exists s', read_spec (to_yaml show (JObj o)) s' /\ ys_lifetime s' = 0%Z.
Proof. exact c165_letters. Qed.
Print Assumptions C165_letters_refuted.
Theorem C165_twice_refuted : exists o s, read_json (JObj o) s /\ ms_lifetime s = seconds 60 /\ forall show, unmarshal_yspec (to_yaml show (JObj o)) zero_yspec = Err.
Proof. exact c165_twice. Qed.
Print Assumptions C165_twice_refuted.
Theorem C165_override_refuted : exists s s', NoDup (keys (ms_extra s)) /\ read_json (marshal_jspec s) s' /\ ms_type s = "tm1" /\ ms_type s' = "tm2".
Proof. exact c165_override. Qed.
Print Assumptions C165_override_refuted.
Theorem C165_fraction_refuted : exists s s', ms_extra s = [] /\ (0 < ms_lifetime s)%Z /\ read_json (marshal_jspec s) s' /\ ms_lifetime s' = 0%Z.
Proof. exact c165_fraction. Qed.
Print Assumptions C165_fraction_refuted.
