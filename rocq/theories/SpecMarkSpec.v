(** Specification vocabulary for trust mark specifications in JSON. *)
From Coq Require Import QArith.
From Verif Require Import Base GoVal Policy Schema Metadata Chain FloatTime Json TrustMark Refresher Config SpecConfig MarkSpecJson.
Local Open Scope nat_scope.
Local Open Scope string_scope.

(** A specification read from a JSON document. *)
Definition read_json (j : json) (s : mark_spec) : Prop := unmarshal_jspec j zero_spec = Ok s.

(** Additional claims: a map, no name of which is that of a field, whatever the case of
    letters. *)
Definition set_apart (x : smap json) : Prop :=
  NoDup (keys x) /\ forall k, In k (keys x) -> ~ In (fold_name k) spec_names.

(** The members have different names, also in inner objects, and none has the name of a field
    in other letters. *)
Definition well_named (o : list (string * json)) : Prop :=
  (forall show, unique (to_yaml show (JObj o)) = true) /\
  forall k, In k (keys o) -> In (fold_name k) spec_names -> In k spec_names.

(** A member named like a field, whatever the case of letters, is null or has its type. *)
Definition member_fits (kv : string * json) : Prop :=
  (In (fold_name (fst kv)) ["trust_mark_type"; "ref"; "logo_uri"; "delegation_jwt"] -> snd kv = JNull \/ exists t, snd kv = JStr t) /\
  (fold_name (fst kv) = "lifetime" -> snd kv = JNull \/ exists q, snd kv = JNum q) /\
  (fold_name (fst kv) = "include_extra_claims_in_info" -> snd kv = JNull \/ exists b, snd kv = JBool b).
