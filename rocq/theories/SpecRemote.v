(** Specification vocabulary: documents whose metadata survives being resolved and passed on. *)
From Coq Require Import QArith.
From Verif Require Import Base GoVal Policy Schema Metadata SpecMetadata Chain SpecChain FloatTime Json SpecJson TrustMark Config SpecDecode Statement SpecStatement Encode SpecEncode.
From Verif Require Import GoVal.
Local Open Scope nat_scope.
Local Open Scope string_scope.

(** No member name differs from one of the [names] by case only. *)
Definition clear (names : list string) (x : json) : Prop :=
  forall k, claim k x <> None -> In k names \/ ~ In (fold_name k) (map fold_name names).
Definition schema_of_type : list (string * list frow) :=
  [("openid_provider", op_schema); ("openid_relying_party", rp_schema); ("oauth_authorization_server", op_schema);
   ("oauth_client", rp_schema); ("oauth_resource", pr_schema); ("federation_entity", fe_schema)].
(** "-" is the tag the library gives to its map of additional members. *)
Definition tidy_metadata (x : json) : Prop :=
  clear type_names x /\
  forall t sch, In (t, sch) schema_of_type -> clear (map fr_tag sch) (stated t x) /\ claim "-" (stated t x) = None.
Definition tidy_policies (x : json) : Prop := forall t, In t type_names -> claim "-" (stated t x) = None.
(** The payload of an entity statement. *)
Definition tidy (j : json) : Prop :=
  plain j /\ tidy_metadata (stated "metadata" j) /\ tidy_policies (stated "metadata_policy" j).

(** Policies with operands as read from JSON, for attributes not called "-". *)
Definition read_policy (p : gpolicy) : Prop :=
  forall k e, In (k, e) (pol p) -> k <> "-" /\ forall o v, In (o, v) e -> of_type TAny v.
Definition read_policies (s : stmt) : Prop :=
  forall t p, In t entity_types -> st_policy s = Some p -> read_policy (snd t p).
