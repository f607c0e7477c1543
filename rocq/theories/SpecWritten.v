(** Specification vocabulary: which members a written document has (C131). *)
From Verif Require Import Base GoVal Schema Json.
Local Open Scope string_scope.

(** An empty list of names is left out. *)
Definition names_claim (l : list string) : option json := match l with [] => None | _ => Some (JArr (map JStr l)) end.
(** The member is there, and not null, if [P]; otherwise it is not there. *)
Definition stated_when (P : Prop) (x : option json) : Prop := (P -> exists v, x = Some v /\ v <> JNull) /\ (~ P -> x = None).
(** The attributes that are written even if they have no value, by entity type. *)
Definition always_written : list (list frow * list string) :=
  [ (op_schema, ["issuer"; "authorization_endpoint"; "token_endpoint"; "response_types_supported"; "subject_types_supported"; "client_registration_types_supported"]);
    (rp_schema, ["client_registration_types"]);
    (pr_schema, ["resource_encryption_alg_values_supported"; "resource_encryption_enc_values_supported"]);
    (fe_schema, []) ].
