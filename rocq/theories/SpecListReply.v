(** Specification vocabulary: HTTP replies that are listings. *)
From Verif Require Import Base GoVal Policy Schema Metadata Chain Resolver FloatTime Json Web ErrorReply SpecErrorReply.
Local Open Scope nat_scope.
Local Open Scope string_scope.

(** A successful reply with this JSON document. *)
Definition successful_json (read : string -> option json) (r : http_reply) (j : option json) : Prop :=
  exists status body, r = HReply status true body /\ 200 <= status < 300 /\ status <> 204 /\ read body = j.
(** An array of these texts; null stands for the empty one. *)
Definition array_of (j : json) (ids : list string) : Prop :=
  exists l, j = JArr l /\ Forall2 (fun v s => v = JStr s \/ (v = JNull /\ s = "")) l ids.
(** The reply says neither: it is not declared as JSON, or has a status other than 2xx (or
    204) and is not an error. *)
Definition says_nothing (read : string -> option json) (r : http_reply) : Prop :=
  exists status is_json body, r = HReply status is_json body /\
    (is_json = false \/ status < 200 \/ 300 <= status \/ status = 204) /\ forall code, ~ error_reply read r code.
