(** Resolve responses as a resolver signs them: trustresolver.go:41-125, jwtsigning.go:106-108. *)
From Coq Require Import QArith.
From Verif Require Import Base GoVal Policy Schema Metadata Chain Resolver FloatTime Json TrustMark Refresher Leaf Config Jwt Statement Encode.
From Verif Require Import GoVal.
Local Open Scope nat_scope.
Local Open Scope string_scope.

(** ResolveResponse: trustresolver.go:41-48. The values of Extra are identified with their JSON. *)
Record response := Response {
  rp_iss : string; rp_sub : string; rp_iat : time; rp_exp : time; rp_aud : string; rp_payload : payload; rp_extra : smap json }.

(** ResolveResponsePayload.MarshalJSON: trustresolver.go:81-97; JWSMessages.MarshalJSON:
    trustresolver.go:117-123 writes the JWTs. Whether a text is a JWS is not asked here. *)
Definition enc_response_field (v : sval) : json :=
  match v with
  | SMeta m => enc_opt enc_metadata m
  | SMarks l => JArr (map enc_info l)
  | SNames l => enc_names l
  | _ => JNull
  end.
Definition payload_members (p : payload) : smap json :=
  enc_fields (map (with_enc enc_response_field) (response_fields (fun _ => true)))
             [SMeta (pl_metadata p); SMarks (pl_marks p); SNames (Some (pl_chain p))].
(** The struct additionalData: trustresolver.go:57-72 *)
Definition own_members (r : response) : smap json :=
  ([("iss", JStr (rp_iss r)); ("sub", JStr (rp_sub r)); ("iat", JNum (encode_time (rp_iat r))); ("exp", JNum (encode_time (rp_exp r)))] ++
   (if String.eqb (rp_aud r) "" then [] else [("aud", JStr (rp_aud r))]))%list.
(** ResolveResponse.MarshalJSON: trustresolver.go:52-78. The two texts are joined with a comma,
    which is not JSON if the first has no member (see Json.v). *)
Definition enc_response (r : response) : res json :=
  match overlay (payload_members (rp_payload r)) (rp_extra r) with
  | [] => Err
  | ms => Ok (JObj (overlay (as_map (ms ++ own_members r)%list) (rp_extra r)))
  end.
(** ResolveResponseSigner.JWT: jwtsigning.go:106-108 *)
Definition sign_response (cx : crypto) (s : jwt_signer) (r : response) : res message := typed_jwt cx Jwt.Response s (enc_response r).
