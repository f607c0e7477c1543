(** Specification vocabulary: what the reader of a signed resolve response should find. *)
From Coq Require Import QArith.
From Verif Require Import Base GoVal Policy Schema Metadata SpecMetadata Chain Resolver FloatTime SpecTime Json SpecJson TrustMark Leaf Config SpecConfig Jwt Statement Encode SpecEncode Respond.
From Verif Require Import GoVal.
Local Open Scope nat_scope.
Local Open Scope string_scope.

Definition response_claims : list string := ["metadata"; "trust_marks"; "trust_chain"; "iss"; "sub"; "iat"; "exp"; "aud"].

(** A response as Go code can build it: the chain consists of JWTs, additional claims and
    members have names of their own. *)
Record response_ok (jws : string -> bool) (r : response) : Prop := ResponseOk {
  rk_metadata : given metadata_ok (pl_metadata (rp_payload r));
  rk_marks : Forall (fun t => apart ["trust_mark_type"; "trust_mark"] (ti_extra t)) (pl_marks (rp_payload r));
  rk_chain : forall t, In t (pl_chain (rp_payload r)) -> jws t = true;
  rk_extra : apart response_claims (rp_extra r) }.

(** A trust mark as it is read: its claims, without what was remembered about it. *)
Definition mark_read (t t' : info) : Prop := t' = Info (ti_type t) (ti_jwt t) (ti_extra t) None.
Record response_read (p p' : payload) : Prop := ResponseRead {
  rd_metadata : both metadata_read (pl_metadata p) (pl_metadata p');
  rd_marks : Forall2 mark_read (pl_marks p) (pl_marks p');
  rd_chain : pl_chain p' = pl_chain p }.

(** There is nothing in the response but issuer, subject, times and audience. *)
Definition says_nothing (r : response) : Prop := rp_payload r = no_payload /\ rp_extra r = [].

(** A client [e] that reads JWTs with [cx] and decodes their payloads with this library. *)
Definition reads_with (cx : crypto) (jws : string -> bool) (e : env) : Prop :=
  (forall b, te_parse e b = read_jwt cx b) /\ (forall j, te_payload e j = ok_or_none (dec_response jws j)).
