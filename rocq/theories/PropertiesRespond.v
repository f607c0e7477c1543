(** Signed resolve responses: theorems (C128). *)
From Coq Require Import QArith.
From Verif Require Import Base GoVal Policy Schema Metadata Chain Resolver FloatTime Json SpecJson TrustMark Leaf Config SpecConfig Refresher Jwt SpecJwt Statement Encode SpecEncode EncodeLaws
  Respond SpecRespond RespondFacts WitnessResolver WitnessEncode WitnessRespond.
From Verif Require Import GoVal.
Local Open Scope nat_scope.
Local Open Scope string_scope.

(** ** C128 A signed resolve response is read as it was written *)

(** A client asking the resolve endpoint gets the metadata, trust marks and chain that the
    resolver has signed; the keys published for the signer verify it. Missing: responses that
    cannot be signed (C128_empty_refuted). *)
Theorem C128_read_partial : forall cx jws s r m jwt ks e p ep rq,
  sign_response cx s r = Ok m -> cx_parse cx jwt = Some m -> signer_jwks cx s = Ok ks -> response_ok jws r -> reads_with cx jws e ->
  te_remote e p ep rq = ABody jwt ->
  (exists pl, remote_payload e p ep rq = Ok pl /\ response_read (rp_payload r) pl) /\ enc_response r = verify_message m (Some ks).
Proof. exact answer_read. Qed.
Print Assumptions C128_read_partial.

Example C128_case : response_ok is_jws answer0 /\ reads_with (cx_answer answer0) is_jws (env_answer answer0) /\
  exists m ks pl, sign_response (cx_answer answer0) ta_signer answer0 = Ok m /\ cx_parse (cx_answer answer0) "a.b.c" = Some m /\
    signer_jwks (cx_answer answer0) ta_signer = Ok ks /\
    remote_payload (env_answer answer0) [] "https://ta.example/resolve" (Req LEAF [TA] []) = Ok pl /\
    map ti_jwt (pl_marks pl) = ["eyJ.m.s"; "eyJ.n.s"] /\
    exists md em, pl_metadata pl = Some md /\ md_rp md = Some em /\ em_tag "client_name" em = Some (VStr "App") /\ em_tag "default_max_age" em = Some (VInt 60).
Proof. exact c128_case. Qed.

(** Issuer, subject, times, audience and additional claims are stated in the document. *)
Theorem C128_claims : forall r j, apart response_claims (rp_extra r) -> enc_response r = Ok j ->
  claim "iss" j = Some (JStr (rp_iss r)) /\ claim "sub" j = Some (JStr (rp_sub r)) /\ claim "aud" j = text_claim (rp_aud r) /\
  claim "iat" j = Some (JNum (encode_time (rp_iat r))) /\ claim "exp" j = Some (JNum (encode_time (rp_exp r))) /\
  forall k v, lookup k (rp_extra r) = Some v -> claim k j = Some v.
Proof. exact response_own. Qed.
Print Assumptions C128_claims.

Example C128_claims_case : apart response_claims (rp_extra answer0) /\
  exists j, enc_response answer0 = Ok j /\ claim "note" j = Some (JStr "x") /\ claim "aud" j = Some (JStr LEAF).
Proof. exact c128_own_case. Qed.

(** A response without metadata, marks, chain and additional claims cannot be signed at all;
    every other one can be written. *)
Theorem C128_empty_refuted : exists jws r, response_ok jws r /\ forall cx s, sign_response cx s r = Err.
Proof. exact c128_empty. Qed.
Print Assumptions C128_empty_refuted.

Theorem C128_written_partial : forall r, apart response_claims (rp_extra r) -> ((exists j, enc_response r = Ok j) <-> ~ says_nothing r).
Proof. exact response_written. Qed.
Print Assumptions C128_written_partial.

(** What is not written is refused with an error. *)
Theorem C128_refused : forall r, (forall j, enc_response r <> Ok j) <-> enc_response r = Err.
Proof. exact response_refused. Qed.
Print Assumptions C128_refused.

Example C128_written_case : apart response_claims (rp_extra answer0) /\ ~ says_nothing answer0 /\ says_nothing empty_answer /\ response_ok is_jws empty_answer.
Proof. exact c128_written_case. Qed.
