(** Concrete cases for the theorems on signed resolve responses. *)
From Coq Require Import QArith Lia.
From Verif Require Import Base BaseFacts GoVal Policy Schema Metadata SpecMetadata Chain Resolver WitnessResolver FloatTime SpecTime Json SpecJson JsonFacts TrustMark WitnessTrustMark
  Refresher Leaf Config SpecConfig Jwt SpecJwt Statement SpecStatement WitnessStatement Encode SpecEncode EncodeLaws WitnessEncode Respond SpecRespond RespondFacts.
From Verif Require Import GoVal.
Local Open Scope nat_scope.
Local Open Scope string_scope.

Definition is_jws (t : string) : bool := mem t ["eyJ.leaf.s"; "eyJ.ta.s"].
Definition answer0 : response :=
  Response TA LEAF (at_second 100) (at_second 1000) LEAF
    (Payload (Some md_built) [Info "tm1" "eyJ.m.s" [("level", JNum 2)] None; Info "tm2" "eyJ.n.s" [] None] ["eyJ.leaf.s"; "eyJ.ta.s"]) [("note", JStr "x")].
Definition empty_answer : response := Response TA LEAF (at_second 100) (at_second 1000) "" no_payload [].
Definition cx_answer (r : response) : crypto :=
  Crypto (fun jwt => if String.eqb jwt "a.b.c" then match enc_response r with
                       | Ok j => Some (Msg j [Sig (Some "resolve-response+jwt") (Some "thumb:kt") "ES512" (Some "kt")]) | _ => None end else None)
         (fun k => "thumb:" ++ k) (fun _ _ => true).
(** A client whose resolve endpoint returns [a.b.c]. *)
Definition env_answer (r : response) : env :=
  Env (SimpleR "https://ta.example/resolve") (fun _ _ => net0) (fun _ a => w_config net0 [] a) (fun _ _ _ => ABody "a.b.c") (fun _ _ => SpecTime.seconds 500)
      (read_jwt (cx_answer r)) (fun _ => None) (fun j => ok_or_none (dec_response is_jws j)) (fun _ _ => false) (fun _ => []).

Lemma answer0_ok : response_ok is_jws answer0.
Proof.
  constructor.
  - intros a [= <-]. exact md_built_ok.
  - cbn [answer0 rp_payload pl_marks]. constructor; [|constructor; [|constructor]]; cbn [ti_extra].
    + split; [apply nodupb_ok; reflexivity|]. intros k Hk. change (In k ["level"]) in Hk. each Hk; vm_compute; intros X; repeat destruct X as [X|X]; try discriminate X; exact X.
    + split; [constructor|intros k []].
  - intros t Ht. change (In t ["eyJ.leaf.s"; "eyJ.ta.s"]) in Ht. each Ht; reflexivity.
  - split; [apply nodupb_ok; reflexivity|]. intros k Hk. change (In k ["note"]) in Hk. each Hk; vm_compute; intros X; repeat destruct X as [X|X]; try discriminate X; exact X.
Qed.

Lemma c128_case : response_ok is_jws answer0 /\ reads_with (cx_answer answer0) is_jws (env_answer answer0) /\
  exists m ks pl, sign_response (cx_answer answer0) ta_signer answer0 = Ok m /\ cx_parse (cx_answer answer0) "a.b.c" = Some m /\
    signer_jwks (cx_answer answer0) ta_signer = Ok ks /\
    remote_payload (env_answer answer0) [] "https://ta.example/resolve" (Req LEAF [TA] []) = Ok pl /\
    map ti_jwt (pl_marks pl) = ["eyJ.m.s"; "eyJ.n.s"] /\
    exists md em, pl_metadata pl = Some md /\ md_rp md = Some em /\ em_tag "client_name" em = Some (VStr "App") /\ em_tag "default_max_age" em = Some (VInt 60).
Proof.
  split; [exact answer0_ok|]. split; [split; reflexivity|]. eexists _, _, _. split; [vm_compute; reflexivity|]. split; [vm_compute; reflexivity|]. split; [reflexivity|].
  split; [vm_compute; reflexivity|]. split; [reflexivity|]. eexists _, _. split; [reflexivity|]. split; [reflexivity|]. split; vm_compute; reflexivity.
Qed.
Lemma c128_own_case : apart response_claims (rp_extra answer0) /\ exists j, enc_response answer0 = Ok j /\ claim "note" j = Some (JStr "x") /\ claim "aud" j = Some (JStr LEAF).
Proof. split; [apply answer0_ok|]. eexists. split; [reflexivity|]. split; vm_compute; reflexivity. Qed.
Lemma c128_written_case : apart response_claims (rp_extra answer0) /\ ~ says_nothing answer0 /\ says_nothing empty_answer /\ response_ok is_jws empty_answer.
Proof.
  split; [apply answer0_ok|]. split; [intros [H _]; discriminate H|]. split; [split; reflexivity|]. constructor; cbn [empty_answer rp_payload no_payload pl_metadata pl_marks pl_chain rp_extra].
  - intros a Ha. discriminate Ha.
  - constructor.
  - intros t [].
  - split; [constructor|intros k []].
Qed.
Lemma c128_empty : exists jws r, response_ok jws r /\ forall cx s, sign_response cx s r = Err.
Proof.
  exists is_jws, empty_answer. split; [apply c128_written_case|]. intros cx s. unfold sign_response, typed_jwt, general_jwt.
  change (enc_response empty_answer) with (@Err json). destruct (js_key s); reflexivity.
Qed.
