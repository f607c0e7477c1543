(** Signing, parsing and verifying JWTs: internal/jwx/jws.go, jwtsigning.go, jwks/jwks.go
    (KeyToJWKS), and the type checks of the parsers. Cryptography is symbolic: a key pair is
    a name, and a signature records the key pair that made it. *)
From Verif Require Import Base Json.
Local Open Scope string_scope.

(** A public key in a key set: key pair, kid, alg, use. Used at jwks/jwks.go:15-111. *)
Record jwk := Jwk { jk_pub : string; jk_kid : option string; jk_alg : option string; jk_use : option string }.

(** One signature of a JWS with its protected headers. [sg_by] is the key pair whose private
    key made the signature value over these headers and the payload; None if no key did.
    Used at internal/jwx/jws.go:18-70. *)
Record signature := Sig { sg_typ : option string; sg_kid : option string; sg_alg : string; sg_by : option string }.

(** jws.Message. The compact serialization has one signature, the JSON serialization, which
    jws.Parse accepts as well, has one or more. Payloads that are not JSON are not
    represented; the parsers below reject them. Used at internal/jwx/jws.go:18-48. *)
Record message := Msg { ms_payload : json; ms_sigs : list signature }.

(** The outside world: [cx_parse] jws.Parse, None for an error; [cx_thumb] the thumbprint
    jwk.AssignKeyID uses as kid, the same for both halves of a key pair; [cx_sign k alg] whether
    the key can be used with the algorithm. Used at internal/jwx/jws.go:42-104. *)
Record crypto := Crypto {
  cx_parse : string -> option message;
  cx_thumb : string -> string;
  cx_sign : string -> string -> bool }.

(** VerifyType: internal/jwx/jws.go:62-69; only the first signature is looked at. *)
Definition verify_type (m : message) (typ : string) : bool :=
  match ms_sigs m with
  | [] => false
  | s :: _ => match sg_typ s with Some t => String.eqb t typ | None => false end
  end.

(** The keys jws.WithKeySet selects for a signature (github.com/lestrrat-go/jwx/v3, not part
    of /repo): the key with the kid of the signature. None: the verification fails, because
    there is no kid or no such key. A key for another use, or with another algorithm than
    the one that made the signature, does not verify it. Used at internal/jwx/jws.go:51-60. *)
Definition select_key (ks : list jwk) (s : signature) : option jwk :=
  match sg_kid s with
  | None => None
  | Some kid => find (fun k => match jk_kid k with Some i => String.eqb i kid | None => false end) ks
  end.
Definition key_fits (k : jwk) (s : signature) : bool :=
  (match jk_use k with Some u => String.eqb u "" || String.eqb u "sig" | None => true end) &&
  (match jk_alg k with Some a => String.eqb a (sg_alg s) | None => true end) &&
  (match sg_by s with Some b => String.eqb b (jk_pub k) | None => false end).

(** jws.Verify (github.com/lestrrat-go/jwx/v3): the signatures are tried in turn; the first
    one that verifies is enough. Used at internal/jwx/jws.go:51-60. *)
Fixpoint verify_sigs_any (ks : list jwk) (sigs : list signature) : bool :=
  match sigs with
  | [] => false
  | s :: r => match select_key ks s with
              | None => false
              | Some k => if key_fits k s then true else verify_sigs_any ks r
              end
  end.

(** VerifyWithSet: internal/jwx/jws.go:51-59. [ks] is None for a nil set. *)
Definition verify_message (m : message) (ks : option (list jwk)) : res json :=
  match ks with
  | None => Err
  | Some [] => Err
  | Some l => if verify_sigs_any l (ms_sigs m) then Ok (ms_payload m) else Err
  end.

(** The common part of ParseEntityStatement (entitystatement.go:245-262), ParseTrustMark
    (trustmark.go:80-93), parseDelegationJWT (trustmark.go:189-204) and ParseResolveResponse
    (metadata_resolver.go:184-197): parse, check the typ header, return the message whose
    payload is decoded. *)
Definition parse_typed (cx : crypto) (typ : string) (jwt : string) : res message :=
  match cx_parse cx jwt with
  | None => Err
  | Some m => if verify_type m typ then Ok m else Err
  end.

(** The document types and their typ headers: oidfedconst/constants.go:15-18 *)
Inductive kind := Statement | MarkJWT | DelegationJWT | Response.
Definition typ_of (k : kind) : string :=
  match k with
  | Statement => "entity-statement+jwt"
  | MarkJWT => "trust-mark+jwt"
  | DelegationJWT => "trust-mark-delegation+jwt"
  | Response => "resolve-response+jwt"
  end.

(** SignPayload: internal/jwx/jws.go:82-101, with the typ header set before, if any. *)
Definition sign_payload (cx : crypto) (payload : json) (alg key : string) (typ : option string) : res message :=
  if cx_sign cx key alg then Ok (Msg payload [Sig typ (Some (cx_thumb cx key)) alg (Some key)]) else Err.

(** SignWithType: internal/jwx/jws.go:73-79 *)
Definition sign_with_type (cx : crypto) (payload : json) (typ alg key : string) : res message :=
  sign_payload cx payload alg key (Some typ).

(** GeneralJWTSigner: jwtsigning.go:23-34; the key is None when it is nil. *)
Record jwt_signer := Signer { js_key : option string; js_alg : string }.

(** GeneralJWTSigner.JWT: jwtsigning.go:37-48. [payload] is json.Marshal of the argument. *)
Definition general_jwt (cx : crypto) (s : jwt_signer) (payload : res json) (typ : string) : res message :=
  match js_key s with
  | None => Err
  | Some key => j <- payload ;; sign_with_type cx j typ (js_alg s) key
  end.

(** The typed signers: jwtsigning.go:105-123,153-162. *)
Definition typed_jwt (cx : crypto) (k : kind) (s : jwt_signer) (payload : res json) : res message :=
  general_jwt cx s payload (typ_of k).

(** KeyToJWKS: jwks/jwks.go:93-111; GeneralJWTSigner.JWKS: jwtsigning.go:51-53. Public is a
    method call on the key and panics for a nil key. *)
Definition key_to_jwks (cx : crypto) (key alg : string) : list jwk :=
  [Jwk key (Some (cx_thumb cx key)) (Some alg) (Some "sig")].
Definition signer_jwks (cx : crypto) (s : jwt_signer) : res (list jwk) :=
  match js_key s with
  | None => Panic
  | Some key => Ok (key_to_jwks cx key (js_alg s))
  end.

(** RequestObject, ClientAssertion sign without a typ header: authcode.go:97,121. A nil key
    cannot be imported. *)
Definition untyped_jwt (cx : crypto) (s : jwt_signer) (payload : json) : res message :=
  match js_key s with
  | None => Err
  | Some key => sign_payload cx payload (js_alg s) key None
  end.

(** What NewFederationEntity does with its signer: federation.go:41-58 (the other fields are
    in Refresher.v). The signer is None when the pointer is nil. *)
Definition new_entity_jwks (cx : crypto) (s : option jwt_signer) : res (list jwk) :=
  match s with
  | None => Panic
  | Some s => signer_jwks cx s
  end.
