(** Federations whose members use this library: the network that carries their documents, seen
    by a member that resolves trust chains. *)
From Coq Require Import QArith.
From Verif Require Import Base GoVal Policy Schema Metadata Chain Resolver Json TrustMark Refresher Leaf Config Jwt Statement Encode SpecEncode.
From Verif Require Import GoVal.
Local Open Scope nat_scope.
Local Open Scope string_scope.

(** The network: cryptography and the encoding of key sets, the JWTs that are served as entity
    configurations and by fetch endpoints (trustresolver.go:504-608; they may be others at every
    request, see Resolver.v), the clock, and host names. [nw_keys] are the public keys in a key
    set. *)
Record network := Network {
  nw_crypto : crypto;
  nw_codec : keycodec (list string);
  nw_keys : list string -> list jwk;
  nw_config : list nat -> string -> option string;
  nw_fetch : list nat -> string -> string -> string -> option string;
  nw_now : list nat -> bool -> time;
  nw_host : string -> option string }.

(** VerifyWithSet for a non-empty set, applied to the raw JWT: internal/jwx/jws.go:51-59 *)
Definition verify_raw (n : network) (jwt : string) (ks : list string) : bool :=
  match cx_parse (nw_crypto n) jwt with
  | Some m => is_ok (verify_message m (Some (nw_keys n ks)))
  | None => false
  end.

(** The fields TrustMarkIssuers and TrustMarkOwners of a FederationEntity (federation.go:28-29),
    set after NewFederationEntity. *)
Definition with_marks (f : entity) (issuers : smap (list string)) (owners : smap (string * jwks)) : entity :=
  Entity (fe_id f) (fe_metadata f) (fe_hints f) (fe_lifetime f) (fe_jwks f) issuers owners.

(** NewTrustMarkOwner, TrustMarkOwner.AddTrustMark: trustmark.go:527-544. *)
Definition new_owner (specs : list owned) : smap owned := fold_left (fun m s => insert (ow_id s) s m) specs [].
Definition add_owned (spec : owned) (m : smap owned) : smap owned := insert (ow_id spec) spec m.

(** What the resolver sees of it: JWTs are parsed (jwx.Parse, internal/jwx/jws.go:42-48) and
    decoded by ParseEntityStatement (entitystatement.go:245-261). *)
Definition seen (n : network) : world :=
  world_of (read_jwt (nw_crypto n)) (nw_codec n) (nw_config n) (nw_fetch n) (nw_now n) (verify_raw n) (nw_host n).
