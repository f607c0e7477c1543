(** Specification vocabulary for JWTs. *)
From Verif Require Import Base GoVal Policy Schema Metadata Chain Resolver FloatTime Json TrustMark Jwt.
Local Open Scope nat_scope.
Local Open Scope string_scope.

(** The holder of one of the keys made the signature [s] of the message. *)
Definition made_by (ks : list jwk) (m : message) (s : signature) : Prop :=
  In s (ms_sigs m) /\ exists k, In k ks /\ sg_by s = Some (jk_pub k).

(** The JWT is accepted as a document of this kind, signed with one of the keys. *)
Definition accepted_as (cx : crypto) (k : kind) (ks : list jwk) (jwt : string) (m : message) : Prop :=
  parse_typed cx (typ_of k) jwt = Ok m /\ exists j, verify_message m (Some ks) = Ok j.

(** No two keys of the set have the same kid. *)
Definition kids_differ (ks : list jwk) : Prop :=
  forall k k', In k ks -> In k' ks -> jk_kid k = jk_kid k' -> k = k'.

(** The key may be used for the signature, and made it: the key has the kid of the signature,
    is not meant for another use or algorithm, and is the public half of the signing key. *)
Definition signed_with (s : signature) (k : jwk) : Prop :=
  sg_kid s <> None /\ jk_kid k = sg_kid s /\ (jk_use k = None \/ jk_use k = Some "" \/ jk_use k = Some "sig") /\
  (jk_alg k = None \/ jk_alg k = Some (sg_alg s)) /\ sg_by s = Some (jk_pub k).

(** The environment of the trust mark functions handles JWTs like [cx] does; [key] gives the
    JWK behind a key name. *)
Definition env_matches (e : env) (cx : crypto) (key : string -> jwk) : Prop :=
  (forall jwt, te_parse e jwt = match cx_parse cx jwt with
                                | None => None
                                | Some m => Some (match ms_sigs m with
                                                  | s :: _ => match sg_typ s with Some t => t | None => "" end
                                                  | [] => ""
                                                  end, ms_payload m)
                                end) /\
  (forall jwt l, te_verify e jwt l = match cx_parse cx jwt with
                                     | None => false
                                     | Some m => verify_sigs_any (map key l) (ms_sigs m)
                                     end).
