(** Specification vocabulary for the acceptance of trust marks when a remote resolver is the
    default. *)
From Verif Require Import Base GoVal Policy Schema Metadata Chain Resolver SpecResolver FloatTime SpecTime Json SpecJson TrustMark SpecTrustMark.
Local Open Scope string_scope.

(** The keys an answer of a resolver gives an entity: those of the first statement of its
    chain, or, if it has no chain, of the configuration the entity serves. *)
Definition keys_told (e : env) (p : list nat) (iss : string) (pl : payload) (ks : jwks) : Prop :=
  exists s k l, match pl_chain pl with j :: _ => te_stmt e j = Some s | [] => te_config e p iss = Some s end /\
    ks = st_jwks s /\ ks = Some (k :: l).

(** The endpoint answers the request with a resolve response. *)
Definition responds (e : env) (p : list nat) (ep : string) (rq : request) (pl : payload) : Prop :=
  exists b j, te_remote e p ep rq = ABody b /\ te_parse e b = Some ("resolve-response+jwt", j) /\ te_payload e j = Some pl.

(** The keys of an issuer are the anchor's own or those the endpoint tells. *)
Definition remote_keys (ep : string) (e : env) (p : list nat) (iss : string) (ta : stmt) (ks : jwks) : Prop :=
  (iss = st_sub ta /\ ks = st_jwks ta) \/
  (iss <> st_sub ta /\ exists pl, responds e p ep (issuer_request iss ta) pl /\ keys_told e p iss pl ks).

(** The anchor's own, those its endpoint tells, or, if it does not give a usable answer, those
    at the lower end of a chain. *)
Definition smart_keys (e : env) (p : list nat) (iss : string) (ta : stmt) (ks : jwks) : Prop :=
  (iss = st_sub ta /\ ks = st_jwks ta) \/
  (iss <> st_sub ta /\ exists pl, usable e (0 :: p) (issuer_request iss ta) (st_sub ta) pl /\ keys_told e p iss pl ks) \/
  (iss <> st_sub ta /\ (forall pl, ~ usable e (0 :: p) (issuer_request iss ta) (st_sub ta) pl) /\ chain_keys (fun _ => True) e p iss ta ks).

(** The configuration the issuer serves carries no trust marks. *)
Definition bears_none (e : env) (p : list nat) (ta : stmt) : Prop :=
  forall iss s, w_config (te_world e p (issuer_request iss ta)) [] iss = Some s -> st_marks s = [].
