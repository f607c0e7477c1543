(** Specification vocabulary for the authenticity of chains: who owns which key and who has
    signed what, independently of how chains are found. *)
From Verif Require Import Base GoVal Policy Schema Metadata Chain Resolver SpecResolver.
Local Open Scope string_scope.

(** What is assumed about the outside world. [owns id k]: the key is known to entity [id]
    only. [signed id jwt]: that entity has made the signature of the JWT. [dec] is the
    decoding of JWTs. Nothing is assumed about who answers the requests. *)
Record ideal (w : world) (dec : string -> option stmt) (owns signed : string -> string -> Prop) : Prop := {
  id_config : forall p a s, w_config w p a = Some s -> dec (st_jwt s) = Some s;
  id_fetch : forall p ep sub iss s, w_fetch w p ep sub iss = Some s -> dec (st_jwt s) = Some s;
  id_unforgeable : forall id jwt ks, (forall k, In k ks -> owns id k) -> w_verify w jwt ks = true -> signed id jwt }.

(** In the statements it issues the entity lists only keys that their subjects own. *)
Definition careful (dec : string -> option stmt) (owns signed : string -> string -> Prop) (id : string) : Prop :=
  forall jwt s l k, signed id jwt -> dec jwt = Some s -> st_iss s = id -> st_jwks s = Some l -> In k l ->
    owns (st_sub s) k.

(** The anchor is configured with keys it owns, or without keys, and then the network never
    serves a configuration for it with keys it does not own. *)
Definition anchor_known (w : world) (owns : string -> string -> Prop) (ta : anchor) : Prop :=
  match ta_jwks ta with
  | Some l => forall k, In k l -> owns (ta_id ta) k
  | None => forall p s l k, w_config w p (ta_id ta) = Some s -> st_jwks s = Some l -> In k l -> owns (ta_id ta) k
  end.
