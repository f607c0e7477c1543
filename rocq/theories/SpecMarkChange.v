(** Specification vocabulary for trust marks whose issuers change their keys and statements. *)
From Verif Require Import Base GoVal Policy Schema Metadata Chain TrustMark.
Local Open Scope nat_scope.
Local Open Scope string_scope.

(** Each of these documents can be read again from its JWT, with the same keys. *)
Definition reads (e : env) (D : stmt -> Prop) : Prop :=
  forall s, D s -> exists s', te_stmt e (st_jwt s) = Some s' /\ st_jwks s' = st_jwks s.
