(** Registries whose own functions do not panic. *)
From Verif Require Import Base GoVal Policy Custom.
Local Open Scope string_scope.

(** No Apply, Merge or verifier that was registered panics, whatever it is given. *)
Definition operators_calm (r : registry) : Prop :=
  (forall n o, lookup n (rg_ops r) = Some o ->
    (forall v set pv ess, on_apply o v set pv ess <> Panic) /\ (forall x y, on_merge o x y <> Panic)) /\
  (forall w, In w (rg_verifiers r) -> forall e, w e <> Panic).
