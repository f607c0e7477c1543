(** Specification vocabulary for C39: the same network with other crit claims. *)
From Verif Require Import Base GoVal Policy Schema Metadata Chain Resolver SpecResolver.
Local Open Scope string_scope.

(** [s] with the crit claim [f] gives the document. *)
Definition set_crit (f : string -> list string) (s : stmt) : stmt :=
  Stmt (st_jwt s) (st_iss s) (st_sub s) (st_iat s) (st_exp s) (st_jwks s) (st_hints s) (st_metadata s)
       (st_policy s) (st_constraints s) (f (st_jwt s)) (st_policy_crit s) (st_marks s) (st_mark_issuers s) (st_mark_owners s).

(** The network [w] when every document has such a crit claim. *)
Definition set_crits (f : string -> list string) (w : world) : world :=
  World (fun p a => option_map (set_crit f) (w_config w p a))
        (fun p ep sub iss => option_map (set_crit f) (w_fetch w p ep sub iss))
        (w_now w) (w_verify w) (w_host w).

(** The chains [cs] with such crit claims. *)
Definition same_but_crit (f : string -> list string) (r : run chains) : run chains :=
  match r with
  | Done (Ok cs) => Done (Ok (map (map (set_crit f)) cs))
  | Done Err => Done Err
  | Done Panic => Done Panic
  | OutOfFuel => OutOfFuel
  end.
