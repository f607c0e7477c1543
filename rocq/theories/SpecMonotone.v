(** Specification vocabulary for how the returned chains depend on the statements that are
    served and on the time. *)
From Verif Require Import Base GoVal Policy Schema Metadata Chain Resolver SpecResolver.
Local Open Scope string_scope.

(** [o'] demands at least what [o] demands, constraint by constraint. *)
Definition no_weaker (o o' : option constraints) : Prop :=
  forall c, o = Some c -> exists c', o' = Some c' /\
    (forall m, co_max_path c = Some m -> exists m', co_max_path c' = Some m' /\ (m' <= m)%Z) /\
    (forall n, co_naming c = Some n -> exists n', co_naming c' = Some n' /\ incl (nc_excluded n) (nc_excluded n') /\
       (forall l, nc_permitted n = Some l -> exists l', nc_permitted n' = Some l' /\ incl l' l)) /\
    (forall l, co_types c = Some l -> exists l', co_types c' = Some l' /\ incl l' l).

(** The statement [s] with other constraints, signed anew. *)
Definition reworded (s : stmt) (jwt : string) (co : option constraints) : stmt :=
  Stmt jwt (st_iss s) (st_sub s) (st_iat s) (st_exp s) (st_jwks s) (st_hints s) (st_metadata s)
       (st_policy s) co (st_crit s) (st_policy_crit s) (st_marks s) (st_mark_issuers s) (st_mark_owners s).

(** In [w'] some requests may fail that succeed in [w], and subordinate statements may come
    with further constraints (signed by whoever signed the original); everything else is the
    same. *)
Record restricts (w w' : world) : Prop := {
  re_config : forall p a s, w_config w' p a = Some s -> w_config w p a = Some s;
  re_fetch : forall p ep sub iss s', w_fetch w' p ep sub iss = Some s' ->
    exists s, w_fetch w p ep sub iss = Some s /\ s' = reworded s (st_jwt s') (st_constraints s') /\
      no_weaker (st_constraints s) (st_constraints s') /\
      forall ks, w_verify w (st_jwt s) ks = w_verify w (st_jwt s') ks;
  re_now : forall p b, w_now w' p b = w_now w p b;
  re_verify : forall j ks, w_verify w' j ks = w_verify w j ks;
  re_host : forall id, w_host w' id = w_host w id }.

(** The same chain up to the constraints of its statements. *)
Definition same_but_constraints (c c' : chain) : Prop :=
  Forall2 (fun s s' => s' = reworded s (st_jwt s') (st_constraints s')) c c'.

(** A network in which every entity serves the same statements all the time, looked at at
    time [t]. *)
Definition at_time (config : string -> option stmt) (fetch : string -> string -> string -> option stmt)
           (verify : string -> list string -> bool) (host : string -> option string) (t : time) : world :=
  World (fun _ => config) (fun _ => fetch) (fun _ _ => t) verify host.

(** What the chain relies on beside the subject's own configuration: the statements of its
    superiors, and the entity configurations of those superiors. *)
Definition relied_on (config : string -> option stmt) (c : chain) (s : stmt) : Prop :=
  exists x, In x (tl c) /\ (s = x \/ config (st_iss x) = Some s).

(** The entities [ids] say the same in [w] and [w']: their configurations, and their
    statements about others. *)
Definition same_speakers (ids : list string) (w w' : world) : Prop :=
  (forall p a, In a ids -> w_config w' p a = w_config w p a) /\
  (forall p ep sub a, In a ids -> w_fetch w' p ep sub a = w_fetch w p ep sub a) /\
  (forall p b, w_now w' p b = w_now w p b) /\
  (forall j ks, w_verify w' j ks = w_verify w j ks) /\
  (forall id, w_host w' id = w_host w id).
