(** Specification vocabulary for federations that change their keys and statements while they
    are being resolved. *)
From Coq Require Import QArith.
From Verif Require Import Base GoVal Policy Schema Metadata Chain Resolver SpecResolver TrustMark Refresher FloatTime Cache SpecCache SpecFresh.
Local Open Scope nat_scope.
Local Open Scope string_scope.

(** A document that a resolution between [from] and [upto] may come across: it was served,
    lately or long ago, and has not expired long before; [lag] is what may pass between the
    two readings of the clock when a statement is stored. *)
Definition in_circulation (net : answers) (lag from upto : Z) (sub iss : string) (s : stmt) : Prop :=
  (exists t, (t <= upto)%Z /\ net t sub iss s) /\ (from <= st_exp s + lag + 2 * ms)%Z.

(** Only what was served until [upto]. *)
Definition served_until (upto : Z) (net : answers) : answers := fun t sub iss s => (t <= upto)%Z /\ net t sub iss s.

(** Nobody serves documents that have expired. *)
Definition served_alive (net : answers) : Prop := forall t sub iss s, net t sub iss s -> (t <= st_exp s)%Z.

(** As [timely], and what is stored has not expired. *)
Definition stored_alive (lag : Z) (h : list use) : Prop :=
  timely lag h /\ forall u sub iss s t1 t2, In u h -> obtained u sub iss s t1 t2 -> (t1 < st_exp s)%Z.

(** [a] and [b] follow each other on the way. *)
Definition next_on (route : list string) (a b : string) : Prop := exists pre post, route = (pre ++ a :: b :: post)%list.

(** All documents in circulation along the way, old or new, fit together: whichever the
    resolver gets of each kind. *)
Record fit_together (w : world) (tas : list anchor) (from upto : Z) (C : string -> string -> stmt -> Prop) (route : list string) : Prop := {
  ft_once : NoDup route;
  ft_anchor : forall pre a, route = (pre ++ [a])%list -> In a (anchor_ids tas) /\ forall x, In x pre -> ~ In x (anchor_ids tas);
  ft_config : forall a e, In a route -> C a a e -> st_iss e = a /\ st_sub e = a /\ forall t, (from <= t <= upto)%Z -> valid_at t e;
  ft_statement : forall a b s, next_on route a b -> C a b s -> st_iss s = b /\ st_sub s = a /\ forall t, (from <= t <= upto)%Z -> valid_at t s;
  ft_hint : forall a b e, next_on route a b -> C a a e -> In b (st_hints e);
  ft_endpoint : forall a b e, next_on route a b -> C b b e -> fetch_endpoint e <> "";
  ft_keys : forall a b e s, next_on route a b -> C a a e -> C a b s -> signed_by w e (st_jwks s);
  ft_keys_below : forall a b c s' s, next_on route a b -> next_on route b c -> C a b s' -> C b c s -> signed_by w s' (st_jwks s);
  ft_anchor_keys : forall pre a b e s, route = (pre ++ [a; b])%list -> C b b e -> C a b s ->
    exists ks, trusted_keys tas e ks /\ signed_by w e ks /\ signed_by w s ks;
  ft_constraints : forall pre a b post s c below, route = (pre ++ a :: b :: post)%list -> C a b s -> st_constraints s = Some c ->
    Forall2 (fun x e => C x x e) (a :: rev pre) below -> constraints_met w c below }.

(** Every entity on the way answers, at once or because its answer is cached. *)
Definition all_answer (w : world) (route : list string) : Prop :=
  (forall p a, In a route -> w_config w p a <> None) /\
  (forall p ep a b, next_on route a b -> w_fetch w p ep a b <> None).
