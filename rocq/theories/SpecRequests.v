(** Specification vocabulary for the requests a resolution makes. *)
From Verif Require Import Base GoVal Policy Schema Metadata Chain Resolver SpecResolver Requests.
Local Open Scope string_scope.

(** The authority [a], named at position [i] of the hints of the entity [e] at node [p] above
    the entities [below], is one to ask: [e] is no trust anchor, and [a] is not one of the
    entities already passed. *)
Definition to_ask (tas : list anchor) (e : stmt) (below : list stmt) (i : nat) (a : string) : Prop :=
  ~ In (st_iss e) (anchor_ids tas) /\ nth_error (st_hints e) i = Some a /\
  (forall x, In x (e :: below) -> st_sub x <> a).

(** What is served as the configuration of [a] is one: self-issued, within its validity
    period, and with a fetch endpoint. *)
Definition usable_config (w : world) (p : list nat) (a : string) (ec : stmt) : Prop :=
  w_config w p a = Some ec /\ st_iss ec = a /\ st_sub ec = a /\ valid_at (w_now w p false) ec /\ fetch_endpoint ec <> "".

(** What is served as the statement of the authority [ec] about [e] is one: by [ec], about
    [e], within its validity period, and [e] and the entities below it meet its
    constraints. *)
Definition usable_statement (w : world) (p : list nat) (e : stmt) (below : list stmt) (ec s : stmt) : Prop :=
  w_fetch w p (fetch_endpoint ec) (st_iss e) (st_iss ec) = Some s /\ st_iss s = st_iss ec /\ st_sub s = st_iss e /\
  valid_at (w_now w p true) s /\ (forall c, st_constraints s = Some c -> constraints_met w c (e :: below)).

(** The entities the resolution of [start] comes to: [start] itself, and every superior that
    an entity it came to names and that has made a usable statement about that entity. *)
Inductive reached (w : world) (tas : list anchor) (types : list string) (start : string) :
  list nat -> stmt -> list stmt -> Prop :=
| rc_start e : start_config w types start e -> reached w tas types start [] e []
| rc_up p e below i a ec s :
    reached w tas types start p e below -> to_ask tas e below i a ->
    usable_config w (i :: p) a ec -> usable_statement w (i :: p) e below ec s ->
    reached w tas types start (i :: p) ec (e :: below).

(** The requests that are called for: the configuration of [start], the configuration of every
    superior that an entity it comes to names, and the statement of such a superior about
    that entity, at the endpoint the superior's own configuration states. *)
Inductive called_for (w : world) (tas : list anchor) (types : list string) (start : string) : request -> Prop :=
| cf_start : start <> "" -> called_for w tas types start (ForConfig [] start)
| cf_config p e below i a : reached w tas types start p e below -> to_ask tas e below i a ->
    called_for w tas types start (ForConfig (i :: p) a)
| cf_statement p e below i a ec : reached w tas types start p e below -> to_ask tas e below i a ->
    usable_config w (i :: p) a ec ->
    called_for w tas types start (ForStatement (i :: p) (fetch_endpoint ec) (st_iss e) a).

(** In the network [w'] the request [r] is answered as in [w]. *)
Definition answered_alike (w w' : world) (r : request) : Prop :=
  match r with
  | ForConfig p a => w_config w' p a = w_config w p a
  | ForStatement p ep sub iss => w_fetch w' p ep sub iss = w_fetch w p ep sub iss
  end.

(** The networks differ at most in what is served. *)
Definition same_but_served (w w' : world) : Prop :=
  (forall p b, w_now w' p b = w_now w p b) /\ (forall j ks, w_verify w' j ks = w_verify w j ks) /\
  (forall id, w_host w' id = w_host w id).

(** The requests for the configuration of [a]. *)
Definition for_config_of (a : string) (r : request) : bool :=
  match r with ForConfig _ b => String.eqb b a | ForStatement _ _ _ _ => false end.

(** [w] is a federation of the entities [U], each of which names at most [b] superiors. *)
Definition federation_of (U : list string) (b : nat) (w : world) : Prop :=
  forall p a ec, w_config w p a = Some ec -> In a U /\ incl (st_hints ec) U /\ List.length (st_hints ec) <= b.
