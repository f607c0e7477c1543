(** Specification vocabulary for trust marks and metadata resolvers. *)
From Verif Require Import Base GoVal Policy Schema Metadata Chain Resolver SpecResolver FloatTime SpecTime Json SpecJson TrustMark.
Local Open Scope string_scope.

(** The JWT is a trust mark (a delegation): its typ header says so and its payload decodes
    to the claims of [m] ([d]). *)
Definition is_mark (e : env) (jwt : string) (m : mark) : Prop :=
  exists j, te_parse e jwt = Some ("trust-mark+jwt", j) /\
    decode mark_fields j = Ok (mark_values m, mk_extra m) /\ mk_msg m = Some jwt.
Definition is_delegation (e : env) (jwt : string) (d : delegation) : Prop :=
  exists j, te_parse e jwt = Some ("trust-mark-delegation+jwt", j) /\
    decode delegation_fields j = Ok (deleg_values d, dg_extra d) /\ dg_msg d = Some jwt.

(** Signed with one of the keys. *)
Definition signed_with (e : env) (jwt : string) (ks : jwks) : Prop :=
  exists k l, ks = Some (k :: l) /\ te_verify e jwt (k :: l) = true.

(** Within the window of the time stamps that are present. *)
Definition live (now : time) (iat : time) (exp : option time) : Prop :=
  in_window now (present (Some iat)) (present exp).

(** The chains ResolveToValidChains finds from [start] to one of the anchors [ids]. *)
Definition chain_to (w : world) (ids : list string) (start : string) (types : list string) (c : chain) : Prop :=
  exists fuel cs, resolve_valid fuel w (map (fun id => Anchor id None) ids) types start = Done (Ok cs) /\ In c cs.

(** What an entity publishes decodes to the same statement every time. *)
Definition decodes (e : env) (w : world) : Prop :=
  forall p a s, w_config w p a = Some s -> te_stmt e (st_jwt s) = Some s.

(** The keys of a trust mark issuer: the anchor's own, or those in the issuer's entity
    configuration at the lower end of a trust chain to the anchor. *)
Definition issuer_request (iss : string) (ta : stmt) : request := Req iss [st_sub ta] [].
Definition chain_keys (good : chain -> Prop) (e : env) (p : list nat) (iss : string) (ta : stmt) (ks : jwks) : Prop :=
  (iss = st_sub ta /\ ks = st_jwks ta) \/
  (iss <> st_sub ta /\ exists s r k l, chain_to (te_world e p (issuer_request iss ta)) [st_sub ta] iss [] (s :: r) /\
     good (s :: r) /\ ks = st_jwks s /\ ks = Some (k :: l)).

(** The chain is signed all the way and ends in the anchor's configuration. *)
Definition anchored (e : env) (p : list nat) (iss : string) (ta : stmt) (c : chain) : Prop :=
  signed_chain (te_world e p (issuer_request iss ta)) [Anchor (st_sub ta) None] c /\
  ends_at_anchor [Anchor (st_sub ta) None] c.
Definition federation_keys (e : env) (p : list nat) (iss : string) (ta : stmt) : jwks -> Prop :=
  chain_keys (anchored e p iss ta) e p iss ta.

(** A valid delegation by the owner (id, keys) of the mark's type for the mark's issuer. *)
Definition delegated (e : env) (p : list nat) (m : mark) (owner : string * jwks) : Prop :=
  mk_deleg m <> "" /\ exists d, is_delegation e (mk_deleg m) d /\
    dg_type d = mk_type m /\ dg_sub d = mk_iss m /\ dg_iss d = fst owner /\
    live (te_now e p true) (dg_iat d) (dg_exp d) /\ signed_with e (mk_deleg m) (snd owner).

(** A mark is valid under issuer keys and, where there is an owner, its delegation. *)
Record mark_valid (e : env) (p : list nat) (t : info) (m : mark) (ks : jwks) (owner : option (string * jwks)) : Prop := {
  mv_parses : is_mark e (ti_jwt t) m;
  mv_type : mk_type m = ti_type t;
  mv_live : live (te_now e p false) (mk_iat m) (mk_exp m);
  mv_signed : signed_with e (ti_jwt t) ks;
  mv_owner : forall o, owner = Some o -> delegated e p m o }.

(** The conditions under which an anchor with configuration [ta] recognises a mark. [keys]
    says which key sets count as the issuer's. *)
Definition recognised (keys : env -> list nat -> string -> stmt -> jwks -> Prop) (e : env) (p : list nat)
           (t : info) (ta : stmt) : Prop :=
  exists m ks, keys e p (mk_iss m) ta ks /\
    mark_valid e p t m ks (lookup (mk_type m) (st_mark_owners ta)) /\
    (forall l, lookup (mk_type m) (st_mark_issuers ta) = Some l -> In (mk_iss m) l).

(** The parsed mark an info carries, if any, is that of its JWT. *)
Definition in_sync (e : env) (t : info) : Prop :=
  forall m j, ti_mark t = Some m -> mk_msg m = Some j -> is_mark e (ti_jwt t) m.

(** What a user sees of an info. *)
Definition visible (t : info) : string * string * smap json := (ti_type t, ti_jwt t, ti_extra t).

(** The elements of [l] whose position and value satisfy [f], in order. *)
Fixpoint picked {A} (f : nat -> A -> bool) (i : nat) (l : list A) : list A :=
  match l with
  | [] => []
  | x :: l' => if f i x then x :: picked f (S i) l' else picked f (S i) l'
  end.

Definition succeeds {A} (r : run A) : bool := match r with Done (Ok _) => true | _ => false end.
Definition terminates {A} (r : run A) : Prop := exists x, r = Done x.

(** An anchor whose resolve endpoint gives a usable answer: its configuration can be
    obtained, names an endpoint, and the endpoint answers with a resolve response. *)
Definition usable (e : env) (p : list nat) (rq : request) (id : string) (pl : payload) : Prop :=
  exists ec b j, te_config e p id = Some ec /\ resolve_endpoint ec <> "" /\
    te_remote e p (resolve_endpoint ec) rq = ABody b /\
    te_parse e b = Some ("resolve-response+jwt", j) /\ te_payload e j = Some pl.

(** The endpoint of this anchor, if it has one, cannot be reached. *)
Definition unreachable (e : env) (p : list nat) (rq : request) (id : string) : Prop :=
  forall ec, te_config e p id = Some ec -> resolve_endpoint ec <> "" ->
    te_remote e p (resolve_endpoint ec) rq = ATransport.

(** A signer with key [k]: its JWTs carry the header and payload that were signed, and
    verify under exactly the key sets containing [k]. *)
Definition signer (e : env) (sign : string -> json -> option string) (k : string) : Prop :=
  forall typ j jwt, sign typ j = Some jwt ->
    te_parse e jwt = Some (typ, j) /\ forall ks, te_verify e jwt ks = true <-> In k ks.

(** Time stamps in the years 1677 to 2262. *)
Definition in_range (t : time) : Prop := (- 2 ^ 63 < t < 2 ^ 63)%Z.

(** The environment with every signature check of remote documents replaced. *)
Definition with_verify (e : env) (v : string -> list string -> bool) : env :=
  Env (te_default e) (te_world e) (te_config e) (te_remote e) (te_now e) (te_parse e) (te_stmt e)
      (te_payload e) v (te_swaps e).

(** A shortest one (in the sense of PathLen) of the chains. *)
Definition minimal (cs : chains) (c : chain) : Prop := In c cs /\ forall d, In d cs -> path_len c <= path_len d.

(** The sets of trust mark specifications an issuer can hold: those given on creation and
    those added later. *)
Inductive issuer_specs : smap mark_spec -> Prop :=
| is_new l : issuer_specs (new_issuer l)
| is_add s m : issuer_specs m -> issuer_specs (add_mark s m).

(** The anchor's endpoint, if it has one, answers with an error that says nothing about the
    existence of a trust chain. *)
Definition undecided (e : env) (p : list nat) (rq : request) (id : string) : Prop :=
  forall ec, te_config e p id = Some ec -> resolve_endpoint ec <> "" ->
    exists code, te_remote e p (resolve_endpoint ec) rq = AError code /\
      code <> "invalid_trust_chain" /\ code <> "invalid_metadata".
