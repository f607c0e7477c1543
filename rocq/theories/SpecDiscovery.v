(** Specification of entity collection. *)
From Verif Require Import Base GoVal Policy Schema Metadata Chain Resolver FloatTime Json TrustMark Discovery SpecMetadata.
Local Open Scope string_scope.

(** A state some schedule leads to, starting with CollectEntities for the anchor [ta]. *)
Definition reached (w : dworld) (ta : string) (s : list string * frame) : Prop :=
  exists cs, exec w cs (start ta) = Some s.
(** A value some complete execution returns. *)
Definition returns (w : dworld) (ta : string) (l : list collected) : Prop :=
  exists s, reached w ta s /\ finished (snd s) = true /\ f_out (snd s) = l.

(** [b] is a (transitive) subordinate of [ta]: listed by it, or by a subordinate that is
    asked for its subordinates. *)
Inductive below (lists : string -> string -> Prop) (asked : string -> Prop) (ta : string) : string -> Prop :=
| below_anchor b : lists ta b -> below lists asked ta b
| below_sub a b : below lists asked ta a -> asked a -> lists a b -> below lists asked ta b.

(** Answers may change during the collection: what was answered at least once, and what is
    answered whenever it is asked. *)
Definition lists_once (w : dworld) (a b : string) : Prop := exists p l, dw_listing w p a = Some l /\ In b l.
Definition lists_always (w : dworld) (a b : string) : Prop := forall p, exists l, dw_listing w p a = Some l /\ In b l.
Definition asked_once (w : dworld) (a : string) : Prop := exists p, snd (dw_entity w p a) = true.
Definition asked_always (w : dworld) (a : string) : Prop := forall p, snd (dw_entity w p a) = true.
Definition passes_always (w : dworld) (b : string) : Prop := forall p, exists e, fst (dw_entity w p b) = Some e.

(** Collected entities carry the id they were evaluated for. *)
Definition names_entities (w : dworld) : Prop := forall p b e, fst (dw_entity w p b) = Some e -> ce_id e = b.

(** A finite federation: the ids ever listed and the lengths of the lists are bounded. *)
Definition finite_world (w : dworld) : Prop :=
  exists (ids : list string) (n : nat), forall p a l, dw_listing w p a = Some l -> List.length l <= n /\ incl l ids.

(** The goroutines of a call and of the calls it waits for. *)
Fixpoint task_all (t : task) : list task :=
  match t with
  | Wait (Frame _ _ _ _ ts) => t :: flat_map task_all ts
  | _ => [t]
  end.
Definition goroutines (f : frame) : list task := let 'Frame _ _ _ _ ts := f in flat_map task_all ts.

(** Two different goroutines are about to access the set of visited entities, one of them to
    change it. Nothing orders the two accesses. *)
Definition touches (t : task) : bool := match t with Check _ _ | Add _ _ => true | _ => false end.
Definition changes (t : task) : bool := match t with Add _ _ => true | _ => false end.
Definition races (f : frame) : Prop :=
  exists l1 x l2 y l3, goroutines f = (l1 ++ x :: l2 ++ y :: l3)%list /\
    touches x = true /\ touches y = true /\ (changes x = true \/ changes y = true).

(** The world of the machine given by the network and the request. *)
Definition network (fuel : nat) (ce : cenv) (rq : crequest) (w : dworld) : Prop :=
  (forall p a, dw_listing w p a = listing_answer ce p a) /\
  (forall p b, entity_answer fuel ce rq p b = Done (Ok (dw_entity w p b))).

(** The request's filters, for an entity with configuration [cfg] and metadata [m]. *)
Definition has_type (m : metadata) (t : string) : Prop :=
  In t ["openid_provider"; "openid_relying_party"; "oauth_authorization_server"; "oauth_client"; "oauth_resource";
        "federation_entity"] /\ typed_field m t <> None.
(** The name shown for an entity of this type: its display_name, or else the name of the
    organization, client or resource. *)
Definition shown_name (m : metadata) (ty name : string) : Prop :=
  exists x, has_type m ty /\ typed_field m ty = Some x /\
    let second := if mem ty ["openid_relying_party"; "oauth_client"] then "ClientName"
                  else if String.eqb ty "oauth_resource" then "ResourceName"
                  else "OrganizationName" in
    name = (if String.eqb (field_str "DisplayName" x) "" then field_str second x else field_str "DisplayName" x).
(** The first trust mark of this type the entity publishes. *)
Definition first_mark (cfg : stmt) (ty : string) (t : info) : Prop :=
  exists l1 jwt l2, st_marks cfg = (l1 ++ (ty, jwt) :: l2)%list /\ ~ In ty (map fst l1) /\ t = Info ty jwt [] None.
Definition passes (fuel : nat) (ce : cenv) (rq : crequest) (q : list nat) (cfg : stmt) (m : metadata) : Prop :=
  (forall l, cr_types rq = Some l -> exists t, In t l /\ has_type m t) /\
  (cr_name rq <> "" -> exists ty name, shown_name m ty name /\ ce_fuzzy ce (cr_name rq) name = true) /\
  (forall i ty, nth_error (cr_marks rq) i = Some ty ->
     exists t ta, first_mark cfg ty t /\ te_config (ce_env ce) (at_ta q) (cr_anchor rq) = Some ta /\
                  verify_mark fuel (ce_env ce) (i :: 5 :: q) t ta = Done (Ok tt)).

(** A UI claim in the place a reader of UIInfo expects it: the field with that JSON name. *)
Definition ui_field (u : uiinfo) (tag : string) : option gval :=
  option_map snd (find (fun fv => String.eqb (f_tag (fst fv)) tag) (combine ui_fields (ui_vals u))).
(** The JSON form of a UIInfo. *)
Definition ui_json (u : uiinfo) (tag : string) : option json :=
  match marshal ui_fields (ui_vals u) (ui_extra u) with JObj o => lookup tag o | _ => None end.
(** The metadata objects are those of the library's types. *)
Definition known_types (m : metadata) : Prop := forall ty x, typed_field m ty = Some x -> known_entity x.
(** The UI claims: [v] is what the metadata of type [ty] says for the claim [tag]. *)
Definition ui_strings : list string := ["display_name"; "description"; "logo_uri"; "policy_uri"; "information_uri"].
Definition ui_claim (m : metadata) (ty tag v : string) : Prop :=
  v <> "" /\
  (if String.eqb tag "display_name" then shown_name m ty v
   else exists x, has_type m ty /\ typed_field m ty = Some x /\ em_tag tag x = Some (VStr v)).

(** A list with the positions of its elements. *)
Fixpoint positions {A} (i : nat) (l : list A) : list (nat * A) :=
  match l with [] => [] | x :: l' => (i, x) :: positions (S i) l' end.

(** The federation as the network shows it: an authority lists a subordinate, an entity is
    an authority (it publishes a list endpoint), an entity passes the filters; at some
    request ("once") or at every request ("always"). *)
Definition net_lists_once (ce : cenv) (a b : string) : Prop := exists p l, listing_answer ce p a = Some l /\ In b l.
Definition net_lists_always (ce : cenv) (a b : string) : Prop := forall p, exists l, listing_answer ce p a = Some l /\ In b l.
Definition net_authority (ce : cenv) (p : list nat) (a : string) : Prop :=
  exists cfg, te_config (ce_env ce) (2 :: p) a = Some cfg /\ list_endpoint cfg <> "".
Definition net_passes (fuel : nat) (ce : cenv) (rq : crequest) (p : list nat) (b : string) : Prop :=
  exists cfg m, te_config (ce_env ce) (2 :: p) b = Some cfg /\ st_metadata cfg = Some m /\ passes fuel ce rq p cfg m.
