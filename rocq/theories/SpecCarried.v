(** Specification of what a collected entity carries. *)
From Verif Require Import Base GoVal Policy Schema Metadata Chain Resolver FloatTime Json TrustMark SpecTrustMark Discovery SpecDiscovery.
Local Open Scope nat_scope.
Local Open Scope string_scope.

(** The request names this claim; the request names it or does not name any claims. *)
Definition asked_for (rq : crequest) (c : string) : Prop := exists l, cr_claims rq = Some l /\ In c l.
Definition welcome (rq : crequest) (c : string) : Prop := cr_claims rq = None \/ asked_for rq c.

(** What nobody asked for is not there; the entity types, if welcome, are those the entity
    has metadata for. *)
Record modest (rq : crequest) (sub : string) (m : metadata) (e : collected) : Prop := Modest {
  mo_id : ce_id e = sub;
  mo_types : welcome rq "entity_types" -> forall t, In t (ce_types e) <-> has_type m t;
  mo_no_types : ~ welcome rq "entity_types" -> ce_types e = [];
  mo_no_marks : ~ asked_for rq "trust_marks" -> ce_marks e = [];
  mo_no_chain : ~ asked_for rq "trust_chain" -> ce_chain e = [];
  mo_no_metadata : ~ asked_for rq "metadata" -> ce_metadata e = None;
  mo_no_ui : forall tag, In tag ui_strings -> ~ welcome rq tag -> forall ty u, lookup ty (ce_ui e) = Some u -> ui_json u tag = None }.

(** The question for the resolver: the entity below the anchor of the request. *)
Definition question (rq : crequest) (sub : string) : request := Req sub [cr_anchor rq] [].

(** Trust chain and metadata are those of one chain [c] from the entity to the anchor. *)
Definition of_chain (rq : crequest) (e : collected) (c : chain) : Prop :=
  (asked_for rq "trust_chain" -> ce_chain e = map st_jwt c) /\
  (asked_for rq "metadata" -> chain_metadata c = Ok (ce_metadata e)).
Definition without_chain (e : collected) : Prop := ce_chain e = [] /\ ce_metadata e = None.

(** The trust marks are those of the entity's configuration that verify against the anchor's
    configuration; none if that cannot be obtained. *)
Definition of_marks (fuel : nat) (ce : cenv) (rq : crequest) (q : list nat) (cfg : stmt) (e : collected) : Prop :=
  match te_config (ce_env ce) (at_ta q) (cr_anchor rq) with
  | None => ce_marks e = []
  | Some ta => map visible (ce_marks e) =
      map visible (picked (fun i t => succeeds (verify_mark fuel (ce_env ce) (i :: 6 :: q) t ta)) 0
        (map (fun tj => Info (fst tj) (snd tj) [] None) (st_marks cfg)))
  end.

(** Everything asked for is there, with the local resolver as default resolver. *)
Definition complete_local (fuel : nat) (ce : cenv) (rq : crequest) (q : list nat) (sub : string) (cfg : stmt) (e : collected) : Prop :=
  (asked_for rq "trust_chain" \/ asked_for rq "metadata" ->
     (exists c, chain_to (te_world (ce_env ce) (4 :: q) (question rq sub)) [cr_anchor rq] sub [] c /\ of_chain rq e c) \/
     (without_chain e /\ forall c, ~ chain_to (te_world (ce_env ce) (4 :: q) (question rq sub)) [cr_anchor rq] sub [] c)) /\
  (asked_for rq "trust_marks" -> of_marks fuel ce rq q cfg e).

(** With a resolver that answers with the payload [pl], or reports an error ([None]). *)
Definition complete_remote (fuel : nat) (ce : cenv) (rq : crequest) (q : list nat) (cfg : stmt) (pl : option payload) (e : collected) : Prop :=
  (asked_for rq "trust_chain" -> ce_chain e = match pl with Some x => pl_chain x | None => [] end) /\
  (asked_for rq "metadata" -> ce_metadata e = match pl with Some x => pl_metadata x | None => None end) /\
  (asked_for rq "trust_marks" ->
     match pl with
     | Some x => pl_marks x <> [] -> ce_marks e = pl_marks x
     | None => of_marks fuel ce rq q cfg e
     end).
