(** Specification vocabulary for trust chains. *)
From Verif Require Import Base GoVal Policy Schema Metadata Chain SpecPolicy SpecMetadata.
Local Open Scope string_scope.

(** ** Metadata of a chain *)

(** One of the six entity types: its metadata in [metadata] and its policy in
    [policies]. *)
Definition entity_type := ((metadata -> option emeta) * (policies -> gpolicy))%type.
Definition entity_types : list entity_type :=
  [(md_op, mp_op); (md_rp, mp_rp); (md_as, mp_as); (md_oc, mp_oc); (md_pr, mp_pr); (md_fe, mp_fe)].

(** The policies for one entity type of all statements that carry a metadata_policy,
    from the subject upwards. *)
Definition policies_of (sel : policies -> gpolicy) (c : chain) : list gpolicy :=
  flat_map (fun s => match st_policy s with Some p => [sel p] | None => [] end) c.

Definition leaf_metadata (c : chain) : metadata :=
  match c with
  | s :: _ => match st_metadata s with Some m => m | None => empty_metadata end
  | [] => empty_metadata
  end.

(** [md] has, for the entity type [t], the leaf's metadata with the combination of that
    type's policies applied. *)
Definition type_result (t : entity_type) (c : chain) (md : metadata) : Prop :=
  exists p, combine_policies (policies_of (snd t) c) = Ok p /\
    match p, fst t (leaf_metadata c) with
    | None, m => fst t md = m
    | Some _, None => fst t md = None
    | Some q, Some em => exists em', apply_policy em q = Ok em' /\ fst t md = Some em'
    end.

(** Critical policy operators the OpenID Federation specification defines. *)
Definition crit_supported (c : chain) : Prop :=
  forall s o, In s c -> In o (st_policy_crit s) -> known o = true.

(** The chain with its metadata_policy_crit claims removed. *)
Definition without_crit (s : stmt) : stmt :=
  Stmt (st_jwt s) (st_iss s) (st_sub s) (st_iat s) (st_exp s) (st_jwks s) (st_hints s) (st_metadata s)
       (st_policy s) (st_constraints s) (st_crit s) [] (st_marks s) (st_mark_issuers s) (st_mark_owners s).

(** ** Filters and expiry *)

Definition is_min (t : time) (c : chain) : Prop :=
  (exists s, In s c /\ st_exp s = t) /\ forall s, In s c -> (t <= st_exp s)%Z.

(** [out] has the chains of [cs] that satisfy [P], in order and as often as they occur. *)
Inductive exactly (P : chain -> Prop) : chains -> chains -> Prop :=
| exactly_nil : exactly P [] []
| exactly_keep c out cs : P c -> exactly P out cs -> exactly P (c :: out) (c :: cs)
| exactly_drop c out cs : ~ P c -> exactly P out cs -> exactly P out (c :: cs).

Definition ends_at (id : string) (c : chain) : Prop := exists (pre : chain) (s : stmt), c = (pre ++ [s])%list /\ st_iss s = id.

(** Number of intermediates of a chain leaf configuration, subordinate statements, anchor
    configuration. *)
Definition intermediates (c : chain) : nat := List.length c - 3.

Definition sorted_by (score : chain -> Z) (cs : chains) : Prop :=
  forall i j d, i < j -> j < List.length cs -> (score (nth i cs d) <= score (nth j cs d))%Z.
