(** Specification vocabulary for the cache of resolved metadata. *)
From Verif Require Import Base GoVal Policy Schema Metadata SpecMetadata Chain SpecChain Resolver TrustMark Refresher FloatTime SpecUnits Cache SpecCache MetaCache.
Local Open Scope nat_scope.
Local Open Scope string_scope.

(** ** Histories *)

(** A call of Metadata on the chain [c]; any other use of the cache, under the key of
    another subsystem; the cache removing entries by itself. *)
Inductive muse :=
| MCall (c : chain) (d1 d2 : string) (t0 t1 t2 : time)
| MOther (now : time) (subsystem subkey : string) (ttl : Z)
| MSweep (now : time) (which : string -> bool).

Definition apply_muse (k : cache mcached) (u : muse) : cache mcached :=
  match u with
  | MCall c d1 d2 t0 t1 t2 => snd (metadata_cached d1 d2 t0 t1 t2 c k)
  | MOther now subsystem subkey ttl => cache_set now (cache_key subsystem subkey) MElse ttl k
  | MSweep now which => cache_sweep now which k
  end.
Definition after_muses (h : list muse) (k : cache mcached) : cache mcached := fold_left apply_muse h k.

Definition empty_cache (k : cache mcached) : Prop := k = Memory [] \/ k = Redis [].

(** ** Digests *)

(** The chains consist of the same JWTs, with the same expirations. *)
Definition same_statements (c c' : chain) : Prop :=
  Forall2 (fun s s' => st_jwt s = st_jwt s' /\ st_exp s = st_exp s') c c'.

(** [digest_of c d]: [d] is a possible digest of [c]. No digest belongs to two chains of
    different statements. *)
Definition no_collision (digest_of : chain -> string -> Prop) : Prop :=
  forall c c' d, digest_of c d -> digest_of c' d -> same_statements c c'.

(** The uses in a history are those of the code: digests belong to the chain, other uses are
    of other subsystems. *)
Definition muse_ok (digest_of : chain -> string -> Prop) (u : muse) : Prop :=
  match u with
  | MCall c d1 d2 _ _ _ => digest_of c d1 /\ digest_of c d2
  | MOther _ s _ _ => In s subsystem_names /\ s <> key_resolved_metadata
  | MSweep _ _ => True
  end.

(** ** Times *)

(** The clock shows times after 1970, the expirations are before 2262. *)
Definition muse_in_range (u : muse) : Prop :=
  match u with
  | MCall c _ _ _ t1 t2 => (0 < t1)%Z /\ (t1 <= t2)%Z /\ (expires_at c + (t2 - t1) < 2 ^ 63)%Z
  | _ => True
  end.

(** ** What a caller sees *)

(** The values in metadata, without the library's private note of which were set. *)
Definition em_values (m : emeta) : emeta := EMeta (em_fields m) [].
Definition md_values (m : metadata) : metadata :=
  Metadata (option_map em_values (md_op m)) (option_map em_values (md_rp m)) (option_map em_values (md_as m))
           (option_map em_values (md_oc m)) (option_map em_values (md_pr m)) (option_map em_values (md_fe m))
           (md_extra m).
Definition result_values (r : res (option metadata)) : res (option metadata) :=
  m <- r ;; Ok (option_map md_values m).

(** [s] was decoded from its JWT ([dec]), and possibly was in a cache since. *)
Definition from_jwt (dec : string -> stmt) (s : stmt) : Prop :=
  s = dec (st_jwt s) \/ s = stmt_msgpack (dec (st_jwt s)).

(** The chain decoded from the JWTs of [c]. *)
Definition decoded (dec : string -> stmt) (c : chain) : chain := map dec (messages c).

(** Some policy in the chain, for the entity type with policies [sel], mentions [tag]. *)
Definition mentioned (sel : policies -> gpolicy) (c : chain) (tag : string) : Prop :=
  exists q, In q (policies_of sel c) /\ lookup tag (pol q) <> None.

(** The subject's metadata for the type was decoded from a JSON object in which every
    attribute of type string, bool or int64 that a policy mentions has a value. *)
Definition explicit (t : entity_type) (sch : list frow) (c : chain) : Prop :=
  forall em, fst t (leaf_metadata c) = Some em ->
  exists obj, decode_meta sch obj = Ok em /\
    forall r, In r sch -> scalar (fr_ty r) = true -> mentioned (snd t) c (fr_tag r) ->
      exists j, lookup (fr_tag r) obj = Some j /\ j <> VNil.

(** The subject has no metadata of the type, or no policy mentions any of its attributes. *)
Definition untouched (t : entity_type) (c : chain) : Prop :=
  forall em, fst t (leaf_metadata c) = Some em -> forall tag, ~ mentioned (snd t) c tag.

Definition cache_safe (c : chain) : Prop :=
  explicit (md_op, mp_op) op_schema c /\ explicit (md_rp, mp_rp) rp_schema c /\
  explicit (md_pr, mp_pr) pr_schema c /\ explicit (md_fe, mp_fe) fe_schema c /\
  untouched (md_as, mp_as) c /\ untouched (md_oc, mp_oc) c.
