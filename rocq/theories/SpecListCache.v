(** Specification vocabulary for subordinate listings. *)
From Verif Require Import Base GoVal Policy Schema Metadata Chain Resolver TrustMark Refresher FloatTime SpecUnits Cache SpecCache ListCache.
Local Open Scope nat_scope.
Local Open Scope string_scope.

(** A listing is fetched: at [t0], with this reply of the endpoint should it be asked, stored
    at [t1]; any other use of the cache, under the key of another subsystem; the cache
    removing entries by itself. *)
Inductive luse :=
| LFetch (t0 t1 : time) (endpoint : string) (reply : list_reply)
| LOther (now : time) (subsystem subkey : string) (ttl : Z)
| LSweep (now : time) (which : string -> bool).

Definition apply_luse (k : cache lcached) (u : luse) : cache lcached :=
  match u with
  | LFetch t0 t1 endpoint reply => snd (fetch_list t0 t1 endpoint reply k)
  | LOther now subsystem subkey ttl => cache_set now (cache_key subsystem subkey) LElse ttl k
  | LSweep now which => cache_sweep now which k
  end.
Definition after_luses (h : list luse) (k : cache lcached) : cache lcached := fold_left apply_luse h k.

Definition luse_ok (u : luse) : Prop :=
  match u with
  | LOther _ s _ _ => In s subsystem_names /\ s <> key_subordinate_listing
  | _ => True
  end.

(** Times after 1970 and, with the hour a listing is kept, before 2262. *)
Definition luse_in_range (u : luse) : Prop :=
  match u with
  | LFetch _ t1 _ _ => (0 < t1)%Z /\ (t1 + an_hour < 2 ^ 63)%Z
  | _ => True
  end.

(** The ids in a reply that is a listing. *)
Definition listing_in (r : list_reply) : option (list string) :=
  match r with
  | RListing (Some l) => Some l
  | RListing None => Some []
  | _ => None
  end.
