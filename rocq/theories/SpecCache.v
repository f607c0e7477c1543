(** Specification vocabulary for caching. *)
From Coq Require Import QArith.
From Verif Require Import Base GoVal Policy Schema Metadata Chain Resolver TrustMark Refresher FloatTime Cache.
Local Open Scope nat_scope.
Local Open Scope string_scope.

(** The parts of the library that share a cache. *)
Definition subsystem_names : list string :=
  ["entity_statement"; "op_metadata"; "entity_configuration"; "trust_tree"; "trust_tree_chains";
   "trustchain_resolved_metadata"; "subordinate_listing"].

(** ** Histories of a cache *)

(** Something done with a cache at some time; [OSweep]: the cache removes some entries by
    itself. *)
Inductive op (V : Type) :=
| OSet (now : time) (k : string) (v : V) (ttl : Z)
| OGet (now : time) (k : string)
| OSweep (now : time) (which : string -> bool).
Arguments OSet {V}. Arguments OGet {V}. Arguments OSweep {V}.

Section Histories.
  Context {V : Type}.

  Definition op_time (o : op V) : time :=
    match o with OSet t _ _ _ => t | OGet t _ => t | OSweep t _ => t end.
  Definition apply_op (c : cache V) (o : op V) : cache V :=
    match o with
    | OSet t k v ttl => cache_set t k v ttl c
    | OGet t k => snd (cache_get t k c)
    | OSweep t which => cache_sweep t which c
    end.
  Definition after_ops (h : list (op V)) (c : cache V) : cache V := fold_left apply_op h c.

  (** The clock never goes back during [h], up to [now]. *)
  Fixpoint ordered (h : list (op V)) (now : time) : Prop :=
    match h with
    | [] => True
    | o :: h' => (forall o', In o' h' -> (op_time o <= op_time o')%Z) /\ (op_time o <= now)%Z /\ ordered h' now
    end.

  (** The last Set for [k]: when, what, and for how long. *)
  Definition last_set (k : string) (h : list (op V)) : option (time * V * Z) :=
    fold_left (fun acc o => match o with
                            | OSet t k' v ttl => if String.eqb k' k then Some (t, v, ttl) else acc
                            | _ => acc
                            end) h None.

  (** The other keys set since. *)
  Definition set_since (k : string) (h : list (op V)) : list string :=
    fold_left (fun acc o => match o with
                            | OSet t k' v ttl => if String.eqb k' k then [] else if mem k' acc then acc else k' :: acc
                            | _ => acc
                            end) h [].

  (** The clock shows a time after 1970 and the expirations are before 2262 (when the
      number of nanoseconds exceeds int64). *)
  Definition in_range (h : list (op V)) : Prop :=
    forall t k v ttl, In (OSet t k v ttl) h -> (0 < t)%Z /\ (t + ttl < 2 ^ 63)%Z.

  (** A value set at [t] for the duration [ttl] is to be found at [now]. The duration -1ns
      is gocache's NoExpiration. *)
  Definition live (t : time) (ttl : Z) (now : time) : Prop :=
    ttl = (-1)%Z \/ ((1 <= ttl)%Z /\ (now <= t + ttl)%Z).
End Histories.

(** ** Histories of the statement cache *)

(** A call of GetEntityConfiguration or FetchEntityStatement at [now] with the answer of
    the network and the clock readings should it be stored; a background refresh; any other
    use of the cache, under the key of another subsystem; the cache removing entries. *)
Inductive use :=
| UCall (now t1 t2 : time) (sub iss : string) (answer : option stmt)
| URefresh (t1 t2 : time) (sub iss : string) (answer : option stmt)
| UOther (now : time) (subsystem subkey : string) (v : cached) (ttl : Z)
| USweep (now : time) (which : string -> bool).

Definition apply_use (c : cache cached) (u : use) : cache cached :=
  match u with
  | UCall now t1 t2 sub iss answer => snd (get_statement now t1 t2 sub iss answer c)
  | URefresh t1 t2 sub iss answer => obtain t1 t2 sub iss answer c
  | UOther now subsystem subkey v ttl => cache_set now (cache_key subsystem subkey) v ttl c
  | USweep now which => cache_sweep now which c
  end.
Definition after_uses (h : list use) (c : cache cached) : cache cached := fold_left apply_use h c.

(** Other uses are those of the code: another subsystem. *)
Definition proper (u : use) : Prop :=
  match u with
  | UOther _ s _ _ _ => In s subsystem_names /\ s <> key_entity_statement
  | _ => True
  end.

(** [u] asked for the statement of [iss] about [sub], got [s], and stored it: with the
    remaining lifetime at [t1], counting from [t2]. *)
Definition obtained (u : use) (sub iss : string) (s : stmt) (t1 t2 : time) : Prop :=
  (exists now, u = UCall now t1 t2 sub iss (Some s)) \/ u = URefresh t1 t2 sub iss (Some s).

(** As [in_range]. *)
Definition uses_in_range (h : list use) : Prop :=
  (forall u sub iss s t1 t2, In u h -> obtained u sub iss s t1 t2 ->
     (0 < t1)%Z /\ (t1 <= t2)%Z /\ (st_exp s + (t2 - t1) < 2 ^ 63)%Z) /\
  (forall now ss sk v ttl, In (UOther now ss sk v ttl) h -> (0 < now)%Z /\ (now + ttl < 2 ^ 63)%Z).

(** The documented condition for a refresh (trustresolver.go:29-37): it expires within the
    grace period, and the given fraction of its lifetime has elapsed. *)
Definition refresh_documented (grace : Z) (factor : Q) (now : time) (s : stmt) : Prop :=
  (st_exp s - now <= grace)%Z /\ (factor * inject_Z (st_exp s - st_iat s) <= inject_Z (now - st_iat s))%Q.
