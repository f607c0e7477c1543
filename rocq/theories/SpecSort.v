(** Specification vocabulary for sorting chains. *)
From Verif Require Import Base GoVal Policy Schema Metadata Chain Sort.
Local Open Scope nat_scope.

(** The scores of the chains fall strictly up to position [k], and not beyond it. *)
Definition falls_to (score : chain -> Z) (cs : chains) (k : nat) : Prop :=
  k < List.length cs /\
  (forall i, i < k -> (score (nth (S i) cs []) < score (nth i cs []))%Z) /\
  (S k < List.length cs -> (score (nth k cs []) <= score (nth (S k) cs []))%Z).

(** The swaps sort.Slice makes when more than twelve chains are sorted by their length, as
    pairs of positions in ascending order. *)
Definition length_swaps (cs : chains) : list (nat * nat) :=
  map (fun ij => (Nat.min (fst ij) (snd ij), Nat.max (fst ij) (snd ij)))
      (filter (fun ij => negb (Nat.eqb (fst ij) (snd ij)))
         (slice_swaps (asc_less (fun c => Z.of_nat (path_len c)) cs) (List.length cs))).
