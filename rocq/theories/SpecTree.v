(** Specification vocabulary: federations in which nobody has two superiors. *)
From Verif Require Import Base GoVal Policy Schema Metadata Chain Resolver FloatTime Json TrustMark Discovery SpecDiscovery SpecAsked.
Local Open Scope string_scope.

(** No listing names an entity twice or names the anchor, and no two authorities list the same
    entity, whenever they are asked. *)
Definition one_superior (w : dworld) (ta : string) : Prop :=
  (forall p a l, dw_listing w p a = Some l -> NoDup l /\ ~ In ta l) /\
  (forall p a l p' a' l' b, dw_listing w p a = Some l -> dw_listing w p' a' = Some l' ->
     In b l -> In b l' -> a' = a).

(** The listed entities that are looked at (their configuration is fetched and evaluated) in
    an execution, in this order. *)
Fixpoint looked_at (w : dworld) (cs : list choice) (s : list string * frame) : list string :=
  match cs with
  | [] => []
  | c :: cs' =>
      (match acting c (snd s) with Some (Sub _ b) => [b] | _ => [] end ++
       match step w c (fst s) (snd s) with Some s' => looked_at w cs' s' | None => [] end)%list
  end.

(** The entities named in the listings received in an execution, with repetitions. *)
Fixpoint listed_in (w : dworld) (cs : list choice) (s : list string * frame) : list string :=
  match cs with
  | [] => []
  | c :: cs' =>
      (match acting c (snd s) with
       | Some (Fetch p a) => match dw_listing w p a with Some l => l | None => [] end
       | _ => []
       end ++
       match step w c (fst s) (snd s) with Some s' => listed_in w cs' s' | None => [] end)%list
  end.
