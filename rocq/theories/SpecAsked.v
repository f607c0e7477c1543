(** Specification vocabulary: which authorities a collection asks for their subordinates. *)
From Verif Require Import Base GoVal Policy Schema Metadata Chain Resolver FloatTime Json TrustMark Discovery SpecDiscovery.
Local Open Scope string_scope.

(** What the chosen goroutine is about to do. *)
Fixpoint acting (c : choice) (f : frame) : option task :=
  match c with
  | Collect => None
  | At i c' => let 'Frame _ _ _ _ ts := f in
      match nth_error ts i with
      | Some (Wait g) => if finished g then None else acting c' g
      | x => x
      end
  end.

(** The authorities that are asked for their subordinates in an execution, in this order. *)
Fixpoint asked_for_lists (w : dworld) (cs : list choice) (s : list string * frame) : list string :=
  match cs with
  | [] => []
  | c :: cs' =>
      (match acting c (snd s) with Some (Fetch _ a) => [a] | _ => [] end ++
       match step w c (fst s) (snd s) with Some s' => asked_for_lists w cs' s' | None => [] end)%list
  end.

(** Between the look whether an entity was visited and the note that it is, no other
    goroutine runs: what a lock around the two would make sure. *)
Fixpoint undisturbed (w : dworld) (cs : list choice) (s : list string * frame) : Prop :=
  match cs with
  | [] => True
  | c :: cs' =>
      (forall p a, acting c (snd s) = Some (Check p a) -> ~ In a (fst s) -> cs' = [] \/ exists cs'', cs' = c :: cs'') /\
      match step w c (fst s) (snd s) with Some s' => undisturbed w cs' s' | None => True end
  end.
