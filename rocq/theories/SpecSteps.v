(** Specification vocabulary for resolvers that are used step by step. *)
From Coq Require Import QArith.
From Verif Require Import Base GoVal Policy Schema Metadata Chain Resolver TrustMark Refresher FloatTime Cache SpecCache Steps.
Local Open Scope nat_scope.
Local Open Scope string_scope.

(** What happens in a program: a method of resolver number [who] is called, while the network
    is as [w] tells and the clock as [t]; something else is done with the cache; the cache removes
    entries. *)
Inductive event :=
| ECall (who : nat) (m : method) (fuel : nat) (w : world) (t : nat -> time)
| EOther (now : time) (subsystem subkey : string) (v : cached) (ttl : Z)
| ESweep (now : time) (which : string -> bool).

(** The resolvers of the program and its cache. *)
Definition state : Type := list resolver * cache cached.
Definition start_with (objs : list (string * list anchor * list string)) (c : cache cached) : state :=
  (map (fun o => new_resolver (fst (fst o)) (snd (fst o)) (snd o)) objs, c).

Fixpoint put {A} (i : nat) (x : A) (l : list A) : list A :=
  match i, l with 0, _ :: l' => x :: l' | S i', y :: l' => y :: put i' x l' | _, [] => [] end.

Section Programs.
  Variable hash : string -> list string -> list string -> string.

  (** [e] happens in state [s]: the chains returned, and the state afterwards. *)
  Inductive happens : state -> event -> chains -> state -> Prop :=
  | h_call objs c who m fuel w t r cs r' c' :
      nth_error objs who = Some r -> do_call hash m fuel w t r c = Done (Ok (cs, r', c')) ->
      happens (objs, c) (ECall who m fuel w t) cs (put who r' objs, c')
  | h_other objs c now ss sk v ttl : happens (objs, c) (EOther now ss sk v ttl) [] (objs, cache_set now (cache_key ss sk) v ttl c)
  | h_sweep objs c now which : happens (objs, c) (ESweep now which) [] (objs, cache_sweep now which c).
  Inductive history : state -> list event -> state -> Prop :=
  | hist_nil s : history s [] s
  | hist_snoc s h s1 e cs s2 : history s h s1 -> happens s1 e cs s2 -> history s (h ++ [e])%list s2.
End Programs.

(** The clock is after the year 1, signatures are judged the same way all the time, and the rest
    of the program keeps to its own part of the cache. *)
Definition ordinary (verifies : string -> list string -> bool) (e : event) : Prop :=
  match e with
  | ECall _ _ _ w t => (forall i, (zero_time + 2 <= t i)%Z) /\ w_verify w = verifies
  | EOther _ s _ _ _ => In s subsystem_names /\ s <> "trust_tree" /\ s <> "trust_tree_chains"
  | ESweep _ _ => True
  end.

(** The last call that changed resolver [who] verified the signatures. *)
Definition verified_last (who : nat) (h : list event) : bool :=
  fold_left (fun b e => match e with
                        | ECall i m _ _ _ => if Nat.eqb i who then match m with MResolve => false | MVerifySignatures | MValidChains => true | MChains => b end else b
                        | _ => b
                        end) h false.

(** The calls of resolver [who], in order. *)
Definition calls_of (who : nat) (h : list event) : list (method * nat * world) :=
  flat_map (fun e => match e with ECall i m f w _ => if Nat.eqb i who then [(m, f, w)] else [] | _ => [] end) h.
