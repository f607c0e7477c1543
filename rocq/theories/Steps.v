(** A TrustResolver used step by step, and more than once: trustresolver.go:140-301. *)
From Coq Require Import QArith.
From Verif Require Import Base GoVal Policy Schema Metadata Chain Resolver TrustMark Refresher FloatTime Cache.
Local Open Scope nat_scope.
Local Open Scope string_scope.

(** TrustResolver: trustresolver.go:141-146, with the field signaturesVerified of the root of its
    tree (:304-313); at the nodes below the field is only read if it is false at the root, and
    then there are none left (:435-471). *)
Record resolver := Resolver { rs_start : string; rs_tas : list anchor; rs_types : list string; rs_tree : tree; rs_verified : bool }.
Definition new_resolver (start : string) (tas : list anchor) (types : list string) : resolver := Resolver start tas types zero_tree false.
Definition with_tree (r : resolver) (t : tree) (b : bool) : resolver := Resolver (rs_start r) (rs_tas r) (rs_types r) t b.

Section Steps.
  Variable hash : string -> list string -> list string -> string.
  Definition my_tree_key (r : resolver) : string := tree_key hash (rs_start r) (rs_tas r) (rs_types r).
  Definition my_chains_key (r : resolver) : string := chains_key hash (rs_start r) (rs_tas r) (rs_types r).

  (** Resolve: trustresolver.go:201-227. The tree of the resolver stays as it is if there is no
      starting entity or its configuration is not obtained. A tree from the cache is decoded into
      the tree of the resolver; only what a decoder does with an empty tree is modelled, and
      unexported fields are kept. *)
  Definition do_resolve (fuel : nat) (w : world) (t : nat -> time) (r : resolver) (c : cache cached) : run (resolver * cache cached) :=
    match cache_get (t 1) (my_tree_key r) c with
    | (Some (CTree tr), c1) => Done (Ok (with_tree r (tree_msgpack tr) (rs_verified r), c1))
    | (_, c1) =>
        match resolve_tree fuel w (rs_tas r) (rs_types r) (rs_start r) with
        | OutOfFuel => OutOfFuel
        | Done Panic => Done Panic
        | Done Err => Done Err
        | Done (Ok tr) =>
            match t_entity tr with
            | Some _ => Done (Ok (with_tree r tr false, cache_set (t 2) (my_tree_key r) (CTree tr) (until (t_exp tr) (t 2)) c1))
            | None => Done (Ok (r, c1))
            end
        end
    end.

  (** VerifySignatures: trustresolver.go:230-235 with :435-438 for a root that has been verified *)
  Definition do_verify (w : world) (t : nat -> time) (r : resolver) (c : cache cached) : res (resolver * cache cached) :=
    '(b, tr) <- (if rs_verified r then Ok (true, rs_tree r) else verify_sigs w (rs_tas r) (rs_tree r)) ;;
    Ok (with_tree r tr b, cache_set (t 3) (my_tree_key r) (CTree tr) (until (t_exp tr) (t 3)) c).

  (** Chains: trustresolver.go:238-254 *)
  Definition do_chains (t : nat -> time) (r : resolver) (c : cache cached) : chains * cache cached :=
    match cache_get (t 4) (my_chains_key r) c with
    | (Some (CChains cs), c1) => (map (map stmt_msgpack) cs, c1)
    | (_, c1) =>
        match tree_chains (rs_tree r) with
        | [] => ([], c1)
        | cs => (cs, cache_set (t 5) (my_chains_key r) (CChains cs) (until (t_exp (rs_tree r)) (t 5)) c1)
        end
    end.

  (** The exported methods of a resolver. Used at trustresolver.go:173-254. *)
  Inductive method := MResolve | MVerifySignatures | MChains | MValidChains.

  (** A call: the chains it returns (none for Resolve and VerifySignatures), the resolver and the
      cache afterwards. MValidChains is ResolveToValidChainsWithoutVerifyingMetadata:
      trustresolver.go:185-198 *)
  Definition do_call (m : method) (fuel : nat) (w : world) (t : nat -> time) (r : resolver) (c : cache cached)
    : run (chains * resolver * cache cached) :=
    match m with
    | MResolve => match do_resolve fuel w t r c with
                  | OutOfFuel => OutOfFuel
                  | Done x => Done ('(r', c') <- x ;; Ok ([], r', c'))
                  end
    | MVerifySignatures => Done ('(r', c') <- do_verify w t r c ;; Ok ([], r', c'))
    | MChains => let (cs, c') := do_chains t r c in Done (Ok (cs, r, c'))
    | MValidChains =>
        match cache_get (t 0) (my_chains_key r) c with
        | (Some (CChains cs), c0) => Done (Ok (map (map stmt_msgpack) cs, r, c0))
        | (_, c0) =>
            match do_resolve fuel w t r c0 with
            | OutOfFuel => OutOfFuel
            | Done x => Done ('(r1, c1) <- x ;; '(r2, c2) <- do_verify w t r1 c1 ;;
                              let (cs, c3) := do_chains t r2 c2 in Ok (cs, r2, c3))
            end
        end
    end.
End Steps.
