(** Policies with operators and verifiers registered by the application:
    policyoperators.go:10-97,362-371, policyverifiers.go:12-19,237-250, and the parts of
    metadataPolicy.go that consult them. Policy.v models the same functions for the built-in
    operators; CustomFacts.v proves that they agree. *)
From Verif Require Import Base GoVal Policy.
Local Open Scope string_scope.

(** PolicyOperator, policyOperator, NewPolicyOperator: policyoperators.go:12-22,53-97.
    [on_combine] is None for a nil slice. *)
Record operator := Operator {
  on_name : string;
  on_merge : gval -> gval -> res gval;
  on_apply : gval -> bool -> gval -> bool -> res (gval * bool);
  on_combine : option (list string) }.

(** The variables [operators], OperatorOrder and [policyVerifiers]: policyoperators.go:36-46,
    policyverifiers.go:14. *)
Record registry := Registry { rg_ops : smap operator; rg_order : list string; rg_verifiers : list verifier }.

(** RegisterPolicyOperator: policyoperators.go:49-51 *)
Definition register_operator (o : operator) (r : registry) : registry :=
  Registry (insert (on_name o) o (rg_ops r)) (rg_order r) (rg_verifiers r).
(** RegisterPolicyVerifier: policyverifiers.go:17-19 *)
Definition register_verifier (v : verifier) (r : registry) : registry :=
  Registry (rg_ops r) (rg_order r) (rg_verifiers r ++ [v])%list.

(** The built-in operators and their registration: policyoperators.go:36-44,362-371,
    policyverifiers.go:237-250. *)
Definition builtin_operator (o : op) : operator :=
  Operator (op_name o) (merge_op o) (apply_op o) (option_map (map op_name) (may_combine_with o)).
Definition builtin : registry :=
  fold_left (fun r v => register_verifier v r) policy_verifiers
    (fold_left (fun r o => register_operator (builtin_operator o) r)
       [OSubsetOf; OOneOf; OSupersetOf; OAdd; OValue; ODefault; OEssential]
       (Registry [] (map op_name operator_order) [])).

(** MetadataPolicyEntry.Verify: metadataPolicy.go:234-259 *)
Definition r_check_combination (r : registry) (active : list string) (opn : string) : res unit :=
  match lookup opn (rg_ops r) with
  | None => Ok tt
  | Some o =>
      match on_combine o with
      | None => Ok tt
      | Some mc => match subtract active (mc ++ [on_name o]) with [] => Ok tt | _ => Err end
      end
  end.
Fixpoint r_check_combinations (r : registry) (active todo : list string) : res unit :=
  match todo with
  | [] => Ok tt
  | o :: t => _ <- r_check_combination r active o ;; r_check_combinations r active t
  end.
Definition r_verify_entry (r : registry) (p : entry) : res unit :=
  _ <- r_check_combinations r (keys p) (keys p) ;; run_verifiers (rg_verifiers r) p.

(** MetadataPolicyEntry.ApplyTo: metadataPolicy.go:262-284 *)
Fixpoint r_apply_ops (r : registry) (names : list string) (p : entry) (essential : bool) (value : gval) (set : bool)
  : res (gval * bool) :=
  match names with
  | [] => Ok (value, set)
  | n :: names' =>
      match lookup n p with
      | None => r_apply_ops r names' p essential value set
      | Some pv =>
          match lookup n (rg_ops r) with
          | None => Err
          | Some o => '(v', s') <- on_apply o value set pv essential ;; r_apply_ops r names' p essential v' s'
          end
      end
  end.
Definition r_apply_to (r : registry) (p : entry) (value : gval) (set : bool) : res gval :=
  '(v, _) <- r_apply_ops r (rg_order r) p (entry_essential p) value set ;; Ok v.

(** mergeMetadataPolicyEntries: metadataPolicy.go:204-231 *)
Fixpoint r_merge_loop (r : registry) (a b : entry) (out : entry) : res (option entry) :=
  match a with
  | [] => Ok (Some out)
  | (opn, av) :: a' =>
      match lookup opn b with
      | None => r_merge_loop r a' b (insert opn av out)
      | Some bv =>
          match lookup opn (rg_ops r) with
          | None => Ok None
          | Some o => c <- on_merge o av bv ;; r_merge_loop r a' b (insert opn c out)
          end
      end
  end.
Definition r_merge_entries (r : registry) (a b : entry) : res entry :=
  m <- r_merge_loop r a b [] ;;
  match m with
  | None => Ok []
  | Some out => Ok (merge_rest b out)
  end.

(** The operators a critical list may name: trustchain.go:80-86 *)
Definition r_understood (r : registry) (n : string) : bool := mem n (rg_order r).
