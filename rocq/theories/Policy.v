(** Metadata policy operators, entry verification, merging and application:
    policyoperators.go, policyverifiers.go, metadataPolicy.go.
    Only the built-in operators and verifiers are modelled here; Custom.v has those
    registered by an application (RegisterPolicyOperator / RegisterPolicyVerifier). The [pathInfo] arguments only appear in error texts and are dropped. *)
From Verif Require Import Base GoVal.
Local Open Scope string_scope.

(** policyoperators.go:24-32 *)
Inductive op := OValue | OAdd | ODefault | OOneOf | OSubsetOf | OSupersetOf | OEssential.

Definition op_name (o : op) : string :=
  match o with
  | OValue => "value"
  | ODefault => "default"
  | OAdd => "add"
  | OOneOf => "one_of"
  | OSubsetOf => "subset_of"
  | OSupersetOf => "superset_of"
  | OEssential => "essential"
  end.

(** OperatorOrder: policyoperators.go:36-44 *)
Definition operator_order : list op :=
  [OValue; OAdd; ODefault; OOneOf; OSubsetOf; OSupersetOf; OEssential].

(** The [operators] map filled by init: policyoperators.go:46-51,362-371 *)
Definition operator_of (name : string) : option op :=
  if String.eqb name "subset_of" then Some OSubsetOf
  else if String.eqb name "one_of" then Some OOneOf
  else if String.eqb name "superset_of" then Some OSupersetOf
  else if String.eqb name "add" then Some OAdd
  else if String.eqb name "value" then Some OValue
  else if String.eqb name "default" then Some ODefault
  else if String.eqb name "essential" then Some OEssential
  else None.

(** MayCombineWith of the built-in operators; None is the nil slice of essential:
    policyoperators.go:119-125,169-175,214-218,259-265,290-297,323-330,359 *)
Definition may_combine_with (o : op) : option (list op) :=
  match o with
  | OAdd => Some [OValue; ODefault; OSubsetOf; OSupersetOf; OEssential]
  | OSubsetOf => Some [OValue; OAdd; ODefault; OSupersetOf; OEssential]
  | OOneOf => Some [OValue; ODefault; OEssential]
  | OSupersetOf => Some [OValue; OAdd; ODefault; OSubsetOf; OEssential]
  | OValue => Some [OAdd; ODefault; OOneOf; OSubsetOf; OSupersetOf; OEssential]
  | ODefault => Some [OValue; OAdd; OOneOf; OSubsetOf; OSupersetOf; OEssential]
  | OEssential => None
  end.

(** The mergers: policyoperators.go:99-107 (add), 130-138 (subset_of),
    180-188 (one_of), 223-231 (superset_of), 270-283 (value), 302-316 (default),
    335-348 (essential). *)
Definition merge_op (o : op) (a b : gval) : res gval :=
  match o with
  | OAdd | OSupersetOf =>
      if is_nil a then Ok b else if is_nil b then Ok a else union a b
  | OSubsetOf | OOneOf =>
      if is_nil a then Ok b else if is_nil b then Ok a else intersect a b
  | OValue =>
      e <- slice_equal a b ;; if e then Ok a else Err
  | ODefault =>
      if is_nil a then Ok b else if is_nil b then Ok a
      else e <- slice_equal a b ;; if e then Ok a else Err
  | OEssential =>
      match a, b with
      | VBool x, VBool y => Ok (VBool (x || y))
      | VBool x, _ => Ok (VBool x)
      | _, VBool y => Ok (VBool y)
      | _, _ => Ok (VBool false)
      end
  end.

(** The appliers: policyoperators.go:108-118 (add), 139-168 (subset_of),
    189-213 (one_of), 232-258 (superset_of), 284-289 (value), 317-322 (default),
    349-358 (essential). Result: new value and whether it is set. *)
Definition apply_op (o : op) (value : gval) (set : bool) (pv : gval) (essential : bool)
  : res (gval * bool) :=
  match o with
  | OAdd =>
      if is_nil value then Ok (pv, negb (is_nil pv))
      else if is_nil pv then Ok (value, set)
      else u <- union value pv ;; Ok (u, true)
  | OSubsetOf =>
      if negb set && negb essential then Ok (value, set)
      else if is_nil pv then Ok (value, set)
      else if negb set then Err
      else r <- intersect (slicify value) (slicify pv) ;; Ok (r, true)
  | OOneOf =>
      if negb set && negb essential then Ok (value, set)
      else if is_nil pv then Ok (value, set)
      else if negb set then Err
      else if slice_contains value (slicify pv) then Ok (value, set) else Err
  | OSupersetOf =>
      if negb set && negb essential then Ok (value, set)
      else if is_nil pv then Ok (value, set)
      else if negb set then Err
      else b <- is_superset_of (slicify value) (slicify pv) ;;
           if b then Ok (value, set) else Err
  | OValue =>
      if is_nil pv then Ok (VNil, false)
      else r <- slice_cast pv (slicify value) ;; Ok (r, true)
  | ODefault =>
      if negb set then
        z <- (if is_nil value then Ok true else is_zero value) ;;
        if z then r <- slice_cast pv (slicify value) ;; Ok (r, true)
        else Ok (value, set)
      else Ok (value, set)
  | OEssential =>
      match pv with
      | VBool true =>
          if is_nil value then Err
          else if is_slice value then Ok (value, set)
          else z <- is_zero value ;; if z then Err else Ok (value, set)
      | _ => Ok (value, set)
      end
  end.

(** MetadataPolicyEntry, MetadataPolicy: metadataPolicy.go:71-74 *)
Definition entry := smap gval.
Definition policy := smap entry.

Definition get (o : op) (e : entry) : option gval := lookup (op_name o) e.

(** ** Verifiers: policyverifiers.go. Used at policyverifiers.go:12-19. *)
Definition verifier := entry -> res unit.

(** Shared shape of policyverifiers.go:34-51,53-70,72-89,106-125:
    if both operators are present, the operand of the first must be a subset of
    the operand of the second. *)
Definition verify_sub (small big : op) : verifier := fun p =>
  match get small p, get big p with
  | Some s, Some b => ok <- is_subset_of s b ;; if ok then Ok tt else Err
  | _, _ => Ok tt
  end.

(** policyVerifierSubsetSupersetOneOf: policyverifiers.go:21-32 *)
Definition verify_subset_superset_oneof : verifier := fun p =>
  if has (op_name OOneOf) p && (has (op_name OSubsetOf) p || has (op_name OSupersetOf) p)
  then Err else Ok tt.
(** policyVerifierSubsetSupersetOf: policyverifiers.go:34-51 *)
Definition verify_subset_superset : verifier := verify_sub OSupersetOf OSubsetOf.
(** policyVerifyAddInSubset: policyverifiers.go:53-70 *)
Definition verify_add_in_subset : verifier := verify_sub OAdd OSubsetOf.
(** policyVerifyAddInOneOf: policyverifiers.go:146-169. Index(0) of an empty slice panics. *)
Definition verify_add_in_oneof : verifier := fun p =>
  match get OOneOf p, get OAdd p with
  | Some oneof, Some add =>
      l <- elems (slicify add) ;;
      match l with
      | [] => Panic
      | [x] => if slice_contains x oneof then Ok tt else Err
      | _ => Err
      end
  | _, _ => Ok tt
  end.
(** policyVerifyAddInValue: policyverifiers.go:72-89 *)
Definition verify_add_in_value : verifier := verify_sub OAdd OValue.
(** policyVerifyOneOfStillHasValues: policyverifiers.go:223-235 *)
Definition verify_oneof_has_values : verifier := fun p =>
  match get OOneOf p with
  | None => Ok tt
  | Some v => if is_nil v then Err
              else l <- elems (slicify v) ;; match l with [] => Err | _ => Ok tt end
  end.
(** policyVerifySubsetOfAndValue: policyverifiers.go:106-125 *)
Definition verify_subset_and_value : verifier := verify_sub OValue OSubsetOf.
(** policyVerifyDefaultAndValue: policyverifiers.go:91-104 *)
Definition verify_default_and_value : verifier := fun p =>
  match get OValue p, get ODefault p with
  | Some v, Some _ => if is_nil v then Err else Ok tt
  | _, _ => Ok tt
  end.

(** Registration order: policyverifiers.go:237-250 (the commented-out ones are not registered). *)
Definition policy_verifiers : list verifier :=
  [ verify_subset_superset_oneof; verify_subset_superset; verify_add_in_subset;
    verify_add_in_oneof; verify_add_in_value; verify_oneof_has_values;
    verify_subset_and_value; verify_default_and_value ].

Fixpoint run_verifiers (vs : list verifier) (p : entry) : res unit :=
  match vs with
  | [] => Ok tt
  | v :: vs' => _ <- v p ;; run_verifiers vs' p
  end.

(** One iteration of the combination check in Verify: metadataPolicy.go:236-252 *)
Definition check_combination (active : list string) (opn : string) : res unit :=
  match operator_of opn with
  | None => Ok tt
  | Some o =>
      match may_combine_with o with
      | None => Ok tt
      | Some mc =>
          match subtract active (map op_name mc ++ [op_name o]) with
          | [] => Ok tt
          | _ => Err
          end
      end
  end.

Fixpoint check_combinations (active todo : list string) : res unit :=
  match todo with
  | [] => Ok tt
  | o :: r => _ <- check_combination active o ;; check_combinations active r
  end.

(** MetadataPolicyEntry.Verify: metadataPolicy.go:234-259 *)
Definition verify_entry (p : entry) : res unit :=
  _ <- check_combinations (keys p) (keys p) ;; run_verifiers policy_verifiers p.

(** MetadataPolicy.Verify: metadataPolicy.go:80-87 *)
Fixpoint verify_policy (p : policy) : res unit :=
  match p with
  | [] => Ok tt
  | (_, e) :: p' => _ <- verify_entry e ;; verify_policy p'
  end.

(** ** Application: MetadataPolicyEntry.ApplyTo, metadataPolicy.go:262-284 *)
Definition entry_essential (p : entry) : bool :=
  match get OEssential p with Some (VBool b) => b | _ => false end.

(** The loop over OperatorOrder (all built-in operators are registered, so the
    "unsupported operator" branch, lines 274-277, is unreachable).
    Used at metadataPolicy.go:262-284. *)
Fixpoint apply_ops (os : list op) (p : entry) (essential : bool) (value : gval) (set : bool)
  : res (gval * bool) :=
  match os with
  | [] => Ok (value, set)
  | o :: os' =>
      match get o p with
      | None => apply_ops os' p essential value set
      | Some pv =>
          '(v', s') <- apply_op o value set pv essential ;; apply_ops os' p essential v' s'
      end
  end.

Definition apply_to (p : entry) (value : gval) (set : bool) : res gval :=
  '(v, _) <- apply_ops operator_order p (entry_essential p) value set ;; Ok v.

(** ** Merging: mergeMetadataPolicyEntries, metadataPolicy.go:204-231 *)

(** The loop over [a] in iteration order (lines 206-223). [None]: the early
    [return nil, nil] for an operator that is in both entries but not registered.
    Used at metadataPolicy.go:204-223. *)
Fixpoint merge_loop (a b : entry) (out : entry) : res (option entry) :=
  match a with
  | [] => Ok (Some out)
  | (opn, av) :: a' =>
      match lookup opn b with
      | None => merge_loop a' b (insert opn av out)
      | Some bv =>
          match operator_of opn with
          | None => Ok None
          | Some o => c <- merge_op o av bv ;; merge_loop a' b (insert opn c out)
          end
      end
  end.

(** Lines 224-229. Used at metadataPolicy.go:224-229. *)
Fixpoint merge_rest {V} (b : smap V) (out : smap V) : smap V :=
  match b with
  | [] => out
  | (k, v) :: b' => if has k out then merge_rest b' out else merge_rest b' (insert k v out)
  end.

(** A nil entry behaves like the empty one everywhere, so [return nil, nil]
    becomes the empty entry. Used at metadataPolicy.go:204-232. *)
Definition merge_entries (a b : entry) : res entry :=
  r <- merge_loop a b [] ;;
  match r with
  | None => Ok []
  | Some out => Ok (merge_rest b out)
  end.

(** combineMetadataPolicy: metadataPolicy.go:175-202 *)
Fixpoint combine_loop (parent sub out : policy) : res policy :=
  match parent with
  | [] => Ok out
  | (k, pv) :: parent' =>
      match lookup k sub with
      | None => combine_loop parent' sub (insert k pv out)
      | Some sv => c <- merge_entries pv sv ;; combine_loop parent' sub (insert k c out)
      end
  end.

(** A MetadataPolicy variable: nil or a map. nil-ness of the result is observable in
    Metadata.ApplyPolicy. Used at metadataPolicy.go:71-74,156-202. *)
Definition gpolicy := option policy.
Definition pol (p : gpolicy) : policy := match p with Some m => m | None => [] end.

Definition combine2 (parent sub : gpolicy) : res gpolicy :=
  match pol sub, pol parent with
  | [], _ => Ok parent
  | _, [] => Ok sub
  | _, _ =>
      out <- combine_loop (pol parent) (pol sub) [] ;;
      let out := merge_rest (pol sub) out in
      _ <- verify_policy out ;; Ok (Some out)
  end.

Fixpoint combine_fold (out : gpolicy) (ps : list gpolicy) : res gpolicy :=
  match ps with
  | [] => Ok out
  | p :: ps' => out' <- combine2 out p ;; combine_fold out' ps'
  end.

(** CombineMetadataPolicy: metadataPolicy.go:156-172. *)
Definition combine_policies (ps : list gpolicy) : res gpolicy :=
  match ps with
  | [] => Ok None
  | p :: ps' => _ <- verify_policy (pol p) ;; combine_fold p ps'
  end.
