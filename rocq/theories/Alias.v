(** Policy combination and application with Go's slice representation: a slice is a
    header (array, length) over a backing array that other slices may share, and
    reflect.Append writes into the array if it has room. The other files use the value of
    a slice instead of its header; AliasFacts.v proves that reading the results of the
    functions below gives the results of those.

    Only the slices reflect.Append can be called on are represented by headers: attributes
    of metadata structs and operands of policy operators. Elements of slices, maps and
    everything inside them are values. The results of ReflectSliceCast,
    ReflectIntersect and Slicify are also kept as values: no other slice shares their
    arrays and (for casts) the arrays are full, so that appending to them copies. *)
From Verif Require Import Base GoVal Policy Schema Metadata Chain.
Local Open Scope string_scope.

(** An entity type: one of the six of the library or an additional one.
    Used at metadata.go:14-24. *)
Inductive etype := EOP | ERP | EAS | EOC | EPR | EFE | EX (name : string).

(** Where an array is used: as the operand of an operator of the policy for an attribute
    of an entity type, or as the value of the i-th struct field of an entity type.
    Used at metadataPolicy.go:71-77, metadata.go:275-316. *)
Inductive slot := SPol (t : etype) (attr opn : string) | SMd (t : etype) (i : nat).

(** A backing array: all its cells up to the capacity. [c_slot] and [c_base] are notes for
    the proofs that no function below reads: the use of the array, and, for the arrays of
    decoded statements, the length of the statement's own slice.
    Used at internal/utils/slices.go:92-133. *)
Record cell := Cell { c_slot : slot; c_base : option nat; c_data : list gval }.
(** Allocated arrays; the address of an array is its position.
    Used at internal/utils/slices.go:92-133. *)
Definition heap := list cell.

(** A Go value: a slice header, or any other value (including nil slices).
    Used at internal/utils/slices.go:92-133. *)
Inductive hval := HV (v : gval) | HS (t : gty) (a n : nat).

Definition data_at (h : heap) (a : nat) : list gval :=
  match nth_error h a with Some c => c_data c | None => [] end.

(** The value of a header. Used at internal/utils/slices.go:92-133. *)
Definition read (h : heap) (x : hval) : gval :=
  match x with HV v => v | HS t a n => VSlice t false (firstn n (data_at h a)) end.

(** State passing: every call may write to the heap, also when it fails.
    Used at metadataPolicy.go:262-284. *)
Definition M (A : Type) := heap -> res A * heap.
Definition ret {A} (x : A) : M A := fun h => (Ok x, h).
Definition lift {A} (x : res A) : M A := fun h => (x, h).
Definition bindM {A B} (x : M A) (f : A -> M B) : M B := fun h =>
  match x h with
  | (Ok a, h') => f a h'
  | (Err, h') => (Err, h')
  | (Panic, h') => (Panic, h')
  end.
Notation "x <~ a ;; b" := (bindM a (fun x => b)) (at level 61, a at next level, right associativity).
Notation "' p <~ a ;; b" := (bindM a (fun p => b)) (at level 61, p pattern, a at next level, right associativity).
(** Evaluate something about the current heap. Used at metadataPolicy.go:262-284. *)
Definition look {A} (f : heap -> res A) : M A := fun h => (f h, h).

Fixpoint mapM {A B} (f : A -> M B) (l : list A) : M (list B) :=
  match l with
  | [] => ret []
  | x :: l' => y <~ f x ;; ys <~ mapM f l' ;; ret (y :: ys)
  end.

Section Model.
(** Spare capacity of an array allocated by reflect.Append for a given element type and
    length: runtime growslice, not modelled further. *)
Variable grow : gty -> nat -> nat.

(** l[i] = v. Used at internal/utils/slices.go:92-133. *)
Fixpoint set_nth (i : nat) (v : gval) (l : list gval) : list gval :=
  match l, i with
  | [], _ => []
  | _ :: l', 0 => v :: l'
  | x :: l', S i' => x :: set_nth i' v l'
  end.

Fixpoint set_cell (a i : nat) (v : gval) (h : heap) : heap :=
  match h, a with
  | [], _ => []
  | c :: h', 0 => Cell (c_slot c) (c_base c) (set_nth i v (c_data c)) :: h'
  | c :: h', S a' => c :: set_cell a' i v h'
  end.

Definition alloc (L : slot) (l : list gval) (h : heap) : nat * heap :=
  (List.length h, (h ++ [Cell L None l])%list).

(** reflect.Append(out, v): in place if the array has room, otherwise into a new array.
    Used at internal/utils/slices.go:92-133. *)
Definition append (L : slot) (out : hval) (v : gval) (h : heap) : hval * heap :=
  let move t l :=
    let l' := (l ++ [v])%list in
    let n := List.length l' in
    let '(a', h') := alloc L (l' ++ repeat VNil (grow t n))%list h in (HS t a' n, h') in
  match out with
  | HS t a n => if Nat.ltb n (List.length (data_at h a)) then (HS t a (S n), set_cell a n v h)
                else move t (firstn n (data_at h a))
  | HV (VSlice t _ l) => move t l
  | HV _ => (out, h) (* not a slice: not called *)
  end.

(** The elements of a slice: internal/utils/slices.go:92-133 *)
Definition elems_of (v : gval) : list gval := match v with VSlice _ _ l => l | _ => [] end.

(** The append loop of ReflectUnion: internal/utils/slices.go:108-113; the elements of
    [b] are read in each iteration. *)
Fixpoint union_from (L : slot) (b : hval) (is : list nat) (out : hval) (h : heap) : hval * heap :=
  match is with
  | [] => (out, h)
  | i :: is' =>
      let v := nth i (elems_of (read h b)) VNil in
      if existsb (deep_eq v) (elems_of (read h out)) then union_from L b is' out h
      else let '(out', h') := append L out v h in union_from L b is' out' h'
  end.

(** Slicify: internal/utils/slices.go:184-195 *)
Definition hslicify (x : hval) : hval := match x with HV v => HV (slicify v) | _ => x end.

(** ReflectUnion: internal/utils/slices.go:92-115. [L]: the use of [a]. *)
Definition hunion (L : slot) (a b : hval) : M hval := fun h =>
  let a := hslicify a in
  let b := hslicify b in
  match read h a, read h b with
  | VSlice ta na la, VSlice tb nb lb =>
      match lb with
      | [] => (Ok a, h)
      | _ :: _ =>
          match la with
          | [] => (r <- slice_cast (VSlice tb nb lb) (VSlice ta na la) ;; Ok (HV r), h)
          | _ :: _ =>
              match (if gty_eqb ta tb then Ok b
                     else r <- slice_cast (VSlice tb nb lb) (VSlice ta na la) ;; Ok (HV r)) with
              | Ok bs => let '(out, h') := union_from L bs (seq 0 (List.length (elems_of (read h bs)))) a h in
                         (Ok out, h')
              | Err => (Err, h)
              | Panic => (Panic, h)
              end
          end
      end
  | _, _ => (Panic, h)
  end.

(** The mergers: policyoperators.go:99-107 (add), 130-138 (subset_of),
    180-188 (one_of), 223-231 (superset_of), 270-283 (value), 302-316 (default),
    335-348 (essential). *)
Definition hmerge_op (L : slot) (o : op) (a b : hval) : M hval := fun h =>
  let va := read h a in
  let vb := read h b in
  match o with
  | OAdd | OSupersetOf =>
      if is_nil va then (Ok b, h) else if is_nil vb then (Ok a, h) else hunion L a b h
  | OSubsetOf | OOneOf =>
      if is_nil va then (Ok b, h) else if is_nil vb then (Ok a, h)
      else (r <- intersect va vb ;; Ok (HV r), h)
  | OValue => (e <- slice_equal va vb ;; if e then Ok a else Err, h)
  | ODefault =>
      if is_nil va then (Ok b, h) else if is_nil vb then (Ok a, h)
      else (e <- slice_equal va vb ;; if e then Ok a else Err, h)
  | OEssential => (r <- merge_op OEssential va vb ;; Ok (HV r), h)
  end.

(** The appliers: policyoperators.go:108-118 (add), 139-168 (subset_of),
    189-213 (one_of), 232-258 (superset_of), 284-289 (value), 317-322 (default),
    349-358 (essential). *)
Definition happly_op (L : slot) (o : op) (value : hval) (set : bool) (pv : hval) (essential : bool)
  : M (hval * bool) := fun h =>
  let v := read h value in
  let p := read h pv in
  match o with
  | OAdd =>
      if is_nil v then (Ok (pv, negb (is_nil p)), h)
      else if is_nil p then (Ok (value, set), h)
      else (u <~ hunion L value pv ;; ret (u, true)) h
  | OOneOf | OSupersetOf | OEssential =>
      (* these return the value they were given, or fail *)
      ('(_, s) <- apply_op o v set p essential ;; Ok (value, s), h)
  | OSubsetOf =>
      if negb set && negb essential then (Ok (value, set), h)
      else if is_nil p then (Ok (value, set), h)
      else if negb set then (Err, h)
      else (r <- intersect (slicify v) (slicify p) ;; Ok (HV r, true), h)
  | OValue =>
      if is_nil p then (Ok (HV VNil, false), h)
      else if is_slice p then (r <- slice_cast p (slicify v) ;; Ok (HV r, true), h) else (Ok (pv, true), h)
  | ODefault =>
      if negb set then
        (z <- (if is_nil v then Ok true else is_zero v) ;;
         if z then if is_slice p then r <- slice_cast p (slicify v) ;; Ok (HV r, true) else Ok (pv, true)
         else Ok (value, set), h)
      else (Ok (value, set), h)
  end.

(** MetadataPolicyEntry, MetadataPolicy: metadataPolicy.go:71-74 *)
Definition hentry := smap hval.
Definition hpolicy := smap hentry.
Definition hgpolicy := option hpolicy.

Definition read_entry (h : heap) (e : hentry) : entry := map (fun kx => (fst kx, read h (snd kx))) e.
Definition read_policy (h : heap) (p : hpolicy) : policy := map (fun ke => (fst ke, read_entry h (snd ke))) p.
Definition read_gpolicy (h : heap) (p : hgpolicy) : gpolicy := option_map (read_policy h) p.

(** MetadataPolicyEntry.ApplyTo: metadataPolicy.go:262-284 *)
Fixpoint happly_ops (L : slot) (os : list op) (p : hentry) (essential : bool) (value : hval) (set : bool)
  : M (hval * bool) :=
  match os with
  | [] => ret (value, set)
  | o :: os' =>
      match lookup (op_name o) p with
      | None => happly_ops L os' p essential value set
      | Some pv =>
          '(v', s') <~ happly_op L o value set pv essential ;; happly_ops L os' p essential v' s'
      end
  end.

Definition happly_to (L : slot) (p : hentry) (value : hval) (set : bool) : M hval :=
  e <~ look (fun h => Ok (entry_essential (read_entry h p))) ;;
  '(v, _) <~ happly_ops L operator_order p e value set ;; ret v.

(** mergeMetadataPolicyEntries: metadataPolicy.go:204-231 *)
Fixpoint hmerge_loop (t : etype) (attr : string) (a b : hentry) (out : hentry) : M (option hentry) :=
  match a with
  | [] => ret (Some out)
  | (opn, av) :: a' =>
      match lookup opn b with
      | None => hmerge_loop t attr a' b (insert opn av out)
      | Some bv =>
          match operator_of opn with
          | None => ret None
          | Some o => c <~ hmerge_op (SPol t attr opn) o av bv ;; hmerge_loop t attr a' b (insert opn c out)
          end
      end
  end.

Definition hmerge_entries (t : etype) (attr : string) (a b : hentry) : M hentry :=
  r <~ hmerge_loop t attr a b [] ;;
  match r with
  | None => ret []
  | Some out => ret (merge_rest b out)
  end.

(** combineMetadataPolicy: metadataPolicy.go:175-202 *)
Fixpoint hcombine_loop (t : etype) (parent sub out : hpolicy) : M hpolicy :=
  match parent with
  | [] => ret out
  | (k, pv) :: parent' =>
      match lookup k sub with
      | None => hcombine_loop t parent' sub (insert k pv out)
      | Some sv => c <~ hmerge_entries t k pv sv ;; hcombine_loop t parent' sub (insert k c out)
      end
  end.

Definition hpol (p : hgpolicy) : hpolicy := match p with Some m => m | None => [] end.

Definition hcombine2 (t : etype) (parent sub : hgpolicy) : M hgpolicy :=
  match hpol sub, hpol parent with
  | [], _ => ret parent
  | _, [] => ret sub
  | _, _ =>
      out <~ hcombine_loop t (hpol parent) (hpol sub) [] ;;
      let out := merge_rest (hpol sub) out in
      _ <~ look (fun h => verify_policy (read_policy h out)) ;; ret (Some out)
  end.

Fixpoint hcombine_fold (t : etype) (out : hgpolicy) (ps : list hgpolicy) : M hgpolicy :=
  match ps with
  | [] => ret out
  | p :: ps' => out' <~ hcombine2 t out p ;; hcombine_fold t out' ps'
  end.

(** CombineMetadataPolicy: metadataPolicy.go:156-172 *)
Definition hcombine_policies (t : etype) (ps : list hgpolicy) : M hgpolicy :=
  match ps with
  | [] => ret None
  | p :: ps' => _ <~ look (fun h => verify_policy (pol (read_gpolicy h p))) ;; hcombine_fold t p ps'
  end.

(** MetadataPolicies: metadataPolicy.go:14-23 *)
Record hpolicies := HPolicies {
  hp_op : hgpolicy; hp_rp : hgpolicy; hp_as : hgpolicy;
  hp_oc : hgpolicy; hp_pr : hgpolicy; hp_fe : hgpolicy;
  hp_extra : smap hgpolicy }.

Definition read_policies (h : heap) (p : hpolicies) : policies :=
  Policies (read_gpolicy h (hp_op p)) (read_gpolicy h (hp_rp p)) (read_gpolicy h (hp_as p))
           (read_gpolicy h (hp_oc p)) (read_gpolicy h (hp_pr p)) (read_gpolicy h (hp_fe p))
           (map (fun kp => (fst kp, read_gpolicy h (snd kp))) (hp_extra p)).

Definition hpresent (ps : list (option hpolicies)) : list hpolicies :=
  flat_map (fun p => match p with Some x => [x] | None => [] end) ps.
Definition hextra_keys (ps : list hpolicies) : list string := dedup (flat_map (fun p => keys (hp_extra p)) ps).
Definition hextra_entries (k : string) (ps : list hpolicies) : list hgpolicy :=
  flat_map (fun p => match lookup k (hp_extra p) with Some q => [q] | None => [] end) ps.

(** MergeMetadataPolicies: metadataPolicy.go:90-152 *)
Definition hmerge_policies (ps : list (option hpolicies)) : M hpolicies :=
  let ps := hpresent ps in
  op <~ hcombine_policies EOP (map hp_op ps) ;;
  rp <~ hcombine_policies ERP (map hp_rp ps) ;;
  as_ <~ hcombine_policies EAS (map hp_as ps) ;;
  oc <~ hcombine_policies EOC (map hp_oc ps) ;;
  pr <~ hcombine_policies EPR (map hp_pr ps) ;;
  fe <~ hcombine_policies EFE (map hp_fe ps) ;;
  ex <~ mapM (fun k => c <~ hcombine_policies (EX k) (hextra_entries k ps) ;; ret (k, c)) (hextra_keys ps) ;;
  ret (HPolicies op rp as_ oc pr fe ex).

(** A metadata struct, and Metadata: metadata.go:14-23 *)
Record hemeta := HEMeta { hm_fields : list (frow * hval); hm_set : list string }.
Definition read_emeta (h : heap) (m : hemeta) : emeta :=
  EMeta (map (fun fx => (fst fx, read h (snd fx))) (hm_fields m)) (hm_set m).

Record hmetadata := HMetadata {
  hmd_op : option hemeta; hmd_rp : option hemeta; hmd_as : option hemeta;
  hmd_oc : option hemeta; hmd_pr : option hemeta; hmd_fe : option hemeta;
  hmd_extra : smap gval }.
Definition read_metadata (h : heap) (m : hmetadata) : metadata :=
  Metadata (option_map (read_emeta h) (hmd_op m)) (option_map (read_emeta h) (hmd_rp m))
           (option_map (read_emeta h) (hmd_as m)) (option_map (read_emeta h) (hmd_oc m))
           (option_map (read_emeta h) (hmd_pr m)) (option_map (read_emeta h) (hmd_fe m)) (hmd_extra m).

(** Value.Set / SetZero in applyPolicy: metadata.go:306-310 *)
Definition hassign (t : gty) (x : hval) : M hval := look (fun h =>
  match typeof (read h x) with
  | None => Ok (HV (zero_of t))
  | Some t' => if gty_eqb t t' then Ok x else Panic
  end).

(** The Scope special case: metadata.go:300-305 *)
Definition hscope_fix (name : string) (x : hval) : M hval := look (fun h =>
  if String.eqb name "Scope" then
    match read h x with
    | VSlice TStr _ l => Ok (HV (VStr (String.concat " " (map str_of l))))
    | _ => Ok x
    end
  else Ok x).

(** One struct field in applyPolicy: metadata.go:284-311; [i] is its index *)
Definition happly_field (t : etype) (ws : list string) (p : hpolicy) (i : nat) (fv : frow * hval) : M (frow * hval) :=
  let '(r, v) := fv in
  match lookup (fr_tag r) p with
  | None => ret (r, v)
  | Some e =>
      v1 <~ happly_to (SMd t i) e v (mem (fr_name r) ws) ;;
      v2 <~ hscope_fix (fr_name r) v1 ;;
      v3 <~ hassign (fr_ty r) v2 ;;
      ret (r, v3)
  end.

Fixpoint happly_fields (t : etype) (ws : list string) (p : hpolicy) (i : nat) (l : list (frow * hval))
  : M (list (frow * hval)) :=
  match l with
  | [] => ret []
  | fv :: l' => y <~ happly_field t ws p i fv ;; ys <~ happly_fields t ws p (S i) l' ;; ret (y :: ys)
  end.

(** applyPolicy: metadata.go:275-314, on a copy of the struct (the ApplyPolicy methods have
    value receivers, metadata.go:402,437, metadata_generated.go:155,404,677,836); slices in the copy share the original's arrays *)
Definition happly_policy (t : etype) (m : hemeta) (p : hpolicy) : M hemeta :=
  fs <~ happly_fields t (hm_set m) p 0 (hm_fields m) ;; ret (HEMeta fs (hm_set m)).

(** One typed field in Metadata.ApplyPolicy: metadata.go:222-248 *)
Definition happly_one (t : etype) (m : option hemeta) (p : hgpolicy) : M (option hemeta) :=
  match p, m with
  | None, _ => ret m
  | Some _, None => ret None
  | Some p, Some em => r <~ happly_policy t em p ;; ret (Some r)
  end.

(** Metadata.ApplyPolicy with a non-nil argument: metadata.go:215-273 *)
Definition hmd_apply (m : hmetadata) (p : hpolicies) : M hmetadata :=
  op' <~ happly_one EOP (hmd_op m) (hp_op p) ;;
  rp' <~ happly_one ERP (hmd_rp m) (hp_rp p) ;;
  as' <~ happly_one EAS (hmd_as m) (hp_as p) ;;
  oc' <~ happly_one EOC (hmd_oc m) (hp_oc p) ;;
  pr' <~ happly_one EPR (hmd_pr m) (hp_pr p) ;;
  fe' <~ happly_one EFE (hmd_fe m) (hp_fe p) ;;
  ex' <~ look (fun h => map_res (apply_extra (mp_extra (read_policies h p))) (hmd_extra m)) ;;
  ret (HMetadata op' rp' as' oc' pr' fe' ex').

(** A decoded entity statement; the policy and metadata in [hs_stmt] are ignored.
    Used at entitystatement.go:24-88. *)
Record hstmt := HStmt { hs_stmt : stmt; hs_policy : option hpolicies; hs_metadata : option hmetadata }.
Definition read_stmt (h : heap) (s : hstmt) : stmt :=
  let r := hs_stmt s in
  Stmt (st_jwt r) (st_iss r) (st_sub r) (st_iat r) (st_exp r) (st_jwks r) (st_hints r)
       (option_map (read_metadata h) (hs_metadata s)) (option_map (read_policies h) (hs_policy s))
       (st_constraints r) (st_crit r) (st_policy_crit r) (st_marks r) (st_mark_issuers r) (st_mark_owners r).

Definition hempty_metadata : hmetadata := HMetadata None None None None None None [].

(** TrustChain.Metadata without its cache: trustchain.go:60-104 *)
Definition hchain_metadata (c : list hstmt) : M (option hmetadata) :=
  match c with
  | [] => lift Err
  | [s] => ret (hs_metadata s)
  | s :: _ =>
      match unsupported_crit (map hs_stmt c) with
      | _ :: _ => lift Err
      | [] =>
          p <~ hmerge_policies (map hs_policy c) ;;
          m <~ hmd_apply (match hs_metadata s with Some m => m | None => hempty_metadata end) p ;;
          ret (Some m)
      end
  end.

(** Computing the metadata of several chains one after the other. Used at trustchain.go:60-104. *)
Fixpoint run_all (cs : list (list hstmt)) (h : heap) : heap :=
  match cs with
  | [] => h
  | c :: cs' => run_all cs' (snd (hchain_metadata c h))
  end.
End Model.
