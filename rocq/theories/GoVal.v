(** Go dynamic values and the reflection helpers of internal/utils/slices.go. *)
From Verif Require Import Base.

(** Static Go types that occur in metadata fields and policy operands
    (metadata_generated.go:14-33,159-230,408-491,681-707: string, []string, bool,
    int64, *jwks.JWKS, map[string]string, map[string][]string, map[string]any;
    JSON decoded operands additionally float64, []any). *)
Inductive gty : Type :=
| TAny | TBool | TInt | TFloat | TStr | TJwks
| TMap (t : gty)
| TSlice (t : gty).

(** A value of Go type [any].
    - [VFloat n]: the float64 with integral value n (fractional JSON numbers are not
      modelled; only equality and the zero test are used).
    - [VJwks p]: a *jwks.JWKS, nil or pointing to the key set decoded from the JSON
      object p.
    - [VMap t nil kv], [VSlice t nil l]: the static element type and nil-ness are
      kept because reflect observes them. A nil slice/map has no elements
      (see [wfv]). Used at metadataPolicy.go:74, metadata.go:275-316. *)
Inductive gval : Type :=
| VNil
| VBool (b : bool)
| VInt (z : Z)
| VFloat (z : Z)
| VStr (s : string)
| VJwks (p : option gval)
| VMap (t : gty) (isnil : bool) (kv : list (string * gval))
| VSlice (t : gty) (isnil : bool) (l : list gval).

Fixpoint gty_eqb (a b : gty) : bool :=
  match a, b with
  | TAny, TAny | TBool, TBool | TInt, TInt | TFloat, TFloat | TStr, TStr | TJwks, TJwks => true
  | TMap x, TMap y => gty_eqb x y
  | TSlice x, TSlice y => gty_eqb x y
  | _, _ => false
  end.

(** reflect.TypeOf; None for the nil interface. Used at internal/utils/slices.go:25-195. *)
Definition typeof (v : gval) : option gty :=
  match v with
  | VNil => None
  | VBool _ => Some TBool
  | VInt _ => Some TInt
  | VFloat _ => Some TFloat
  | VStr _ => Some TStr
  | VJwks _ => Some TJwks
  | VMap t _ _ => Some (TMap t)
  | VSlice t _ _ => Some (TSlice t)
  end.

(** reflect.DeepEqual on such values: identical types, equal nil-ness,
    element-wise equality; maps compare by key. Used at internal/utils/slices.go:78-90,163-182. *)
Fixpoint deep_eq (a b : gval) {struct a} : bool :=
  match a, b with
  | VNil, VNil => true
  | VBool x, VBool y => Bool.eqb x y
  | VInt x, VInt y => Z.eqb x y
  | VFloat x, VFloat y => Z.eqb x y
  | VStr x, VStr y => String.eqb x y
  | VJwks None, VJwks None => true
  | VJwks (Some x), VJwks (Some y) => deep_eq x y
  | VMap t n kv, VMap t' n' kv' =>
      gty_eqb t t' && Bool.eqb n n' && Nat.eqb (List.length kv) (List.length kv') &&
      (fix go (l : list (string * gval)) : bool :=
         match l with
         | [] => true
         | (k, v) :: l' =>
             match lookup k kv' with Some v' => deep_eq v v' | None => false end && go l'
         end) kv
  | VSlice t n l, VSlice t' n' l' =>
      gty_eqb t t' && Bool.eqb n n' &&
      (fix go (l1 l2 : list gval) {struct l1} : bool :=
         match l1, l2 with
         | [], [] => true
         | x :: r1, y :: r2 => deep_eq x y && go r1 r2
         | _, _ => false
         end) l l'
  | _, _ => false
  end.

(** reflect.ValueOf(v).IsZero(); panics on the nil interface.
    Used at policyoperators.go:97-360. *)
Definition is_zero (v : gval) : res bool :=
  match v with
  | VNil => Panic
  | VBool b => Ok (negb b)
  | VInt z => Ok (Z.eqb z 0)
  | VFloat z => Ok (Z.eqb z 0)
  | VStr s => Ok (String.eqb s "")
  | VJwks p => Ok (match p with None => true | _ => false end)
  | VMap _ n _ => Ok n
  | VSlice _ n _ => Ok n
  end.

(** The zero value of a Go type (Value.SetZero). Used at metadata.go:275-316. *)
Definition zero_of (t : gty) : gval :=
  match t with
  | TAny => VNil
  | TBool => VBool false
  | TInt => VInt 0
  | TFloat => VFloat 0
  | TStr => VStr ""
  | TJwks => VJwks None
  | TMap t => VMap t true []
  | TSlice t => VSlice t true []
  end.

Definition is_nil (v : gval) : bool := match v with VNil => true | _ => false end.

(** IsSlice: internal/utils/slices.go:154-159 *)
Definition is_slice (v : gval) : bool := match v with VSlice _ _ _ => true | _ => false end.

(** Slicify: internal/utils/slices.go:184-195 *)
Definition slicify (v : gval) : gval :=
  match v with
  | VNil => VNil
  | VSlice _ _ _ => v
  | _ => match typeof v with Some t => VSlice t false [v] | None => VNil end
  end.

(** reflect.ValueOf(v) used as a slice: Len/Index panic on anything that is not a
    slice. (reflect also allows Len on maps and strings; all call sites pass a
    slicified value, so that case does not occur.). Used at internal/utils/slices.go:78-152. *)
Definition elems (v : gval) : res (list gval) :=
  match v with VSlice _ _ l => Ok l | _ => Panic end.

(** One element of ReflectSliceCast (internal/utils/slices.go:32-71): the target
    element type decides. Basic kinds use a type assertion on the element's
    dynamic value, interface elements are kept, everything else goes through
    Value.Convert, which for the modelled types only succeeds if the static
    element types are identical (converting an interface-typed element to a
    concrete type panics). *)
Definition cast_elem (src dst : gty) (v : gval) : res gval :=
  match dst with
  | TBool => match v with VBool _ => Ok v | _ => Panic end
  | TInt => match v with VInt _ => Ok v | _ => Panic end
  | TFloat => match v with VFloat _ => Ok v | _ => Panic end
  | TStr => match v with VStr _ => Ok v | _ => Panic end
  | TAny => Ok v
  | _ => if gty_eqb src dst then Ok v else Panic
  end.

Fixpoint map_res {A B} (f : A -> res B) (l : list A) : res (list B) :=
  match l with
  | [] => Ok []
  | x :: l' => y <- f x ;; ys <- map_res f l' ;; Ok (y :: ys)
  end.

(** ReflectSliceCast: internal/utils/slices.go:25-75. reflect.MakeSlice panics if
    the type of [newtype] is nil or not a slice type. *)
Definition slice_cast (s newtype : gval) : res gval :=
  match s with
  | VSlice src _ l =>
      match typeof newtype with
      | Some (TSlice dst) => l' <- map_res (cast_elem src dst) l ;; Ok (VSlice dst false l')
      | _ => Panic
      end
  | _ => Ok s
  end.

(** ReflectSliceContains: internal/utils/slices.go:78-89 *)
Definition slice_contains (v s : gval) : bool :=
  match s with
  | VSlice _ _ l => existsb (deep_eq v) l
  | _ => false
  end.

(** The append loop of ReflectUnion: internal/utils/slices.go:108-113 *)
Fixpoint union_loop (out bs : list gval) : list gval :=
  match bs with
  | [] => out
  | v :: bs' => if existsb (deep_eq v) out then union_loop out bs' else union_loop (out ++ [v]) bs'
  end.

(** ReflectUnion: internal/utils/slices.go:92-115. Aliasing of the backing array of
    [a] by reflect.Append is modelled separately in Alias.v. *)
Definition union (a b : gval) : res gval :=
  match slicify a, slicify b with
  | VSlice ta na la, VSlice tb nb lb =>
      match lb with
      | [] => Ok (VSlice ta na la)
      | _ :: _ =>
          match la with
          | [] => slice_cast (VSlice tb nb lb) (VSlice ta na la)
          | _ :: _ =>
              bs <- (if gty_eqb ta tb then Ok (VSlice tb nb lb)
                     else slice_cast (VSlice tb nb lb) (VSlice ta na la)) ;;
              lb' <- elems bs ;;
              Ok (VSlice ta false (union_loop la lb'))
          end
      end
  | _, _ => Panic (* Len/Index/Interface on the zero reflect.Value *)
  end.

(** ReflectIntersect: internal/utils/slices.go:117-132. The result starts as the
    nil slice of the type of [a]. *)
Definition intersect (a b : gval) : res gval :=
  match slicify a, slicify b with
  | VSlice ta na la, VSlice tb nb lb =>
      bs <- (if gty_eqb ta tb then Ok (VSlice tb nb lb)
             else slice_cast (VSlice tb nb lb) (VSlice ta na la)) ;;
      let l := filter (fun v => slice_contains v bs) la in
      Ok (VSlice ta (match l with [] => true | _ => false end) l)
  | _, _ => Panic (* Type on the zero reflect.Value *)
  end.

(** ReflectIsSubsetOf: internal/utils/slices.go:135-146 *)
Definition is_subset_of (is_ of_ : gval) : res bool :=
  l <- elems (slicify is_) ;; Ok (forallb (fun v => slice_contains v (slicify of_)) l).

(** ReflectIsSupersetOf: internal/utils/slices.go:149-151 *)
Definition is_superset_of (is_ of_ : gval) : res bool := is_subset_of of_ is_.

(** SliceEqual: internal/utils/slices.go:163-181. [a == b] for two interfaces of
    which one is nil is true iff both are nil. *)
Definition slice_equal (a b : gval) : res bool :=
  if is_nil a || is_nil b then Ok (is_nil a && is_nil b)
  else
    la <- elems (slicify a) ;;
    lb <- elems (slicify b) ;;
    Ok (Nat.eqb (List.length la) (List.length lb) &&
        forallb (fun v => slice_contains v (slicify b)) la).
