(** Specification vocabulary for policies with arbitrary JSON operands: what it means that an
    attribute obeys an entry. *)
From Coq Require Import QArith.
From Verif Require Import Base GoVal Policy Schema Metadata SpecPolicy SpecMetadata Json SpecStatement SpecEncode.
From Verif Require Import GoVal.
Local Open Scope nat_scope.
Local Open Scope string_scope.

(** The same JSON value: equal up to the order of the members of objects. *)
Inductive alike : gval -> gval -> Prop :=
| alike_nil : alike VNil VNil
| alike_bool b : alike (VBool b) (VBool b)
| alike_int z : alike (VInt z) (VInt z)
| alike_float z : alike (VFloat z) (VFloat z)
| alike_text s : alike (VStr s) (VStr s)
| alike_no_keys : alike (VJwks None) (VJwks None)
| alike_keys v w : alike v w -> alike (VJwks (Some v)) (VJwks (Some w))
| alike_list t n l l' : Forall2 alike l l' -> alike (VSlice t n l) (VSlice t n l')
| alike_object t n kv kv' :
    (forall k, In k (keys kv) <-> In k (keys kv')) ->
    (forall k v v', lookup k kv = Some v -> lookup k kv' = Some v' -> alike v v') ->
    alike (VMap t n kv) (VMap t n kv').

(** A list's elements; anything else but null is one element. *)
Definition elements (v : gval) : list gval :=
  match v with VNil => [] | VSlice _ _ l => l | _ => [v] end.
Definition among (x : gval) (l : list gval) : Prop := exists y, In y l /\ alike x y.
Definition within (l l' : list gval) : Prop := forall x, In x l -> among x l'.
(** No element occurs twice. *)
Fixpoint distinct (l : list gval) : Prop :=
  match l with [] => True | x :: r => ~ among x r /\ distinct r end.

(** [v'] is what became of the attribute [v] ([set]: whether it was there): it obeys the entry
    [e]. Restrictions do not concern an attribute that is not there; null restricts nothing,
    except as the value, which removes the attribute. [default] is not a restriction. *)
Definition still_absent (set : bool) (v v' : gval) : Prop := v' = VNil \/ (set = false /\ v' = v).
Record obeys (e : entry) (set : bool) (v v' : gval) : Prop := Obeys {
  ob_value : forall x, lookup "value" e = Some x -> within (elements v') (elements x) /\ within (elements x) (elements v');
  ob_add : forall x, lookup "add" e = Some x -> within (elements x) (elements v');
  ob_one_of : forall x, lookup "one_of" e = Some x -> x <> VNil -> still_absent set v v' \/ among v' (elements x);
  ob_subset_of : forall x, lookup "subset_of" e = Some x -> x <> VNil -> still_absent set v v' \/ within (elements v') (elements x);
  ob_superset_of : forall x, lookup "superset_of" e = Some x -> still_absent set v v' \/ within (elements x) (elements v');
  ob_essential : lookup "essential" e = Some (VBool true) -> is_slice v' = false -> v' <> VNil /\ is_zero v' = Ok false }.

(** An entry as JSON decoding yields it: operators the library knows, maps without repeated
    members, and no element twice in the value. *)
Record json_entry (e : entry) : Prop := JsonEntry {
  je_nodup : NoDup (keys e);
  je_known : forall k, In k (keys e) -> known k = true;
  je_proper : forall k x, lookup k e = Some x -> proper x;
  je_distinct : forall x, lookup "value" e = Some x -> distinct (elements x) }.
Definition json_policy (p : gpolicy) : Prop :=
  NoDup (keys (pol p)) /\ forall k e, lookup k (pol p) = Some e -> json_entry e.

(** What a merged operand of a set operator contains. *)
Definition merged_contains (o : op) (x : gval) (a b : gval) : Prop :=
  match o with
  | OAdd | OSupersetOf => among x (elements a) \/ among x (elements b)
  | _ => among x (elements a) /\ among x (elements b)
  end.
Definition an_array (v : gval) : Prop := exists n l, v = VSlice TAny n l.
Definition same_content (a b : gval) : Prop := within (elements a) (elements b) /\ within (elements b) (elements a).
Definition same_merge (x y : res gval) : Prop :=
  match x, y with Ok a, Ok b => same_content a b | Err, Err => True | _, _ => False end.

(** ** Attributes that are not lists of texts *)

(** A JSON value of the kind an attribute of the given type has. *)
Definition of_kind (t : gty) (j : json) : Prop :=
  match t with
  | TStr => exists s, j = JStr s
  | TBool => exists b, j = JBool b
  | TInt => exists z, j = JNum (inject_Z z)
  | TSlice _ => exists l, j = JArr (map JStr l)
  | TMap _ | TJwks => exists o, j = JObj o
  | _ => False
  end.
(** Texts, booleans and lists of texts; numbers, objects and key sets. *)
Definition simple_type (t : gty) : Prop := t = TStr \/ t = TBool \/ t = TSlice TStr.
Definition other_type (t : gty) : Prop := t = TInt \/ t = TJwks \/ t = TMap TStr \/ t = TMap (TSlice TStr).

(** Metadata of an entity of which the attribute in the row [r] was given as [j]. *)
Definition given_as (m : emeta) (r : frow) (j : json) : Prop :=
  In (map fst (em_fields m)) entity_schemas /\
  exists v, In (r, v) (em_fields m) /\ attribute (fr_ty r) j v.
Definition is_set (m : emeta) (r : frow) : Prop := In (fr_name r) (em_set m).
