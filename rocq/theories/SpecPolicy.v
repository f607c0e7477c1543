(** Specification vocabulary for metadata policies over strings and lists of strings,
    written against the OpenID Federation operator table, independently of the code. *)
From Verif Require Import Base GoVal Policy.

(** ** Strings and lists of strings as Go values *)

(** The Go value [v] denotes the list of strings [l]: a single string, a []string or a
    []any whose elements are strings. *)
Definition strs (v : gval) (l : list string) : Prop :=
  (exists s, v = VStr s /\ l = [s]) \/
  (exists t isnil, (t = TAny \/ t = TStr) /\ v = VSlice t isnil (map VStr l)).

(** The attribute is absent: what JSON decoding leaves in a field that was not in the
    document, or no value at all. *)
Definition absent (v : gval) : Prop :=
  v = VNil \/ v = VStr "" \/ exists t, v = VSlice t true [].

(** ** A policy entry over strings *)
Record sentry := SEntry {
  se_value : option (option (list string)); (* Some None: the operand null *)
  se_add : option (list string);
  se_default : option (list string);
  se_one_of : option (list string);
  se_subset_of : option (list string);
  se_superset_of : option (list string);
  se_essential : option bool }.

Definition operand_is (e : entry) (name : string) (x : option (list string)) : Prop :=
  match x with
  | None => lookup name e = None
  | Some l => exists v, lookup name e = Some v /\ strs v l
  end.

(** The Go map [e] is the entry [s] (and has no further keys). *)
Record denotes (e : entry) (s : sentry) : Prop := {
  dn_nodup : NoDup (keys e);
  dn_known : forall k, In k (keys e) ->
      In k ["value"; "add"; "default"; "one_of"; "subset_of"; "superset_of"; "essential"]%string;
  dn_value : match se_value s with
             | Some None => lookup "value" e = Some VNil
             | Some (Some l) => operand_is e "value" (Some l)
             | None => operand_is e "value" None
             end;
  dn_add : operand_is e "add" (se_add s);
  dn_default : operand_is e "default" (se_default s);
  dn_one_of : operand_is e "one_of" (se_one_of s);
  dn_subset_of : operand_is e "subset_of" (se_subset_of s);
  dn_superset_of : operand_is e "superset_of" (se_superset_of s);
  dn_essential : lookup "essential" e = option_map VBool (se_essential s) }.

Definition opt {A} (x : option A) (P : A -> Prop) : Prop :=
  match x with Some a => P a | None => True end.

Definition same_elements (l l' : list string) : Prop := forall x, In x l <-> In x l'.

(** The attribute value [v] (after policy application) respects the entry [s].
    A one_of, subset_of or superset_of restriction does not concern an absent
    attribute; [default] is not a restriction. *)
Record respects (s : sentry) (v : gval) : Prop := {
  rs_value : opt (se_value s) (fun x =>
      match x with
      | None => v = VNil \/ strs v []
      | Some l => exists l', strs v l' /\ same_elements l' l
      end);
  rs_add : opt (se_add s) (fun l => exists l', strs v l' /\ incl l l');
  rs_one_of : opt (se_one_of s) (fun l => absent v \/ exists x, strs v [x] /\ In x l);
  rs_subset_of : opt (se_subset_of s) (fun l => absent v \/ exists l', strs v l' /\ incl l' l);
  rs_superset_of : opt (se_superset_of s) (fun l => absent v \/ exists l', strs v l' /\ incl l l') }.

(** ... and is present if the entry says it is essential. *)
Definition respects_essential (s : sentry) (v : gval) : Prop :=
  se_essential s = Some true -> ~ absent v.

Definition value_nodup (s : sentry) : Prop :=
  match se_value s with Some (Some l) => NoDup l | _ => True end.

(** ** The operator table executed in the prescribed order, on list attributes *)

Definition add_missing (cur l : list string) : list string :=
  cur ++ filter (fun x => negb (mem x cur)) l.

Definition keep_allowed (cur l : list string) : list string :=
  filter (fun x => mem x l) cur.

(** Outcome for an attribute that is a list: an error or the new attribute ([None]:
    absent). *)
Definition spec_apply (s : sentry) (cur : option (list string)) : res (option (list string)) :=
  let v := match se_value s with Some x => x | None => cur end in
  let v := match se_add s, v with
           | None, _ => v
           | Some l, None => Some l
           | Some l, Some c => Some (add_missing c l)
           end in
  let v := match se_default s, v with Some l, None => Some l | _, _ => v end in
  let essential := match se_essential s with Some true => true | _ => false end in
  match v with
  | None => if essential then Err else Ok None
  | Some c =>
      match se_one_of s with
      | Some _ => Err (* a list is not one of the listed strings *)
      | None =>
          let c := match se_subset_of s with Some l => keep_allowed c l | None => c end in
          match se_superset_of s with
          | Some l => if forallb (fun x => mem x c) l then Ok (Some c) else Err
          | None => Ok (Some c)
          end
      end
  end.

(** The Go outcome [r] for a []string attribute is the specified outcome [o]:
    an absent attribute may be the nil slice or no value. *)
Definition list_outcome (r : res gval) (o : res (option (list string))) : Prop :=
  match r, o with
  | Err, Err => True
  | Ok v, Ok None => v = VNil \/ v = VSlice TStr true []
  | Ok v, Ok (Some l) => exists isnil, v = VSlice TStr isnil (map VStr l)
  | _, _ => False
  end.

(** The operands of value and default are arrays (or null): the form a policy on a list
    attribute takes. *)
Definition list_operands (e : entry) : Prop :=
  forall k v, (k = "value" \/ k = "default")%string -> lookup k e = Some v -> v = VNil \/ is_slice v = true.

(** ** Vocabulary for merging *)

(** Operators whose merge is a set operation on the elements of the operands (union or
    intersection), and operators whose operands must agree. *)
Definition set_op (o : op) : Prop := o = OAdd \/ o = OSupersetOf \/ o = OSubsetOf \/ o = OOneOf.

Definition eq_op (o : op) : Prop := o = OValue \/ o = ODefault.

Definition op_elements (o : op) (x : string) (la lb : list string) : Prop :=
  match o with
  | OAdd | OSupersetOf => In x la \/ In x lb
  | _ => In x la /\ In x lb
  end.

(** The operators of OpenID Federation 1.0. *)
Definition known (k : string) : bool :=
  mem k ["value"; "add"; "default"; "one_of"; "subset_of"; "superset_of"; "essential"]%string.

(** The entry without the operators the library does not know. *)
Definition strip (e : entry) : entry := filter (fun kv => known (fst kv)) e.

(** No unknown operator occurs in both entries. *)
Definition shared_known (a b : entry) : Prop :=
  forall k, In k (keys a) -> In k (keys b) -> known k = true.

(** A nil or empty policy. *)
Definition pnil (p : gpolicy) : Prop := pol p = [].

(** The same Go map iterated in another order. *)
Definition order_variant (e e' : entry) : Prop := NoDup (keys e) /\ Permutation e e'.

(** The same policy: every map in it may be iterated in another order. *)
Definition row_variant (a b : string * entry) : Prop := fst a = fst b /\ order_variant (snd a) (snd b).

Definition policy_variant (p p' : policy) : Prop :=
  NoDup (keys p) /\ exists q, Permutation p q /\ Forall2 row_variant q p'.

Definition gpolicy_variant (p p' : gpolicy) : Prop :=
  match p, p' with
  | None, None => True
  | Some a, Some b => policy_variant a b
  | _, _ => False
  end.

(** Unique keys at both levels, as in every Go map. *)
Definition clean (p : policy) : Prop :=
  NoDup (keys p) /\ forall k e, lookup k p = Some e -> NoDup (keys e).

(** Entry [e] of attribute [k], as a specification entry. *)
Definition policy_denotes (k : string) (p : gpolicy) (s : option sentry) : Prop :=
  NoDup (keys (pol p)) /\
  match lookup k (pol p), s with
  | Some e, Some x => denotes e x /\ value_nodup x
  | None, None => True
  | _, _ => False
  end.

(** A policy as JSON decoding yields it (unique keys), using only operators the library
    knows. *)
Definition all_known (p : policy) : Prop :=
  clean p /\ forall k e, lookup k p = Some e -> forall o, In o (keys e) -> known o = true.


(** A JSON array of strings as encoding/json decodes it into [any]. *)
Definition jarr (l : list string) : gval := VSlice TAny false (map VStr l).

(** Both calls fail, or both succeed with operands that have the same elements. *)
Definition same_outcome (r r' : res gval) : Prop :=
  match r, r' with
  | Ok v, Ok v' => exists l l', strs v l /\ strs v' l' /\ same_elements l l'
  | Err, Err => True
  | _, _ => False
  end.

(** The attribute value is there: not nil, and not the zero value of its type. Any slice
    counts (the Go code cannot tell an empty list from an absent one). *)
Definition there (v : gval) : Prop := v <> VNil /\ (is_slice v = true \/ is_zero v = Ok false).
