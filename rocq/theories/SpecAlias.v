(** Specification vocabulary for statements whose slices share backing arrays. *)
From Verif Require Import Base GoVal Policy Schema Metadata Chain Alias.
Local Open Scope string_scope.

(** A nil slice has no elements. *)
Definition nil_empty (v : gval) : Prop := match v with VSlice _ true (_ :: _) => False | _ => True end.

(** [x] is a value of a decoded statement used at [L]: if it is a slice, it has an array of
    its own, noted for this use, with at least as many cells as the slice has elements
    (more if the decoder left spare capacity). *)
Definition placed (h : heap) (L : slot) (x : hval) : Prop :=
  match x with
  | HV v => nil_empty v
  | HS t a n => exists d, nth_error h a = Some (Cell L (Some n) d) /\ n <= List.length d
  end.

Definition placed_entry (h : heap) (t : etype) (attr : string) (e : hentry) : Prop :=
  NoDup (keys e) /\ forall o x, In (o, x) e -> placed h (SPol t attr o) x.
Definition placed_policy (h : heap) (t : etype) (p : hpolicy) : Prop :=
  NoDup (keys p) /\ forall k e, In (k, e) p -> placed_entry h t k e.
Definition placed_gpolicy (h : heap) (t : etype) (p : hgpolicy) : Prop :=
  forall q, p = Some q -> placed_policy h t q.
Record placed_policies (h : heap) (p : hpolicies) : Prop := {
  pp_op : placed_gpolicy h EOP (hp_op p);
  pp_rp : placed_gpolicy h ERP (hp_rp p);
  pp_as : placed_gpolicy h EAS (hp_as p);
  pp_oc : placed_gpolicy h EOC (hp_oc p);
  pp_pr : placed_gpolicy h EPR (hp_pr p);
  pp_fe : placed_gpolicy h EFE (hp_fe p);
  pp_extra : forall k q, In (k, q) (hp_extra p) -> placed_gpolicy h (EX k) q }.

Definition placed_meta (h : heap) (t : etype) (m : option hemeta) : Prop :=
  forall em i fv, m = Some em -> nth_error (hm_fields em) i = Some fv -> placed h (SMd t i) (snd fv).
Record placed_metadata (h : heap) (m : hmetadata) : Prop := {
  pm_op : placed_meta h EOP (hmd_op m);
  pm_rp : placed_meta h ERP (hmd_rp m);
  pm_as : placed_meta h EAS (hmd_as m);
  pm_oc : placed_meta h EOC (hmd_oc m);
  pm_pr : placed_meta h EPR (hmd_pr m);
  pm_fe : placed_meta h EFE (hmd_fe m) }.

(** The statement [s] as the decoder leaves it in memory. *)
Definition decoded (h : heap) (s : hstmt) : Prop :=
  (forall p, hs_policy s = Some p -> placed_policies h p) /\
  (forall m, hs_metadata s = Some m -> placed_metadata h m).

Definition decoded_chain (h : heap) (c : list hstmt) : Prop := forall s, In s c -> decoded h s.

(** No array of a decoded statement has spare capacity. *)
Definition no_spare (h : heap) : Prop :=
  forall a c n, nth_error h a = Some c -> c_base c = Some n -> List.length (c_data c) = n.

(** What the caller sees when it looks at the outcome of a computation. *)
Definition seen (h : heap) (r : res (option hmetadata)) : res (option metadata) :=
  match r with Ok m => Ok (option_map (read_metadata h) m) | Err => Err | Panic => Panic end.
