(** Specification vocabulary for metadata policies on attributes with a single value: a text
    or a flag. Written against the operator table of OpenID Federation, independently of the
    code: add, subset_of and superset_of are for lists and do not occur. *)
From Verif Require Import Base GoVal Policy Schema Metadata.
Local Open Scope string_scope.

Inductive scalar := Text (s : string) | Flag (b : bool).

(** A scalar as it is decoded from JSON. *)
Definition as_any (x : scalar) : gval := match x with Text s => VStr s | Flag b => VBool b end.
Definition has_type (t : gty) (x : scalar) : Prop := match x with Text _ => t = TStr | Flag _ => t = TBool end.

(** A policy entry for such an attribute. *)
Record single := Single {
  sg_value : option (option scalar); (* Some None: the operand null *)
  sg_default : option scalar;
  sg_one_of : option (list scalar);
  sg_essential : option bool }.

(** The Go map [e] is this entry and has no further operators. *)
Record states (e : entry) (s : single) : Prop := {
  ss_nodup : NoDup (keys e);
  ss_known : forall k, In k (keys e) -> In k ["value"; "default"; "one_of"; "essential"];
  ss_value : lookup "value" e = option_map (fun v => match v with Some x => as_any x | None => VNil end) (sg_value s);
  ss_default : lookup "default" e = option_map as_any (sg_default s);
  ss_one_of : match sg_one_of s with
              | Some l => exists n, lookup "one_of" e = Some (VSlice TAny n (map as_any l))
              | None => lookup "one_of" e = None
              end;
  ss_essential : lookup "essential" e = option_map VBool (sg_essential s) }.

(** What the policy [p] says about the attribute [k] ([None]: nothing). *)
Definition says (k : string) (p : gpolicy) (s : option single) : Prop :=
  NoDup (keys (pol p)) /\
  match lookup k (pol p), s with
  | Some e, Some x => states e x
  | None, None => True
  | _, _ => False
  end.

(** The attribute [k] of the metadata: the row of the field, and what the metadata states for it. *)
Definition field_value (t : gty) (v : option scalar) : gval := match v with Some x => as_any x | None => zero_of t end.
Definition stated (em : emeta) (k : string) (r : frow) (v : option scalar) : Prop :=
  find (fun fv : frow * gval => String.eqb k (fr_tag (fst fv))) (em_fields em) = Some (r, field_value (fr_ty r) v) /\
  mem (fr_name r) (em_set em) = match v with Some _ => true | None => false end.
(** ... and the metadata with another value for it. *)
Definition with_value (k : string) (v : gval) (em : emeta) : emeta :=
  EMeta (map (fun fv : frow * gval => if String.eqb k (fr_tag (fst fv)) then (fst fv, v) else fv) (em_fields em)) (em_set em).

(** ** What several policies together make of an attribute *)

Section Outcome.
Context (ss : list (option single)).

Definition fixes (v : option scalar) : Prop := exists s, In (Some s) ss /\ sg_value s = Some v.
Definition offers (d : scalar) : Prop := exists s, In (Some s) ss /\ sg_default s = Some d.
Definition restricts (l : list scalar) : Prop := exists s, In (Some s) ss /\ sg_one_of s = Some l.
Definition requires : Prop := exists s, In (Some s) ss /\ sg_essential s = Some true.

(** From the value [cur] of the subject ([None]: not stated) to the value [out]. *)
Record outcome (cur out : option scalar) : Prop := {
  oc_fixed : forall x, fixes (Some x) -> out = Some x;
  oc_kept : forall x, (forall v, ~ fixes v) -> cur = Some x -> out = Some x;
  oc_default : forall d, fixes None \/ (cur = None /\ forall v, ~ fixes v) -> offers d -> out = Some d;
  oc_absent : fixes None \/ (cur = None /\ forall v, ~ fixes v) -> (forall d, ~ offers d) -> out = None;
  oc_one_of : forall l x, restricts l -> out = Some x -> In x l;
  oc_essential : requires -> out <> None }.

(** The policies do not contradict each other. *)
Record agreed : Prop := {
  ag_value : forall v w, fixes v -> fixes w -> v = w;
  ag_default : forall d e, offers d -> offers e -> d = e;
  ag_null : forall d, fixes None -> ~ offers d;
  ag_one_of : (exists l, restricts l) -> exists x, forall l, restricts l -> In x l }.
End Outcome.

(** A policy that does not contradict itself. *)
Definition coherent (s : option single) : Prop := agreed [s].

(** The empty text and false, which the library takes for "not there". *)
Definition blank (x : scalar) : Prop := x = Text "" \/ x = Flag false.
Definition no_blanks (ss : list (option single)) (cur : option scalar) : Prop :=
  forall x, blank x -> cur <> Some x /\ ~ fixes ss (Some x) /\ ~ offers ss x.

(** The policies concern no other attribute. *)
Definition only (k : string) (ps : list gpolicy) : Prop := forall p, In p ps -> forall k', In k' (keys (pol p)) -> k' = k.
