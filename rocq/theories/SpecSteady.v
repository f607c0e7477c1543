(** Specification vocabulary for collecting from a network that does not change. *)
From Verif Require Import Base GoVal Policy Schema Metadata Chain Resolver FloatTime Json TrustMark Discovery SpecMetadata SpecDiscovery.
Local Open Scope string_scope.

(** During the collection every entity answers the same whenever it is asked. *)
Definition steady (fuel : nat) (ce : cenv) (rq : crequest) : Prop :=
  (forall p p' a, listing_answer ce p a = listing_answer ce p' a) /\
  (forall p p' b, entity_answer fuel ce rq p b = entity_answer fuel ce rq p' b).

(** The authority [a] lists [b]; [a] publishes a list endpoint. *)
Definition lists_now (ce : cenv) (a b : string) : Prop := exists l, listing_answer ce [] a = Some l /\ In b l.
Definition authority_now (ce : cenv) (a : string) : Prop := net_authority ce [] a.

(** [rq'] asks for no more than [rq]: the same anchor, no further entity types, all the trust
    marks asked for in [rq], and the same name, if [rq] names one. *)
Definition narrower (rq rq' : crequest) : Prop :=
  cr_anchor rq' = cr_anchor rq /\
  (forall l, cr_types rq = Some l -> exists l', cr_types rq' = Some l' /\ incl l' l) /\
  incl (cr_marks rq) (cr_marks rq') /\
  (cr_name rq <> "" -> cr_name rq' = cr_name rq).

(** A trust mark that verifies at one request does so at the next. *)
Definition steady_marks (fuel : nat) (ce : cenv) : Prop :=
  forall i j q ty jwt ta, verify_mark fuel (ce_env ce) (i :: q) (Info ty jwt [] None) ta =
                          verify_mark fuel (ce_env ce) (j :: q) (Info ty jwt [] None) ta.
