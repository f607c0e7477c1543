(** Specification vocabulary for name queries. *)
From Coq Require Import NArith.
From Verif Require Import Base GoVal Policy Schema Metadata Chain Resolver FloatTime Json TrustMark Discovery SpecMetadata SpecDiscovery.
Local Open Scope nat_scope.
Local Open Scope string_scope.

(** The elements of the first list are in the second one, in this order. *)
Inductive in_order {A} : list A -> list A -> Prop :=
| io_nil l : in_order [] l
| io_here x l l' : in_order l l' -> in_order (x :: l) (x :: l')
| io_later x l l' : in_order l l' -> in_order l (x :: l').

(** A text in lower case. *)
Definition in_lower_case (s : string) : list ascii := map Json.lower (list_ascii_of_string s).

(** The request with another name query. *)
Definition with_name (rq : crequest) (q : string) : crequest :=
  CReq (cr_from rq) (cr_limit rq) (cr_marks rq) (cr_anchor rq) (cr_types rq) q (cr_claims rq).

(** One of the names under which the entity [b] is shown contains the characters of [q] in
    their order, accents and case aside. *)
Definition called_like (norm : string -> list N) (ce : cenv) (q b : string) : Prop :=
  exists cfg m ty name, te_config (ce_env ce) [2] b = Some cfg /\ st_metadata cfg = Some m /\ shown_name m ty name /\
    in_order (norm q) (norm name).
