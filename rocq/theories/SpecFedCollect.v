(** Specification vocabulary: collecting the members of a federation of entities that use this
    library. *)
From Coq Require Import QArith.
From Verif Require Import Base GoVal Policy Schema Metadata SpecMetadata Chain Resolver SpecResolver Json TrustMark SpecTrustMark Refresher Leaf Config Jwt Statement
  Encode SpecEncode Federation SpecFederation SpecFedMark Discovery SpecDiscovery SpecCarried.
From Verif Require Import SpecEncode GoVal.
Local Open Scope nat_scope.
Local Open Scope string_scope.

(** The collector is a member that resolves by itself; at call [p] it obtains entity
    configurations from the network [net p _]. *)
Record collecting (ce : cenv) (net : list nat -> request -> Federation.network) : Prop := Collecting {
  cl_member : member (ce_env ce) net;
  cl_config : forall p a, te_config (ce_env ce) p a = w_config (seen (net p (Req a [] []))) [] a }.

(** Asked at call [p], [x] publishes [c]; it always publishes something. *)
Definition answers (net : list nat -> request -> Federation.network) (p : list nat) (x : participant) (c : statement_payload) : Prop :=
  let n := net p (Req (pa_id x) [] []) in sound_participant n x /\ publishes n [] x c.
Definition serves (net : list nat -> request -> Federation.network) (x : participant) : Prop := forall p, exists c, answers net p x c.

(** The list endpoint of [y] always lists [x]. *)
Definition list_address (m : metadata) (ep : string) : Prop :=
  exists fe, md_fe m = Some fe /\ em_tag "federation_list_endpoint" fe = Some (VStr ep) /\ ep <> "".
Definition enlists (ce : cenv) (y x : participant) : Prop :=
  exists ep, list_address (pa_metadata y) ep /\ forall p, exists l, ce_list ce p ep = Some l /\ In (pa_id x) l.

(** [x] is enlisted by the anchor [a], or by an entity that is. *)
Inductive enlisted (ce : cenv) (net : list nat -> request -> Federation.network) (a : participant) : participant -> Prop :=
| en_anchor x : enlists ce a x -> serves net x -> enlisted ce net a x
| en_member y x : enlisted ce net a y -> enlists ce y x -> serves net x -> enlisted ce net a x.

(** At call [q] of the collector (for the mark in position [i]) a member [y] of the federation
    of [a] vouches with the trust mark [jwt] of this type. *)
Definition genuine (ce : cenv) (net : list nat -> request -> Federation.network) (a : participant) (q : list nat) (typ jwt : string) : Prop :=
  exists y sub dj t, let n := net q (Req (pa_id y) [pa_id a] []) in
    belongs n a y /\ issues n y typ sub dj (te_now (ce_env ce) q false) t /\ may_issue n a y typ dj (te_now (ce_env ce) q true) /\ ti_jwt t = jwt.
(** The first mark of this type among [marks]. *)
Definition first_of (marks : list (string * string)) (ty jwt : string) : Prop :=
  exists l1 l2, marks = (l1 ++ (ty, jwt) :: l2)%list /\ ~ In ty (map fst l1).

(** [x] is what the request asks for: it has one of the types, a name that matches, and bears
    the trust marks. *)
Record suits (ce : cenv) (net : list nat -> request -> Federation.network) (a : participant) (rq : crequest) (x : participant) : Prop := Suits {
  su_types : forall l, cr_types rq = Some l -> exists t, In t l /\ SpecDiscovery.has_type (pa_metadata x) t;
  su_name : cr_name rq <> "" -> exists ty name, shown_name (pa_metadata x) ty name /\ ce_fuzzy ce (cr_name rq) name = true;
  su_marks : forall q, exists c, answers net (2 :: q) x c /\ forall i ty, nth_error (cr_marks rq) i = Some ty ->
               exists jwt, first_of (st_marks (sp_claims c)) ty jwt /\ genuine ce net a (i :: 5 :: q) ty jwt }.

(** The answer [e] contains what was asked for: a trust chain that the resolver finds from the
    entity to the anchor in the network [n], and the metadata this chain gives. *)
Definition carries_chain (n : Federation.network) (rq : crequest) (e : collected) : Prop :=
  exists c, chain_to (seen n) [cr_anchor rq] (ce_id e) [] c /\ c <> [] /\
    (asked_for rq "trust_chain" -> ce_chain e = map st_jwt c) /\
    (asked_for rq "metadata" -> exists m, ce_metadata e = Some m /\ chain_metadata c = Ok (Some m)).

(** [x] publishes the trust mark [jwt] of this type, in position [k], and it is genuine. *)
Definition bears (ce : cenv) (net : list nat -> request -> Federation.network) (a x : participant) (typ jwt : string) : Prop :=
  forall q, exists c k, answers net (2 :: q) x c /\ nth_error (st_marks (sp_claims c)) k = Some (typ, jwt) /\ genuine ce net a (k :: 6 :: q) typ jwt.
