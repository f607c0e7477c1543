(** Property theorems about entity collection (C59-C63, C76-C78). [..._refuted] gives a
    counterexample to the full statement of the property, [..._partial] the version that
    holds. [w] is what the network answers (network in SpecDiscovery.v); [reached] and
    [returns] range over all interleavings of the goroutines. *)
From Verif Require Import Base GoVal Policy Schema Metadata Chain Resolver SpecMetadata FloatTime Json TrustMark
  WitnessResolver WitnessTrustMark Discovery SpecDiscovery DiscoveryFacts EvalFacts DiscoveryLaws WitnessDiscovery.
Local Open Scope nat_scope.
Local Open Scope string_scope.
Local Open Scope list_scope.

(** ** C59 Entity collection returns every entity once *)

Theorem C59_each_once : forall w ta l, returns w ta l -> NoDup (map ce_id l).
Proof. exact returns_nodup. Qed.
Print Assumptions C59_each_once.

Example C59_case : network 9 cenv0 rq0 world0 /\ returns world0 TA result0 /\ map ce_id result0 = [I1; OP1; I2].
Proof. exact c59_case. Qed.

(** ** C60 Entity collection is sound and complete *)

(** What is reported was listed on a path from the anchor, every authority on it having
    published a list endpoint, and passed the filters. *)
Theorem C60_sound : forall fuel ce rq w l e, network fuel ce rq w -> returns w (cr_anchor rq) l -> In e l ->
  below (net_lists_once ce) (fun a => exists p, net_authority ce p a) (cr_anchor rq) (ce_id e) /\
  exists p, net_passes fuel ce rq p (ce_id e).
Proof. exact network_sound. Qed.
Print Assumptions C60_sound.

(** What is reachable from the anchor through authorities that respond, and passes the
    filters, is reported. *)
Theorem C60_complete : forall fuel ce rq w l b, network fuel ce rq w -> returns w (cr_anchor rq) l ->
  below (net_lists_always ce) (fun a => forall p, net_authority ce p a) (cr_anchor rq) b ->
  (forall p, net_passes fuel ce rq p b) -> In b (map ce_id l).
Proof. exact network_complete. Qed.
Print Assumptions C60_complete.

Example C60_case : network 9 cenv0 rq0 world0 /\ returns world0 (cr_anchor rq0) result0 /\
  below (net_lists_always cenv0) (fun a => forall p, net_authority cenv0 p a) (cr_anchor rq0) OP1 /\
  (forall p, net_passes 9 cenv0 rq0 p OP1) /\
  ~ (exists p, net_passes 9 cenv0 rq0 p RP1).
Proof. exact c60_case. Qed.

(** ** C61 Entity collection terminates *)

(** In a finite federation the executions have a common bound. *)
Theorem C61_terminates : forall w ta, names_entities w -> finite_world w ->
  exists bound, forall cs s, exec w cs (start ta) = Some s ->
    List.length cs <= bound /\ (finished (snd s) = true \/ exists c s', step w c (fst s) (snd s) = Some s').
Proof. exact collection_terminates. Qed.
Print Assumptions C61_terminates.

(** In any federation, also an infinite one: as long as the collection has not returned, some
    goroutine can run. *)
Theorem C61_no_deadlock : forall w ta s, reached w ta s -> finished (snd s) = false ->
  exists c s', step w c (fst s) (snd s) = Some s'.
Proof. exact no_deadlock. Qed.
Print Assumptions C61_no_deadlock.

Example C61_case : names_entities world0 /\ finite_world world0 /\ exists cs s, exec world0 cs (start TA) = Some s /\ finished (snd s) = true.
Proof. exact c61_case. Qed.

(** A remark: there is no bound on the work itself; an attacker's federation in which every
    entity lists one more keeps the collector busy for ever. *)
Theorem C61_endless : exists w ta, names_entities w /\
  (forall s, reached w ta s -> finished (snd s) = false) /\
  forall k, exists cs s, exec w cs (start ta) = Some s /\ List.length cs = k.
Proof. exact c61_endless. Qed.
Print Assumptions C61_endless.

(** ** C62 Collection filters are exact *)

(** [valid] and [fs] may depend on the position (of the call), e.g. because they use the
    network. *)
Theorem C62_filters_exact : forall (valid : nat -> collected -> bool) fs l,
  filterable valid fs l =
  map snd (filter (fun ix => forallb (fun f => f (fst ix) (snd ix)) (valid :: fs)) (positions 0 l)).
Proof. exact filterable_spec. Qed.
Print Assumptions C62_filters_exact.

Theorem C62_filters_exact_plain : forall (valid : collected -> bool) fs l,
  filterable (fun _ => valid) (map (fun f _ => f) fs) l = filter (fun e => valid e && forallb (fun f => f e) fs) l.
Proof. exact filterable_plain. Qed.
Print Assumptions C62_filters_exact_plain.

Example C62_case : filterable (fun _ _ => true) [fun _ e => is_op e; fun i _ => Nat.ltb 0 i] result0 = firstn 1 (skipn 1 result0) /\
  wants rq0 "entity_types" = true /\ (exists e, collected_op rq0 = Done (Ok (Some e)) /\ is_op e = true).
Proof. exact c62_case. Qed.

(** ** C63 UI infos are filled *)

(** None of the fields of UIInfo is ever set, and keywords are not reported at all. *)
Theorem C63_refuted : exists fuel ce rq q sub cfg m e u v,
  evaluate fuel ce rq q sub cfg m = Done (Ok (Some e)) /\ wants rq "logo_uri" = true /\
  ui_claim m "openid_provider" "logo_uri" v /\ lookup "openid_provider" (ce_ui e) = Some u /\
  ui_field u "logo_uri" = Some (GStr "") /\
  (exists op, md_op m = Some op /\ em_tag "keywords" op = Some (VSlice TStr false [VStr "edu"])) /\
  wants rq "keywords" = true /\ ui_json u "keywords" = None.
Proof. exact c63_witness. Qed.
Print Assumptions C63_refuted.

Theorem C63_never_filled_refuted : forall fuel ce rq q sub cfg m e, evaluate fuel ce rq q sub cfg m = Done (Ok (Some e)) ->
  forall ty u, lookup ty (ce_ui e) = Some u -> ui_vals u = zeros ui_fields /\ ui_json u "keywords" = None.
Proof. exact ui_fields_empty. Qed.
Print Assumptions C63_never_filled_refuted.

(** The JSON form of the UI infos has exactly the requested claims that are strings. Missing:
    keywords, and the fields of the struct. *)
Theorem C63_json_partial : forall fuel ce rq q sub cfg m e, evaluate fuel ce rq q sub cfg m = Done (Ok (Some e)) -> known_types m ->
  (forall ty x, typed_field m ty = Some x -> well_typed x) ->
  forall ty tag j, In tag ui_strings ->
  ((exists u, lookup ty (ce_ui e) = Some u /\ ui_json u tag = Some j) <->
   exists v, j = JStr v /\ wants rq tag = true /\ ui_claim m ty tag v).
Proof. exact ui_spec. Qed.
Print Assumptions C63_json_partial.

Example C63_case : known_types md_op1 /\ (forall ty x, typed_field md_op1 ty = Some x -> well_typed x) /\
  exists e u, collected_op rq0 = Done (Ok (Some e)) /\ lookup "openid_provider" (ce_ui e) = Some u /\
    ui_json u "display_name" = Some (JStr "University") /\ ui_json u "description" = None.
Proof. exact c63_case. Qed.

(** ** C76 Entity collection is free of data races *)

Theorem C76_refuted : exists fuel ce rq w s, network fuel ce rq w /\ reached w (cr_anchor rq) s /\ races (snd s).
Proof. exact c76_witness. Qed.
Print Assumptions C76_refuted.

(** No race if no subordinate is itself an authority. Missing: federations with
    intermediates. *)
Theorem C76_flat_partial : forall w ta s, (forall p b, snd (dw_entity w p b) = false) -> reached w ta s -> ~ races (snd s).
Proof. exact flat_no_race. Qed.
Print Assumptions C76_flat_partial.

Example C76_case : (forall p b, snd (dw_entity flat0 p b) = false) /\
  exists s, reached flat0 TA s /\ finished (snd s) = true /\ List.length (f_out (snd s)) = 2.
Proof. exact c76_case. Qed.

(** ** C77 OP filters recognise OPs *)

(** An OP is not recognised if the request asks for claims other than entity_types. *)
Theorem C77_refuted : exists fuel ce rq q sub cfg m e,
  evaluate fuel ce rq q sub cfg m = Done (Ok (Some e)) /\ md_op m <> None /\ is_op e = false.
Proof. exact c62_witness. Qed.
Print Assumptions C77_refuted.

Theorem C77_is_op_partial : forall fuel ce rq q sub cfg m e, evaluate fuel ce rq q sub cfg m = Done (Ok (Some e)) ->
  wants rq "entity_types" = true -> (is_op e = true <-> md_op m <> None).
Proof. exact is_op_spec. Qed.
Print Assumptions C77_is_op_partial.

(** GrantTypesSupported, ScopesSupported: all needed values are supported. *)
Theorem C77_supports : forall name needed m op nl sup, md_op m = Some op ->
  em_get name op = Some (VSlice TStr nl (map VStr sup)) ->
  supports_all name needed (Some m) = Ok (forallb (fun x => mem x sup) needed).
Proof. exact supports_all_spec. Qed.
Print Assumptions C77_supports.

Theorem C77_registers : forall how m op nl sup, md_op m = Some op ->
  em_get "ClientRegistrationTypesSupported" op = Some (VSlice TStr nl (map VStr sup)) ->
  registers how (Some m) = mem how sup.
Proof. exact registers_spec. Qed.
Print Assumptions C77_registers.

Theorem C77_no_op : forall name needed how m, (forall m', m = Some m' -> md_op m' = None) ->
  supports_all name needed m = Ok false /\ registers how m = false.
Proof. exact no_op_spec. Qed.
Print Assumptions C77_no_op.

Example C77_case : exists op, md_op md_op1 = Some op /\
  em_get "ScopesSupported" op = Some (VSlice TStr false (map VStr ["openid"; "email"])) /\
  supports_all "ScopesSupported" ["email"] (Some md_op1) = Ok true /\
  supports_all "ScopesSupported" ["email"; "phone"] (Some md_op1) = Ok false /\
  em_get "ClientRegistrationTypesSupported" op = Some (VSlice TStr false (map VStr ["automatic"])) /\
  registers "automatic" (Some md_op1) = true /\ registers "explicit" (Some md_op1) = false.
Proof. exact c62_op_case. Qed.

(** ** C78 The smart collector asks the anchors in turn *)

(** The requested anchor comes first; the answer is that of the first anchor with a
    collection endpoint that answers; without one the local collector is used ([None]). *)
Theorem C78_first_answer : forall endpoint remote tas ta,
  match smart_collect endpoint remote tas ta with
  | Some l => exists ids1 a ids2, ta :: filter (fun x => negb (String.eqb x ta)) tas = ids1 ++ a :: ids2 /\
      endpoint (List.length ids1) a <> "" /\ remote (List.length ids1) (endpoint (List.length ids1) a) = Some l /\
      forall j b, nth_error ids1 j = Some b -> endpoint j b = "" \/ remote j (endpoint j b) = None
  | None => forall j b, nth_error (ta :: filter (fun x => negb (String.eqb x ta)) tas) j = Some b ->
      endpoint j b = "" \/ remote j (endpoint j b) = None
  end.
Proof. exact smart_spec. Qed.
Print Assumptions C78_first_answer.

Example C78_case : smart_collect (fun _ a => if String.eqb a TA then "ta/collect" else if String.eqb a I1 then "" else "x")
    (fun _ ep => if String.eqb ep "x" then Some result0 else None) [I1; TA; I2] TA = Some result0.
Proof. exact c62_collectors_case. Qed.
