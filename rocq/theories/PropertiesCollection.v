(** Collection endpoints and their clients: theorems (C132). *)
From Coq Require Import QArith.
From Verif Require Import Base GoVal Policy Schema Metadata Chain Resolver FloatTime Json SpecJson TrustMark Leaf Config SpecConfig SpecMetadata Discovery SpecDiscovery Statement Encode SpecEncode Respond SpecRespond SpecWritten
  Collection SpecCollection CollectionFacts WitnessResolver WitnessDiscovery WitnessEncode WitnessCollection.
From Verif Require Import Json.
Local Open Scope nat_scope.
Local Open Scope string_scope.

(** ** C132 A collection that is served is read as it was collected *)

(** The client gets the same entities in the same order, each with its types, trust marks,
    chain and UI claims. Missing: empty collections (C132_nothing_skipped), metadata
    (C132_metadata_refuted) and the place of the UI claims (C132_fields_refuted). *)
Theorem C132_read_partial : forall jws l next t, Forall (entity_ok_coll jws) l -> l <> [] ->
  exists l', simple_remote jws (Some (enc_collection (Collection (slice_of l) next t))) = Some (map Some l') /\
    Forall2 entity_read_coll l l' /\ Forall (fun e => ce_metadata e = None) l'.
Proof. exact collection_back. Qed.
Print Assumptions C132_read_partial.

Example C132_case : Forall (entity_ok_coll chain_jws) [shown_op; shown_rp] /\
  exists e1 e2 u1 u2, simple_remote chain_jws (Some (enc_collection (Collection (slice_of [shown_op; shown_rp]) "next" (Some (at_second 100))))) = Some [Some e1; Some e2] /\
    lookup "openid_provider" (ce_ui e1) = Some u1 /\ ui_field u1 "logo_uri" = Some (GStr "https://op.example/logo") /\ ui_extra u1 = [("accent", JStr "red")] /\
    lookup "openid_relying_party" (ce_ui e2) = Some u2 /\ ui_field u2 "display_name" = Some (GStr "App") /\ ui_field u2 "keywords" = Some (GList (Some ["a"])) /\
    ui_extra u2 = [].
Proof. exact c132_case. Qed.

(** The UI claims of entities the local collector has collected can be served. *)
Theorem C132_collected : forall fuel ce rq q sub cfg m e, evaluate fuel ce rq q sub cfg m = Done (Ok (Some e)) ->
  NoDup (keys (ce_ui e)) /\ forall ty u, lookup ty (ce_ui e) = Some u -> ui_ok u.
Proof. exact collected_servable. Qed.
Print Assumptions C132_collected.

Example C132_collected_case : exists e u, collected_op rq0 = Done (Ok (Some e)) /\ lookup "openid_provider" (ce_ui e) = Some u /\ ui_extra u <> [].
Proof. exact c132_collected_case. Qed.

(** The client finds in the field for a UI claim what the metadata of the entity says. *)
Theorem C132_shown : forall fuel ce rq q sub cfg m e e', evaluate fuel ce rq q sub cfg m = Done (Ok (Some e)) -> known_types m ->
  (forall ty x, typed_field m ty = Some x -> well_typed x) -> entity_read_coll e e' ->
  forall ty tag v, In tag ui_strings -> v <> "" ->
    ((exists u, lookup ty (ce_ui e') = Some u /\ ui_field u tag = Some (GStr v)) <-> wants rq tag = true /\ ui_claim m ty tag v).
Proof. exact collected_shown. Qed.
Print Assumptions C132_shown.

Example C132_shown_case : known_types md_op1 /\ (forall ty x, typed_field md_op1 ty = Some x -> well_typed x) /\
  exists e e', collected_op rq0 = Done (Ok (Some e)) /\ entity_read_coll e e' /\ wants rq0 "logo_uri" = true /\ ui_claim md_op1 "openid_provider" "logo_uri" "https://op.example/logo".
Proof. exact c132_shown_case. Qed.

(** The client does not find it where a user of the local collector finds it. *)
Theorem C132_fields_refuted : exists fuel ce rq q sub cfg m e jws e' u u', evaluate fuel ce rq q sub cfg m = Done (Ok (Some e)) /\
  simple_remote jws (Some (enc_collection (Collection (slice_of [e]) "" None))) = Some [Some e'] /\
  lookup "openid_provider" (ce_ui e) = Some u /\ lookup "openid_provider" (ce_ui e') = Some u' /\
  ui_field u "logo_uri" = Some (GStr "") /\ ui_field u' "logo_uri" = Some (GStr "https://op.example/logo").
Proof. exact c132_fields. Qed.
Print Assumptions C132_fields_refuted.

(** Metadata that was collected is not delivered. *)
Theorem C132_metadata_refuted : exists jws e m, entity_ok_coll jws e /\ ce_metadata e = Some m /\ forall next t,
  exists e', simple_remote jws (Some (enc_collection (Collection (slice_of [e]) next t))) = Some [Some e'] /\ ce_metadata e' = None.
Proof. exact c132_metadata. Qed.
Print Assumptions C132_metadata_refuted.

(** An endpoint that has collected nothing is taken for one that does not answer: the next
    anchor is asked. *)
Theorem C132_nothing_skipped : forall jws endpoint body i a ids l next t, l = [] -> endpoint i a <> "" ->
  body i (endpoint i a) = Some (enc_collection (Collection (slice_of l) next t)) ->
  smart_answers jws endpoint body i (a :: ids) = smart_answers jws endpoint body (S i) ids.
Proof. exact smart_skip. Qed.
Print Assumptions C132_nothing_skipped.

Example C132_nothing_case : smart_answers chain_jws (fun _ a => if String.eqb a TA then "ta/collect" else "i1/collect")
    (fun _ ep => Some (enc_collection (Collection (slice_of (if String.eqb ep "ta/collect" then [] else [shown_rp])) "" None))) 0 [TA; I1] =
  simple_remote chain_jws (Some (enc_collection (Collection (slice_of [shown_rp]) "" None))) /\
  simple_remote chain_jws (Some (enc_collection (Collection (slice_of [shown_rp]) "" None))) <> None.
Proof. exact c132_nothing_case. Qed.

(** Entities obtained from an endpoint are filtered like local ones. *)
Theorem C132_filters_partial : forall valid fs l, filter_remote valid fs 0 (map Some l) = Ok (filterable valid fs l).
Proof. exact filter_remote_ok. Qed.
Print Assumptions C132_filters_partial.

Example C132_filters_case : filter_remote (fun _ _ => true) [fun _ e => is_op e] 0 (map Some [shown_rp; shown_op]) = Ok [shown_op].
Proof. exact c132_filters_case. Qed.

(** A null among the entities of the answer crashes the client that filters them ... *)
Theorem C132_null_refuted : exists body, forall jws, exists l, simple_remote jws (Some body) = Some l /\ forall valid fs, filter_remote valid fs 0 l = Panic.
Proof. exact c132_null. Qed.
Print Assumptions C132_null_refuted.

(** ... and nothing else does. *)
Theorem C132_panics : forall valid fs l, filter_remote valid fs 0 l = Panic <-> In None l.
Proof. exact filter_remote_nil. Qed.
Print Assumptions C132_panics.

(** The answer has the members the specification of the endpoint gives it; empty ones are left
    out, except that a collection of nothing is null. *)
Theorem C132_written : forall e, let d := enc_collected e in
  claim "entity_id" d = Some (JStr (ce_id e)) /\ claim "entity_types" d = names_claim (ce_types e) /\ claim "trust_chain" d = names_claim (ce_chain e) /\
  claim "trust_marks" d = match ce_marks e with [] => None | l => Some (JArr (map enc_info l)) end /\
  claim "ui_infos" d = match ce_ui e with [] => None | m => Some (JObj (map (fun kv => (fst kv, enc_ui (snd kv))) m)) end.
Proof. exact written_collected. Qed.
Print Assumptions C132_written.

Theorem C132_answer : forall l next t, let d := enc_collection (Collection (slice_of l) next t) in
  claim "federation_entities" d = Some (match l with [] => JNull | _ => JArr (map enc_collected l) end) /\
  claim "next_entity_id" d = (if String.eqb next "" then None else Some (JStr next)) /\
  claim "last_updated" d = option_map (fun t => JNum (encode_time t)) t.
Proof. exact written_collection. Qed.
Print Assumptions C132_answer.

Example C132_written_case : claim "entity_types" (enc_collected shown_op) = Some (JArr [JStr "openid_provider"]) /\ claim "trust_marks" (enc_collected shown_rp) = None.
Proof. exact c132_written_case. Qed.

(** Of the anchors asked, the first that answers decides, and the local collector is used if
    none does. *)
Theorem C132_first : forall jws endpoint body ids l, smart_answers jws endpoint body 0 ids = Some l <->
  exists i, answers jws endpoint body 0 ids i l /\ forall i' l', i' < i -> ~ answers jws endpoint body 0 ids i' l'.
Proof. exact smart_decides. Qed.
Print Assumptions C132_first.

Example C132_first_case : exists l, smart_answers chain_jws asked_endpoint asked_body 0 [TA; I1; OP1] = Some l /\
  answers chain_jws asked_endpoint asked_body 0 [TA; I1; OP1] 1 l /\ ~ answers chain_jws asked_endpoint asked_body 0 [TA; I1; OP1] 2 l.
Proof. exact c132_first_case. Qed.
