(** Concrete cases for the theorems on collection endpoints. *)
From Coq Require Import QArith Lia.
From Verif Require Import Base BaseFacts GoVal Policy Schema Metadata SpecMetadata Chain Resolver WitnessResolver FloatTime SpecTime Json SpecJson JsonFacts TrustMark WitnessTrustMark Leaf Config SpecConfig
  Discovery SpecDiscovery WitnessDiscovery Statement Encode SpecEncode WitnessEncode Respond SpecRespond Collection SpecCollection CollectionFacts.
From Verif Require Import Json.
Local Open Scope nat_scope.
Local Open Scope string_scope.

Definition chain_jws (t : string) : bool := mem t ["eyJ.leaf.s"; "eyJ.ta.s"].
(** Two entities: the fields of a UIInfo are used in the first, additional claims in the second. *)
Definition shown_op : collected :=
  Coll OP1 ["openid_provider"]
    [("openid_provider", UI [GStr "University"; GStr ""; GList (Some ["edu"; "ch"]); GStr "https://op.example/logo"; GStr ""; GStr ""] [("accent", JStr "red")])]
    [Info "tm1" "eyJ.m.s" [("level", JNum 2)] None] ["eyJ.leaf.s"; "eyJ.ta.s"] (Some md_op1).
Definition shown_rp : collected :=
  Coll RP1 ["openid_relying_party"; "federation_entity"]
    [("openid_relying_party", UI (zeros ui_fields) [("display_name", JStr "App"); ("keywords", JArr [JStr "a"])]); ("federation_entity", zero_ui)] [] [] None.

Ltac no_name := let X := fresh in vm_compute; intros X; repeat destruct X as [X|X]; try discriminate X; exact X.
Lemma shown_ok : Forall (entity_ok_coll chain_jws) [shown_op; shown_rp].
Proof.
  constructor; [|constructor; [|constructor]]; constructor; cbn [shown_op shown_rp ce_marks ce_chain ce_ui].
  - constructor; [|constructor]. split; [apply nodupb_ok; reflexivity|]. intros k Hk. change (In k ["level"]) in Hk. each Hk; no_name.
  - intros t Ht. change (In t ["eyJ.leaf.s"; "eyJ.ta.s"]) in Ht. each Ht; reflexivity.
  - apply nodupb_ok; reflexivity.
  - intros ty u. cbn [lookup]. destruct (String.eqb ty "openid_provider"); [|discriminate]. intros [= <-]. constructor; cbn [ui_vals ui_extra].
    + intros tag I. change (In tag ["display_name"; "description"; "logo_uri"; "policy_uri"; "information_uri"]) in I. each I; eexists; reflexivity.
    + eexists; reflexivity.
    + reflexivity.
    + apply nodupb_ok; reflexivity.
    + intros k j. cbn [lookup]. destruct (String.eqb_spec k "accent") as [-> |_]; [|discriminate]. intros _. right. no_name.
  - constructor.
  - intros t [].
  - apply nodupb_ok; reflexivity.
  - intros ty u. cbn [lookup]. destruct (String.eqb ty "openid_relying_party"); [|destruct (String.eqb ty "federation_entity"); [|discriminate]]; intros [= <-]; constructor; cbn [ui_vals ui_extra zero_ui].
    + intros tag I. change (In tag ["display_name"; "description"; "logo_uri"; "policy_uri"; "information_uri"]) in I. each I; eexists; reflexivity.
    + eexists; reflexivity.
    + reflexivity.
    + apply nodupb_ok; reflexivity.
    + intros k j. cbn [lookup]. destruct (String.eqb_spec k "display_name") as [-> |_]; [|destruct (String.eqb_spec k "keywords") as [-> |_]; [|discriminate]]; intros [= <-]; left.
      * split; [right; now left|]. exists "App". reflexivity.
      * split; [now left|]. exists ["a"]. reflexivity.
    + intros tag I. change (In tag ["display_name"; "description"; "logo_uri"; "policy_uri"; "information_uri"]) in I. each I; eexists; reflexivity.
    + eexists; reflexivity.
    + reflexivity.
    + constructor.
    + discriminate.
Qed.
Lemma c132_case : Forall (entity_ok_coll chain_jws) [shown_op; shown_rp] /\
  exists e1 e2 u1 u2, simple_remote chain_jws (Some (enc_collection (Collection (slice_of [shown_op; shown_rp]) "next" (Some (at_second 100))))) = Some [Some e1; Some e2] /\
    lookup "openid_provider" (ce_ui e1) = Some u1 /\ ui_field u1 "logo_uri" = Some (GStr "https://op.example/logo") /\ ui_extra u1 = [("accent", JStr "red")] /\
    lookup "openid_relying_party" (ce_ui e2) = Some u2 /\ ui_field u2 "display_name" = Some (GStr "App") /\ ui_field u2 "keywords" = Some (GList (Some ["a"])) /\
    ui_extra u2 = [].
Proof.
  split; [exact shown_ok|]. eexists _, _, _, _. split; [vm_compute; reflexivity|]. repeat (split; [vm_compute; reflexivity|]). vm_compute. reflexivity.
Qed.
(** The metadata collected with an entity is not delivered. *)
Lemma c132_metadata : exists jws e m, entity_ok_coll jws e /\ ce_metadata e = Some m /\ forall next t,
  exists e', simple_remote jws (Some (enc_collection (Collection (slice_of [e]) next t))) = Some [Some e'] /\ ce_metadata e' = None.
Proof.
  exists chain_jws, shown_op, md_op1. pose proof shown_ok as H. inversion H as [|? ? O _]; subst. split; [exact O|]. split; [reflexivity|]. intros next t.
  destruct (collection_back chain_jws [shown_op] next t) as (l' & E & R & M); [constructor; [exact O|constructor]|discriminate|].
  inversion R as [|? e' ? l R1 R2]; subst. inversion R2; subst. exists e'. split; [exact E|]. now inversion M.
Qed.
(** The same claim is an additional claim for a local collector and a field for its client. *)
Lemma c132_fields : exists fuel ce rq q sub cfg m e jws e' u u', evaluate fuel ce rq q sub cfg m = Done (Ok (Some e)) /\
  simple_remote jws (Some (enc_collection (Collection (slice_of [e]) "" None))) = Some [Some e'] /\
  lookup "openid_provider" (ce_ui e) = Some u /\ lookup "openid_provider" (ce_ui e') = Some u' /\
  ui_field u "logo_uri" = Some (GStr "") /\ ui_field u' "logo_uri" = Some (GStr "https://op.example/logo").
Proof.
  exists 9, cenv0, rq0, [], OP1, (mk "ko" OP1 OP1 ["ko"] [I1] (Some md_op1) None [] 1000%Z), md_op1. eexists. exists chain_jws. eexists _, _, _.
  split; [vm_compute; reflexivity|]. repeat (split; [vm_compute; reflexivity|]). vm_compute. reflexivity.
Qed.
Lemma c132_collected_case : exists e u, collected_op rq0 = Done (Ok (Some e)) /\ lookup "openid_provider" (ce_ui e) = Some u /\ ui_extra u <> [].
Proof. eexists _, _. split; [vm_compute; reflexivity|]. split; [vm_compute; reflexivity|]. vm_compute. discriminate. Qed.
Lemma c132_shown_case : known_types md_op1 /\ (forall ty x, typed_field md_op1 ty = Some x -> well_typed x) /\
  exists e e', collected_op rq0 = Done (Ok (Some e)) /\ entity_read_coll e e' /\ wants rq0 "logo_uri" = true /\ ui_claim md_op1 "openid_provider" "logo_uri" "https://op.example/logo".
Proof.
  split; [exact known_op1|]. split; [exact typed_op1|].
  assert (E : exists e, collected_op rq0 = Done (Ok (Some e)) /\ ce_marks e = [] /\ ce_chain e = []) by (eexists; split; [vm_compute; reflexivity|]; split; reflexivity).
  destruct E as (e & E & Em & Ec). destruct (collected_servable _ _ _ _ _ _ _ _ E) as [N O].
  assert (K : entity_ok_coll chain_jws e) by (constructor; [rewrite Em; constructor|rewrite Ec; intros t []|exact N|exact O]).
  destruct (coll_back _ _ K) as (e' & _ & R & _). exists e, e'. split; [exact E|]. split; [exact R|]. split; [reflexivity|].
  split; [discriminate|]. change (String.eqb "logo_uri" "display_name") with false. cbn iota.
  eexists. split; [split; [now left|vm_compute; discriminate]|]. split; [reflexivity|vm_compute; reflexivity].
Qed.
(** An anchor that collected nothing, and another that is asked instead. *)
Lemma c132_nothing_case : smart_answers chain_jws (fun _ a => if String.eqb a TA then "ta/collect" else "i1/collect")
    (fun _ ep => Some (enc_collection (Collection (slice_of (if String.eqb ep "ta/collect" then [] else [shown_rp])) "" None))) 0 [TA; I1] =
  simple_remote chain_jws (Some (enc_collection (Collection (slice_of [shown_rp]) "" None))) /\
  simple_remote chain_jws (Some (enc_collection (Collection (slice_of [shown_rp]) "" None))) <> None.
Proof. split; vm_compute; [reflexivity|discriminate]. Qed.
(** A null among the entities. *)
Definition with_null : json := JObj [("federation_entities", JArr [JNull])].
Lemma c132_null : exists body, forall jws, exists l, simple_remote jws (Some body) = Some l /\ forall valid fs, filter_remote valid fs 0 l = Panic.
Proof. exists with_null. intros jws. exists [None]. split; reflexivity. Qed.
Lemma c132_filters_case : filter_remote (fun _ _ => true) [fun _ e => is_op e] 0 (map Some [shown_rp; shown_op]) = Ok [shown_op].
Proof. vm_compute. reflexivity. Qed.

(** The second anchor answers, the third would as well. *)
Definition asked_endpoint (n : nat) (a : string) : string := if String.eqb a TA then "" else a ++ "/collect".
Definition asked_body (n : nat) (ep : string) : option json :=
  Some (enc_collection (Collection (slice_of [if String.eqb ep "https://i1.example/collect" then shown_rp else shown_op]) "" None)).
Lemma c132_first_case : exists l, smart_answers chain_jws asked_endpoint asked_body 0 [TA; I1; OP1] = Some l /\
  answers chain_jws asked_endpoint asked_body 0 [TA; I1; OP1] 1 l /\ ~ answers chain_jws asked_endpoint asked_body 0 [TA; I1; OP1] 2 l.
Proof.
  eexists. split; [vm_compute; reflexivity|]. split.
  - eexists. split; [reflexivity|]. split; [vm_compute; discriminate|vm_compute; reflexivity].
  - intros (a & [= <-] & _ & H). vm_compute in H. discriminate H.
Qed.
Lemma c132_written_case : claim "entity_types" (enc_collected shown_op) = Some (JArr [JStr "openid_provider"]) /\ claim "trust_marks" (enc_collected shown_rp) = None.
Proof. split; vm_compute; reflexivity. Qed.
