(** Concrete cases for the theorems on signed statements. *)
From Coq Require Import QArith Lia.
From Verif Require Import Base BaseFacts GoVal Policy Schema Metadata SpecMetadata Chain Resolver SpecResolver WitnessResolver FloatTime SpecTime Json SpecJson JsonFacts TrustMark
  Refresher Leaf Config SpecConfig Jwt SpecJwt Statement SpecStatement WitnessStatement Encode SpecEncode EncodeFacts EncodeLaws.
From Verif Require Import GoVal.
Local Open Scope nat_scope.
Local Open Scope string_scope.

(** Metadata with the given attributes. *)
Definition build (sch : list frow) (values : smap gval) (extra : smap gval) : emeta :=
  EMeta (map (fun r => (r, if String.eqb (fr_tag r) "-" then VMap TAny false extra
                           else match lookup (fr_tag r) values with Some v => v | None => zero_of (fr_ty r) end)) sch) [].
Lemma zero_type t : of_type t (zero_of t).
Proof. destruct t; cbn; eauto. split; [constructor|reflexivity]. Qed.
Lemma build_type sch values extra : (forall r, In r sch -> match lookup (fr_tag r) values with Some v => of_type (fr_ty r) v | None => True end) ->
  forall r v, In (r, v) (em_fields (build sch values extra)) -> fr_tag r <> "-" -> of_type (fr_ty r) v.
Proof.
  intros H r v I N. unfold build in I. cbn [em_fields] in I. apply in_map_iff in I as (r' & [= -> <-] & I).
  destruct (String.eqb_spec (fr_tag r) "-"); [contradiction|]. specialize (H r I).
  destruct (lookup (fr_tag r) values); [exact H|apply zero_type].
Qed.

Definition strs (l : list string) : gval := VSlice TStr false (map VStr l).
Definition rp_values : smap gval := [("client_name", VStr "App"); ("redirect_uris", strs ["https://leaf.example/cb"]); ("contacts", strs []); ("default_max_age", VInt 60); ("require_auth_time", VBool false)].
Definition rp_built : emeta := Eval vm_compute in build rp_schema rp_values [("tier", VInt 3); ("tags", strs ["a"])].
Definition fe_built : emeta := Eval vm_compute in build fe_schema [("organization_name", VStr "Org")] [].
Definition md_built : metadata := Metadata None (Some rp_built) None None None (Some fe_built) [("shop", VMap TBool false [("open", VBool true)])].
Definition pol_built : policies :=
  Policies None (Some [("contacts", [("add", strs ["ops@ta.example"])]); ("default_max_age", [("value", VInt 60)])]) None None None None [].

Ltac each H := repeat (destruct H as [H|H]; [subst|]); try destruct H.
Lemma rp_built_ok : entity_ok rp_schema rp_built.
Proof.
  change rp_built with (build rp_schema rp_values [("tier", VInt 3); ("tags", strs ["a"])]). constructor.
  - reflexivity.
  - apply build_type. intros r H. unfold rp_schema in H. cbn [In] in H.
    each H; vm_compute; try exact Logic.I; eauto; right; eexists; (split; [reflexivity|]); intros w W; cbn in W; each W; eauto.
  - split; [apply nodupb_ok; reflexivity|]. intros k Hk. change (In k ["tier"; "tags"]) in Hk. each Hk; vm_compute; intros X; repeat destruct X as [X|X]; try discriminate X; exact X.
  - repeat constructor.
Qed.
Lemma fe_built_ok : entity_ok fe_schema fe_built.
Proof.
  change fe_built with (build fe_schema [("organization_name", VStr "Org")] []). constructor.
  - reflexivity.
  - apply build_type. intros r H. unfold fe_schema in H. cbn [In] in H. each H; vm_compute; try exact Logic.I; eauto.
  - split; [constructor|intros k []].
  - constructor.
Qed.
Lemma md_built_ok : metadata_ok md_built.
Proof.
  constructor; try (intros a Ha; discriminate Ha); try (intros a [= <-]; first [exact rp_built_ok|exact fe_built_ok]).
  - split; [repeat constructor; intros []|]. intros k [<-|[]]; vm_compute; intros X; repeat destruct X as [X|X]; try discriminate X; exact X.
  - repeat constructor; intros [].
Qed.
Lemma keys_texts l : keeps kc_texts l.
Proof.
  split.
  - cbn. induction l as [|x l IH]; [reflexivity|]. cbn [map]. unfold texts_of in *. cbn [fold_right]. rewrite IH. reflexivity.
  - exists [("keys", JArr (map JStr l))]. split; [reflexivity|]. intros show. cbn. rewrite Bool.andb_true_r.
    induction l as [|x l IH]; cbn; [reflexivity|exact IH].
Qed.
Lemma keys_ok_texts k l : keys_ok kc_texts (Some (k :: l)).
Proof. intros a [= <-]. split; [apply keys_texts|discriminate]. Qed.

Definition at_second (s : Z) : time := (s * 1000000000)%Z.
Definition sub_payload (q : option policies) (c : option constraints) : statement_payload :=
  StatementPayload
    (Stmt "" TA LEAF (at_second 100) (at_second 1000) (Some ["kl"]) [] (Some md_built) q c ["jti"] ["add"]
          [("tm1", "eyJ")] [("tm1", [IM])] [("tm1", (IM, Some ["ko"]))])
    "" "https://ta.example/fetch" "" [("jti", JStr "1"); ("level", JNum 2)].
Definition c_built : constraints := Constraints (Some 1%Z) (Some (Naming (Some [".example"]) [])) (Some ["openid_relying_party"]).
Definition ta_signer : jwt_signer := Signer (Some "kt") "ES512".
Definition cx_for (p : statement_payload) : crypto :=
  Crypto (fun jwt => if String.eqb jwt "a.b.c" then Some (Msg (enc_statement kc_texts p) [Sig (Some "entity-statement+jwt") (Some "thumb:kt") "ES512" (Some "kt")]) else None)
         (fun k => "thumb:" ++ k) (fun _ _ => true).

Lemma sub_payload_ok : payload_ok kc_texts (sub_payload (Some pol_built) (Some c_built)).
Proof.
  constructor.
  - unfold in_range. cbn. lia.
  - unfold in_range. cbn. lia.
  - apply keys_ok_texts.
  - intros a [= <-]. exact md_built_ok.
  - intros a [= <-]. unfold policies_ok, gpolicy_ok, given. cbn [pol_built mp_op mp_rp mp_as mp_oc mp_pr mp_fe].
    repeat apply conj; intros m Hm; try discriminate Hm. injection Hm as <-. split; [apply nodupb_ok; reflexivity|].
    repeat constructor; intros [].
  - intros a [= <-]. reflexivity.
  - intros a [= <-]. split; [discriminate|]. split; intros x [= <-]; cbn; [discriminate|lia].
  - apply nodupb_ok. reflexivity.
  - split; [apply nodupb_ok; reflexivity|]. cbn [sub_payload sp_claims st_mark_owners]. constructor; [apply keys_ok_texts|constructor].
  - split; [apply nodupb_ok; reflexivity|]. intros k Hk. change (In k ["jti"; "level"]) in Hk. each Hk; vm_compute; intros X; repeat destruct X as [X|X]; try discriminate X; exact X.
Qed.

(** *** C125 *)
Lemma c125_case : let p := sub_payload (Some pol_built) (Some c_built) in
  payload_ok kc_texts p /\ exists m ks st, sign_statement (cx_for p) kc_texts ta_signer p = Ok m /\ cx_parse (cx_for p) "a.b.c" = Some m /\ signer_jwks (cx_for p) ta_signer = Ok ks /\
    parse_statement (read_jwt (cx_for p)) kc_texts "a.b.c" = Ok st /\ st_sub st = LEAF /\ st_exp st = at_second 1000 /\
    (exists m em, st_metadata st = Some m /\ md_rp m = Some em /\ em_tag "client_name" em = Some (VStr "App") /\ attr_set "client_name" em = true /\
       em_tag "default_max_age" em = Some (VInt 60) /\ attr_set "require_auth_time" em = false /\ lookup "tier" (extra_value em) = Some (VFloat 3)) /\
    option_map mp_rp (st_policy st) = Some (Some [("contacts", [("add", VSlice TAny false [VStr "ops@ta.example"])]); ("default_max_age", [("value", VFloat 60)])]).
Proof.
  split; [exact sub_payload_ok|]. eexists _, _, _. split; [reflexivity|]. split; [reflexivity|]. split; [reflexivity|].
  split; [vm_compute; reflexivity|]. split; [reflexivity|]. split; [reflexivity|]. split; [|reflexivity].
  eexists _, _. split; [reflexivity|]. split; [reflexivity|]. split; [vm_compute; reflexivity|]. split; [vm_compute; reflexivity|]. split; [vm_compute; reflexivity|].
  split; [vm_compute; reflexivity|vm_compute; reflexivity].
Qed.
Definition now0 : time := 1500000000000000001%Z.
Lemma c125_config_case : let p := config_statement (new_entity LEAF [TA] (Some md_built) (Some ["kt"]) 3600%Z) now0 [("tm1", Ok "eyJ"); ("tm2", Err)] [("level", JNum 2)] in
  sign_statement (cx_for p) kc_texts ta_signer p = Ok (Msg (enc_statement kc_texts p) [Sig (Some "entity-statement+jwt") (Some "thumb:kt") "ES512" (Some "kt")]) /\
  in_range now0 /\ in_range (now0 + 3600 * 1000000000)%Z /\ keys_ok kc_texts (Some ["kt"]) /\ given metadata_ok (Some md_built) /\
  apart claim_names [("level", JNum 2)] /\
  exists st, parse_statement (read_jwt (cx_for p)) kc_texts "a.b.c" = Ok st /\ st_marks st = [("tm1", "eyJ")] /\ st_iat st <> now0.
Proof.
  split; [reflexivity|]. split; [unfold in_range, now0; lia|]. split; [unfold in_range, now0; lia|]. split; [apply keys_ok_texts|]. split; [intros a [= <-]; exact md_built_ok|].
  split.
  - split; [repeat constructor; intros []|]. intros k [<-|[]]. vm_compute. intros X; repeat destruct X as [X|X]; try discriminate X; exact X.
  - eexists. split; [vm_compute; reflexivity|]. split; [reflexivity|discriminate].
Qed.
Lemma c125_claims_case : let p := sub_payload (Some pol_built) (Some c_built) in apart claim_names (sp_extra p) /\
  claim "level" (enc_statement kc_texts p) = Some (JNum 2) /\ claim "aud" (enc_statement kc_texts p) = None /\
  claim "source_endpoint" (enc_statement kc_texts p) = Some (JStr "https://ta.example/fetch").
Proof. split; [apply sub_payload_ok|]. split; [vm_compute; reflexivity|]. split; vm_compute; reflexivity. Qed.
Definition pol_shop : policies := Policies None None None None None None [("shop", Some [("open", [("value", VBool true)])])].
Lemma c125_policies_case : let p := sub_payload (Some pol_shop) None in apart claim_names (sp_extra p) /\ In "shop" (keys (mp_extra pol_shop)) /\ ~ In "shop" type_names /\
  exists m, sign_statement (cx_for p) kc_texts ta_signer p = Ok m /\ cx_parse (cx_for p) "a.b.c" = Some m /\ parse_statement (read_jwt (cx_for p)) kc_texts "a.b.c" = Err.
Proof.
  split; [apply sub_payload_ok|]. split; [now left|]. split; [intros H; repeat (destruct H as [H|H]; [discriminate H|]); exact H|]. eexists. split; [reflexivity|]. split; [reflexivity|]. vm_compute. reflexivity.
Qed.

(** Empty lists that forbid everything are lost. *)
Definition world_rp : world := net0.
Lemma c125_types : exists cx kc s p m jwt st c w below,
  sign_statement cx kc s p = Ok m /\ cx_parse cx jwt = Some m /\ parse_statement (read_jwt cx) kc jwt = Ok st /\ co_naming c = None /\ co_types c = Some [] /\
  st_constraints (sp_claims p) = Some c /\ ~ constraints_met w c below /\ (exists c', st_constraints st = Some c' /\ constraints_met w c' below).
Proof.
  set (p := sub_payload None (Some (Constraints None None (Some [])))).
  exists (cx_for p), kc_texts, ta_signer, p. eexists. exists "a.b.c". eexists. exists (Constraints None None (Some [])), world_rp, [leaf0].
  split; [reflexivity|]. split; [reflexivity|]. split; [vm_compute; reflexivity|]. split; [reflexivity|]. split; [reflexivity|]. split; [reflexivity|]. split.
  - intros M. destruct (cm_types _ _ _ M [] leaf0 "openid_relying_party" eq_refl (or_introl eq_refl)) as [[]|H]; [vm_compute; tauto|discriminate H].
  - eexists. split; [reflexivity|]. constructor; cbn; discriminate.
Qed.
Lemma c125_permitted : exists cx kc s p m jwt st c w below,
  sign_statement cx kc s p = Ok m /\ cx_parse cx jwt = Some m /\ parse_statement (read_jwt cx) kc jwt = Ok st /\ co_naming c = Some (Naming (Some []) []) /\ co_types c = None /\
  st_constraints (sp_claims p) = Some c /\ ~ constraints_met w c below /\ (exists c', st_constraints st = Some c' /\ constraints_met w c' below).
Proof.
  set (p := sub_payload None (Some (Constraints None (Some (Naming (Some []) [])) None))).
  exists (cx_for p), kc_texts, ta_signer, p. eexists. exists "a.b.c". eexists. exists (Constraints None (Some (Naming (Some []) [])) None), world_rp, [leaf0].
  split; [reflexivity|]. split; [reflexivity|]. split; [vm_compute; reflexivity|]. split; [reflexivity|]. split; [reflexivity|]. split; [reflexivity|]. split.
  - intros M. destruct (cm_permitted _ _ _ M _ _ leaf0 eq_refl eq_refl (or_introl eq_refl)) as (x & [] & _).
  - eexists. split; [reflexivity|]. constructor; cbn; try discriminate; [intros n e x [= <-] _ []|intros n l e [= <-] H; discriminate H].
Qed.
