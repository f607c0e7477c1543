(** Concrete cases for PropertiesGeneral.v. *)
From Coq Require Import QArith Lia.
From Verif Require Import Base BaseFacts GoVal Policy Schema Metadata SpecPolicy SpecMetadata Chain SpecChain WitnessPolicy Json SpecJson SpecDecode Statement SpecStatement SpecEncode SpecGeneral GeneralFacts KindFacts.
From Verif Require Import GoVal.
Local Open Scope nat_scope.
Local Open Scope string_scope.

(** Lists of objects. *)
Definition kind (s : string) : gval := VMap TAny false [("type", VStr s); ("max", VFloat 3)].
Definition kind' (s : string) : gval := VMap TAny false [("max", VFloat 3); ("type", VStr s)].
Definition arr (l : list gval) : gval := VSlice TAny false l.
Definition kinds_sup : entry := [("subset_of", arr [kind "a"; kind "b"]); ("superset_of", arr [kind "b"])].
Definition kinds_sub : entry := [("subset_of", arr [kind' "b"; kind' "c"]); ("essential", VBool true)].
Definition kinds_value : gval := arr [kind "b"; kind "a"].

Lemma kind_proper s : proper (kind s) /\ proper (kind' s).
Proof. split; (constructor; [repeat constructor; cbn; intuition discriminate|repeat constructor]). Qed.
Lemma arr_proper l : Forall proper l -> proper (arr l).
Proof. intros H. now constructor. Qed.

Lemma kp s : proper (kind s).
Proof. apply kind_proper. Qed.
Lemma kp' s : proper (kind' s).
Proof. apply kind_proper. Qed.
Ltac all_kinds := apply arr_proper; repeat (apply Forall_cons; [first [apply kp | apply kp' | constructor]|]); apply Forall_nil.
Ltac entry_json := constructor; [nodup|known_keys| |discriminate].

Lemma kinds_json : json_entry kinds_sup /\ json_entry kinds_sub.
Proof.
  split; entry_json; intros k x H; unfold kinds_sup, kinds_sub in H; cbn [lookup] in H.
  - destruct (String.eqb k "subset_of"); [injection H as <-; all_kinds|].
    destruct (String.eqb k "superset_of"); [injection H as <-; all_kinds|discriminate].
  - destruct (String.eqb k "subset_of"); [injection H as <-; all_kinds|].
    destruct (String.eqb k "essential"); [injection H as <-; constructor|discriminate].
Qed.

Lemma any_merge_case : json_entry kinds_sup /\ json_entry kinds_sub /\ proper kinds_value /\
  exists m, merge_entries kinds_sup kinds_sub = Ok m /\ verify_entry m = Ok tt /\ apply_to m kinds_value true = Ok (arr [kind "b"]).
Proof.
  split; [apply kinds_json|]. split; [apply kinds_json|]. split; [all_kinds|].
  eexists. split; [vm_compute; reflexivity|]. split; vm_compute; reflexivity.
Qed.

(** Booleans in a chain. *)
Definition time_ia : policy := [("require_auth_time", [("value", VBool true); ("essential", VBool true)])].
Definition time_ta : policy := [("require_auth_time", [("one_of", arr [VBool true; VBool false])])].
Definition chain_time : chain :=
  [leaf_st; with_policy (bare "ia" "rp") time_ia []; with_policy (bare "ta" "ia") time_ta []; bare "ta" "ta"].

Lemma time_json : json_policy (Some time_ia) /\ json_policy (Some time_ta).
Proof.
  split; (split; [nodup|]); intros t e H; unfold time_ia, time_ta in H; cbn [pol lookup] in H; (destruct (String.eqb t "require_auth_time"); [injection H as <-|discriminate]); clear t.
  - constructor; [nodup|known_keys| |].
    + intros o x E. cbn [lookup] in E. destruct (String.eqb o "value"); [injection E as <-; constructor|]. destruct (String.eqb o "essential"); [injection E as <-; constructor|discriminate].
    + intros x [= <-]. split; [intros (? & [] & _)|exact I].
  - entry_json. intros o x E. cbn [lookup] in E. destruct (String.eqb o "one_of"); [injection E as <-; all_kinds|discriminate].
Qed.

Lemma any_chain_case : exists md em em', chain_metadata chain_time = Ok (Some md) /\ In (md_rp, mp_rp) entity_types /\
  Forall json_policy (policies_of mp_rp chain_time) /\ Forall (fun p => verify_policy (pol p) = Ok tt) (policies_of mp_rp chain_time) /\
  md_rp (leaf_metadata chain_time) = Some em /\
  find (fun fv : frow * gval => String.eqb "require_auth_time" (fr_tag (fst fv))) (em_fields em) = Some (FRow "RequireAuthTime" "require_auth_time" true TBool, VBool false) /\
  proper (VBool false) /\ md_rp md = Some em' /\ em_tag "require_auth_time" em' = Some (VBool true).
Proof.
  do 3 eexists. split; [vm_compute; reflexivity|]. split; [right; now left|]. split; [|split; [|split; [reflexivity|split; [vm_compute; reflexivity|split; [constructor|split; [reflexivity|vm_compute; reflexivity]]]]]].
  - change (policies_of mp_rp chain_time) with [Some time_ia; Some time_ta]. constructor; [apply time_json|constructor; [apply time_json|constructor]].
  - change (policies_of mp_rp chain_time) with [Some time_ia; Some time_ta]. repeat constructor.
Qed.
Lemma any_combination_case : Forall json_policy [Some time_ia; Some time_ta] /\ exists o m,
  combine_policies [Some time_ia; Some time_ta] = Ok o /\ verify_policy (pol o) = Ok tt /\ lookup "require_auth_time" (pol o) = Some m /\ apply_to m (VBool false) false = Ok (VBool true).
Proof.
  split; [constructor; [apply time_json|constructor; [apply time_json|constructor]]|]. do 2 eexists. split; [vm_compute; reflexivity|]. split; [vm_compute; reflexivity|]. split; vm_compute; reflexivity.
Qed.

Lemma kinds_apart a b : a <> b -> ~ alike (kind a) (kind b).
Proof. intros N H. apply N. inversion H as [| | | | | | | |? ? ? ? ? K]; subst. specialize (K "type" (VStr a) (VStr b) eq_refl eq_refl). now inversion K. Qed.
Lemma kinds_apart' a b : a <> b -> ~ alike (kind' a) (kind' b).
Proof. intros N H. apply N. inversion H as [| | | | | | | |? ? ? ? ? K]; subst. specialize (K "type" (VStr a) (VStr b) eq_refl eq_refl). now inversion K. Qed.
Lemma any_fixed_case : let a := arr [kind "a"; kind "b"] in let b := arr [kind' "b"; kind' "a"] in
  proper a /\ proper b /\ distinct (elements a) /\ distinct (elements b) /\ merge_op OValue a b = Ok a /\ merge_op OValue a (arr [kind "b"; kind "c"]) = Err /\
  merge_op OSubsetOf a b = Ok a.
Proof.
  cbn zeta. split; [all_kinds|]. split; [all_kinds|]. split; [|split; [|repeat split]].
  - cbn. split; [|split; [intros (? & [] & _)|exact I]]. intros (y & [<-|[]] & E). apply kinds_apart in E; auto. discriminate.
  - cbn. split; [|split; [intros (? & [] & _)|exact I]]. intros (y & [<-|[]] & E). apply kinds_apart' in E; auto. discriminate.
Qed.

(** ** Attributes of other types *)
Definition row (name tag : string) (t : gty) : frow := FRow name tag true t.
Definition client : json := JObj
  [("client_name", JStr "RP"); ("require_auth_time", JBool true); ("default_max_age", JNum 60); ("jwks", JObj [("keys", JArr [])]);
   ("contacts", JArr [JStr "admin@rp.example"])].
Definition client_meta : emeta := match dec_entity rp_schema client with Ok m => m | _ => zero_meta rp_schema end.
Definition provider : json := JObj [("issuer", JStr "https://op.example"); ("mtls_endpoint_aliases", JObj [("token_endpoint", JStr "https://mtls.op.example")])].
Definition provider_meta : emeta := match dec_entity op_schema provider with Ok m => m | _ => zero_meta op_schema end.

Lemma client_given : dec_entity rp_schema client = Ok client_meta /\
  given_as client_meta (row "ClientName" "client_name" TStr) (JStr "RP") /\ given_as client_meta (row "RequireAuthTime" "require_auth_time" TBool) (JBool true) /\
  given_as client_meta (row "Contacts" "contacts" (TSlice TStr)) (JArr [JStr "admin@rp.example"]) /\
  given_as client_meta (row "DefaultMaxAge" "default_max_age" TInt) (JNum 60) /\ given_as client_meta (row "JWKS" "jwks" TJwks) (JObj [("keys", JArr [])]) /\
  given_as client_meta (row "LogoURI" "logo_uri" TStr) JNull /\ given_as client_meta (row "ClientIDIssuedAt" "client_id_issued_at" TInt) JNull.
Proof.
  split; [vm_compute; reflexivity|]. assert (S : In (map fst (em_fields client_meta)) entity_schemas) by (right; left; vm_compute; reflexivity).
  repeat apply conj; try exact S; eexists; (split; [vm_compute; repeat first [left; reflexivity | right]|]); cbn [fr_ty row attribute].
  - left. eauto.
  - left. eauto.
  - left. do 2 eexists. split; [reflexivity|]. split; [reflexivity|]. constructor; [|constructor]. left. eauto.
  - left. exists 60%Q, 60%Z. repeat split.
  - left. do 2 eexists. split; [reflexivity|]. split; [|reflexivity]. apply same_object.
    + repeat constructor. intros [].
    + intros k y H. cbn [rev app lookup] in *. destruct (String.eqb k "keys"); [|discriminate]. injection H as <-. eexists. split; [reflexivity|]. constructor. constructor.
    + intros k H. cbn [rev app lookup] in *. destruct (String.eqb k "keys"); [discriminate|reflexivity].
  - right. split; reflexivity.
  - right. split; reflexivity.
Qed.

Lemma provider_given : dec_entity op_schema provider = Ok provider_meta /\
  given_as provider_meta (row "MTLSEndpointAliases" "mtls_endpoint_aliases" (TMap TStr)) (JObj [("token_endpoint", JStr "https://mtls.op.example")]).
Proof.
  split; [vm_compute; reflexivity|]. split; [left; vm_compute; reflexivity|]. eexists. split; [vm_compute; repeat first [left; reflexivity | right]|]. cbn [fr_ty row attribute].
  left. do 2 eexists. split; [reflexivity|]. split; [reflexivity|]. split; [repeat constructor; intros []|]. intros k. unfold claim. cbn [rev app lookup].
  destruct (String.eqb k "token_endpoint"); [|reflexivity]. eexists. split; [reflexivity|]. left. eauto.
Qed.

Lemma set_cases : is_set client_meta (row "ClientName" "client_name" TStr) /\ is_set client_meta (row "DefaultMaxAge" "default_max_age" TInt) /\
  ~ is_set client_meta (row "LogoURI" "logo_uri" TStr) /\ ~ is_set client_meta (row "ClientIDIssuedAt" "client_id_issued_at" TInt).
Proof.
  unfold is_set. repeat apply conj; [apply mem_In|apply mem_In|apply mem_nIn|apply mem_nIn]; vm_compute; reflexivity.
Qed.

Lemma c126_case : exists m1 m2 m3,
  apply_policy client_meta [("client_name", [("value", any_of (JStr "Shop"))])] = Ok m1 /\ em_tag "client_name" m1 = Some (VStr "Shop") /\
  apply_policy client_meta [("logo_uri", [("default", any_of (JStr "https://ta.example/logo"))])] = Ok m2 /\ em_tag "logo_uri" m2 = Some (VStr "https://ta.example/logo") /\
  apply_policy client_meta [("client_name", [("one_of", any_of (JArr [JStr "Shop"; JStr "RP"]))])] = Ok m3 /\
  apply_policy client_meta [("client_name", [("one_of", any_of (JArr [JStr "Shop"; JNum 1]))])] = Err /\
  apply_policy client_meta [("default_max_age", [("value", any_of (JNum 60))])] = Panic /\
  apply_policy client_meta [("default_max_age", [("one_of", any_of (JArr [JNum 60]))])] = Err /\
  apply_policy client_meta [("client_id_issued_at", [("default", any_of (JNum 0))])] = Panic.
Proof. do 3 eexists. repeat split; vm_compute; reflexivity. Qed.
