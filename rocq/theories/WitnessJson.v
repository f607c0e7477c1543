(** Counterexamples and cases for PropertiesJson.v. *)
From Verif Require Import Base GoVal Policy Schema Metadata Chain FloatTime FloatFacts SpecTime Json SpecJson JsonFacts.
Local Open Scope string_scope.

(** *** C17 *)
Definition rp_policy : jpolicy := Some [("grant_types", Some [("subset_of", JArr [JStr "authorization_code"])])].
Definition with_wallet : json :=
  JObj [("openid_relying_party", enc_policy rp_policy); ("wallet_provider", enc_policy rp_policy)].
Lemma c17_witness : exists p, policy_ok p /\
  unmarshal_policies (marshal_policies (JPolicies (repeat None 6) [("wallet_provider", p)])) = Err.
Proof.
  exists rp_policy. split; [|vm_compute; reflexivity].
  repeat split; try discriminate; repeat constructor; cbn; intuition discriminate.
Qed.
Lemma c17_case : List.length [None; rp_policy; None; None; None; None] = 6 /\
  Forall policy_ok [None; rp_policy; None; None; None; None].
Proof.
  split; [reflexivity|]. repeat constructor; cbn; try discriminate; try (intros []); intuition discriminate.
Qed.
Lemma c17_case2 : ~ In "wallet_provider" (tags policies_fields) /\ claim "wallet_provider" with_wallet <> None.
Proof. split; [|discriminate]. cbn. intuition discriminate. Qed.

(** *** C56 *)
Definition mark_values : list gval :=
  [GStr "https://tmi.example"; GStr "https://leaf.example"; GStr "https://marks.example/a"; GTime (seconds 1700000000);
   GStr ""; GTimePtr (Some (seconds 1800000000)); GStr ""; GStr ""].
Lemma mark_values_survive : Forall2 survives mark_fields mark_values.
Proof.
  repeat constructor; try apply str_survives.
  - apply time_survives. vm_compute. reflexivity.
  - apply time_ptr_survives. intros y [= <-]. vm_compute. reflexivity.
Qed.
Definition assurance : smap json := [("assurance", JStr "high")].
Lemma c56_case : In mark_fields extra_types /\ distinct_names mark_fields /\ Forall2 survives mark_fields mark_values /\
  no_clash mark_fields assurance.
Proof.
  split; [cbn; tauto|]. split; [apply types_distinct; cbn; tauto|]. split; [exact mark_values_survive|].
  split; [repeat constructor; intros []|]. intros k [<-|[]]. vm_compute. intuition discriminate.
Qed.
Lemma c56_unknown_case : exists j vs x,
  decode mark_info_fields j = Ok (vs, x) /\ claim "note" j = Some (JStr "n") /\ ~ In "note" (tags mark_info_fields).
Proof.
  exists (JObj [("note", JStr "n"); ("trust_mark_type", JStr "t"); ("trust_mark", JStr "jwt")]). do 2 eexists.
  split; [vm_compute; reflexivity|]. split; [reflexivity|]. cbn. intuition discriminate.
Qed.
Lemma c56_override : exists vs extra,
  Forall2 survives mark_fields vs /\ nth_error vs 1 = Some (GStr "https://leaf.example") /\
  claim "sub" (marshal mark_fields vs extra) = Some (JStr "https://other.example").
Proof.
  exists mark_values, [("sub", JStr "https://other.example")]. split; [exact mark_values_survive|].
  split; reflexivity.
Qed.
Lemma c56_case_fold : exists vs extra vs' extra',
  Forall2 survives mark_fields vs /\ no_exact_clash mark_fields extra /\
  decode mark_fields (marshal mark_fields vs extra) = Ok (vs', extra') /\ vs' <> vs.
Proof.
  exists mark_values, [("REF", JStr "https://other.example")]. do 2 eexists. split; [exact mark_values_survive|].
  split; [split; [repeat constructor; intros []|]; intros k [<-|[]]; vm_compute; intuition discriminate|].
  split; [vm_compute; reflexivity|]. discriminate.
Qed.

(** *** C57 *)
Definition response : resolve_response :=
  ResolveResponse [GStr "https://ta.example"; GStr "https://leaf.example"; GTime (seconds 1700000000);
                   GTime (seconds 1700003600); GStr ""]
    [GRaw (JObj [("openid_relying_party", JObj [])]); GRaw JNull; GList (Some ["jwt0"; "jwt1"])] [].
Lemma c57_case : Forall2 survives resolve_payload_fields (rr_payload response) /\
  no_clash (resolve_payload_fields ++ resolve_own_fields)%list (rr_extra response) /\
  exists j r', marshal_response response = Ok j /\ unmarshal_response j zero_response = Ok r' /\ rr_own r' <> rr_own response.
Proof.
  split; [|split].
  - repeat constructor; try apply raw_survives. apply list_survives. intros _. discriminate.
  - split; [constructor|intros ? []].
  - do 2 eexists. split; [vm_compute; reflexivity|]. split; [vm_compute; reflexivity|]. discriminate.
Qed.
Lemma c57_loses : exists r j r', marshal_response r = Ok j /\ unmarshal_response j zero_response = Ok r' /\ rr_own r' <> rr_own r.
Proof. exists response. exact (proj2 (proj2 c57_case)). Qed.
Lemma c57_empty : exists r, nth_error (rr_own r) 0 = Some (GStr "https://ta.example") /\ marshal_response r = Err.
Proof.
  exists (ResolveResponse (rr_own response) (zeros resolve_payload_fields) []). split; reflexivity.
Qed.

(** *** C58 *)
Definition dec_string (j : json) : option string :=
  match dec_str "" j with Ok s => Some s | _ => None end.
Lemma c58_case : (forall x, In x ["a"; "b"] -> dec_string (JStr x) = Some x) /\ forall js, dec_string (JArr js) = None.
Proof. split; auto. Qed.
Lemma c58_nil : unmarshal_sos dec_string (marshal_sos JStr None) = Ok (Some [""]).
Proof. reflexivity. Qed.
Lemma c58_any : unmarshal_sos (@Some json) (marshal_sos (fun j => j) (Some [JStr "a"; JStr "b"])) =
  Ok (Some [JArr [JStr "a"; JStr "b"]]).
Proof. reflexivity. Qed.
