(** A federation of a relying party, an intermediate authority and a trust anchor. *)
From Coq Require Import QArith Lia.
From Verif Require Import Base BaseFacts GoVal Policy Schema Metadata SpecMetadata Chain Resolver SpecResolver SpecChain WitnessResolver FloatTime SpecTime Json SpecJson JsonFacts TrustMark
  Refresher Leaf Config SpecConfig Jwt SpecJwt Statement SpecStatement WitnessStatement Encode SpecEncode EncodeFacts EncodeLaws WitnessEncode Federation SpecFederation FederationFacts.
From Verif Require Import SpecEncode GoVal.
Local Open Scope nat_scope.
Local Open Scope string_scope.

Definition fe_at (ep : string) : emeta := build fe_schema [("federation_fetch_endpoint", VStr ep); ("federation_list_endpoint", VStr (ep ++ "/all"));
  ("federation_trust_mark_endpoint", VStr (ep ++ "/marks"))] [].
Lemma fe_at_ok ep : entity_ok fe_schema (fe_at ep).
Proof.
  constructor.
  - reflexivity.
  - apply build_type. intros r H. unfold fe_schema in H. cbn [In] in H. each H; cbn; try exact Logic.I; eauto.
  - split; [constructor|intros k []].
  - constructor.
Qed.
Definition md_at (ep : string) : metadata := Metadata None None None None None (Some (fe_at ep)) [].
Lemma md_at_ok ep : metadata_ok (md_at ep).
Proof.
  constructor; try (intros a Ha; discriminate Ha).
  - intros a [= <-]. apply fe_at_ok.
  - split; [constructor|intros k []].
  - constructor.
Qed.

Definition im_fetch := "https://im.example/fetch".
Definition ta_fetch := "https://ta.example/fetch".
Definition p_leaf := Participant LEAF (Signer (Some "kl") "ES512") ["kl"] ["https://down.example"; IM] md_built 3600 [] [].
Definition p_im := Participant IM (Signer (Some "ki") "ES512") ["ki"] [TA] (md_at im_fetch) 3600 [] [].
Definition p_ta := Participant TA (Signer (Some "kt") "ES512") ["kt"] [] (md_at ta_fetch) 3600 [("tm1", ["https://other.example"; IM])] [("tm1", ("https://owner.example", Some ["ko"]))].
Definition c_leaf := configuration p_leaf (at_second 100) [("tm1", Ok "eyJ"); ("tm2", Err)] [("level", JNum 2)].
Definition c_im := configuration p_im (at_second 110) [] [].
Definition c_ta := configuration p_ta (at_second 120) [] [].
Definition about (iss sub key : string) (q : option policies) (c : option constraints) : statement_payload :=
  StatementPayload (Stmt "" iss sub (at_second 100) (at_second 1000) (Some [key]) [] None q c [] [] [] [] []) "" "" "" [].
Definition d_leaf (q : option policies) := about IM LEAF "kl" q (Some c_built).
Definition d_im := about TA IM "ki" None None.

Definition signed_with (key : string) (p : statement_payload) : message :=
  Msg (enc_statement kc_texts p) [Sig (Some "entity-statement+jwt") (Some ("thumb:" ++ key)) "ES512" (Some key)].
(** A trust mark of the intermediate authority about the leaf, and the delegation by the owner. *)
Definition delegation_doc : json :=
  marshal delegation_fields (deleg_values (Deleg "https://owner.example" IM "tm1" (at_second 50) (Some (at_second 9050)) "" [] None)) [].
Definition mark_doc : json :=
  marshal mark_fields (mark_values (Mark IM LEAF "tm1" (at_second 90) "" (Some (at_second 690)) "" "dlg" [("level", JNum 3)] None)) [("level", JNum 3)].
(** A trust mark of the intermediate authority about itself. *)
Definition own_doc : json := marshal mark_fields (mark_values (Mark IM IM "tm2" (at_second 90) "" None "" "" [] None)) [].
Definition fed_parse (q : option policies) (jwt : string) : option message :=
  lookup jwt [("leaf", signed_with "kl" c_leaf); ("im", signed_with "ki" c_im); ("ta", signed_with "kt" c_ta);
              ("im:leaf", signed_with "ki" (d_leaf q)); ("ta:im", signed_with "kt" d_im);
              ("eyJ", Msg mark_doc [Sig (Some "trust-mark+jwt") (Some "thumb:ki") "ES512" (Some "ki")]);
              ("own", Msg own_doc [Sig (Some "trust-mark+jwt") (Some "thumb:ki") "ES512" (Some "ki")]);
              ("dlg", Msg delegation_doc [Sig (Some "trust-mark-delegation+jwt") (Some "thumb:ko") "ES512" (Some "ko")])].
Definition fed (q : option policies) : network :=
  Network (Crypto (fed_parse q) (fun k => "thumb:" ++ k) (fun _ _ => true)) kc_texts
    (map (fun k => Jwk k (Some ("thumb:" ++ k)) (Some "ES512") (Some "sig")))
    (fun _ id => lookup id [(LEAF, "leaf"); (IM, "im"); (TA, "ta")])
    (fun _ ep sub _ => if String.eqb ep im_fetch then Some "im:leaf" else if String.eqb ep ta_fetch then Some "ta:im" else None)
    (fun _ _ => at_second 500)
    (fun id => lookup id [(LEAF, "leaf.example"); (IM, "im.example"); (TA, "ta.example")]).
Definition steps (q : option policies) : list step := [Step 1 p_im c_im (d_leaf q); Step 0 p_ta c_ta d_im].
Definition fed_anchors := [Anchor TA (Some ["kt"])].

Lemma sound_leaf q : sound_participant (fed q) p_leaf.
Proof. split; [reflexivity|discriminate|apply keys_ok_texts|exact md_built_ok|cbn; lia|constructor|split; constructor]. Qed.
Lemma sound_im q : sound_participant (fed q) p_im.
Proof. split; [reflexivity|discriminate|apply keys_ok_texts|apply md_at_ok|cbn; lia|constructor|split; constructor]. Qed.
Lemma sound_ta q : sound_participant (fed q) p_ta.
Proof. split; [reflexivity|discriminate|apply keys_ok_texts|apply md_at_ok|cbn; lia|repeat constructor; intros []|split; [repeat constructor; intros []|constructor; [apply keys_ok_texts|constructor]]]. Qed.
Lemma publishes_leaf q : publishes (fed q) [] p_leaf c_leaf.
Proof.
  eexists _, _, _, "leaf". split; [reflexivity|]. split.
  - split; [repeat constructor; intros []|]. intros k [<-|[]]. vm_compute. intros X; repeat destruct X as [X|X]; try discriminate X; exact X.
  - split; [unfold in_range; cbn; lia|]. split; [unfold in_range; cbn; lia|]. split; [reflexivity|]. eexists. split; reflexivity.
Qed.
Lemma publishes_im q p : publishes (fed q) p p_im c_im.
Proof.
  eexists _, _, _, "im". split; [reflexivity|]. split; [split; [constructor|intros k []]|].
  split; [unfold in_range; cbn; lia|]. split; [unfold in_range; cbn; lia|]. split; [reflexivity|]. eexists. split; reflexivity.
Qed.
Lemma publishes_ta q p : publishes (fed q) p p_ta c_ta.
Proof.
  eexists _, _, _, "ta". split; [reflexivity|]. split; [split; [constructor|intros k []]|].
  split; [unfold in_range; cbn; lia|]. split; [unfold in_range; cbn; lia|]. split; [reflexivity|]. eexists. split; reflexivity.
Qed.
Lemma about_ok iss sub key q c : given policies_ok q -> given (fun q => mp_extra q = []) q -> given constraints_ok c -> payload_ok kc_texts (about iss sub key q c).
Proof.
  intros Q X C. constructor; try assumption; try (intros a Ha; discriminate Ha).
  - unfold in_range. cbn. lia.
  - unfold in_range. cbn. lia.
  - apply keys_ok_texts.
  - constructor.
  - split; constructor.
  - split; [constructor|intros k []].
Qed.
Lemma c_built_ok : given constraints_ok (Some c_built).
Proof. apply (po_constraints _ _ sub_payload_ok). Qed.
Lemma vouches_leaf q p : given policies_ok q -> given (fun q => mp_extra q = []) q -> vouches (fed q) p p_im p_leaf (d_leaf q).
Proof.
  intros Q X. exists im_fetch, "im:leaf". split; [exists (fe_at im_fetch); split; [reflexivity|split; [reflexivity|discriminate]]|]. split; [reflexivity|].
  split; [eexists; split; reflexivity|]. split; [apply about_ok; auto using c_built_ok|]. auto.
Qed.
Lemma vouches_im q p : vouches (fed q) p p_ta p_im d_im.
Proof.
  exists ta_fetch, "ta:im". split; [exists (fe_at ta_fetch); split; [reflexivity|split; [reflexivity|discriminate]]|]. split; [reflexivity|].
  split; [eexists; split; reflexivity|]. split; [apply about_ok; intros a Ha; discriminate Ha|]. auto.
Qed.
Lemma allows_leaf q : allows (fed q) c_built [p_leaf].
Proof.
  constructor.
  - intros m [= <-]. cbn. lia.
  - intros nc z x [= <-] _ [].
  - intros nc l z [= <-] [= <-] [<-|[]]. exists ".example". split; [now left|]. exists "leaf.example". split; [reflexivity|]. left.
    exists "example". split; [reflexivity|]. exists "leaf". reflexivity.
  - intros l z t [= <-] [<-|[]]. vm_compute. intros [<-|[<-|[]]]; auto.
Qed.
Lemma the_line q : given policies_ok q -> given (fun q => mp_extra q = []) q -> line (fed q) fed_anchors [] p_leaf [] (steps q).
Proof.
  intros Q X. apply line_up.
  - intros [H|[]]; discriminate H.
  - reflexivity.
  - intros z [<-|[]]; discriminate.
  - apply sound_im.
  - apply publishes_im.
  - unfold current, in_force. cbn. lia.
  - now apply vouches_leaf.
  - unfold current, in_force. cbn. lia.
  - intros k [= <-]. apply allows_leaf.
  - apply line_up.
    + intros [H|[]]; discriminate H.
    + reflexivity.
    + intros z [<-|[<-|[]]]; discriminate.
    + apply sound_ta.
    + apply publishes_ta.
    + unfold current, in_force. cbn. lia.
    + apply vouches_im.
    + unfold current, in_force. cbn. lia.
    + intros k Hk. discriminate Hk.
    + apply line_anchor. exists [], (Anchor TA (Some ["kt"])), []. split; [reflexivity|]. split; [reflexivity|]. split; [intros a []|]. now right.
Qed.
Lemma fed_finite q p a ec : w_config (seen (fed q)) p a = Some ec -> incl (st_hints ec) ["https://down.example"; IM; TA].
Proof.
  cbn [seen world_of w_config fed nw_config]. cbn [lookup].
  destruct (String.eqb a LEAF); [|destruct (String.eqb a IM); [|destruct (String.eqb a TA); [|discriminate]]].
  - vm_compute. intros [= <-] x I. cbn in *. tauto.
  - vm_compute. intros [= <-] x I. cbn in *. tauto.
  - vm_compute. intros [= <-] x I. destruct I.
Qed.
Definition pol_fed : policies :=
  Policies None (Some [("contacts", [("add", strs ["ops@ta.example"])]); ("client_name", [("one_of", strs ["App"; "Web"])])]) None None None None [].
Lemma pol_fed_ok : given policies_ok (Some pol_fed) /\ given (fun q => mp_extra q = []) (Some pol_fed).
Proof.
  split; [|intros a [= <-]; reflexivity].
  intros a [= <-]. unfold policies_ok, gpolicy_ok, given. cbn [pol_fed mp_op mp_rp mp_as mp_oc mp_pr mp_fe].
  repeat apply conj; intros m Hm; try discriminate Hm. injection Hm as <-. split; [apply nodupb_ok; reflexivity|].
  repeat constructor; intros [].
Qed.

Lemma c135_case : pa_id p_leaf <> "" /\ sound_participant (fed (Some pol_fed)) p_leaf /\ publishes (fed (Some pol_fed)) [] p_leaf c_leaf /\
  line (fed (Some pol_fed)) fed_anchors [] p_leaf [] (steps (Some pol_fed)) /\
  (forall p a ec, w_config (seen (fed (Some pol_fed))) p a = Some ec -> incl (st_hints ec) ["https://down.example"; IM; TA]) /\
  List.length (documents c_leaf (steps (Some pol_fed))) = 4.
Proof.
  split; [discriminate|]. split; [apply sound_leaf|]. split; [apply publishes_leaf|]. split; [apply the_line; apply pol_fed_ok|]. split; [apply fed_finite|reflexivity].
Qed.
Definition policy_result : option metadata :=
  Eval vm_compute in match resolve_valid 4 (seen (fed (Some pol_fed))) fed_anchors [] LEAF with
                     | Done (Ok [ch]) => match chain_metadata ch with Ok m => m | _ => None end
                     | _ => None
                     end.
Lemma c135_metadata_case : exists ch em m, resolve_valid 4 (seen (fed (Some pol_fed))) fed_anchors [] LEAF = Done (Ok [ch]) /\ chain_metadata ch = Ok (Some m) /\ md_rp m = Some em /\
  em_tag "contacts" em = Some (VSlice TStr false [VStr "ops@ta.example"]) /\ em_tag "client_name" em = Some (VStr "App").
Proof.
  destruct (resolve_valid 4 (seen (fed (Some pol_fed))) fed_anchors [] LEAF) as [[[|ch [|]]| |]|] eqn:E; try (vm_compute in E; discriminate E).
  assert (M : chain_metadata ch = Ok policy_result).
  { vm_compute in E. injection E as <-. vm_compute. reflexivity. }
  destruct policy_result as [m|] eqn:P; [|vm_compute in P; discriminate P].
  destruct (md_rp m) as [em|] eqn:R; [|vm_compute in P; injection P as <-; discriminate R].
  exists ch, em, m. split; [reflexivity|]. split; [exact M|]. split; [exact R|]. vm_compute in P. injection P as <-. vm_compute in R. injection R as <-. split; reflexivity.
Qed.
Lemma c135_plain_case : publishes (fed None) [] p_leaf c_leaf /\ line (fed None) fed_anchors [] p_leaf [] (steps None) /\ plain_line (steps None) /\
  pa_metadata p_leaf = md_built.
Proof.
  split; [apply publishes_leaf|]. split; [apply the_line; intros a Ha; discriminate Ha|]. split; [|reflexivity]. intros s [<-|[<-|[]]]; split; reflexivity.
Qed.
