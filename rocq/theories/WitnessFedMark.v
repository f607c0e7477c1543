(** The trust mark of the relying party in the federation of WitnessFederation.v. *)
From Coq Require Import QArith Lia.
From Verif Require Import Base BaseFacts GoVal Policy Schema Metadata SpecMetadata Chain Resolver SpecResolver SpecChain WitnessResolver FloatTime SpecTime WitnessTrustMark
  Json SpecJson JsonFacts TrustMark SpecTrustMark TrustMarkFacts TrustMarkLaws Refresher Leaf Config SpecConfig Jwt SpecJwt Statement SpecStatement WitnessStatement
  Encode SpecEncode EncodeFacts EncodeLaws WitnessEncode Federation SpecFederation FederationFacts WitnessFederation SpecFedMark FedMarkFacts.
From Verif Require Import SpecEncode Json.
Local Open Scope nat_scope.
Local Open Scope string_scope.

Definition n0 : network := fed None.
Definition member_env : env :=
  Env LocalR (fun _ _ => seen n0) (fun _ _ => None) (fun _ _ _ => ATransport) (fun _ _ => at_second 500) (read_jwt (nw_crypto n0))
      (fun jwt => ok_or_none (parse_statement (read_jwt (nw_crypto n0)) kc_texts jwt)) no_remote (verify_raw n0) (fun _ => []).
Lemma the_member : member member_env (fun _ _ => n0).
Proof. split; intros; reflexivity. Qed.

(** Signers that sign exactly one document. *)
Definition signs_only (typ0 : string) (j0 : json) (out : string) (typ : string) (j : json) : option string :=
  if (String.eqb typ typ0 && obj_eqb j j0)%bool then Some out else None.
Lemma signs_im : signs n0 (pa_signer p_im) (signs_only typ_mark mark_doc "eyJ").
Proof.
  intros typ j jwt H. unfold signs_only in H. destruct (String.eqb typ typ_mark) eqn:E; [|discriminate]. destruct (obj_eqb j mark_doc) eqn:E2; [|discriminate].
  injection H as <-. apply String.eqb_eq in E. apply obj_eqb_eq in E2. subst. eexists. split; [reflexivity|]. reflexivity.
Qed.
Lemma signs_owner : signs n0 (Signer (Some "ko") "ES512") (signs_only typ_delegation delegation_doc "dlg").
Proof.
  intros typ j jwt H. unfold signs_only in H. destruct (String.eqb typ typ_delegation) eqn:E; [|discriminate]. destruct (obj_eqb j delegation_doc) eqn:E2; [|discriminate].
  injection H as <-. apply String.eqb_eq in E. apply obj_eqb_eq in E2. subst. eexists. split; [reflexivity|]. reflexivity.
Qed.

Definition fed_spec : mark_spec := MarkSpec "tm1" (at_second 600) "" "" [("level", JNum 3)] false "dlg".
Definition fed_owned : owned := Owned "tm1" (at_second 9000) "" [].
Definition fed_mark : info :=
  Info "tm1" "eyJ" [] (Some (Mark IM LEAF "tm1" (at_second 90) "" (Some (at_second 690)) "" "dlg" [("level", JNum 3)] None)).
Lemma mark_issued : issues n0 p_im "tm1" LEAF "dlg" (at_second 500) fed_mark.
Proof.
  exists (signs_only typ_mark mark_doc "eyJ"), (new_issuer [fed_spec]), fed_spec, (at_second 90), None. split; [apply signs_im|]. split; [constructor|].
  split; [reflexivity|]. split; [split; [repeat constructor; intros []|]|].
  { intros k [<-|[]]. vm_compute. intros X; repeat destruct X as [X|X]; try discriminate X; exact X. }
  split; [reflexivity|]. split; [vm_compute; reflexivity|].
  split; [unfold SpecTrustMark.in_range, at_second; lia|]. split; [unfold at_second; lia|]. intros u [= <-]. split; [unfold SpecTrustMark.in_range; cbn; lia|cbn; lia].
Qed.
Lemma owner_consents : consents n0 "https://owner.example" (Some ["ko"]) "tm1" "dlg" p_im (at_second 500).
Proof.
  split; [discriminate|]. exists (Signer (Some "ko") "ES512"), "ko", [], (signs_only typ_delegation delegation_doc "dlg"), (new_owner [fed_owned]), fed_owned, (at_second 50), None.
  split; [reflexivity|]. split; [reflexivity|]. split; [apply signs_owner|]. split; [constructor|]. split; [reflexivity|]. split; [split; [constructor|intros k []]|].
  split; [vm_compute; reflexivity|]. split; [unfold SpecTrustMark.in_range, at_second; lia|]. split; [unfold at_second; lia|].
  intros u [= <-]. split; [unfold SpecTrustMark.in_range; cbn; lia|cbn; lia].
Qed.
Lemma im_may : may_issue n0 p_ta p_im "tm1" "dlg" (at_second 500).
Proof.
  split.
  - intros l [= <-]. right. now left.
  - intros o ks [= <- <-]. apply owner_consents.
Qed.
Definition im_steps : list step := [Step 0 p_ta c_ta d_im].
Lemma im_line : line n0 [Anchor TA None] [] p_im [] im_steps.
Proof.
  apply line_up.
  - intros [H|[]]; discriminate H.
  - reflexivity.
  - intros z [<-|[]]; discriminate.
  - apply sound_ta.
  - apply publishes_ta.
  - unfold current, in_force. cbn. lia.
  - apply vouches_im.
  - unfold current, in_force. cbn. lia.
  - intros k Hk. discriminate Hk.
  - apply line_anchor. exists [], (Anchor TA None), []. split; [reflexivity|]. split; [reflexivity|]. split; [intros a []|]. now left.
Qed.
Lemma im_below : below_anchor n0 p_ta p_im.
Proof.
  exists c_im, im_steps, 3. eexists. split; [discriminate|]. split; [discriminate|]. split; [apply sound_im|]. split; [apply publishes_im|]. split; [apply im_line|]. split.
  - intros ch F. destruct (federation_plain n0 [Anchor TA None] p_im c_im im_steps ch (publishes_im _ _) im_line) as (m & E & _); [|exact F|eauto].
    intros s [<-|[]]. split; reflexivity.
  - vm_compute. reflexivity.
Qed.
Definition ta_read : stmt :=
  Eval vm_compute in match w_config (seen n0) [] TA with Some s => s | None => Stmt "" "" "" 0%Z 0%Z None [] None None None [] [] [] [] [] end.
Lemma ta_configures q s : w_config (seen n0) q TA = Some s -> configures p_ta s.
Proof.
  intros W. destruct (published_read n0 q p_ta c_ta (sound_ta _) (publishes_ta _ _)) as (e & G & R & _). change (pa_id p_ta) with TA in G. rewrite W in G. injection G as <-.
  exists (at_second 120), [], []. exact R.
Qed.
Lemma c136_case : member member_env (fun _ _ => n0) /\ configures p_ta ta_read /\ belongs n0 p_ta p_im /\ issues n0 p_im "tm1" LEAF "dlg" (te_now member_env [] false) fed_mark /\
  may_issue n0 p_ta p_im "tm1" "dlg" (te_now member_env [] true) /\ lookup "tm1" (pa_owners p_ta) <> None /\
  verify_mark 4 member_env [] fed_mark ta_read = Done (Ok tt).
Proof.
  split; [apply the_member|]. split; [apply (ta_configures []); vm_compute; reflexivity|]. split; [right; apply im_below|]. split; [apply mark_issued|].
  split; [apply im_may|]. split; [discriminate|]. vm_compute. reflexivity.
Qed.
Lemma c136_reported_case : sound_participant n0 p_leaf /\ publishes n0 [] p_leaf c_leaf /\ pa_id p_leaf <> pa_id p_ta /\ pa_hints p_leaf <> [] /\
  (forall q s, w_config (seen n0) q (pa_id p_ta) = Some s -> configures p_ta s) /\ nth_error (st_marks (sp_claims c_leaf)) 0 = Some ("tm1", "eyJ") /\
  issues n0 p_im "tm1" LEAF "dlg" (te_now member_env [0] false) fed_mark /\ ti_jwt fed_mark = "eyJ" /\
  exists pl, resolve_payload 5 member_env LocalR [] (Req LEAF [TA] []) = Done (Ok pl) /\ map (fun t => (ti_type t, ti_jwt t)) (pl_marks pl) = [("tm1", "eyJ")] /\
    List.length (pl_chain pl) = 4.
Proof.
  split; [apply sound_leaf|]. split; [apply publishes_leaf|]. split; [discriminate|]. split; [discriminate|]. split; [apply ta_configures|]. split; [reflexivity|].
  split; [apply mark_issued|]. split; [reflexivity|].
  destruct (resolve_payload 5 member_env LocalR [] (Req LEAF [TA] [])) as [[pl| |]|] eqn:E; try (vm_compute in E; discriminate E).
  exists pl. split; [reflexivity|]. vm_compute in E. injection E as <-. split; reflexivity.
Qed.
