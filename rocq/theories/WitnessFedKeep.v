(** The relying party of WitnessFederation.v keeps its trust mark. *)
From Coq Require Import QArith Lia.
From Verif Require Import Base BaseFacts GoVal Policy Schema Metadata SpecMetadata Chain Resolver SpecResolver SpecChain WitnessResolver FloatTime SpecTime WitnessTrustMark
  Json SpecJson JsonFacts TrustMark SpecTrustMark TrustMarkFacts TrustMarkLaws Refresher Leaf Config SpecConfig Jwt SpecJwt Statement SpecStatement WitnessStatement
  Encode SpecEncode EncodeFacts EncodeLaws WitnessEncode Federation SpecFederation FederationFacts WitnessFederation SpecFedMark FedMarkFacts WitnessFedMark SpecFedKeep FedKeepFacts.
From Verif Require Import SpecEncode Json.
Local Open Scope nat_scope.
Local Open Scope string_scope.

(** The call at second 20 fails, the one at second 90 obtains the mark, later ones find it. *)
Definition im_read : stmt :=
  Eval vm_compute in match w_config (seen n0) [] IM with Some s => s | None => Stmt "" "" "" 0%Z 0%Z None [] None None None [] [] [] [] [] end.
Definition keep_env : env :=
  Env LocalR (fun _ _ => seen n0) (fun _ id => if String.eqb id IM then Some im_read else None) (fun _ _ _ => ATransport) (fun _ _ => at_second 500) (read_jwt (nw_crypto n0))
      (fun jwt => ok_or_none (parse_statement (read_jwt (nw_crypto n0)) kc_texts jwt)) no_remote (verify_raw n0) (fun _ => []).
Definition keep_ask (now : time) (ep typ sub : string) : reply :=
  if (Z.eqb now (at_second 90) && String.eqb ep "https://im.example/fetch/marks" && String.eqb typ "tm1" && String.eqb sub LEAF)%bool then RBody "eyJ" else RFail.
Definition keep_call (s : Z) : call := Call keep_env (keep_ask (at_second s)) (at_second s).
Definition keep_config : mconfig :=
  MConfig "tm1" IM false (MarkSpec "" 0 "" "" [] false "") "" false (at_second 450) 0 zero_time zero_time "" "" None.
Definition keep_start : mconfig :=
  MConfig "tm1" IM false (MarkSpec "" 0 "" "" [] false "") "" true (at_second 450) (at_second 3600) zero_time zero_time LEAF "" None.
Definition keep_now : mconfig :=
  MConfig "tm1" IM false (MarkSpec "" 0 "" "" [] false "") "eyJ" true (at_second 450) (at_second 3600) (at_second 690) (at_second 90) LEAF "" None.

Lemma mark_made : made n0 p_im "tm1" LEAF "dlg" (at_second 90) (at_second 600) "eyJ".
Proof.
  exists (signs_only typ_mark mark_doc "eyJ"), (new_issuer [fed_spec]), fed_spec, None, fed_mark. split; [apply signs_im|]. split; [constructor|].
  split; [reflexivity|]. split; [split; [repeat constructor; intros []|]|].
  { intros k [<-|[]]. vm_compute. intros X; repeat destruct X as [X|X]; try discriminate X; exact X. }
  split; [reflexivity|]. split; [vm_compute; reflexivity|]. split; reflexivity.
Qed.
Lemma im_configures : configures p_im im_read.
Proof.
  destruct (published_read n0 [] p_im c_im (sound_im _) (publishes_im _ _)) as (e & G & R & _). exists (at_second 110), [], [].
  assert (E : w_config (seen n0) [] (pa_id p_im) = Some im_read) by (vm_compute; reflexivity). rewrite E in G. injection G as ->. exact R.
Qed.
Lemma keep_good s : (0 <= s <= 1000)%Z -> good_call n0 p_leaf p_im "dlg" "" (mc_min keep_start) keep_config (keep_call s).
Proof.
  intros B. split; [unfold SpecTrustMark.in_range, keep_call, at_second; cbn [ca_now]; lia|]. cbn [mc_self keep_config]. split.
  - reflexivity.
  - intros st. cbn. intros [= <-]. apply im_configures.
  - intros ep typ jwt _ H. cbn [ca_ask keep_call] in H. unfold keep_ask in H. destruct (Z.eqb_spec (at_second s) (at_second 90)) as [E|]; [|discriminate].
    destruct (String.eqb ep _); [|discriminate]. destruct (String.eqb_spec typ "tm1") as [->|]; [|discriminate]. cbn [andb] in H.
    destruct (String.eqb (pa_id p_leaf) LEAF); [|discriminate]. injection H as <-. cbn [ca_now keep_call]. rewrite E. exists (at_second 600). split; [apply mark_made|].
    split; [unfold SpecTrustMark.in_range, at_second; lia|]. intros _. unfold SpecTrustMark.in_range, at_second. cbn [mc_min keep_start]. unfold at_second. lia.
Qed.
Lemma keep_history : kept (good_call n0 p_leaf p_im "dlg" "" (mc_min keep_start) keep_config) keep_start (at_second 90) keep_now.
Proof.
  assert (E : keep_now = snd (mark_jwt (ca_env (keep_call 90)) (ca_ask (keep_call 90)) (ca_now (keep_call 90))
                              (snd (mark_jwt (ca_env (keep_call 20)) (ca_ask (keep_call 20)) (ca_now (keep_call 20)) keep_start)))) by (vm_compute; reflexivity).
  rewrite E. change (at_second 90) with (ca_now (keep_call 90)). eapply kept_call; [|apply keep_good; lia|].
  - apply kept_call with (t := 0%Z); [apply kept_new|apply keep_good; lia|]. unfold keep_call, at_second. cbn. lia.
  - unfold keep_call, at_second. cbn. lia.
Qed.
Lemma c141_case : member member_env (fun _ _ => n0) /\ configures p_ta ta_read /\ belongs n0 p_ta p_im /\ may_issue n0 p_ta p_im "tm1" "dlg" (te_now member_env [] true) /\
  asks_for p_im keep_config /\ verify_mconfig (fun _ => None) (pa_id p_leaf) "" None keep_config = Ok keep_start /\
  let good := good_call n0 p_leaf p_im "dlg" "" (mc_min keep_start) keep_config in
  kept good keep_start (at_second 90) keep_now /\ good (keep_call 95) /\
  mark_jwt (ca_env (keep_call 95)) (ca_ask (keep_call 95)) (ca_now (keep_call 95)) keep_now = (Ok "eyJ", keep_now) /\
  (at_second 95 + 1500 <= te_now member_env [] false <= at_second 95 + mc_min keep_start - 3000)%Z /\
  verify_mark 4 member_env [] (Info "tm1" "eyJ" [] None) ta_read = Done (Ok tt).
Proof.
  split; [apply the_member|]. split; [apply (ta_configures []); vm_compute; reflexivity|]. split; [right; apply im_below|]. split; [apply im_may|].
  split; [split; reflexivity|]. split; [vm_compute; reflexivity|]. cbv zeta. split; [apply keep_history|]. split; [apply keep_good; lia|].
  split; [vm_compute; reflexivity|]. split; [|vm_compute; reflexivity]. cbn [te_now member_env mc_min keep_start]. unfold at_second. lia.
Qed.

(** The same for a mark it issues itself. *)
Definition own_config : mconfig := MConfig "tm2" "" true (MarkSpec "" 0 "" "" [] false "") "" false 0 0 zero_time zero_time "" "" None.
Definition own_sign := signs_only typ_mark own_doc "own".
Definition own_start : mconfig :=
  MConfig "tm2" "" true (MarkSpec "tm2" 0 "" "" [] false "") "" true (at_second 10) (at_second 3600) zero_time zero_time IM ""
          (Some (OwnIssuer IM (Some own_sign) (new_issuer [MarkSpec "tm2" 0 "" "" [] false ""]))).
Lemma signs_own : signs n0 (pa_signer p_im) own_sign.
Proof.
  intros typ j jwt H. unfold own_sign, signs_only in H. destruct (String.eqb typ typ_mark) eqn:E; [|discriminate]. destruct (obj_eqb j own_doc) eqn:E2; [|discriminate].
  injection H as <-. apply String.eqb_eq in E. apply obj_eqb_eq in E2. subst. eexists. split; [reflexivity|]. reflexivity.
Qed.
Definition late_env : env :=
  Env LocalR (fun _ _ => seen n0) (fun _ _ => None) (fun _ _ _ => ATransport) (fun _ _ => at_second 95) (read_jwt (nw_crypto n0))
      (fun jwt => ok_or_none (parse_statement (read_jwt (nw_crypto n0)) kc_texts jwt)) no_remote (verify_raw n0) (fun _ => []).
Lemma c141_own_case : member late_env (fun _ _ => n0) /\ may_issue n0 p_ta p_im "tm2" "" (te_now late_env [] true) /\ makes_own n0 p_im p_im "" (Some own_sign) own_config /\
  exists c1, verify_mconfig (fun _ => None) (pa_id p_im) "" (Some own_sign) own_config = Ok c1 /\
  good_call n0 p_im p_im "" "" (mc_min c1) own_config (keep_call 90) /\
  fst (mark_jwt (ca_env (keep_call 90)) (ca_ask (keep_call 90)) (ca_now (keep_call 90)) c1) = Ok "own" /\
  (at_second 90 + 1500 <= te_now late_env [] false <= at_second 90 + mc_min c1 - 3000)%Z.
Proof.
  split; [split; intros; reflexivity|]. split; [split; intros; discriminate|].
  split; [split; [reflexivity|]; split; [reflexivity|]; split; [reflexivity|]; split; [split; [constructor|intros k []]|]; exists own_sign; split; [reflexivity|apply signs_own]|].
  exists own_start. split; [reflexivity|]. split; [split; [unfold SpecTrustMark.in_range, at_second; cbn; lia|]; split; [unfold SpecTrustMark.in_range, at_second; cbn; lia|]; cbn; intros []; reflexivity|].
  split; [vm_compute; reflexivity|]. cbn [te_now late_env mc_min own_start]. unfold at_second. lia.
Qed.
Lemma c141_reported_case : sound_participant n0 p_leaf /\ publishes n0 [] p_leaf c_leaf /\ pa_id p_leaf <> pa_id p_ta /\ pa_hints p_leaf <> [] /\
  (forall q s, w_config (seen n0) q (pa_id p_ta) = Some s -> configures p_ta s) /\ nth_error (st_marks (sp_claims c_leaf)) 0 = Some ("tm1", "eyJ") /\
  (at_second 95 + 1500 <= te_now member_env [0%nat] false <= at_second 95 + mc_min keep_start - 3000)%Z /\
  exists pl, resolve_payload 5 member_env LocalR [] (Req LEAF [TA] []) = Done (Ok pl) /\ map (fun t => (ti_type t, ti_jwt t)) (pl_marks pl) = [("tm1", "eyJ")].
Proof.
  destruct c136_reported_case as (A & B & C & D & E & F & _ & _ & pl & G & H & _). do 6 (split; [assumption|]). split; [|eauto].
  cbn [te_now member_env mc_min keep_start]. unfold at_second. lia.
Qed.
