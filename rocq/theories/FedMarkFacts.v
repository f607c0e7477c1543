(** Trust marks issued in a federation are accepted there. *)
From Coq Require Import QArith Lia Permutation.
From Verif Require Import Base BaseFacts GoVal Policy Schema Metadata SpecMetadata Chain Resolver SpecResolver ResolverFacts ResolverLaws SpecChain FloatTime SpecTime
  Json SpecJson JsonFacts TrustMark SpecTrustMark TrustMarkFacts TrustMarkLaws Refresher Leaf Config Jwt SpecJwt Statement StatementFacts
  Encode SpecEncode EncodeFacts EncodeLaws Federation SpecFederation FederationFacts SpecFedMark.
From Verif Require Import SpecEncode Json.
Local Open Scope nat_scope.
Local Open Scope string_scope.

(** ** Signatures *)
Lemma signs_read n s sign typ j jwt : signs n s sign -> sign typ j = Some jwt -> read_jwt (nw_crypto n) jwt = Some (typ, j).
Proof.
  intros S E. destruct (S _ _ _ E) as (m & G & P). unfold general_jwt in G. destruct (js_key s) as [key|]; [|discriminate]. cbn [bind] in G.
  unfold sign_with_type, sign_payload in G. destruct (cx_sign _ _ _); [|discriminate]. injection G as <-. unfold read_jwt. rewrite P. reflexivity.
Qed.
Lemma signs_verify n s sign typ j jwt ks : signs n s sign -> sign typ j = Some jwt -> signer_jwks (nw_crypto n) s = Ok (nw_keys n ks) ->
  verify_raw n jwt ks = true.
Proof.
  intros S E K. destruct (S _ _ _ E) as (m & G & P). unfold verify_raw. rewrite P. unfold general_jwt in G. unfold signer_jwks in K.
  destruct (js_key s) as [key|]; [|discriminate]. cbn [bind] in G. injection K as <-. unfold sign_with_type, sign_payload in G.
  destruct (cx_sign _ _ _); [|discriminate]. injection G as <-.
  cbn [verify_message key_to_jwks ms_sigs ms_payload verify_sigs_any select_key sg_kid find jk_kid].
  rewrite String.eqb_refl. unfold key_fits. cbn [jk_use jk_alg sg_alg sg_by jk_pub]. now rewrite !String.eqb_refl.
Qed.

(** ** Times *)
Lemma alive_live now from until : alive now from until -> live now (json_time from) (option_map json_time until).
Proof.
  intros (R & A & U). destruct (json_time_close _ R) as [C Z]. unfold live. rewrite (present_some _ Z). split; [intros x [= <-]; lia|].
  destruct until as [u|]; cbn [option_map]; [|discriminate]. destruct (U u eq_refl) as [RU B]. destruct (json_time_close _ RU) as [CU ZU].
  rewrite (present_some _ ZU). intros x [= <-]. lia.
Qed.

(** ** The mark *)
Lemma issues_mark n e y typ sub dj now t : (forall jwt, te_parse e jwt = read_jwt (nw_crypto n) jwt) -> issues n y typ sub dj now t ->
  exists m, is_mark e (ti_jwt t) m /\ mk_iss m = pa_id y /\ mk_type m = typ /\ ti_type t = typ /\ mk_deleg m = dj /\
    live now (mk_iat m) (mk_exp m) /\ in_sync e t /\
    (forall ks, signer_jwks (nw_crypto n) (pa_signer y) = Ok (nw_keys n ks) -> verify_raw n (ti_jwt t) ks = true).
Proof.
  intros P (sign & specs & spec & at_ & lf & S & IS & L & NC & D & I & A).
  set (e' := with_verify e (fun _ ks => mem "k" ks)).
  assert (SG : signer e' sign "k").
  { intros ty j jwt E. split; [cbn; rewrite P; eapply signs_read; eauto|]. intros ks. cbn. apply mem_In. }
  destruct (issued_mark e' sign "k" _ _ _ _ _ _ _ _ SG IS L NC I) as (m & IM & E1 & _ & E3 & E4 & E5 & E6 & E7 & _ & SY & _).
  exists m. split; [exact IM|]. do 3 (split; [assumption|]). split; [congruence|]. split.
  - rewrite E5, E6. apply alive_live in A. destruct (Z.eqb _ 0); exact A.
  - split; [exact SY|]. intros ks K. unfold issue_mark in I. rewrite L in I. apply bind_ok in I as (jwt & SM & [= <-]). cbn [ti_jwt].
    unfold sign_mark in SM. destruct (sign typ_mark _) as [j|] eqn:ES; [|discriminate]. injection SM as ->. eapply signs_verify; eauto.
Qed.

(** ** The delegation *)
Lemma owner_specs_id m : owner_specs m -> forall typ spec, lookup typ m = Some spec -> ow_id spec = typ.
Proof.
  assert (P : forall s m, (forall typ spec, lookup typ m = Some spec -> ow_id spec = typ) ->
                          forall typ spec, lookup typ (insert (ow_id s) s m) = Some spec -> ow_id spec = typ).
  { intros s m0 H typ spec. rewrite lookup_insert. destruct (String.eqb_spec typ (ow_id s)); [now intros [= <-]|apply H]. }
  induction 1 as [l|s m _ IH].
  - unfold new_owner. assert (Q : forall m, (forall typ spec, lookup typ m = Some spec -> ow_id spec = typ) ->
      forall typ spec, lookup typ (fold_left (fun m s => insert (ow_id s) s m) l m) = Some spec -> ow_id spec = typ).
    { induction l as [|s l IH]; intros m0 H; cbn [fold_left]; [exact H|]. apply IH. now apply P. }
    apply Q. discriminate.
  - now apply P.
Qed.
Lemma consents_delegated n e p m o ks dj y : (forall jwt, te_parse e jwt = read_jwt (nw_crypto n) jwt) -> (forall jwt ks, te_verify e jwt ks = verify_raw n jwt ks) ->
  consents n o ks (mk_type m) dj y (te_now e p true) -> mk_deleg m = dj -> mk_iss m = pa_id y -> delegated e p m (o, ks).
Proof.
  intros P V (ND & s & k & l & sign & specs & spec & at_ & lf & -> & K & S & OS & L & NC & D & A) <- EI. split; [exact ND|].
  unfold delegate in D. rewrite L in D. unfold sign_delegation in D. set (d := Deleg _ _ _ _ _ _ _ _) in D.
  destruct (sign typ_delegation _) as [j|] eqn:ES; [|discriminate]. injection D as D.
  set (until := if Z.eqb (ow_lifetime spec) 0 then None else Some (at_ + match lf with Some l => l | None => ow_lifetime spec end)%Z) in *.
  exists (Deleg o (pa_id y) (ow_id spec) (json_time at_) (option_map json_time until) (ow_ref spec) (ow_extra spec) (Some (mk_deleg m))).
  cbn [dg_type dg_sub dg_iss dg_iat dg_exp fst snd]. split; [|split; [|split; [|split; [|split]]]].
  - eexists. split; [rewrite P, <- D; eapply signs_read; eauto|]. split; [|reflexivity]. apply marshal_becomes.
    + apply types_distinct. cbn. tauto.
    + unfold d, deleg_values, delegation_fields. cbn [dg_iss dg_sub dg_type dg_iat dg_exp dg_ref dg_extra].
      repeat (constructor; [first [apply str_becomes|apply time_becomes|apply time_ptr_becomes]|]). constructor.
    + exact NC.
  - eapply owner_specs_id; eauto.
  - congruence.
  - reflexivity.
  - now apply alive_live.
  - exists k, l. split; [reflexivity|]. rewrite V, <- D. eapply signs_verify; eauto.
Qed.

(** ** Acceptance *)
Lemma member_decodes e net p rq : member e net -> decodes e (te_world e p rq).
Proof.
  intros M q a s. rewrite (me_world _ _ M). cbn [seen world_of w_config]. destruct (nw_config (net p rq) q a) as [jwt|]; [|discriminate].
  intros E. rewrite (me_stmt _ _ M p rq). destruct (parse_statement _ _ jwt) as [st| |] eqn:D; try discriminate. injection E as <-.
  assert (J : st_jwt st = jwt).
  { unfold parse_statement in D. destruct (read_jwt _ jwt) as [[ty j]|]; [|discriminate]. destruct (negb _); [discriminate|]. 
    unfold dec_statement in D. apply bind_ok in D as ([vs x] & _ & D). injection D as <-. reflexivity. }
  rewrite J, D. reflexivity.
Qed.
Lemma belongs_keys e net p a y ta : member e net -> configures a ta -> belongs (net p (Req (pa_id y) [pa_id a] [])) a y ->
  let n := net p (Req (pa_id y) [pa_id a] []) in
  chain_keys (fun _ => True) e p (pa_id y) ta (Some (pa_keys y)) /\ pa_keys y <> [] /\ signer_jwks (nw_crypto n) (pa_signer y) = Ok (nw_keys n (pa_keys y)).
Proof.
  intros M (t & marks & extra & R) B n. pose proof (sr_sub _ _ R) as ES. pose proof (sr_jwks _ _ R) as EK. cbn in ES, EK.
  destruct B as [[-> S]|(c & ss & fuel & cs & NI & NA & S & P & L & AP & RV)].
  - split; [left; rewrite ES, EK; auto|]. split; [apply (so_some _ _ S)|apply (so_keys _ _ S)].
  - split; [|split; [apply (so_some _ _ S)|apply (so_keys _ _ S)]]. right. split; [now rewrite ES|].
    assert (NE : ss <> []).
    { intros ->. inversion L as [? ? ? T|]; subst. destruct T as (pre & an & post & E & I & _). destruct pre as [|? [|]]; try discriminate E. injection E as <-. cbn in I. congruence. }
    destruct (line_found _ _ y c ss NI S P L NE) as (ec & hs & SC & NH & PU & SU & F & D).
    assert (IN : In (chain_along ec hs) cs). { destruct (AP _ F) as (m & Em). eapply path_returned_valid; eauto. }
    pose proof (so_some _ _ S) as KS. destruct (pa_keys y) as [|k l] eqn:EY; [contradiction|].
    exists ec, (map h_sub hs ++ [top ec hs])%list, k, l. split; [|rewrite (de_keys _ _ D), EY; auto].
    exists fuel, cs. rewrite (me_world _ _ M). unfold issuer_request. rewrite ES. split; [exact RV|exact IN].
Qed.
(** Also when the mark is carried by another entity. *)
Lemma federation_carried e net p a y ta typ sub dj t t' : member e net -> configures a ta ->
  let n := net p (Req (pa_id y) [pa_id a] []) in
  belongs n a y -> issues n y typ sub dj (te_now e p false) t -> may_issue n a y typ dj (te_now e p true) ->
  ti_jwt t' = ti_jwt t -> ti_type t' = typ -> (t' = t \/ ti_mark t' = None) ->
  exists fuel, verify_mark fuel e p t' ta = Done (Ok tt).
Proof.
  intros M C n B I (AI & AO) EJ ET W. destruct (belongs_keys e net p a y ta M C B) as (CK & NK & SK). fold n in SK.
  pose proof (me_parse _ _ M p (Req (pa_id y) [pa_id a] [])) as HP. pose proof (me_verify _ _ M p (Req (pa_id y) [pa_id a] [])) as HV. fold n in HP, HV.
  destruct (issues_mark n e y typ sub dj _ t HP I) as (m & IM & E1 & E2 & E3 & E4 & LV & SY & VR).
  destruct C as (tt0 & marks & extra & R). pose proof (sr_issuers _ _ R) as EI. pose proof (sr_owners _ _ R) as EO. cbn in EI, EO.
  apply verify_mark_iff; [apply M| |intros iss; now apply (member_decodes e net)|].
  { destruct W as [-> | W]; [exact SY|]. intros m' j E. congruence. }
  exists m, (Some (pa_keys y)). rewrite E1, E2. split; [exact CK|]. split; [constructor|].
  - now rewrite EJ.
  - congruence.
  - exact LV.
  - destruct (pa_keys y) as [|k l] eqn:EK; [contradiction|]. exists k, l. split; [reflexivity|]. rewrite HV, EJ. now apply VR.
  - intros [o ks] EL. rewrite EO in EL. eapply consents_delegated; eauto. rewrite E2. now apply AO.
  - intros l EL. rewrite EI in EL. now apply AI.
Qed.
Theorem federation_mark e net p a y ta typ sub dj t : member e net -> configures a ta ->
  let n := net p (Req (pa_id y) [pa_id a] []) in
  belongs n a y -> issues n y typ sub dj (te_now e p false) t -> may_issue n a y typ dj (te_now e p true) ->
  exists fuel, verify_mark fuel e p t ta = Done (Ok tt).
Proof.
  intros M C n B I A. eapply federation_carried; eauto.
  destruct (issues_mark n e y typ sub dj _ t (me_parse _ _ M p _) I) as (m & _ & _ & _ & E & _). exact E.
Qed.

(** ** Reported marks *)
Lemma issuer_keys_det f f' e p iss ta r r' : te_default e = LocalR ->
  issuer_keys f e p iss ta = Done r -> issuer_keys f' e p iss ta = Done r' -> r = r'.
Proof.
  intros D. destruct f as [|f]; [discriminate|]. destruct f' as [|f']; [discriminate|]. cbn [issuer_keys]. rewrite D.
  destruct (String.eqb iss (st_sub ta)); [congruence|]. unfold local_plain. cbn [rq_anchors rq_types rq_sub map].
  destruct (resolve_valid f _ _ _ _) as [x|] eqn:E; [|discriminate]. destruct (resolve_valid f' _ _ _ _) as [x'|] eqn:E'; [|discriminate].
  rewrite (resolve_valid_det _ _ _ _ _ _ _ _ E E'). congruence.
Qed.
Lemma verify_mark_det f f' e p t ta r r' : te_default e = LocalR ->
  verify_mark f e p t ta = Done r -> verify_mark f' e p t ta = Done r' -> r = r'.
Proof.
  intros D. unfold verify_mark, info_verify_federation. destruct (info_mark e t) as [[m t']| |]; cbn [fst]; try congruence.
  destruct (negb _); [congruence|]. unfold mark_verify_federation. destruct (match lookup _ (st_mark_issuers ta) with Some l => _ | None => _ end); [congruence|].
  destruct (issuer_keys f e p _ ta) as [x|] eqn:E; [|discriminate]. destruct (issuer_keys f' e p _ ta) as [x'|] eqn:E'; [|discriminate].
  rewrite (issuer_keys_det _ _ _ _ _ _ _ _ D E E'). congruence.
Qed.
Lemma verified_has keys e p ta : forall ts i r k t, verified_federation keys e p i ts ta = Done (Ok r) -> nth_error ts k = Some t ->
  (exists x, fst (info_verify_federation keys e (i + k :: p) t ta) = Done x) /\
  (fst (info_verify_federation keys e (i + k :: p) t ta) = Done (Ok tt) -> exists t', In t' r /\ visible t' = visible t).
Proof.
  induction ts as [|t0 ts IH]; intros i r k t; [now destruct k|]. cbn [verified_federation].
  destruct (info_verify_federation keys e (i :: p) t0 ta) as [[[[]| |]|] t'] eqn:E; try discriminate.
  - intros H Hk. apply rbind_ok in H. destruct H as (r' & H & [= <-]). destruct k as [|k]; cbn [nth_error] in Hk.
    + injection Hk as <-. rewrite Nat.add_0_r, E. cbn [fst]. split; [eauto|]. intros _. exists t'. split; [now left|].
      eapply info_federation_visible; eauto.
    + replace (i + S k) with (S i + k) by lia. destruct (IH _ _ _ _ H Hk) as [A B]. split; [exact A|].
      intros X. destruct (B X) as (t1 & I & V). exists t1. split; [now right|exact V].
  - intros H Hk. destruct k as [|k]; cbn [nth_error] in Hk.
    + injection Hk as <-. rewrite Nat.add_0_r, E. cbn [fst]. split; [eauto|discriminate].
    + replace (i + S k) with (S i + k) by lia. now apply IH.
Qed.
Lemma top_config w tas p e below hs : path_up w tas p e below hs -> hs <> [] ->
  In (st_iss (top e hs)) (anchor_ids tas) /\ exists q, w_config w q (st_iss (top e hs)) = Some (top e hs).
Proof.
  induction 1 as [|p e below i ec s hs _ _ _ HC _ _ _ _ _ _ _ _ PU IH]; intros N; [contradiction|]. cbn [top h_ec].
  destruct hs as [|h hs]; [|now apply IH]. cbn [top]. inversion PU; subst. eauto.
Qed.
Theorem federation_reported e net p a x c k typ jwt y sub dj t fuel pl : member e net ->
  let n := net p (Req (pa_id x) [pa_id a] []) in
  sound_participant n x -> publishes n [] x c -> pa_id x <> pa_id a -> pa_hints x <> [] ->
  (forall q s, w_config (seen n) q (pa_id a) = Some s -> configures a s) ->
  nth_error (st_marks (sp_claims c)) k = Some (typ, jwt) ->
  let n' := net (k :: p) (Req (pa_id y) [pa_id a] []) in
  belongs n' a y -> issues n' y typ sub dj (te_now e (k :: p) false) t -> may_issue n' a y typ dj (te_now e (k :: p) true) -> ti_jwt t = jwt ->
  resolve_payload fuel e LocalR p (Req (pa_id x) [pa_id a] []) = Done (Ok pl) ->
  exists t', In t' (pl_marks pl) /\ ti_type t' = typ /\ ti_jwt t' = jwt.
Proof.
  intros M n S P NA NH AC HK n' B I A EJ H. cbn [resolve_payload] in H. unfold local_payload in H. apply rbind_ok in H.
  destruct H as ([pl' ch] & HP & H). cbn [fst snd] in H. destruct ch as [|leaf r]; [discriminate|].
  apply rbind_ok in H. destruct H as (ms & HV & [= <-]). cbn [pl_marks].
  apply local_plain_ok in HP. destruct HP as (cs & m & r0 & HR & ES & EM & ->).
  assert (IN : In (leaf :: r) cs) by (eapply Permutation_in; [apply (sort_path_len_perm e)|]; rewrite ES; now left).
  rewrite (me_world _ _ M) in HR. fold n in HR. cbn [rq_anchors rq_types rq_sub map] in HR.
  destruct (published_read n [] x c S P) as (ec & GC & RC & _). pose proof (configuration_describes n _ x c ec P RC) as D.
  assert (CF : leaf = ec).
  { destruct (chain_first (seen n) [pa_id a] (pa_id x) (leaf :: r)) as (s & r' & [= <- <-] & EC); [exists fuel, cs; auto|]. congruence. }
  subst leaf.
  assert (TA : configures a (last (ec :: r) ec)).
  { pose proof (valid_returned _ _ _ _ _ _ _ HR IN) as RT. apply returned_root in RT as (e0 & SC & RC0).
    destruct SC as (_ & s0 & m0 & EC0 & EM0 & ->). rewrite EC0 in GC. injection GC as ->. rewrite (start_config_none (seen n) ec m0 EM0) in RC0.
    destruct RC0 as [[_ [X|X]]|(h & hs & PU & _ & E)].
    - cbn in X. destruct X as [X|[]]. rewrite (de_iss _ _ D) in X. congruence.
    - rewrite (de_hints _ _ D) in X. contradiction.
    - rewrite E. unfold chain_along. change (ec :: map h_sub (h :: hs) ++ [top ec (h :: hs)])%list with ((ec :: map h_sub (h :: hs)) ++ [top ec (h :: hs)])%list.
      rewrite last_last. destruct (top_config _ _ _ _ _ _ PU) as (AI & q & W); [discriminate|]. cbn in AI. destruct AI as [AI|[]].
      eapply AC. rewrite AI. exact W. }
  assert (HN : nth_error (infos_of ec) k = Some (Info typ jwt [] None)).
  { unfold infos_of. rewrite (sr_marks _ _ RC). rewrite nth_error_map, HK. reflexivity. }
  destruct (verified_has _ _ _ _ _ _ _ _ _ HV HN) as [(z & Z) W]. cbn [Nat.add] in Z, W.
  destruct (federation_carried e net (k :: p) a y (last (ec :: r) ec) typ sub dj t (Info typ jwt [] None) M TA B I A (eq_sym EJ) eq_refl (or_intror eq_refl)) as (f' & V).
  change (verify_mark fuel e (k :: p) (Info typ jwt [] None) (last (ec :: r) ec) = Done z) in Z.
  pose proof (verify_mark_det _ _ _ _ _ _ _ _ (me_local _ _ M) Z V) as ->. destruct (W Z) as (t' & IT & VT). exists t'. split; [exact IT|]. now injection VT.
Qed.
