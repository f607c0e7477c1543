(** The marks a member keeps are accepted by the others. *)
From Coq Require Import QArith Lia.
From Verif Require Import Base BaseFacts GoVal Policy Schema Metadata SpecMetadata Chain Resolver SpecResolver SpecTime FloatTime FloatFacts
  Json SpecJson JsonFacts TrustMark SpecTrustMark TrustMarkFacts TrustMarkLaws Refresher Leaf Config SpecConfig ConfigFacts Jwt SpecJwt Statement Encode SpecEncode EncodeFacts EncodeLaws
  Federation SpecFederation FederationFacts SpecFedMark FedMarkFacts Discovery SpecDiscovery FedCollectFacts SpecFedKeep.
From Verif Require Import SpecEncode GoVal.
Local Open Scope nat_scope.
Local Open Scope string_scope.

(** ** The endpoint that is asked *)
Lemma mark_endpoint_read y s : metadata_ok (pa_metadata y) -> configures y s -> mark_endpoint s <> "" ->
  exists fe, md_fe (pa_metadata y) = Some fe /\ em_tag "federation_trust_mark_endpoint" fe = Some (VStr (mark_endpoint s)).
Proof.
  intros O (t & marks & extra & R) N. pose proof (sr_metadata _ _ R) as B. cbn in B. unfold mark_endpoint in *.
  destruct (st_metadata s) as [m'|]; [|contradiction]. pose proof (mr_fe _ _ B) as F.
  destruct (md_fe m') as [fe'|]; [|contradiction]. destruct (md_fe (pa_metadata y)) as [fe|] eqn:E; [|contradiction]. cbn in F. exists fe. split; [reflexivity|].
  assert (P : forallb (paired "FederationTrustMarkEndpoint" "federation_trust_mark_endpoint") fe_schema = true) by (vm_compute; reflexivity).
  pose proof (eo_rows _ _ (mo_fe _ O _ E)) as ER.
  assert (T : field_str "FederationTrustMarkEndpoint" fe' = field_str "FederationTrustMarkEndpoint" fe) by (eapply text_read; eauto; discriminate).
  unfold field_str in T. rewrite T in *. rewrite (get_tag _ "federation_trust_mark_endpoint") in * by now rewrite ER.
  destruct (em_tag _ fe) as [v|]; [|contradiction]. destruct v; cbn [str_of] in *; try contradiction. reflexivity.
Qed.

(** ** The expiration that is kept *)
Definition expires (at_ : time) (life : Z) (x : time) : Prop :=
  (life = 0%Z -> x = zero_time) /\ (life <> 0%Z -> (x <= at_ + life + 1500)%Z).
Lemma made_expires n e y typ sub dj at_ life least jwt m : (forall jwt, te_parse e jwt = read_jwt (nw_crypto n) jwt) -> made n y typ sub dj at_ life jwt ->
  lasting least at_ life -> is_mark e jwt m -> expires at_ life (match mk_exp m with Some x => x | None => zero_time end).
Proof.
  intros P (sign & specs & spec & lf & t & S & IS & L & NC & D & I & J & LF) (_ & LL) IM.
  set (e' := with_verify e (fun _ ks => mem "k" ks)).
  assert (SG : signer e' sign "k").
  { intros ty j jw E. split; [cbn; rewrite P; eapply signs_read; eauto|]. intros ks. cbn. apply mem_In. }
  destruct (issued_mark e' sign "k" _ _ _ _ _ _ _ _ SG IS L NC I) as (m' & IM' & _ & _ & _ & _ & _ & E6 & _).
  rewrite J in IM'. apply parse_mark_spec in IM. change (is_mark e jwt m') in IM'. apply parse_mark_spec in IM'.
  rewrite IM in IM'. injection IM' as ->. rewrite E6, <- LF. split; intros Z.
  - subst life. rewrite Z. reflexivity.
  - destruct (LL Z) as [_ R]. apply Z.eqb_neq in Z. rewrite Z. cbn [option_map]. destruct (json_time_close _ R) as [C _]. lia.
Qed.

(** ** One call *)
Lemma asked_remote e ask now c j z : obtain e ask now c = Ok (j, z) -> mc_self c = false ->
  exists ep m, (mc_issuer c = mc_sub c /\ ep = mc_endpoint c \/
                mc_issuer c <> mc_sub c /\ exists ec, te_config e [] (mc_issuer c) = Some ec /\ ep = mark_endpoint ec /\ ep <> "") /\
    ask ep (mc_type c) (mc_sub c) = RBody j /\ is_mark e j m /\ z = match mk_exp m with Some t => t | None => zero_time end.
Proof.
  intros O S. unfold obtain in O. rewrite S in O. apply bind_ok in O as [ep [E O]].
  destruct (ask ep (mc_type c) (mc_sub c)) as [|body] eqn:A; [discriminate|].
  apply bind_ok in O as [m [P O]]. injection O as <- <-. exists ep, m. repeat split; [|exact A|now apply parse_mark_spec].
  destruct (String.eqb_spec (mc_issuer c) (mc_sub c)) as [Q|Q]; [injection E as <-; now left|].
  right. split; [exact Q|]. destruct (te_config e [] (mc_issuer c)) as [ec|]; [|discriminate]. exists ec.
  destruct (String.eqb_spec (mark_endpoint ec) "") as [Z|Z]; [discriminate|]. injection E as <-. auto.
Qed.
Section Kept.
Variables (n : Federation.network) (x y : participant) (dj own : string) (parse : string -> option (option time * string * option string)) (sign : option (string -> json -> option string)) (c c1 : mconfig).
Hypothesis O : metadata_ok (pa_metadata y).
Hypothesis W : asks_for y c \/ makes_own n x y dj sign c.
Hypothesis J0 : mc_jwt c = "".
Hypothesis V : verify_mconfig parse (pa_id x) own sign c = Ok c1.
Let good := good_call n x y dj own (mc_min c1) c.
Definition has_mark (t : time) (c2 : mconfig) : Prop :=
  exists at_ life, made n y (mc_type c) (pa_id x) dj at_ life (mc_jwt c2) /\ lasting (mc_min c1) at_ life /\ (at_ <= t)%Z /\ expires at_ life (mc_exp c2).

Definition same_settings (c c' : mconfig) : Prop := mc_self c' = mc_self c /\ mc_own c' = mc_own c /\ mc_type c' = mc_type c /\
  mc_sub c' = mc_sub c /\ mc_issuer c' = mc_issuer c /\ mc_endpoint c' = mc_endpoint c /\ mc_refresh c' = mc_refresh c /\ mc_min c' = mc_min c.
Lemma kept_same t c2 : kept good c1 t c2 -> same_settings c1 c2.
Proof.
  assert (TR : forall a b d, same_settings a b -> same_settings b d -> same_settings a d).
  { intros a b d (A1&A2&A3&A4&A5&A6&A7&A8) (B1&B2&B3&B4&B5&B6&B7&B8). repeat split; congruence. }
  induction 1 as [|t c' k K IH G T|t c' k K IH G T]; [repeat split| |]; (eapply TR; [exact IH|]).
  - unfold mark_jwt. destruct (negb (mc_refresh c')); [repeat split|]. destruct (_ && _)%bool; [repeat split|]. destruct (Z.ltb _ minute); [repeat split|].
    destruct (obtain _ _ _ c') as [[j z]| |]; repeat split.
  - unfold background. destruct (Z.ltb _ minute); [repeat split|]. destruct (obtain _ _ _ c') as [[j z]| |]; repeat split.
Qed.
Lemma obtained_made c2 k j z : same_settings c1 c2 -> good k -> obtain (ca_env k) (ca_ask k) (ca_now k) c2 = Ok (j, z) ->
  exists life, made n y (mc_type c) (pa_id x) dj (ca_now k) life j /\ lasting (mc_min c1) (ca_now k) life /\ expires (ca_now k) life z.
Proof.
  intros (S1&S2&S3&S4&S5&S6&_) (R & G) B.
  destruct (verified_fields _ _ _ _ _ _ V) as (F1&F2&F3&F4&_). destruct (F4 J0) as (T1&_&T2&Is&Ow).
  destruct W as [[Se Ei]|(Se & Ey & Ed & NC & sg & Esg & SS)]; rewrite Se in G.
  - destruct (asked_remote _ _ _ _ _ _ B) as (ep & m & E & A & IM & ->); [congruence|].
    destruct (Is Se) as [EI _]. rewrite S3, T1, S4, F1 in A. rewrite S5, EI, Ei, S4, F1, S6, F2 in E. destruct G as [GP GC GM].
    assert (AD : mark_address x y own ep).
    { destruct E as [[Q ->]|(Q & ec & HC & -> & NE)]; [left; auto|]. right. split; [exact Q|]. split; [exact NE|]. apply mark_endpoint_read; auto. }
    destruct (GM _ _ _ AD A) as (life & M & LL). exists life. split; [exact M|]. split; [exact LL|]. eapply made_expires; eauto.
  - subst y dj. specialize (Ow Se). rewrite Esg in Ow. exists (ms_lifetime (mc_spec c)).
    unfold obtain in B. rewrite S1, F3, Se, S2, Ow in B. cbn [is_sign is_entity is_specs] in B. rewrite S3, T1, S4, F1 in B.
    apply bind_ok in B as (t & I & B). injection B as <- <-. set (spec := set_type (mc_type c) (mc_spec c)) in *.
    assert (L : lookup (mc_type c) (new_issuer [spec]) = Some spec) by (unfold new_issuer; cbn; now rewrite String.eqb_refl).
    split; [|split; [exact G|]].
    + exists sg, (new_issuer [spec]), spec, None, t. split; [exact SS|]. split; [constructor|]. split; [exact L|]. split; [exact NC|]. split; [reflexivity|]. split; [exact I|]. split; reflexivity.
    + unfold issue_mark in I. rewrite L in I. apply bind_ok in I as (jw & _ & [= <-]). cbn [ti_mark mk_exp]. change (ms_lifetime spec) with (ms_lifetime (mc_spec c)).
      split; intros Z; [rewrite Z; reflexivity|]. apply Z.eqb_neq in Z. rewrite Z. lia.
Qed.
Lemma kept_has t c2 : kept good c1 t c2 -> mc_jwt c2 = "" \/ has_mark t c2.
Proof.
  induction 1 as [t|t c' k K IH G T|t c' k K IH G T].
  - left. unfold verify_mconfig in V. rewrite J0 in V. cbn in V. destruct (mc_self c).
    + destruct (String.eqb (mc_type c) ""); [discriminate|]. clear -V. injection V as <-. reflexivity.
    + destruct (_ || _)%bool; [discriminate|]. clear -V. injection V as <-. reflexivity.
  - assert (IH' : mc_jwt c' = "" \/ has_mark (ca_now k) c').
    { destruct IH as [IH|(at_ & life & M & LL & B & E)]; [now left|right]. exists at_, life. split; [exact M|]. split; [exact LL|]. split; [lia|exact E]. }
    unfold mark_jwt. destruct (negb (mc_refresh c')); [exact IH'|]. destruct (_ && _)%bool; [exact IH'|]. destruct (Z.ltb _ minute); [exact IH'|].
    destruct (obtain _ _ _ c') as [[j z]| |] eqn:B; [|exact IH'|exact IH']. right. cbn [snd set_mark].
    destruct (obtained_made c' k j z (kept_same _ _ K) G B) as (life & M & LL & E). exists (ca_now k), life. split; [exact M|]. split; [exact LL|]. split; [lia|exact E].
  - assert (IH' : mc_jwt c' = "" \/ has_mark (ca_now k) c').
    { destruct IH as [IH|(at_ & life & M & LL & B & E)]; [now left|right]. exists at_, life. split; [exact M|]. split; [exact LL|]. split; [lia|exact E]. }
    unfold background. destruct (Z.ltb _ minute); [exact IH'|].
    destruct (obtain _ _ _ c') as [[j z]| |] eqn:B; [|exact IH'|exact IH']. right. cbn [set_mark].
    destruct (obtained_made c' k j z (kept_same _ _ K) G B) as (life & M & LL & E). exists (ca_now k), life. split; [exact M|]. split; [exact LL|]. split; [lia|exact E].
Qed.

(** What a call returns is in force until the minimal lifetime has passed. *)
Lemma kept_issues t c2 k j c3 now : (0 <= mc_min c1)%Z -> kept good c1 t c2 -> good k -> (t <= ca_now k)%Z -> mark_jwt (ca_env k) (ca_ask k) (ca_now k) c2 = (Ok j, c3) ->
  (ca_now k + 1500 <= now <= ca_now k + mc_min c1 - 3000)%Z -> exists i, issues n y (mc_type c) (pa_id x) dj now i /\ ti_jwt i = j.
Proof.
  intros MM K G T B N.
  assert (H : exists at_ life, made n y (mc_type c) (pa_id x) dj at_ life j /\ lasting (mc_min c1) at_ life /\ (at_ <= ca_now k)%Z /\ (life <> 0 -> now <= at_ + life - 1500)%Z).
  { pose proof (kept_same _ _ K) as U. destruct U as (_&_&_&_&_&_&S7&EM).
    destruct (verified_fields _ _ _ _ _ _ V) as (_&_&_&F4&_). destruct (F4 J0) as (_&RF&_).
    unfold mark_jwt in B. rewrite S7, RF in B. cbn [negb] in B. rewrite EM in B.
    destruct (String.eqb_spec (mc_jwt c2) "") as [Z|Z]; cbn [negb andb] in B;
      [|destruct (Z.ltb_spec (mc_min c1) (until (mc_exp c2) (ca_now k))) as [LT|LT]].
    2:{ injection B as <- <-. destruct (kept_has _ _ K) as [Z'|(at_ & life & M & LL & A & X0 & X1)]; [contradiction|].
        exists at_, life. split; [exact M|]. split; [exact LL|]. split; [lia|]. intros NZ. specialize (X1 NZ).
        unfold until, sat in LT. lia. }
    1,2: destruct (Z.ltb _ minute); [discriminate|]; destruct (obtain _ _ _ c2) as [[j' z]| |] eqn:OB; [|discriminate|discriminate]; injection B as <- <-;
      destruct (obtained_made c2 k j' z (kept_same _ _ K) G OB) as (life & M & LL & E); exists (ca_now k), life; split; [exact M|]; split; [exact LL|]; split; [lia|];
      intros NZ; destruct LL as [_ LL]; destruct (LL NZ); lia. }
  destruct H as (at_ & life & (sg & specs & spec & lf & i & S & IS & L & NC & D & I & J & LF) & (R & LL) & A & X).
  exists i. split; [|exact J]. exists sg, specs, spec, at_, lf. do 6 (split; [assumption|]). cbv zeta. rewrite <- LF.
  split; [exact R|]. split; [lia|]. intros u. destruct (Z.eqb_spec life 0) as [Z|Z]; [discriminate|]. intros [= <-]. destruct (LL Z). split; [assumption|]. now apply X.
Qed.
End Kept.

Lemma belongs_metadata n a y : belongs n a y -> metadata_ok (pa_metadata y).
Proof. intros [[-> S]|(c & ss & fuel & cs & _ & _ & S & _)]; apply (so_metadata _ _ S). Qed.

Theorem kept_accepted e net p a x y ta dj parse own sign c c1 t c2 k j c3 : member e net -> configures a ta ->
  let n := net p (Req (pa_id y) [pa_id a] []) in
  belongs n a y -> may_issue n a y (mc_type c) dj (te_now e p true) ->
  asks_for y c \/ makes_own n x y dj sign c -> mc_jwt c = "" -> verify_mconfig parse (pa_id x) own sign c = Ok c1 ->
  let good := good_call n x y dj own (mc_min c1) c in
  kept good c1 t c2 -> good k -> (t <= ca_now k)%Z -> mark_jwt (ca_env k) (ca_ask k) (ca_now k) c2 = (Ok j, c3) ->
  (ca_now k + 1500 <= te_now e p false <= ca_now k + mc_min c1 - 3000)%Z ->
  exists fuel, verify_mark fuel e p (Info (mc_type c) j [] None) ta = Done (Ok tt).
Proof.
  intros M C n B MI W J V good K G T E N.
  destruct (kept_issues n x y dj own parse sign c c1 (belongs_metadata _ _ _ B) W J V t c2 k j c3 (te_now e p false)) as (i & I & EJ); auto; [lia|].
  apply (federation_carried e net p a y ta (mc_type c) (pa_id x) dj i); auto.
Qed.

Theorem kept_reported e net p a x y dj parse own sign c c1 t c2 k j c3 d i fuel pl : member e net ->
  let n := net p (Req (pa_id x) [pa_id a] []) in
  sound_participant n x -> publishes n [] x d -> pa_id x <> pa_id a -> pa_hints x <> [] ->
  (forall q s, w_config (seen n) q (pa_id a) = Some s -> configures a s) ->
  nth_error (st_marks (sp_claims d)) i = Some (mc_type c, j) ->
  let n' := net (i :: p) (Req (pa_id y) [pa_id a] []) in
  belongs n' a y -> may_issue n' a y (mc_type c) dj (te_now e (i :: p) true) ->
  asks_for y c \/ makes_own n' x y dj sign c -> mc_jwt c = "" -> verify_mconfig parse (pa_id x) own sign c = Ok c1 ->
  let good := good_call n' x y dj own (mc_min c1) c in
  kept good c1 t c2 -> good k -> (t <= ca_now k)%Z -> mark_jwt (ca_env k) (ca_ask k) (ca_now k) c2 = (Ok j, c3) ->
  (ca_now k + 1500 <= te_now e (i :: p) false <= ca_now k + mc_min c1 - 3000)%Z ->
  resolve_payload fuel e LocalR p (Req (pa_id x) [pa_id a] []) = Done (Ok pl) ->
  exists t', In t' (pl_marks pl) /\ ti_type t' = mc_type c /\ ti_jwt t' = j.
Proof.
  intros M n S P NA NH AC NT n' B MI W J V good K G T E N R.
  destruct (kept_issues n' x y dj own parse sign c c1 (belongs_metadata _ _ _ B) W J V t c2 k j c3 (te_now e (i :: p) false)) as (m & I & EJ); auto; [lia|].
  eapply (federation_reported e net p a x d i (mc_type c) j y (pa_id x) dj m); eauto.
Qed.
