(** Laws about signed entity statements. *)
From Coq Require Import QArith Lia.
From Verif Require Import Base BaseFacts GoVal Policy Schema Metadata MetadataFacts SpecMetadata Chain Resolver FloatTime SpecTime Json SpecJson JsonFacts TrustMark Leaf Config SpecConfig.
From Verif Require Import Refresher Jwt SpecJwt JwtFacts SpecDecode DecodeFacts Statement SpecStatement StatementFacts StatementLaws StatementChains Encode SpecEncode EncodeFacts.
From Verif Require Import GoVal.
Local Open Scope nat_scope.
Local Open Scope string_scope.

Lemma signed_message cx kc s p m : sign_statement cx kc s p = Ok m -> exists key, js_key s = Some key /\
  m = Msg (enc_statement kc p) [Sig (Some "entity-statement+jwt") (Some (cx_thumb cx key)) (js_alg s) (Some key)].
Proof.
  unfold sign_statement, typed_jwt, general_jwt. destruct (js_key s) as [key|]; [|discriminate]. cbn [bind]. unfold sign_with_type, sign_payload.
  destruct (cx_sign cx key (js_alg s)); [|discriminate]. intros [= <-]. eauto.
Qed.

Theorem signed_read cx kc s p m jwt ks : sign_statement cx kc s p = Ok m -> cx_parse cx jwt = Some m -> signer_jwks cx s = Ok ks -> payload_ok kc p ->
  (exists st, parse_statement (read_jwt cx) kc jwt = Ok st /\ st_jwt st = jwt /\ statement_read p st) /\ verify_message m (Some ks) = Ok (enc_statement kc p).
Proof.
  intros S P K O. destruct (signed_message _ _ _ _ _ S) as (key & _ & E). split.
  - unfold parse_statement, read_jwt. rewrite P, E. cbn [ms_sigs sg_typ ms_payload negb String.eqb].
    destruct (statement_back kc jwt p O) as (st & D & R & J). exists st. split; [|auto].
    destruct (String.eqb_spec "entity-statement+jwt" "entity-statement+jwt"); [|contradiction]. exact D.
  - unfold sign_statement in S. now destruct (own_accepted cx Jwt.Statement s _ m jwt ks S P K).
Qed.

(** The remaining claims. *)
Lemma enc_fields_claim {V} (fs : list (jfield V)) : forall vs i f v, NoDup (tags fs) -> nth_error fs i = Some f -> nth_error vs i = Some v -> List.length fs = List.length vs ->
  lookup (f_tag f) (enc_fields fs vs) = if f_omit f && c_empty (f_codec f) v then None else Some (c_enc (f_codec f) v).
Proof.
  induction fs as [|g fs IH]; intros [|w vs] i f v N Hf Hv L; try (destruct i; discriminate).
  cbn [tags map] in N. inversion N as [|? ? Ng N']; subst. cbn [enc_fields]. cbn in L. injection L as L. destruct i as [|i]; cbn in Hf, Hv.
  - injection Hf as ->. injection Hv as ->. destruct (f_omit f && c_empty (f_codec f) v).
    + apply lookup_None. intros I. apply Ng. now apply enc_fields_keys in I.
    + cbn [lookup]. now rewrite String.eqb_refl.
  - assert (Nt : f_tag f <> f_tag g).
    { intros E. apply Ng. rewrite <- E. apply nth_error_In in Hf. unfold tags. now apply in_map. }
    destruct (f_omit g && c_empty (f_codec g) w); [now apply (IH vs i)|]. cbn [lookup].
    destruct (String.eqb_spec (f_tag f) (f_tag g)); [contradiction|]. now apply (IH vs i).
Qed.
Theorem other_claims kc p : apart claim_names (sp_extra p) ->
  claim "aud" (enc_statement kc p) = text_claim (sp_aud p) /\ claim "source_endpoint" (enc_statement kc p) = text_claim (sp_source p) /\
  claim "trust_anchor_id" (enc_statement kc p) = text_claim (sp_anchor p) /\
  forall k, ~ In k claim_names -> claim k (enc_statement kc p) = lookup k (sp_extra p).
Proof.
  intros [N X]. unfold enc_statement, marshal. set (fs := map _ (statement_fields kc)). set (vs := [_; _; _; _; _; _; _; _; _; _; _; _; _; _; _; _; _]).
  assert (T : tags fs = claim_names) by reflexivity.
  assert (Nt : NoDup (tags fs)) by (rewrite T; apply nodupb_ok; vm_compute; reflexivity).
  assert (Nd : NoDup (keys (overlay (enc_fields fs vs) (sp_extra p)))) by (apply overlay_NoDup; now apply enc_fields_NoDup).
  assert (Le : forall k, In k claim_names -> lookup k (rev (overlay (enc_fields fs vs) (sp_extra p))) = lookup k (enc_fields fs vs)).
  { intros k I. rewrite lookup_rev_NoDup by exact Nd. rewrite lookup_overlay, lookup_rev_NoDup by exact N.
    assert (L : lookup k (sp_extra p) = None); [|now rewrite L]. apply lookup_None. intros K. apply (X k K). now apply in_map. }
  assert (C : forall i k s, nth_error vs i = Some (SStr s) -> nth_error fs i = Some (with_enc (enc_statement_field kc) (JField k true text_codec)) -> In k claim_names ->
    lookup k (rev (overlay (enc_fields fs vs) (sp_extra p))) = text_claim s).
  { intros i k s Hv Hf I. rewrite (Le k I). rewrite (enc_fields_claim fs vs i _ _ Nt Hf Hv eq_refl : lookup k _ = _).
    cbn [f_omit with_enc f_codec c_empty empty_sval c_enc enc_statement_field andb]. reflexivity. }
  cbn [claim]. split; [apply (C 5); [reflexivity|reflexivity|cbn; tauto]|]. split; [apply (C 15); [reflexivity|reflexivity|cbn; tauto]|].
  split; [apply (C 16); [reflexivity|reflexivity|cbn; tauto]|]. intros k Nk. rewrite lookup_rev_NoDup by exact Nd. rewrite lookup_overlay, lookup_rev_NoDup by exact N.
  destruct (lookup k (sp_extra p)) as [v|]; [reflexivity|]. apply lookup_None. intros I. apply enc_fields_keys in I. rewrite T in I. contradiction.
Qed.

(** A policy for an entity type the library does not know makes the statement unreadable. *)
Theorem other_policies_unreadable kc p q jwt k : apart claim_names (sp_extra p) -> st_policy (sp_claims p) = Some q ->
  In k (keys (mp_extra q)) -> ~ In k type_names -> dec_statement kc jwt (enc_statement kc p) = Err.
Proof.
  intros [N X] Hq Hk Nk. assert (E : dec_policies (enc_policies q) = Err).
  { unfold dec_policies. rewrite (policies_extra_fail _ k); [reflexivity|exact Nk|]. unfold enc_policies, marshal_policies. cbn [claim jp_known jp_extra].
    set (en := enc_fields policies_fields _). set (ex := map _ (map _ (mp_extra q))).
    assert (Kx : In k (keys ex)) by (unfold ex; rewrite (keys_map enc_policy), (keys_map json_policy); exact Hk).
    rewrite lookup_rev_NoDup by (apply overlay_NoDup; apply enc_fields_NoDup; apply NoDup_tags; exact policies_distinct).
    rewrite lookup_overlay. destruct (lookup k (rev ex)) as [v|] eqn:L; [discriminate|]. apply lookup_None in L. exfalso. apply L.
    unfold keys. rewrite map_rev. now apply in_rev in Kx. }
  pose proof (statement_calm kc jwt (enc_statement kc p)) as Calm. destruct (dec_statement kc jwt (enc_statement kc p)) as [s| |] eqn:D; [|reflexivity|contradiction].
  exfalso. unfold dec_statement in D. fold (decode (statement_fields kc) (enc_statement kc p)) in D. apply bind_ok in D as ([vs ex] & D & _).
  apply decode_exact in D as (O & F & _); [|apply statement_distinct].
  assert (M : In (enc_policies q) (members "metadata_policy" (enc_statement kc p))).
  { unfold enc_statement, marshal. set (fs := map _ (statement_fields kc)). set (ws := [_; _; _; _; _; _; _; _; _; _; _; _; _; _; _; _; _]).
    assert (T : tags fs = claim_names) by reflexivity.
    assert (Nt : NoDup (tags fs)) by (rewrite T; apply nodupb_ok; vm_compute; reflexivity).
    assert (L : lookup "metadata_policy" (overlay (enc_fields fs ws) (sp_extra p)) = Some (enc_policies q)).
    { rewrite lookup_overlay, lookup_rev_NoDup by exact N. assert (Lx : lookup "metadata_policy" (sp_extra p) = None).
      { apply lookup_None. intros K. apply (X _ K). apply in_map. cbn. tauto. }
      rewrite Lx. pose proof (enc_fields_claim fs ws 8 _ _ Nt eq_refl eq_refl eq_refl) as C.
      cbn [f_tag with_enc f_omit f_codec c_empty c_enc andb] in C. rewrite Hq in C. exact C. }
    cbn [members]. apply in_map_iff. exists ("metadata_policy", enc_policies q). split; [reflexivity|]. apply filter_In. split; [now apply lookup_In|]. apply String.eqb_refl. }
  unfold statement_fields in F. do 8 (inversion F as [|? ? ? ? _ F']; subst; clear F; rename F' into F). inversion F as [|? ? ? ? F8 _]; subst.
  apply value_field in F8 as (a & _ & [A _]). destruct (A _ M) as [b B]. unfold yields, dec_ptr in B.
  assert (Nn : enc_policies q <> JNull) by (unfold enc_policies, marshal_policies; discriminate). destruct (enc_policies q) eqn:Q; try contradiction; rewrite E in B; discriminate B.
Qed.

(** Entity configurations. *)
Theorem configuration_read cx kc s id hints md ks lifetime now marks extra m jwt own : (0 < lifetime <= 9223372036)%Z ->
  let p := config_statement (new_entity id hints md ks lifetime) now marks extra in
  sign_statement cx kc s p = Ok m -> cx_parse cx jwt = Some m -> signer_jwks cx s = Ok own ->
  in_range now -> in_range (now + lifetime * 1000000000)%Z -> keys_ok kc ks -> given metadata_ok md -> apart claim_names extra ->
  exists st, parse_statement (read_jwt cx) kc jwt = Ok st /\ verify_message m (Some own) = Ok (enc_statement kc p) /\
    st_iss st = id /\ st_sub st = id /\ time_read now (st_iat st) /\ time_read (now + lifetime * 1000000000)%Z (st_exp st) /\
    st_jwks st = ks /\ st_hints st = hints /\ both metadata_read md (st_metadata st) /\ st_marks st = obtained_marks marks /\
    st_policy st = None /\ st_constraints st = None /\ st_crit st = [] /\ st_policy_crit st = [].
Proof.
  intros L p S P K Rn Re Ok Om Ax.
  assert (E : st_exp (sp_claims p) = (now + lifetime * 1000000000)%Z).
  { unfold p, config_statement, config_payload, new_entity. cbn [sp_claims st_exp fe_lifetime]. destruct (Z.leb_spec lifetime 0); [lia|].
    unfold second, Refresher.wrap64. rewrite (Z.mod_small (lifetime + 2 ^ 63)) by lia. rewrite Z.mod_small by lia. lia. }
  assert (O : payload_ok kc p).
  { constructor; [exact Rn|rewrite E; exact Re|exact Ok|exact Om|intros a Ha; discriminate Ha|intros a Ha; discriminate Ha|intros a Ha; discriminate Ha
    |constructor|split; constructor|exact Ax]. }
  destruct (signed_read cx kc s p m jwt own S P K O) as [(st & D & J & R) V]. destruct R. rewrite E in *. exists st.
  repeat (split; [try assumption|]); try assumption.
  destruct (st_policy st); [contradiction|reflexivity].
Qed.
