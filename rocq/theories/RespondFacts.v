(** Lemmas about Respond.v. *)
From Coq Require Import QArith Lia.
From Verif Require Import Base BaseFacts GoVal Policy Schema Metadata MetadataFacts SpecMetadata Chain Resolver FloatTime SpecTime Json SpecJson JsonFacts TrustMark Leaf Config SpecConfig.
From Verif Require Import Refresher Jwt SpecJwt JwtFacts SpecDecode DecodeFacts Statement SpecStatement StatementFacts StatementLaws StatementChains Encode SpecEncode EncodeFacts EncodeLaws Respond SpecRespond.
From Verif Require Import GoVal.
Local Open Scope nat_scope.
Local Open Scope string_scope.

Lemma mark_back t : apart ["trust_mark_type"; "trust_mark"] (ti_extra t) ->
  unmarshal_info (enc_info t) (Info "" "" [] None) = Ok (Info (ti_type t) (ti_jwt t) (ti_extra t) None).
Proof.
  intros [N X]. unfold unmarshal_info, enc_info. cbn [ti_type ti_jwt ti_extra].
  change (unmarshal_with_extra mark_info_fields (marshal mark_info_fields [GStr (ti_type t); GStr (ti_jwt t)] (ti_extra t)) [GStr ""; GStr ""])
    with (decode mark_info_fields (marshal mark_info_fields [GStr (ti_type t); GStr (ti_jwt t)] (ti_extra t))).
  rewrite marshal_roundtrip; [reflexivity| | |].
  - apply types_distinct. cbn. tauto.
  - unfold mark_info_fields. repeat (constructor; [apply str_survives|]). constructor.
  - split; [exact N|exact X].
Qed.
Lemma marks_back l : Forall (fun t => apart ["trust_mark_type"; "trust_mark"] (ti_extra t)) l ->
  dec_infos (JArr (map enc_info l)) = Ok (map (fun t => Info (ti_type t) (ti_jwt t) (ti_extra t) None) l).
Proof.
  unfold dec_infos, dec_slice. induction 1 as [|t l A _ IH]; [reflexivity|]. cbn [map map_res]. rewrite mark_back by exact A. cbn [bind]. now rewrite IH.
Qed.

Lemma response_tags jws : tags (map (with_enc enc_response_field) (response_fields jws)) = ["metadata"; "trust_marks"; "trust_chain"].
Proof. reflexivity. Qed.
(** Encoding does not depend on [jws]. *)
Lemma members_jws jws p : payload_members p = enc_fields (map (with_enc enc_response_field) (response_fields jws))
             [SMeta (pl_metadata p); SMarks (pl_marks p); SNames (Some (pl_chain p))].
Proof. reflexivity. Qed.
Lemma members_keys p k : In k (keys (payload_members p)) -> In k ["metadata"; "trust_marks"; "trust_chain"].
Proof. intros I. unfold payload_members in I. apply enc_fields_keys in I. exact I. Qed.
Lemma members_NoDup p : NoDup (keys (payload_members p)).
Proof. unfold payload_members. apply enc_fields_NoDup. rewrite response_tags. apply nodupb_ok. reflexivity. Qed.
Lemma own_keys r k : In k (keys (own_members r)) -> In k ["iss"; "sub"; "iat"; "exp"; "aud"].
Proof. unfold own_members. destruct (String.eqb (rp_aud r) ""); cbn; tauto. Qed.
Lemma own_NoDup r : NoDup (keys (own_members r)).
Proof. unfold own_members. destruct (String.eqb (rp_aud r) ""); apply nodupb_ok; reflexivity. Qed.

Lemma extra_apart r k : apart response_claims (rp_extra r) -> In k (keys (rp_extra r)) -> ~ In k response_claims.
Proof. intros [_ X] I J. apply (X k I). now apply in_map. Qed.

(** The document: the payload, the additional claims, the response's own claims. *)
Lemma keys_app {A} (a b : smap A) : keys (a ++ b)%list = (keys a ++ keys b)%list.
Proof. unfold keys. apply map_app. Qed.
Lemma document r j : apart response_claims (rp_extra r) -> enc_response r = Ok j ->
  j = JObj (payload_members (rp_payload r) ++ rp_extra r ++ own_members r)%list.
Proof.
  intros A. pose proof A as [N X]. unfold enc_response. rewrite overlay_app.
  2: exact N.
  2: { intros k I J. apply members_keys in J. apply (extra_apart r k A I). cbn in *. tauto. }
  set (ms := (payload_members (rp_payload r) ++ rp_extra r)%list).
  assert (ND : NoDup (keys (ms ++ own_members r)%list)).
  { unfold ms. rewrite !keys_app. apply NoDup_app_intro; [apply NoDup_app_intro|apply own_NoDup|].
    - apply members_NoDup.
    - exact N.
    - intros k I J. apply members_keys in I. apply (extra_apart r k A J). cbn in *. tauto.
    - intros k I J. apply own_keys in J. apply in_app_iff in I as [I|I].
      + apply members_keys in I. cbn in I, J. intuition congruence.
      + apply (extra_apart r k A I). cbn in *. tauto. }
  assert (E : overlay (as_map (ms ++ own_members r)%list) (rp_extra r) = (payload_members (rp_payload r) ++ rp_extra r ++ own_members r)%list).
  { rewrite as_map_id by exact ND. rewrite overlay_same; [unfold ms; now rewrite app_assoc|].
    intros k v I. apply In_lookup; [exact ND|]. unfold ms. rewrite !in_app_iff. tauto. }
  destruct ms as [|m ms]; [discriminate|]. intros H. rewrite E in H. now injection H as <-.
Qed.

Lemma rest_apart r : apart response_claims (rp_extra r) -> apart ["metadata"; "trust_marks"; "trust_chain"] (rp_extra r ++ own_members r)%list.
Proof.
  intros A. pose proof A as [N X]. split.
  - rewrite keys_app. apply NoDup_app_intro; [exact N|apply own_NoDup|]. intros k I J. apply own_keys in J. apply (extra_apart r k A I). cbn in *. tauto.
  - intros k I. rewrite keys_app in I. apply in_app_iff in I as [I|I].
    + intros J. apply (X k I). cbn [map response_claims In] in *. tauto.
    + apply own_keys in I. assert (B : forallb (fun k => negb (mem (fold_name k) (map fold_name ["metadata"; "trust_marks"; "trust_chain"]))) ["iss"; "sub"; "iat"; "exp"; "aud"] = true)
        by (vm_compute; reflexivity). rewrite forallb_forall in B. apply B in I. apply Bool.negb_true_iff in I. intros J. apply mem_In in J. congruence.
Qed.

Theorem response_back jws r j : response_ok jws r -> enc_response r = Ok j -> exists p, dec_response jws j = Ok p /\ response_read (rp_payload r) p.
Proof.
  intros [Hm Hk Hc Hx] E. apply document in E; [|exact Hx]. subst j. set (p := rp_payload r) in *. set (enc := enc_response_field).
  pose proof (rest_apart r Hx) as A. set (rest := (rp_extra r ++ own_members r)%list) in *.
  assert (Md : exists m', both metadata_read (pl_metadata p) m' /\ becomes (with_enc enc (JField "metadata" true (value_codec SMeta None (dec_ptr dec_metadata)))) (SMeta (pl_metadata p)) (SMeta m')).
  { destruct (pl_metadata p) as [m|]; [|exists None; split; [exact I|reflexivity]]. destruct (metadata_back m (Hm m eq_refl)) as (m' & D & R). exists (Some m').
    split; [exact R|]. unfold becomes. cbn [with_enc f_omit f_codec c_empty empty_sval c_dec c_zero c_enc value_codec andb enc_opt]. unfold enc. cbn [enc_response_field enc_opt].
    unfold dec_ptr. rewrite D. unfold enc_metadata, marshal. reflexivity. }
  destruct Md as (md & Rm & Bm).
  set (ms := map (fun t => Info (ti_type t) (ti_jwt t) (ti_extra t) None) (pl_marks p)).
  assert (Bms : becomes (with_enc enc (JField "trust_marks" true (value_codec SMarks [] dec_infos))) (SMarks (pl_marks p)) (SMarks ms)).
  { pose proof (marks_back _ Hk) as D. fold ms in D. unfold becomes. cbn [with_enc f_omit f_codec c_empty c_dec c_zero c_enc value_codec andb]. unfold enc. cbn [enc_response_field].
    unfold ms in *. destruct (pl_marks p) as [|t l]; [reflexivity|]. cbn [empty_sval]. now rewrite D. }
  assert (Bch : exists c', items c' = pl_chain p /\ becomes (with_enc enc (JField "trust_chain" true (value_codec SNames None (dec_messages jws)))) (SNames (Some (pl_chain p))) (SNames c')).
  { unfold becomes. cbn [with_enc f_omit f_codec c_empty c_dec c_zero c_enc value_codec andb]. unfold enc. cbn [enc_response_field].
    destruct (pl_chain p) as [|t l] eqn:Ec; [exists None; split; reflexivity|]. exists (Some (t :: l)). split; [reflexivity|]. cbn [empty_sval].
    unfold dec_messages. rewrite names_back. cbn [bind items].
    assert (F : forallb jws (t :: l) = true) by (apply forallb_forall; exact Hc). now rewrite F. }
  destruct Bch as (c' & Ec & Bc).
  eexists. split.
  - unfold dec_response. fold (decode (response_fields jws) (JObj (payload_members p ++ rest)%list)).
    assert (D : decode (response_fields jws) (JObj (payload_members p ++ rest)%list) = Ok ([SMeta md; SMarks ms; SNames c'], rest)).
    { assert (M : JObj (payload_members p ++ rest)%list = marshal (map (with_enc enc) (response_fields jws)) [SMeta (pl_metadata p); SMarks (pl_marks p); SNames (Some (pl_chain p))] rest).
      { unfold marshal. rewrite overlay_app; [now rewrite (members_jws jws)|apply A|]. intros k I J. apply (proj2 A k I).
        apply enc_fields_keys in J. unfold enc in J. rewrite response_tags in J. now apply in_map. }
      rewrite M. apply marshal_back; [apply response_distinct| |exact A].
      unfold response_fields. cbn [map]. repeat (constructor; [assumption|]). constructor. }
    rewrite D. cbn [bind snth nth sv_meta sv_marks sv_names]. reflexivity.
  - constructor; cbn [pl_metadata pl_marks pl_chain]; [exact Rm| |exact Ec]. unfold ms. clear. induction (pl_marks p); constructor; [reflexivity|assumption].
Qed.

(** A response with nothing in it cannot be written; any other can. *)
Theorem response_written r : apart response_claims (rp_extra r) -> ((exists j, enc_response r = Ok j) <-> ~ says_nothing r).
Proof.
  intros A. unfold enc_response, says_nothing. rewrite overlay_app; [|apply A|].
  2: { intros k I J. apply members_keys in J. apply (extra_apart r k A I). cbn in *. tauto. }
  destruct (rp_payload r) as [m l c]. unfold payload_members, no_payload. cbn [pl_metadata pl_marks pl_chain map response_fields enc_fields with_enc f_omit f_codec c_empty].
  destruct m, l, c; cbn [empty_sval andb app]; try (split; [intros _ [? _]; discriminate|eauto]).
  destruct (rp_extra r); split; try (intros [j H]; discriminate); eauto.
  - intros H. destruct H. auto.
  - intros _ [_ H]. discriminate.
Qed.

(** The claims of the response itself are in the document, although the reader of this library
    does not look at them. *)
Theorem response_own r j : apart response_claims (rp_extra r) -> enc_response r = Ok j ->
  claim "iss" j = Some (JStr (rp_iss r)) /\ claim "sub" j = Some (JStr (rp_sub r)) /\ claim "aud" j = text_claim (rp_aud r) /\
  claim "iat" j = Some (JNum (encode_time (rp_iat r))) /\ claim "exp" j = Some (JNum (encode_time (rp_exp r))) /\
  forall k v, lookup k (rp_extra r) = Some v -> claim k j = Some v.
Proof.
  intros A E. apply document in E; [|exact A]. subst j. cbn [claim].
  assert (ND : NoDup (keys (payload_members (rp_payload r) ++ rp_extra r ++ own_members r)%list)).
  { rewrite !keys_app. pose proof (rest_apart r A) as [N X]. rewrite keys_app in *. apply NoDup_app_intro; [apply members_NoDup|exact N|].
    intros k I J. apply members_keys in I. apply (X k J). now apply in_map. }
  assert (L : forall k v, In (k, v) (own_members r) -> lookup k (rev (payload_members (rp_payload r) ++ rp_extra r ++ own_members r)%list) = Some v).
  { intros k v I. rewrite lookup_rev_NoDup by exact ND. apply In_lookup; [exact ND|]. rewrite !in_app_iff. tauto. }
  split; [|split; [|split; [|split; [|split]]]]; try (apply L; unfold own_members; cbn; tauto).
  - unfold text_claim. destruct (String.eqb_spec (rp_aud r) "") as [Z|Z].
    + rewrite lookup_rev_NoDup by exact ND. apply lookup_None. rewrite !keys_app, !in_app_iff. intros [I|[I|I]].
      * apply members_keys in I. cbn in I. intuition discriminate.
      * apply (extra_apart r _ A I). cbn. tauto.
      * unfold own_members in I. rewrite Z in I. cbn in I. intuition discriminate.
    + apply L. unfold own_members. destruct (String.eqb_spec (rp_aud r) ""); [contradiction|]. cbn. tauto.
  - intros k v I. rewrite lookup_rev_NoDup by exact ND. apply In_lookup; [exact ND|]. rewrite !in_app_iff. apply lookup_In in I. tauto.
Qed.

(** From the resolver's signer to the client of its resolve endpoint. *)
Theorem answer_read cx jws s r m jwt ks e p ep rq :
  sign_response cx s r = Ok m -> cx_parse cx jwt = Some m -> signer_jwks cx s = Ok ks -> response_ok jws r -> reads_with cx jws e ->
  te_remote e p ep rq = ABody jwt ->
  (exists pl, remote_payload e p ep rq = Ok pl /\ response_read (rp_payload r) pl) /\ enc_response r = verify_message m (Some ks).
Proof.
  intros S P K O [R1 R2] A. split.
  - pose proof S as T. apply typed_ok in T as (key & j & _ & E & Em). destruct (response_back jws r j O E) as (pl & D & R). exists pl. split; [|exact R].
    unfold remote_payload, remote_response. rewrite A. unfold parse_response. rewrite R1. unfold read_jwt. rewrite P, Em. cbn [ms_sigs sg_typ ms_payload].
    unfold typ_of, typ_resolve. rewrite String.eqb_refl. cbn [negb]. rewrite R2, D. reflexivity.
  - unfold sign_response in S. now destruct (own_accepted cx Jwt.Response s _ m jwt ks S P K).
Qed.

Theorem response_refused r : (forall j, enc_response r <> Ok j) <-> enc_response r = Err.
Proof.
  unfold enc_response. destruct (overlay _ _); split; try (intros _; reflexivity); try discriminate.
  intros H. now destruct (H _ eq_refl).
Qed.
