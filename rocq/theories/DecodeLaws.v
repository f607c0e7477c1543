(** Trust marks, delegations, token responses: what is read and what is written. *)
From Coq Require Import QArith Lia.
From Verif Require Import Base BaseFacts GoVal Policy Schema Metadata Chain Resolver FloatTime SpecTime Json SpecJson JsonFacts TrustMark SpecTrustMark TrustMarkFacts Leaf LeafFacts SpecDecode DecodeFacts.
Local Open Scope nat_scope.
Local Open Scope string_scope.

Ltac distinct := unfold distinct_names; apply nodupb_ok; vm_compute; reflexivity.
Lemma mark_distinct : distinct_names mark_fields. Proof. distinct. Qed.
Lemma delegation_distinct : distinct_names delegation_fields. Proof. distinct. Qed.
Lemma info_distinct : distinct_names mark_info_fields. Proof. distinct. Qed.
Lemma token_distinct : distinct_names token_fields. Proof. distinct. Qed.
Lemma error_distinct : distinct_names error_fields. Proof. distinct. Qed.

Lemma mem_same k l l' : (forall x, In x l <-> In x l') -> mem k l = mem k l'.
Proof.
  intros H. destruct (mem k l) eqn:A, (mem k l') eqn:B; auto.
  - apply mem_In in A. apply H, mem_In in A. congruence.
  - apply mem_In in B. apply H, mem_In in B. congruence.
Qed.
Lemma says_others_perm j l l' x : (forall y, In y l <-> In y l') -> says_others j l x -> says_others j l' x.
Proof. intros H [N L]. split; [exact N|]. intros k. rewrite L. now rewrite (mem_same k l l' H). Qed.

Ltac fld := match goal with
  | H : field_says _ _ _ |- _ =>
      first [apply text_field in H | apply time_field in H | apply opt_time_field in H | apply int_field in H];
      let s := fresh "s" in let H' := fresh "S" in destruct H as (s & -> & H')
  end.
Ltac fields := repeat match goal with H : Forall2 (field_says _) (_ :: _) _ |- _ => inversion H; clear H; subst end;
  repeat match goal with H : Forall2 (field_says _) [] _ |- _ => inversion H; clear H; subst end; repeat fld.

Theorem mark_read e jwt m : parse_mark e jwt = Ok m ->
  exists j, te_parse e jwt = Some ("trust-mark+jwt", j) /\ mark_says j m /\ mk_msg m = Some jwt.
Proof.
  unfold parse_mark. destruct (te_parse e jwt) as [[typ j]|]; [|discriminate]. unfold typ_mark.
  destruct (String.eqb_spec typ "trust-mark+jwt") as [->|]; [|discriminate]. cbn [negb]. fold (decode mark_fields j).
  destruct (decode mark_fields j) as [[vs ex]| |] eqn:D; try discriminate. cbn [bind]. intros [= <-]. exists j. split; [reflexivity|].
  apply decode_exact in D; [|exact mark_distinct]. destruct D as (O & F & ->). unfold mark_fields in F. fields.
  split; [|reflexivity]. constructor; cbn; auto. eapply says_others_perm; [|apply others_says]. cbn. tauto.
Qed.
Theorem mark_readable e jwt j m : te_parse e jwt = Some ("trust-mark+jwt", j) -> mark_says j m ->
  exists m', parse_mark e jwt = Ok m' /\ mark_says j m'.
Proof.
  intros P S. assert (D : decode mark_fields j = Ok (mark_values m, others (tags mark_fields) j)).
  { apply decode_exact; [exact mark_distinct|]. destruct S. split; [assumption|]. split; [|reflexivity].
    unfold mark_fields, mark_values. repeat constructor;
      first [apply text_field | apply time_field | apply opt_time_field]; eauto. }
  assert (K : exists m', parse_mark e jwt = Ok m').
  { unfold parse_mark. rewrite P. unfold typ_mark. rewrite String.eqb_refl. cbn [negb]. unfold decode in D. rewrite D. cbn [bind]. eauto. }
  destruct K as [m' K]. exists m'. split; [exact K|]. destruct (mark_read _ _ _ K) as (j' & P' & S' & _). congruence.
Qed.
Theorem delegation_read e jwt d : parse_delegation e jwt = Ok d ->
  exists j, te_parse e jwt = Some ("trust-mark-delegation+jwt", j) /\ delegation_says j d /\ dg_msg d = Some jwt.
Proof.
  unfold parse_delegation. destruct (te_parse e jwt) as [[typ j]|]; [|discriminate]. unfold typ_delegation.
  destruct (String.eqb_spec typ "trust-mark-delegation+jwt") as [->|]; [|discriminate]. cbn [negb]. fold (decode delegation_fields j).
  destruct (decode delegation_fields j) as [[vs ex]| |] eqn:D; try discriminate. cbn [bind]. intros [= <-]. exists j. split; [reflexivity|].
  apply decode_exact in D; [|exact delegation_distinct]. destruct D as (O & F & ->). unfold delegation_fields in F. fields.
  split; [|reflexivity]. constructor; cbn; auto. eapply says_others_perm; [|apply others_says]. cbn. tauto.
Qed.
Theorem delegation_readable e jwt j d : te_parse e jwt = Some ("trust-mark-delegation+jwt", j) -> delegation_says j d ->
  exists d', parse_delegation e jwt = Ok d' /\ delegation_says j d'.
Proof.
  intros P S. assert (D : decode delegation_fields j = Ok (deleg_values d, others (tags delegation_fields) j)).
  { apply decode_exact; [exact delegation_distinct|]. destruct S. split; [assumption|]. split; [|reflexivity].
    unfold delegation_fields, deleg_values. repeat constructor;
      first [apply text_field | apply time_field | apply opt_time_field]; eauto. }
  assert (K : exists m', parse_delegation e jwt = Ok m').
  { unfold parse_delegation. rewrite P. unfold typ_delegation. rewrite String.eqb_refl. cbn [negb]. unfold decode in D. rewrite D. cbn [bind]. eauto. }
  destruct K as [m' K]. exists m'. split; [exact K|]. destruct (delegation_read _ _ _ K) as (j' & P' & S' & _). congruence.
Qed.
Definition fresh_info : info := Info "" "" [] None.
Theorem info_read j t : unmarshal_info j fresh_info = Ok t -> info_says j t /\ ti_mark t = None.
Proof.
  unfold unmarshal_info, fresh_info. cbn [ti_type ti_jwt ti_mark]. change [GStr ""; GStr ""] with (zeros mark_info_fields). fold (decode mark_info_fields j).
  destruct (decode mark_info_fields j) as [[vs ex]| |] eqn:D; try discriminate. cbn [bind]. intros [= <-].
  apply decode_exact in D; [|exact info_distinct]. destruct D as (O & F & ->). unfold mark_info_fields in F. fields.
  split; [|reflexivity]. constructor; cbn; auto. exact (others_says j ["trust_mark_type"; "trust_mark"]).
Qed.
Theorem info_readable j t : info_says j t -> exists t', unmarshal_info j fresh_info = Ok t' /\ info_says j t'.
Proof.
  intros S. assert (D : decode mark_info_fields j = Ok ([GStr (ti_type t); GStr (ti_jwt t)], others (tags mark_info_fields) j)).
  { apply decode_exact; [exact info_distinct|]. destruct S. split; [assumption|]. split; [|reflexivity].
    unfold mark_info_fields. repeat constructor; apply text_field; eauto. }
  assert (K : exists t', unmarshal_info j fresh_info = Ok t').
  { unfold unmarshal_info, fresh_info. cbn [ti_type ti_jwt ti_mark]. change [GStr ""; GStr ""] with (zeros mark_info_fields).
    unfold decode in D. rewrite D. cbn [bind]. eauto. }
  destruct K as [t' K]. exists t'. split; [exact K|]. now apply info_read in K.
Qed.

(** ** Token responses *)
Lemma exchange_step fuel e p x f h issuer code redirect additional op jwt body :
  resolve_op fuel e p (lf_anchors f) issuer = Done (Ok (Some op)) ->
  client_assertion x (lf_producer f) (op_str "TokenEndpoint" op) = Ok jwt ->
  (forall form, lo_post x (op_str "TokenEndpoint" op) form = Some body) ->
  fst (code_exchange fuel e p x f h issuer code redirect additional) =
    match unmarshal error_fields body with
    | Ok ((GStr er :: _) as vs) =>
        if String.eqb er "" then
          match decode token_fields body with Ok (ts, ex) => Done (Ok (Tokens ts ex)) | _ => Done Err end
        else Done (Ok (Refused vs))
    | _ => Done Err
    end.
Proof. intros R C P. unfold code_exchange. rewrite R, C. cbn [fst]. rewrite P. reflexivity. Qed.

Lemma error_exact j vs : unmarshal error_fields j = Ok vs <->
  is_object j /\ exists er d, vs = [GStr er; GStr d] /\ says_text j "error" er /\ says_text j "error_description" d.
Proof.
  rewrite unmarshal_exact by exact error_distinct. split.
  - intros [O F]. split; [exact O|]. unfold error_fields in F. fields. eauto 6.
  - intros (O & er & d & -> & E & D). split; [exact O|]. unfold error_fields. repeat constructor; apply text_field; eauto.
Qed.
Lemma token_exact j ts ex : decode token_fields j = Ok (ts, ex) <->
  is_object j /\ (exists a t n r s i, ts = [GStr a; GStr t; GRaw n; GStr r; GStr s; GStr i] /\
    says_text j "access_token" a /\ says_text j "token_type" t /\ says_int j "expires_in" n /\ says_text j "refresh_token" r /\
    says_text j "scope" s /\ says_text j "id_token" i) /\ ex = others (tags token_fields) j.
Proof.
  rewrite decode_exact by exact token_distinct. split.
  - intros (O & F & X). split; [exact O|]. split; [|exact X]. unfold token_fields in F. fields. do 6 eexists. split; [reflexivity|]. tauto.
  - intros (O & (a & t & n & r & s & i & -> & A & B & C & D & E & G) & X). split; [exact O|]. split; [|exact X].
    unfold token_fields. repeat constructor; first [apply text_field | apply int_field]; eauto.
Qed.

Theorem exchange_refused fuel e p x f h issuer code redirect additional op jwt body :
  resolve_op fuel e p (lf_anchors f) issuer = Done (Ok (Some op)) ->
  client_assertion x (lf_producer f) (op_str "TokenEndpoint" op) = Ok jwt ->
  (forall form, lo_post x (op_str "TokenEndpoint" op) form = Some body) ->
  forall vs, fst (code_exchange fuel e p x f h issuer code redirect additional) = Done (Ok (Refused vs)) <->
    exists er d, vs = [GStr er; GStr d] /\ refusal body er d.
Proof.
  intros R C P vs. rewrite (exchange_step _ _ _ _ _ _ _ _ _ _ _ _ _ R C P).
  destruct (unmarshal error_fields body) as [us| |] eqn:U.
  - apply error_exact in U. destruct U as (O & er & d & -> & E & D). destruct (String.eqb_spec er "") as [->|NE].
    + split.
      * destruct (decode token_fields body) as [[ts ex]| |]; discriminate.
      * intros (er & d' & _ & [_ N E' _]). exfalso. apply N. eapply says_text_fun; eauto.
    + split.
      * intros [= <-]. exists er, d. split; [reflexivity|]. now constructor.
      * intros (er' & d' & -> & [_ _ E' D']). now rewrite (says_text_fun _ _ _ _ E' E), (says_text_fun _ _ _ _ D' D).
  - split; [discriminate|]. intros (er & d & -> & [O _ E D]).
    assert (K : unmarshal error_fields body = Ok [GStr er; GStr d]) by (apply error_exact; eauto 6). congruence.
  - split; [discriminate|]. intros (er & d & -> & [O _ E D]).
    assert (K : unmarshal error_fields body = Ok [GStr er; GStr d]) by (apply error_exact; eauto 6). congruence.
Qed.
Theorem exchange_granted fuel e p x f h issuer code redirect additional op jwt body :
  resolve_op fuel e p (lf_anchors f) issuer = Done (Ok (Some op)) ->
  client_assertion x (lf_producer f) (op_str "TokenEndpoint" op) = Ok jwt ->
  (forall form, lo_post x (op_str "TokenEndpoint" op) form = Some body) ->
  forall ts, (exists ex, fst (code_exchange fuel e p x f h issuer code redirect additional) = Done (Ok (Tokens ts ex)) /\
      says_others body ["access_token"; "token_type"; "expires_in"; "refresh_token"; "scope"; "id_token"] ex) <->
    exists a t n r s i, ts = [GStr a; GStr t; GRaw n; GStr r; GStr s; GStr i] /\ token_reply body a t n r s i.
Proof.
  intros R C P ts. rewrite (exchange_step _ _ _ _ _ _ _ _ _ _ _ _ _ R C P).
  destruct (unmarshal error_fields body) as [us| |] eqn:U.
  - apply error_exact in U. destruct U as (O & er & d & -> & E & D). destruct (String.eqb_spec er "") as [->|NE].
    + split.
      * intros (ex & H & X). destruct (decode token_fields body) as [[ts' ex']| |] eqn:T; try discriminate. injection H as <- <-.
        apply token_exact in T. destruct T as (_ & (a & t & n & r & s & i & -> & A1 & A2 & A3 & A4 & A5 & A6) & _).
        exists a, t, n, r, s, i. split; [reflexivity|]. constructor; eauto.
      * intros (a & t & n & r & s & i & -> & [_ _ _ A1 A2 A3 A4 A5 A6]).
        assert (T : decode token_fields body = Ok ([GStr a; GStr t; GRaw n; GStr r; GStr s; GStr i], others (tags token_fields) body)).
        { apply token_exact. split; [exact O|]. split; [|reflexivity]. do 6 eexists. split; [reflexivity|]. tauto. }
        rewrite T. exists (others (tags token_fields) body). split; [reflexivity|]. apply (others_says body (tags token_fields)).
    + split.
      * intros (ex & H & _). discriminate.
      * intros (a & t & n & r & s & i & -> & [_ E' _ _ _ _ _ _ _]). exfalso. apply NE. eapply says_text_fun; eauto.
  - split; [intros (ex & H & _); discriminate|]. intros (a & t & n & r & s & i & -> & [O E [d D] _ _ _ _ _ _]).
    assert (K : unmarshal error_fields body = Ok [GStr ""; GStr d]) by (apply error_exact; eauto 6). congruence.
  - split; [intros (ex & H & _); discriminate|]. intros (a & t & n & r & s & i & -> & [O E [d D] _ _ _ _ _ _]).
    assert (K : unmarshal error_fields body = Ok [GStr ""; GStr d]) by (apply error_exact; eauto 6). congruence.
Qed.

(** ** Writing *)
Lemma lookup_enc {V} (fs : list (jfield V)) : NoDup (tags fs) -> forall vs i f v, nth_error fs i = Some f -> nth_error vs i = Some v ->
  lookup (f_tag f) (enc_fields fs vs) = if (f_omit f && c_empty (f_codec f) v)%bool then None else Some (c_enc (f_codec f) v).
Proof.
  intros N. induction fs as [|g fs IH]; intros vs i f v F E; [destruct i; discriminate|].
  inversion N as [|? ? NI N']; subst. destruct vs as [|w vs]; [destruct i; discriminate|]. cbn [enc_fields]. destruct i as [|i].
  - cbn in F, E. injection F as <-. injection E as <-. destruct (f_omit g && c_empty (f_codec g) w)%bool.
    + apply lookup_None. intros I. apply enc_fields_keys in I. contradiction.
    + cbn [lookup]. now rewrite String.eqb_refl.
  - cbn in F, E. assert (NE : f_tag f <> f_tag g).
    { intros Q. apply NI. rewrite <- Q. apply in_map. eapply nth_error_In. eauto. }
    destruct (f_omit g && c_empty (f_codec g) w)%bool; [now apply (IH N' vs i)|].
    cbn [lookup]. destruct (String.eqb_spec (f_tag f) (f_tag g)); [contradiction|now apply (IH N' vs i)].
Qed.
Lemma claim_marshal {V} (fs : list (jfield V)) vs extra k : NoDup (tags fs) -> NoDup (keys extra) ->
  claim k (marshal fs vs extra) = match lookup k extra with Some j => Some j | None => lookup k (enc_fields fs vs) end.
Proof.
  intros N NX. unfold marshal. cbn [claim]. rewrite lookup_rev_NoDup by (now apply overlay_NoDup, enc_fields_NoDup).
  rewrite lookup_overlay. now rewrite lookup_rev_NoDup.
Qed.
Lemma mark_written m k : NoDup (keys (mk_extra m)) ->
  claim k (marshal mark_fields (mark_values m) (mk_extra m)) =
  mark_claims (mk_iss m) (mk_sub m) (mk_type m) (mk_iat m) (mk_exp m) (mk_logo m) (mk_ref m) (mk_deleg m) (mk_extra m) k.
Proof.
  intros N. rewrite claim_marshal by (auto; apply NoDup_tags, mark_distinct). unfold mark_claims. destruct (lookup k (mk_extra m)); [reflexivity|].
  pose proof (fun i f v => lookup_enc mark_fields (NoDup_tags _ mark_distinct) (mark_values m) i f v) as L.
  destruct (String.eqb_spec k "iss") as [->|]; [exact (L 0 _ _ eq_refl eq_refl)|].
  destruct (String.eqb_spec k "sub") as [->|]; [exact (L 1 _ _ eq_refl eq_refl)|].
  destruct (String.eqb_spec k "trust_mark_type") as [->|]; [exact (L 2 _ _ eq_refl eq_refl)|].
  destruct (String.eqb_spec k "iat") as [->|]; [exact (L 3 _ _ eq_refl eq_refl)|].
  destruct (String.eqb_spec k "exp") as [->|]; [etransitivity; [exact (L 5 _ _ eq_refl eq_refl)|]; cbn; now destruct (mk_exp m)|].
  destruct (String.eqb_spec k "logo_uri") as [->|]; [etransitivity; [exact (L 4 _ _ eq_refl eq_refl)|]; cbn; unfold text_claim; now destruct (mk_logo m)|].
  destruct (String.eqb_spec k "ref") as [->|]; [etransitivity; [exact (L 6 _ _ eq_refl eq_refl)|]; cbn; unfold text_claim; now destruct (mk_ref m)|].
  destruct (String.eqb_spec k "delegation") as [->|]; [etransitivity; [exact (L 7 _ _ eq_refl eq_refl)|]; cbn; unfold text_claim; now destruct (mk_deleg m)|].
  apply lookup_None. intros I. apply enc_fields_keys in I. cbn in I. intuition congruence.
Qed.
Lemma delegation_written d k : NoDup (keys (dg_extra d)) ->
  claim k (marshal delegation_fields (deleg_values d) (dg_extra d)) =
  delegation_claims (dg_iss d) (dg_sub d) (dg_type d) (dg_iat d) (dg_exp d) (dg_ref d) (dg_extra d) k.
Proof.
  intros N. rewrite claim_marshal by (auto; apply NoDup_tags, delegation_distinct). unfold delegation_claims. destruct (lookup k (dg_extra d)); [reflexivity|].
  pose proof (fun i f v => lookup_enc delegation_fields (NoDup_tags _ delegation_distinct) (deleg_values d) i f v) as L.
  destruct (String.eqb_spec k "iss") as [->|]; [exact (L 0 _ _ eq_refl eq_refl)|].
  destruct (String.eqb_spec k "sub") as [->|]; [exact (L 1 _ _ eq_refl eq_refl)|].
  destruct (String.eqb_spec k "trust_mark_type") as [->|]; [exact (L 2 _ _ eq_refl eq_refl)|].
  destruct (String.eqb_spec k "iat") as [->|]; [exact (L 3 _ _ eq_refl eq_refl)|].
  destruct (String.eqb_spec k "exp") as [->|]; [etransitivity; [exact (L 4 _ _ eq_refl eq_refl)|]; cbn; now destruct (dg_exp d)|].
  destruct (String.eqb_spec k "ref") as [->|]; [etransitivity; [exact (L 5 _ _ eq_refl eq_refl)|]; cbn; unfold text_claim; now destruct (dg_ref d)|].
  apply lookup_None. intros I. apply enc_fields_keys in I. cbn in I. intuition congruence.
Qed.

(** ** Issued marks and delegations *)
Theorem issued_claims sign ent specs now typ sub lf t spec : lookup typ specs = Some spec -> NoDup (keys (ms_extra spec)) ->
  issue_mark sign ent specs now typ sub lf = Ok t ->
  let life := match lf with Some l => l | None => ms_lifetime spec end in
  exists j, sign "trust-mark+jwt" j = Some (ti_jwt t) /\
    forall k, claim k j = mark_claims ent sub (ms_type spec) now (if Z.eqb life 0 then None else Some (now + life)%Z)
                            (ms_logo spec) (ms_ref spec) (ms_deleg spec) (ms_extra spec) k.
Proof.
  intros L N. unfold issue_mark. rewrite L. cbn zeta. unfold sign_mark, typ_mark.
  match goal with |- context [sign _ (marshal mark_fields (mark_values ?m) _)] => set (tm := m) end.
  destruct (sign "trust-mark+jwt" (marshal mark_fields (mark_values tm) (mk_extra tm))) as [w|] eqn:S; [|discriminate]. cbn [bind]. intros [= <-].
  exists (marshal mark_fields (mark_values tm) (mk_extra tm)). split; [exact S|]. intros k. rewrite mark_written by exact N. reflexivity.
Qed.
Theorem delegated_claims sign ent specs now typ sub lf w spec : lookup typ specs = Some spec -> NoDup (keys (ow_extra spec)) ->
  delegate sign ent specs now typ sub lf = Ok w ->
  let life := match lf with Some l => l | None => ow_lifetime spec end in
  exists j, sign "trust-mark-delegation+jwt" j = Some w /\
    forall k, claim k j = delegation_claims ent sub (ow_id spec) now (if Z.eqb (ow_lifetime spec) 0 then None else Some (now + life)%Z)
                            (ow_ref spec) (ow_extra spec) k.
Proof.
  intros L N. unfold delegate. rewrite L. cbn zeta. unfold sign_delegation, typ_delegation.
  match goal with |- context [sign _ (marshal delegation_fields (deleg_values ?m) _)] => set (d := m) end.
  destruct (sign "trust-mark-delegation+jwt" (marshal delegation_fields (deleg_values d) (dg_extra d))) as [u|] eqn:S; [|discriminate]. intros [= <-].
  exists (marshal delegation_fields (deleg_values d) (dg_extra d)). split; [exact S|]. intros k. rewrite delegation_written by exact N. reflexivity.
Qed.
