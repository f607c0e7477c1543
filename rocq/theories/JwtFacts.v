(** JWTs: proofs. *)
From Verif Require Import Base GoVal Policy Schema Metadata Chain Resolver SpecResolver FloatTime Json TrustMark SpecTrustMark
  Jwt SpecJwt BaseFacts.
Local Open Scope nat_scope.
Local Open Scope string_scope.

Lemma select_in ks s k : select_key ks s = Some k -> In k ks /\ jk_kid k = sg_kid s.
Proof.
  unfold select_key. destruct (sg_kid s) as [kid|]; [|discriminate]. intros H. apply find_some in H. destruct H as [H E].
  split; [exact H|]. destruct (jk_kid k) as [i|]; [|discriminate]. apply String.eqb_eq in E. congruence.
Qed.

Lemma fits_by k s : key_fits k s = true -> sg_by s = Some (jk_pub k).
Proof.
  unfold key_fits. intros H. apply andb_prop in H. destruct H as [_ H]. destruct (sg_by s) as [b|]; [|discriminate].
  apply String.eqb_eq in H. congruence.
Qed.

Lemma verify_any_made ks sigs : verify_sigs_any ks sigs = true ->
  exists s k, In s sigs /\ In k ks /\ jk_kid k = sg_kid s /\ sg_kid s <> None /\ key_fits k s = true.
Proof.
  induction sigs as [|s r IH]; cbn [verify_sigs_any]; [discriminate|].
  destruct (select_key ks s) as [k|] eqn:E; [|discriminate]. destruct (key_fits k s) eqn:F.
  - intros _. exists s, k. pose proof (select_in _ _ _ E) as [Hk Ek]. split; [now left|]. split; [exact Hk|]. split; [exact Ek|].
    split; [|exact F]. unfold select_key in E. destruct (sg_kid s); congruence.
  - intros H. destruct (IH H) as (s' & k' & Hs & R). exists s', k'. split; [now right|exact R].
Qed.

Lemma parse_typed_ok cx typ jwt m : parse_typed cx typ jwt = Ok m ->
  cx_parse cx jwt = Some m /\ exists s r, ms_sigs m = s :: r /\ sg_typ s = Some typ.
Proof.
  unfold parse_typed. destruct (cx_parse cx jwt) as [m'|]; [|discriminate].
  destruct (verify_type m' typ) eqn:V; [|discriminate]. intros [= ->]. split; [reflexivity|].
  unfold verify_type in V. destruct (ms_sigs m) as [|s r]; [discriminate|]. exists s, r. split; [reflexivity|].
  destruct (sg_typ s); [|discriminate]. apply String.eqb_eq in V. congruence.
Qed.

Theorem accepted_payload cx k ks jwt m : accepted_as cx k ks jwt m ->
  cx_parse cx jwt = Some m /\ verify_message m (Some ks) = Ok (ms_payload m) /\ exists s, made_by ks m s.
Proof.
  intros [P [j V]]. apply parse_typed_ok in P. destruct P as [P _]. split; [exact P|].
  cbn [verify_message] in *. destruct ks as [|k0 ks]; [discriminate|].
  destruct (verify_sigs_any (k0 :: ks) (ms_sigs m)) eqn:E; [|discriminate]. split; [reflexivity|].
  apply verify_any_made in E. destruct E as (s & k' & Hs & Hk & _ & _ & F). exists s. split; [exact Hs|].
  exists k'. split; [exact Hk|now apply fits_by].
Qed.

Theorem accepted_type cx k ks jwt m : accepted_as cx k ks jwt m -> List.length (ms_sigs m) = 1 ->
  exists s, made_by ks m s /\ sg_typ s = Some (typ_of k).
Proof.
  intros A L. pose proof (accepted_payload _ _ _ _ _ A) as (_ & _ & s & Hs & K). destruct A as [P _].
  apply parse_typed_ok in P. destruct P as (_ & s0 & r & E & T).
  exists s. split; [split; [exact Hs|exact K]|]. rewrite E in L, Hs. destruct r; [|discriminate].
  destruct Hs as [<-|[]]. exact T.
Qed.

Lemma typ_inj k k' : typ_of k = typ_of k' -> k = k'.
Proof. destruct k, k'; now intros [=]. Qed.

Lemma typed_ok cx k s p m : typed_jwt cx k s p = Ok m ->
  exists key j, js_key s = Some key /\ p = Ok j /\
    m = Msg j [Sig (Some (typ_of k)) (Some (cx_thumb cx key)) (js_alg s) (Some key)].
Proof.
  unfold typed_jwt, general_jwt. destruct (js_key s) as [key|]; [|discriminate]. destruct p as [j| |]; try discriminate.
  cbn [bind]. unfold sign_with_type, sign_payload. destruct (cx_sign cx key (js_alg s)); [|discriminate].
  intros [= <-]. eauto.
Qed.

Theorem own_kind_only cx k k' s p m jwt : typed_jwt cx k s p = Ok m -> cx_parse cx jwt = Some m -> k' <> k ->
  parse_typed cx (typ_of k') jwt = Err.
Proof.
  intros T P N. apply typed_ok in T. destruct T as (key & j & _ & _ & ->). unfold parse_typed. rewrite P. cbn [verify_type ms_sigs sg_typ].
  destruct (String.eqb_spec (typ_of k) (typ_of k')) as [E|]; [|reflexivity]. apply typ_inj in E. congruence.
Qed.

Theorem untyped_rejected cx k s j m jwt : untyped_jwt cx s j = Ok m -> cx_parse cx jwt = Some m ->
  parse_typed cx (typ_of k) jwt = Err.
Proof.
  unfold untyped_jwt, sign_payload. destruct (js_key s) as [key|]; [|discriminate]. destruct (cx_sign cx key (js_alg s)); [|discriminate].
  intros [= <-] P. unfold parse_typed. now rewrite P.
Qed.

Theorem own_accepted cx k s p m jwt ks : typed_jwt cx k s p = Ok m -> cx_parse cx jwt = Some m ->
  signer_jwks cx s = Ok ks -> parse_typed cx (typ_of k) jwt = Ok m /\ verify_message m (Some ks) = p.
Proof.
  intros T P J. apply typed_ok in T. destruct T as (key & j & K & -> & ->). unfold signer_jwks in J. rewrite K in J. injection J as <-.
  split.
  - unfold parse_typed. rewrite P. cbn [verify_type ms_sigs sg_typ]. now rewrite String.eqb_refl.
  - cbn [verify_message key_to_jwks ms_sigs ms_payload verify_sigs_any select_key sg_kid find jk_kid].
    rewrite String.eqb_refl. unfold key_fits. cbn [jk_use jk_alg sg_alg sg_by jk_pub]. now rewrite !String.eqb_refl.
Qed.

Theorem published_accepted cx k s p m own ks : typed_jwt cx k s p = Ok m ->
  signer_jwks cx s = Ok own -> incl own ks -> kids_differ ks -> verify_message m (Some ks) = p.
Proof.
  intros T J I D. apply typed_ok in T. destruct T as (key & j & K & -> & ->). unfold signer_jwks in J. rewrite K in J. injection J as <-.
  specialize (I _ (or_introl eq_refl)). set (kk := Jwk key (Some (cx_thumb cx key)) (Some (js_alg s)) (Some "sig")) in *.
  cbn [verify_message ms_sigs ms_payload]. destruct ks as [|k0 ks]; [destruct I|].
  set (sg := Sig (Some (typ_of k)) (Some (cx_thumb cx key)) (js_alg s) (Some key)).
  assert (E : select_key (k0 :: ks) sg = Some kk).
  { destruct (select_key (k0 :: ks) sg) as [k1|] eqn:E.
    - pose proof (select_in _ _ _ E) as [H1 H2]. f_equal. apply D; auto.
    - unfold select_key in E. cbn [sg_kid sg] in E. pose proof (find_none _ _ E _ I) as F. cbn [jk_kid kk] in F. now rewrite String.eqb_refl in F. }
  cbn [verify_sigs_any]. rewrite E. unfold key_fits. cbn [jk_use jk_alg sg_alg sg_by jk_pub kk sg]. now rewrite !String.eqb_refl.
Qed.

Theorem foreign_keys cx k s p m ks key : typed_jwt cx k s p = Ok m -> js_key s = Some key ->
  (forall l x, ks = Some l -> In x l -> jk_pub x <> key) -> verify_message m ks = Err.
Proof.
  intros T K F. apply typed_ok in T. destruct T as (key' & j & K' & -> & ->). rewrite K in K'. injection K' as <-.
  destruct ks as [[|k0 ks]|]; [reflexivity| |reflexivity].
  cbn [verify_message ms_sigs]. destruct (verify_sigs_any _ _) eqn:E; [|reflexivity].
  apply verify_any_made in E. destruct E as (sg & x & Hs & Hk & _ & _ & Ft). apply fits_by in Ft.
  destruct Hs as [<-|[]]. cbn [sg_by] in Ft. injection Ft as Ft. elim (F _ x eq_refl Hk). now symmetry.
Qed.

Theorem no_key_jwt cx k s p j : js_key s = None -> typed_jwt cx k s p = Err /\ untyped_jwt cx s j = Err.
Proof. unfold typed_jwt, general_jwt, untyped_jwt. now intros ->. Qed.

Theorem key_no_panic cx s key : js_key s = Some key -> exists ks, new_entity_jwks cx (Some s) = Ok ks /\ List.length ks = 1.
Proof. intros K. unfold new_entity_jwks, signer_jwks. rewrite K. eexists. split; [reflexivity|reflexivity]. Qed.

(** ** The signers of the trust mark theorems *)
Theorem signer_instance e cx key alg (sign : string -> json -> option string) :
  env_matches e cx (fun k => Jwk k (Some (cx_thumb cx k)) (Some alg) (Some "sig")) ->
  (forall k k', cx_thumb cx k = cx_thumb cx k' -> k = k') ->
  (forall typ j jwt, sign typ j = Some jwt -> exists m, general_jwt cx (Signer (Some key) alg) (Ok j) typ = Ok m /\ cx_parse cx jwt = Some m) ->
  signer e sign key.
Proof.
  intros [M1 M2] T S typ j jwt Hs. destruct (S _ _ _ Hs) as (m & G & P).
  unfold general_jwt in G. cbn [js_key bind js_alg] in G. unfold sign_with_type, sign_payload in G.
  destruct (cx_sign cx key alg); [|discriminate]. injection G as <-. rewrite M1, P. cbn [ms_sigs sg_typ ms_payload].
  split; [reflexivity|]. intros ks. rewrite M2, P. cbn [ms_sigs verify_sigs_any select_key sg_kid].
  induction ks as [|k ks IH]; cbn [map find jk_kid In]; [split; [discriminate|intros []]|].
  destruct (String.eqb_spec (cx_thumb cx k) (cx_thumb cx key)) as [E|N].
  - apply T in E. subst k. unfold key_fits. cbn [jk_use jk_alg sg_alg sg_by jk_pub]. rewrite !String.eqb_refl. cbn. tauto.
  - rewrite IH. split; [now right|]. intros [->|H]; [now elim N|exact H].
Qed.

(** ** Exactly which messages verify *)
Lemma fits_made l s k : select_key l s = Some k -> key_fits k s = true -> In k l /\ signed_with s k.
Proof.
  intros S F. pose proof (select_in _ _ _ S) as [I K]. split; [exact I|]. unfold select_key in S.
  destruct (sg_kid s) as [kid|] eqn:E; [|discriminate]. unfold key_fits in F. apply andb_prop in F. destruct F as [F F3].
  apply andb_prop in F. destruct F as [F1 F2]. unfold signed_with. rewrite E. split; [discriminate|]. split; [congruence|]. split; [|split].
  - destruct (jk_use k) as [u|]; [|auto]. apply Bool.orb_prop in F1. destruct F1 as [F1|F1]; apply String.eqb_eq in F1; subst; auto.
  - destruct (jk_alg k) as [a|]; [|auto]. apply String.eqb_eq in F2. subst. auto.
  - destruct (sg_by s) as [b|]; [|discriminate]. apply String.eqb_eq in F3. now subst.
Qed.
Lemma made_fits l s k : kids_differ l -> In k l -> signed_with s k -> select_key l s = Some k /\ key_fits k s = true.
Proof.
  intros D I (K & E & U & A & B). split.
  - destruct (select_key l s) as [k'|] eqn:S.
    + pose proof (select_in _ _ _ S) as [I' K']. f_equal. apply D; auto. congruence.
    + exfalso. unfold select_key in S. destruct (sg_kid s) as [kid|]; [|now apply K].
      pose proof (find_none _ _ S _ I) as F. cbn in F. rewrite E, String.eqb_refl in F. discriminate.
  - unfold key_fits. rewrite B, String.eqb_refl, Bool.andb_true_r. apply andb_true_intro. split.
    + destruct U as [-> |[-> | ->]]; reflexivity.
    + destruct A as [-> | ->]; [reflexivity|apply String.eqb_refl].
Qed.
Theorem verify_only m ks p : verify_message m ks = Ok p ->
  p = ms_payload m /\ exists l s k, ks = Some l /\ In s (ms_sigs m) /\ In k l /\ signed_with s k.
Proof.
  unfold verify_message. destruct ks as [[|k0 l]|]; try discriminate.
  destruct (verify_sigs_any (k0 :: l) (ms_sigs m)) eqn:V; [|discriminate]. intros [= <-]. split; [reflexivity|].
  exists (k0 :: l). generalize dependent (k0 :: l). intros l' V. induction (ms_sigs m) as [|s r IH]; [discriminate|].
  cbn [verify_sigs_any] in V. destruct (select_key l' s) as [k|] eqn:S; [|discriminate]. destruct (key_fits k s) eqn:F.
  - destruct (fits_made _ _ _ S F) as [I M]. exists s, k. simpl. auto.
  - destruct (IH V) as (s' & k' & H1 & H2 & H3 & H4). exists s', k'. simpl. auto.
Qed.
Theorem verify_one payload s l p : kids_differ l ->
  verify_message (Msg payload [s]) (Some l) = Ok p <-> p = payload /\ exists k, In k l /\ signed_with s k.
Proof.
  intros D. split.
  - intros V. apply verify_only in V. destruct V as [-> (l' & s' & k & [= <-] & [<-|[]] & I & M)]. eauto.
  - intros [-> (k & I & M)]. destruct (made_fits l s k D I M) as [S F]. unfold verify_message. destruct l as [|k0 l]; [destruct I|].
    cbn [ms_sigs ms_payload verify_sigs_any]. now rewrite S, F.
Qed.
