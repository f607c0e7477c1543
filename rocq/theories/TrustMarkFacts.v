(** Proofs about trust marks and metadata resolvers. *)
From Coq Require Import Lia Permutation.
From Verif Require Import Base GoVal Policy Schema Metadata Chain Resolver SpecResolver SpecChain FloatTime SpecTime Json SpecJson
  TrustMark SpecTrustMark BaseFacts ChainFacts ResolverFacts ResolverLaws FloatFacts TimeFacts JsonFacts.
Local Open Scope string_scope.

(** ** Sequencing *)
Lemma rbind_ok {A B} (a : run A) (f : A -> run B) b :
  rbind a f = Done (Ok b) -> exists x, a = Done (Ok x) /\ f x = Done (Ok b).
Proof. destruct a as [[x| |]|]; cbn; try discriminate. eauto. Qed.
Lemma rbind_err {A B} (a : run A) (f : A -> run B) :
  rbind a f = Done Err -> a = Done Err \/ exists x, a = Done (Ok x) /\ f x = Done Err.
Proof. destruct a as [[x| |]|]; cbn; try discriminate; eauto. Qed.

(** ** Decoding gives values of the field's type *)
Inductive kind : jfield gval -> Prop :=
| k_str t o : kind (JField t o str_codec)
| k_time t o : kind (JField t o time_codec)
| k_ptr t o : kind (JField t o time_ptr_codec).
Inductive fits : jfield gval -> gval -> Prop :=
| fi_str t o s : fits (JField t o str_codec) (GStr s)
| fi_time t o x : fits (JField t o time_codec) (GTime x)
| fi_ptr t o x : fits (JField t o time_ptr_codec) (GTimePtr x).

Lemma dec_fits f old j v : kind f -> c_dec (f_codec f) old j = Ok v -> fits f v.
Proof.
  intros [t o|t o|t o] H; cbn [f_codec c_dec str_codec time_codec time_ptr_codec] in H;
    apply bind_ok in H; destruct H as (x & _ & [= <-]); constructor.
Qed.

Lemma set_nth_fits fs : forall vs i f v, Forall2 fits fs vs -> nth_error fs i = Some f -> fits f v -> Forall2 fits fs (set_nth i v vs).
Proof.
  induction fs as [|g fs IH]; intros vs i f v F N H; inversion F; subst; destruct i as [|i]; try discriminate; cbn in *.
  - injection N as ->. now constructor.
  - constructor; auto. eapply IH; eauto.
Qed.

Lemma dec_fields_fits fs o : forall vs vs', (forall f, In f fs -> kind f) -> Forall2 fits fs vs ->
  dec_fields fs o vs = Ok vs' -> Forall2 fits fs vs'.
Proof.
  induction o as [|[k j] o IH]; intros vs vs' K F; cbn [dec_fields]; [now intros [= <-]|].
  destruct (field_of (tags fs) k) as [i|]; [|now apply IH].
  destruct (nth_error fs i) as [f|] eqn:Ef; [|now apply IH].
  destruct (nth_error vs i) as [v|] eqn:Ev; [|now apply IH].
  intros H. apply bind_ok in H. destruct H as (v' & Hv & H). eapply IH; [exact K| |exact H].
  eapply set_nth_fits; eauto. eapply dec_fits; eauto. apply K. eapply nth_error_In; eauto.
Qed.

Lemma decode_fits fs j vs x : (forall f, In f fs -> kind f) -> Forall2 fits fs (zeros fs) ->
  decode fs j = Ok (vs, x) -> Forall2 fits fs vs.
Proof.
  unfold decode, unmarshal_with_extra. intros K Z H. destruct j as [| | | | |o]; try discriminate.
  - now injection H as <- _.
  - apply bind_ok in H. destruct H as (v & Hv & [= <- _]). eapply dec_fields_fits; eauto.
Qed.

Ltac kinds := intros f Hf; repeat (destruct Hf as [<-|Hf]; [constructor|]); destruct Hf.
Ltac inv_fits := repeat match goal with
  | H : Forall2 fits (_ :: _) _ |- _ => inversion H; clear H; subst
  | H : Forall2 fits [] _ |- _ => inversion H; clear H; subst
  | H : fits _ _ |- _ => inversion H; clear H; subst
  end.

Lemma decode_mark j vs x msg : decode mark_fields j = Ok (vs, x) -> mark_values (mark_of vs x msg) = vs.
Proof.
  intros H. apply decode_fits in H; [|kinds|repeat constructor]. unfold mark_fields in H. inv_fits. reflexivity.
Qed.
Lemma decode_delegation j vs x msg : decode delegation_fields j = Ok (vs, x) -> deleg_values (deleg_of vs x msg) = vs.
Proof.
  intros H. apply decode_fits in H; [|kinds|repeat constructor]. unfold delegation_fields in H. inv_fits. reflexivity.
Qed.

Lemma parse_mark_spec e jwt m : parse_mark e jwt = Ok m <-> is_mark e jwt m.
Proof.
  unfold parse_mark, is_mark. split.
  - destruct (te_parse e jwt) as [[typ j]|]; [|discriminate].
    destruct (String.eqb_spec typ typ_mark) as [->|]; [|discriminate]. cbn [negb]. intros H.
    apply bind_ok in H. destruct H as ([vs x] & Hd & [= <-]). exists j. split; [reflexivity|].
    rewrite (decode_mark j) by exact Hd. auto.
  - intros (j & -> & D & M). change (String.eqb "trust-mark+jwt" typ_mark) with true. cbn [negb].
    unfold decode in D. rewrite D. cbn [bind]. f_equal. destruct m; cbn in *. now subst.
Qed.
Lemma parse_delegation_spec e jwt d : parse_delegation e jwt = Ok d <-> is_delegation e jwt d.
Proof.
  unfold parse_delegation, is_delegation. split.
  - destruct (te_parse e jwt) as [[typ j]|]; [|discriminate].
    destruct (String.eqb_spec typ typ_delegation) as [->|]; [|discriminate]. cbn [negb]. intros H.
    apply bind_ok in H. destruct H as ([vs x] & Hd & [= <-]). exists j. split; [reflexivity|].
    rewrite (decode_delegation j) by exact Hd. auto.
  - intros (j & -> & D & M). change (String.eqb "trust-mark-delegation+jwt" typ_delegation) with true. cbn [negb].
    unfold decode in D. rewrite D. cbn [bind]. f_equal. destruct d; cbn in *. now subst.
Qed.

Lemma is_mark_msg e jwt m : is_mark e jwt m -> mk_msg m = Some jwt.
Proof. intros (j & _ & _ & H). exact H. Qed.
Lemma is_mark_fun e jwt m m' : is_mark e jwt m -> is_mark e jwt m' -> m = m'.
Proof. rewrite <- !parse_mark_spec. congruence. Qed.

Lemma verify_set_spec e j ks : verify_with_set e (Some j) ks = true <-> signed_with e j ks.
Proof.
  unfold verify_with_set, signed_with. destruct ks as [[|k l]|]; split; try discriminate;
    try (intros (k' & l' & E & _); discriminate); eauto.
  intros (k' & l' & [= <- <-] & V). exact V.
Qed.

Lemma live_spec now iat exp : verify_time_ptr now (Some iat) exp = Ok tt <-> live now iat exp.
Proof. apply verify_time_present. Qed.

Lemma deleg_external_spec e p d ks j : dg_msg d = Some j ->
  deleg_verify_external e p d ks = Ok tt <-> live (te_now e p true) (dg_iat d) (dg_exp d) /\ signed_with e j ks.
Proof.
  intros M. unfold deleg_verify_external. rewrite M, <- live_spec, <- verify_set_spec.
  destruct (verify_time_ptr _ _ _) as [[]| |]; cbn [bind]; [|split; [discriminate|now intros [? _]]..].
  destruct (verify_with_set e (Some j) ks); split; try discriminate; try tauto. now intros [_ ?].
Qed.

Lemma mark_external_spec e p m j ks tmo : mk_msg m = Some j ->
  (mark_verify_external e p m ks tmo = Ok tt <->
   live (te_now e p false) (mk_iat m) (mk_exp m) /\ signed_with e j ks /\
   (forall o, hd_error tmo = Some o -> delegated e p m o)).
Proof.
  intros M. unfold mark_verify_external. rewrite M, <- live_spec, <- verify_set_spec.
  destruct (verify_time_ptr _ _ _) as [[]| |]; cbn [bind]; [|split; [discriminate|now intros [? _]]..].
  destruct (verify_with_set e (Some j) ks); cbn [negb]; [|split; [discriminate|now intros (_ & ? & _)]].
  destruct tmo as [|[o oks] tmo]; cbn [hd_error]; [split; [intros _; repeat split; auto; discriminate|auto]|].
  transitivity (delegated e p m (o, oks)).
  2: { split; [intros D; split; [reflexivity|]; split; [reflexivity|]; now intros ? [= <-]|intros (_ & _ & H); now apply H]. }
  unfold mark_delegation, delegated. cbn [fst snd].
  destruct (String.eqb_spec (mk_deleg m) "") as [E|N]; cbn [bind].
  { split; [discriminate|]. intros [H _]. contradiction. }
  destruct (parse_delegation e (mk_deleg m)) as [d| |] eqn:PD; cbn [bind].
  2,3: split; [discriminate|]; intros (_ & d & H & _); apply parse_delegation_spec in H; congruence.
  apply parse_delegation_spec in PD.
  assert (DM : dg_msg d = Some (mk_deleg m)) by (destruct PD as (? & _ & _ & H); exact H).
  destruct (String.eqb_spec (dg_type d) (mk_type m)) as [E1|N1]; cbn [negb].
  2: { split; [discriminate|]. intros (_ & d' & H & E & _). apply parse_delegation_spec in H, PD. congruence. }
  destruct (String.eqb_spec (dg_sub d) (mk_iss m)) as [E2|N2]; cbn [negb].
  2: { split; [discriminate|]. intros (_ & d' & H & _ & E & _). apply parse_delegation_spec in H, PD. congruence. }
  destruct (String.eqb_spec (dg_iss d) o) as [E3|N3]; cbn [negb].
  2: { split; [discriminate|]. intros (_ & d' & H & _ & _ & E & _). apply parse_delegation_spec in H, PD. congruence. }
  rewrite (deleg_external_spec e p d oks _ DM). split.
  - intros [L S]. split; auto. exists d. auto 10.
  - intros (_ & d' & H & _ & _ & _ & L & S). assert (d' = d) as -> by (apply parse_delegation_spec in H, PD; congruence). auto.
Qed.

(** ** Infos *)
Lemma info_mark_sync e t : in_sync e t ->
  forall m, (exists t', info_mark e t = Ok (m, t')) <-> is_mark e (ti_jwt t) m.
Proof.
  intros S m. unfold info_mark.
  assert (P : (exists t', (m' <- parse_mark e (ti_jwt t) ;; Ok (m', Info (ti_type t) (ti_jwt t) (ti_extra t) (Some m'))) = Ok (m, t'))
              <-> is_mark e (ti_jwt t) m).
  { rewrite <- parse_mark_spec. split.
    - intros (t' & H). apply bind_ok in H. destruct H as (m' & Hm & [= <- _]). exact Hm.
    - intros ->. cbn [bind]. eauto. }
  destruct (ti_mark t) as [m0|] eqn:E0; [|exact P]. destruct (mk_msg m0) as [j|] eqn:EM; [|exact P].
  pose proof (S m0 j E0 EM) as I0. split.
  - intros (t' & [= <- _]). exact I0.
  - intros I. rewrite (is_mark_fun _ _ _ _ I I0). eauto.
Qed.

Lemma info_mark_visible e t m t' : info_mark e t = Ok (m, t') -> visible t' = visible t.
Proof.
  unfold info_mark. destruct (ti_mark t) as [m0|] eqn:E0; [destruct (mk_msg m0)|].
  - now intros [= _ <-].
  - intros H. apply bind_ok in H. destruct H as (m' & _ & [= _ <-]). reflexivity.
  - intros H. apply bind_ok in H. destruct H as (m' & _ & [= _ <-]). reflexivity.
Qed.

Lemma info_external_spec e p t ks tmo : in_sync e t ->
  (fst (info_verify_external e p t ks tmo) = Ok tt <-> exists m, mark_valid e p t m ks (hd_error tmo)).
Proof.
  intros S. unfold info_verify_external. pose proof (info_mark_sync e t S) as IM.
  destruct (info_mark e t) as [[m t']| |] eqn:E; cbn [fst].
  - assert (I : is_mark e (ti_jwt t) m) by (apply IM; eauto). pose proof (is_mark_msg _ _ _ I) as M.
    destruct (String.eqb_spec (mk_type m) (ti_type t)) as [ET|NT]; cbn [negb].
    + rewrite (mark_external_spec e p m _ ks tmo M). split.
      * intros (L & Sg & D). exists m. now split.
      * intros (m' & H). pose proof (is_mark_fun _ _ _ _ I (mv_parses _ _ _ _ _ _ H)) as <-.
        split; [apply (mv_live _ _ _ _ _ _ H)|]. split; [apply (mv_signed _ _ _ _ _ _ H)|apply (mv_owner _ _ _ _ _ _ H)].
    + split; [discriminate|]. intros (m' & H). pose proof (is_mark_fun _ _ _ _ I (mv_parses _ _ _ _ _ _ H)) as <-.
      elim NT. apply (mv_type _ _ _ _ _ _ H).
  - split; [discriminate|]. intros (m' & H). pose proof (proj2 (IM m') (mv_parses _ _ _ _ _ _ H)) as (? & ?). discriminate.
  - split; [discriminate|]. intros (m' & H). pose proof (proj2 (IM m') (mv_parses _ _ _ _ _ _ H)) as (? & ?). discriminate.
Qed.

(** [keys] computes key sets described by [K]. *)
Lemma info_federation_spec keys (K : env -> list nat -> string -> stmt -> jwks -> Prop) e p t ta : in_sync e t ->
  (forall m, is_mark e (ti_jwt t) m -> forall ks, keys p (mk_iss m) ta = Done (Ok ks) -> K e p (mk_iss m) ta ks) ->
  fst (info_verify_federation keys e p t ta) = Done (Ok tt) -> recognised K e p t ta.
Proof.
  intros S HK. unfold info_verify_federation. pose proof (info_mark_sync e t S) as IM.
  destruct (info_mark e t) as [[m t']| |] eqn:E; cbn [fst]; try discriminate.
  assert (I : is_mark e (ti_jwt t) m) by (apply IM; eauto). pose proof (is_mark_msg _ _ _ I) as M.
  destruct (String.eqb_spec (mk_type m) (ti_type t)) as [ET|NT]; cbn [negb]; [|discriminate].
  unfold mark_verify_federation. intros H.
  destruct (match lookup (mk_type m) (st_mark_issuers ta) with Some l => negb (mem (mk_iss m) l) | None => false end) eqn:EI;
    [discriminate|].
  apply rbind_ok in H. destruct H as (ks & Hk & H). exists m, ks. split; [auto|]. split.
  - destruct (lookup (mk_type m) (st_mark_owners ta)) as [o|]; injection H as H;
      pose proof (proj1 (mark_external_spec e p m _ ks _ M) H) as (L & Sg & D); now split.
  - intros l El. rewrite El in EI. apply negb_false_iff, mem_In in EI. exact EI.
Qed.

Lemma info_federation_conv keys e p t ta m ks : in_sync e t ->
  keys p (mk_iss m) ta = Done (Ok ks) ->
  mark_valid e p t m ks (lookup (mk_type m) (st_mark_owners ta)) ->
  (forall l, lookup (mk_type m) (st_mark_issuers ta) = Some l -> In (mk_iss m) l) ->
  fst (info_verify_federation keys e p t ta) = Done (Ok tt).
Proof.
  intros S HK V HI. unfold info_verify_federation. pose proof (mv_parses _ _ _ _ _ _ V) as I.
  pose proof (proj2 (info_mark_sync e t S m) I) as (t' & ->). cbn [fst].
  rewrite (mv_type _ _ _ _ _ _ V), String.eqb_refl. cbn [negb]. unfold mark_verify_federation.
  rewrite (mv_type _ _ _ _ _ _ V) in HI |- *.
  destruct (lookup (ti_type t) (st_mark_issuers ta)) as [l|] eqn:EI.
  - rewrite (proj2 (mem_In _ _) (HI l eq_refl)). cbn [negb]. rewrite HK. cbn [rbind].
    rewrite (mv_type _ _ _ _ _ _ V) in V.
    destruct (lookup (ti_type t) (st_mark_owners ta)) as [o|]; f_equal; apply (mark_external_spec e p m _ ks _ (is_mark_msg _ _ _ I));
      (split; [apply (mv_live _ _ _ _ _ _ V)|]; split; [apply (mv_signed _ _ _ _ _ _ V)|apply (mv_owner _ _ _ _ _ _ V)]).
  - rewrite HK. cbn [rbind]. rewrite (mv_type _ _ _ _ _ _ V) in V.
    destruct (lookup (ti_type t) (st_mark_owners ta)) as [o|]; f_equal; apply (mark_external_spec e p m _ ks _ (is_mark_msg _ _ _ I));
      (split; [apply (mv_live _ _ _ _ _ _ V)|]; split; [apply (mv_signed _ _ _ _ _ _ V)|apply (mv_owner _ _ _ _ _ _ V)]).
Qed.

(** ** Local resolution *)
Lemma sort_path_len_perm e cs : Permutation (sort_path_len e cs) cs.
Proof. unfold sort_path_len. destruct (Nat.leb _ _); [apply sort_asc_perm|apply sort_swaps_perm]. Qed.

Lemma first_metadata_all cs : (forall c, In c cs -> is_ok (chain_metadata c) = true) ->
  first_with_metadata cs = match cs with [] => Err | c :: _ => m <- chain_metadata c ;; Ok (m, c) end.
Proof.
  destruct cs as [|c cs]; [reflexivity|]. intros H. cbn [first_with_metadata]. specialize (H c (or_introl eq_refl)).
  destruct (chain_metadata c); [reflexivity|discriminate|discriminate].
Qed.

Lemma resolve_valid_ok fuel w tas types start cs : resolve_valid fuel w tas types start = Done (Ok cs) ->
  forall c, In c cs -> is_ok (chain_metadata c) = true.
Proof.
  unfold resolve_valid. destruct (resolve_chains fuel w tas types start) as [r|]; [|discriminate]. intros [= H].
  apply bind_ok in H. destruct H as (cs0 & -> & H). intros c Hc. apply (valid_filter_in _ _ c H). exact Hc.
Qed.

Definition plain_anchors (ids : list string) : list anchor := map (fun id => Anchor id None) ids.

Lemma local_plain_ok fuel e p rq pl c : local_plain fuel e p rq = Done (Ok (pl, c)) <->
  exists cs m r, resolve_valid fuel (te_world e p rq) (plain_anchors (rq_anchors rq)) (rq_types rq) (rq_sub rq) = Done (Ok cs) /\
    sort_path_len e cs = c :: r /\ chain_metadata c = Ok m /\ pl = Payload m [] (messages c).
Proof.
  unfold local_plain, plain_anchors. split.
  - intros H. apply rbind_ok in H. destruct H as (cs & HR & H). pose proof (resolve_valid_ok _ _ _ _ _ _ HR) as V.
    destruct cs as [|c0 cs]; [discriminate|]. injection H as H.
    rewrite first_metadata_all in H.
    2: { intros c' Hc. apply V. eapply Permutation_in; [apply sort_path_len_perm|exact Hc]. }
    destruct (sort_path_len e (c0 :: cs)) as [|c1 r] eqn:ES; [discriminate|].
    apply bind_ok in H. destruct H as ([m c2] & H & [= <- <-]). apply bind_ok in H. destruct H as (m' & EM & [= <- <-]).
    exists (c0 :: cs), m', r. auto.
  - intros (cs & m & r & HR & ES & EM & ->). rewrite HR. cbn [rbind].
    destruct cs as [|c0 cs]; [now apply (Permutation_length) in ES || (pose proof (sort_path_len_perm e []) as P; rewrite ES in P; now apply Permutation_sym, Permutation_nil in P)|].
    rewrite first_metadata_all, ES.
    2: { intros c' Hc. apply (resolve_valid_ok _ _ _ _ _ _ HR). eapply Permutation_in; [apply sort_path_len_perm|exact Hc]. }
    now rewrite EM.
Qed.

Lemma local_plain_err fuel e p rq : local_plain fuel e p rq = Done Err <->
  resolve_valid fuel (te_world e p rq) (plain_anchors (rq_anchors rq)) (rq_types rq) (rq_sub rq) = Done Err \/
  resolve_valid fuel (te_world e p rq) (plain_anchors (rq_anchors rq)) (rq_types rq) (rq_sub rq) = Done (Ok []).
Proof.
  unfold local_plain, plain_anchors. destruct (resolve_valid _ _ _ _ _) as [[cs| |]|] eqn:HR; cbn [rbind];
    try (split; [discriminate|intros [H|H]; discriminate]); [|split; auto].
  destruct cs as [|c0 cs]; [split; auto|]. split; [|intros [H|H]; discriminate].
  pose proof (resolve_valid_ok _ _ _ _ _ _ HR) as V.
  rewrite first_metadata_all.
  2: { intros c' Hc. apply V. eapply Permutation_in; [apply sort_path_len_perm|exact Hc]. }
  destruct (sort_path_len e (c0 :: cs)) as [|c1 r] eqn:ES.
  { pose proof (sort_path_len_perm e (c0 :: cs)) as P. rewrite ES in P. apply Permutation_nil in P. discriminate. }
  assert (Hc : In c1 (c0 :: cs)) by (eapply Permutation_in; [apply sort_path_len_perm|]; rewrite ES; now left).
  specialize (V c1 Hc). destruct (chain_metadata c1); cbn; discriminate.
Qed.

(** No metadata filter result is an error. *)
Lemma valid_filter_err cs : valid_metadata_filter cs <> Err.
Proof.
  induction cs as [|c cs IH]; [discriminate|]. cbn [valid_metadata_filter]. destruct (chain_metadata c); try discriminate; auto.
  destruct (valid_metadata_filter cs); cbn; congruence.
Qed.

Lemma start_config_none (w : world) s m : st_metadata s = Some m -> with_metadata s (Some m) = s.
Proof. intros E. destruct s. cbn in *. now rewrite E. Qed.

Lemma valid_returned fuel w tas types start cs c :
  resolve_valid fuel w tas types start = Done (Ok cs) -> In c cs -> returned w tas types start c.
Proof. intros H Hc. exists fuel, cs. auto. Qed.

(** All chains from one entity begin with its configuration. *)
Lemma chain_first w ids start c : chain_to w ids start [] c ->
  exists s r, c = s :: r /\ w_config w [] start = Some s.
Proof.
  intros (fuel & cs & H & Hc). pose proof (valid_returned _ _ _ _ _ _ _ H Hc) as R.
  apply returned_root in R. destruct R as (e & (_ & s & m & EC & EM & ->) & R).
  rewrite (start_config_none w s m EM) in R. exists s. destruct R as [[-> _]|(h & hs & _ & _ & ->)]; eauto.
  unfold chain_along. eauto.
Qed.

Lemma issuer_keys_local e p iss ta : te_default e = LocalR ->
  decodes e (te_world e p (issuer_request iss ta)) ->
  forall ks, (exists fuel, issuer_keys fuel e p iss ta = Done (Ok ks)) <-> chain_keys (fun _ => True) e p iss ta ks.
Proof.
  intros DL DE ks. set (w := te_world e p (issuer_request iss ta)) in *. split.
  - intros ([|f] & H); [discriminate|]. cbn [issuer_keys] in H.
    destruct (String.eqb_spec iss (st_sub ta)) as [E|N]; [injection H as <-; left; auto|]. right. split; auto.
    rewrite DL in H. apply rbind_ok in H. destruct H as (pl & HP & H).
    apply rbind_ok in HP. destruct HP as ([pl' c] & HP & [= <-]). cbn [fst] in *.
    apply local_plain_ok in HP. destruct HP as (cs & m & r & HR & ES & EM & ->). cbn [pl_chain] in H.
    change (te_world e p {| rq_sub := iss; rq_anchors := [st_sub ta]; rq_types := [] |}) with w in HR.
    assert (Hc : In c cs) by (eapply Permutation_in; [apply (sort_path_len_perm e)|]; rewrite ES; now left).
    assert (CT : chain_to w [st_sub ta] iss [] c) by (exists f, cs; auto).
    destruct (chain_first _ _ _ _ CT) as (s & r' & -> & EC). cbn [messages map] in H. rewrite (DE _ _ _ EC) in H.
    injection H as H. apply bind_ok in H. destruct H as (n & HL & H).
    destruct (st_jwks s) as [[|k l]|] eqn:EK; cbn in HL; injection HL as <- || discriminate; try discriminate.
    cbn in H. injection H as <-. exists s, r', k, l. auto.
  - intros [[-> ->]|(N & s & r & k & l & CT & _ & -> & EK)].
    + exists 1. cbn [issuer_keys]. now rewrite String.eqb_refl.
    + destruct CT as (f & cs & HR & Hc). exists (S f). cbn [issuer_keys].
      destruct (String.eqb_spec iss (st_sub ta)) as [|_]; [contradiction|]. rewrite DL.
      destruct (sort_path_len e cs) as [|c1 r1] eqn:ES.
      { pose proof (sort_path_len_perm e cs) as P. rewrite ES in P. apply Permutation_nil in P. subst. destruct Hc. }
      assert (Hc1 : In c1 cs) by (eapply Permutation_in; [apply (sort_path_len_perm e)|]; rewrite ES; now left).
      pose proof (resolve_valid_ok _ _ _ _ _ _ HR c1 Hc1) as V. destruct (chain_metadata c1) as [m| |] eqn:EM; try discriminate.
      assert (HP : local_plain f e p (issuer_request iss ta) = Done (Ok (Payload m [] (messages c1), c1))).
      { apply local_plain_ok. exists cs, m, r1. auto. }
      unfold issuer_request in HP. rewrite HP. cbn [rbind fst pl_chain].
      destruct (chain_first w [st_sub ta] iss c1) as (s1 & r2 & -> & EC1); [exists f, cs; auto|].
      destruct (chain_first w [st_sub ta] iss (s :: r)) as (s2 & r3 & [= -> ->] & EC2); [exists f, cs; auto|].
      rewrite EC1 in EC2. injection EC2 as ->. cbn [messages map]. rewrite (DE _ _ _ EC1). cbn.
      rewrite EK. reflexivity.
Qed.

(** C40, what the code does. *)
Theorem verify_mark_iff e p t ta : te_default e = LocalR -> in_sync e t ->
  (forall iss, decodes e (te_world e p (issuer_request iss ta))) ->
  ((exists fuel, verify_mark fuel e p t ta = Done (Ok tt)) <-> recognised (chain_keys (fun _ => True)) e p t ta).
Proof.
  intros DL S DE. unfold verify_mark. split.
  - intros (fuel & H). eapply (info_federation_spec (issuer_keys fuel e)); eauto.
    intros m _ ks Hk. apply (issuer_keys_local e p (mk_iss m) ta DL (DE _)). eauto.
  - intros (m & ks & HK & V & HI). apply (issuer_keys_local e p (mk_iss m) ta DL (DE _)) in HK.
    destruct HK as (fuel & HK). exists fuel. eapply info_federation_conv; eauto.
Qed.

(** Issuers that name superiors and serve their own configuration. *)
Lemma chain_keys_anchored e p iss ta ks :
  (forall s, w_config (te_world e p (issuer_request iss ta)) [] iss = Some s -> st_hints s <> [] /\ st_iss s = iss) ->
  chain_keys (fun _ => True) e p iss ta ks <-> federation_keys e p iss ta ks.
Proof.
  intros H. unfold federation_keys, chain_keys. split.
  - intros [L|(N & s & r & k & l & CT & _ & E)]; [now left|]. right. split; auto. exists s, r, k, l.
    split; auto. split; auto. destruct (chain_first _ _ _ _ CT) as (s' & r' & [= <- <-] & EC). destruct (H _ EC) as [NH EI].
    destruct CT as (f & cs & HR & Hc). pose proof (valid_returned _ _ _ _ _ _ _ HR Hc) as R.
    assert (L : List.length (s :: r) <> 1).
    { pose proof (returned_root _ _ _ _ _ R) as (e0 & (_ & s0 & m0 & EC0 & EM0 & ->) & RC).
      rewrite EC0 in EC. injection EC as ->. rewrite (start_config_none (te_world e p (issuer_request iss ta)) s m0 EM0) in RC.
      destruct RC as [[E' [A|A]]|(h & hs & _ & _ & E')].
      - cbn in A. destruct A as [A|[]]. congruence.
      - contradiction.
      - unfold chain_along in E'. injection E' as ->. cbn. discriminate. }
    split; [eapply chain_signed; eauto|eapply chain_anchored; eauto].
  - intros [L|(N & s & r & k & l & CT & _ & E)]; [now left|]. right. split; auto. exists s, r, k, l. auto.
Qed.

Theorem verify_mark_federation e p t ta : te_default e = LocalR -> in_sync e t ->
  (forall iss, decodes e (te_world e p (issuer_request iss ta))) ->
  (forall m s, is_mark e (ti_jwt t) m -> w_config (te_world e p (issuer_request (mk_iss m) ta)) [] (mk_iss m) = Some s ->
     st_hints s <> [] /\ st_iss s = mk_iss m) ->
  ((exists fuel, verify_mark fuel e p t ta = Done (Ok tt)) <-> recognised federation_keys e p t ta).
Proof.
  intros DL S DE H. rewrite (verify_mark_iff e p t ta DL S DE). unfold recognised.
  split; intros (m & ks & K & V & I); exists m, ks; (split; [|auto]);
    apply (chain_keys_anchored e p (mk_iss m) ta ks); auto; intros s; apply H; apply (mv_parses _ _ _ _ _ _ V).
Qed.

(** ** Lists of marks *)
Lemma info_federation_visible keys e p t ta r t' :
  info_verify_federation keys e p t ta = (r, t') -> visible t' = visible t.
Proof.
  unfold info_verify_federation. destruct (info_mark e t) as [[m t1]| |] eqn:E; intros [= _ <-]; auto.
  eapply info_mark_visible; eauto.
Qed.
Lemma info_external_visible e p t ks tmo r t' :
  info_verify_external e p t ks tmo = (r, t') -> visible t' = visible t.
Proof.
  unfold info_verify_external. destruct (info_mark e t) as [[m t1]| |] eqn:E; intros [= _ <-]; auto.
  eapply info_mark_visible; eauto.
Qed.

Lemma verified_federation_spec keys e p ta : forall ts i r,
  verified_federation keys e p i ts ta = Done (Ok r) ->
  map visible r = map visible (picked (fun i t => succeeds (fst (info_verify_federation keys e (i :: p) t ta))) i ts).
Proof.
  induction ts as [|t ts IH]; intros i r; cbn [verified_federation picked]; [now intros [= <-]|].
  destruct (info_verify_federation keys e (i :: p) t ta) as [[[[]| |]|] t'] eqn:E; cbn [fst succeeds]; try discriminate.
  - intros H. apply rbind_ok in H. destruct H as (r' & H & [= <-]). cbn [map]. f_equal; [|now apply IH].
    eapply info_federation_visible; eauto.
  - apply IH.
Qed.

Lemma verified_federation_total keys e p ta : forall ts i,
  (forall k t, nth_error ts k = Some t ->
     exists x, fst (info_verify_federation keys e (i + k :: p) t ta) = Done x /\ x <> Panic) ->
  exists r, verified_federation keys e p i ts ta = Done (Ok r).
Proof.
  induction ts as [|t ts IH]; intros i H; cbn [verified_federation]; [eauto|].
  destruct (IH (S i)) as (r & Hr).
  { intros k t' Hk. replace (S i + k) with (i + S k) by lia. now apply H. }
  destruct (H 0 t eq_refl) as (x & Hx & NP). rewrite Nat.add_0_r in Hx.
  destruct (info_verify_federation keys e (i :: p) t ta) as [q t']. cbn [fst] in Hx. subst q.
  destruct x as [[]| |]; [|eauto|contradiction]. rewrite Hr. cbn. eauto.
Qed.

Lemma verified_external_spec e p ks tmo : forall ts i r,
  verified_external e p i ts ks tmo = Ok r ->
  map visible r = map visible (picked (fun i t => is_ok (fst (info_verify_external e (i :: p) t ks tmo))) i ts).
Proof.
  induction ts as [|t ts IH]; intros i r; cbn [verified_external picked]; [now intros [= <-]|].
  destruct (info_verify_external e (i :: p) t ks tmo) as [[[]| |] t'] eqn:E; cbn [fst is_ok]; try discriminate.
  - intros H. apply bind_ok in H. destruct H as (r' & H & [= <-]). cbn [map]. f_equal; [|now apply IH].
    eapply info_external_visible; eauto.
  - apply IH.
Qed.

(** External verification does not crash. *)
Lemma dec_no_panic f old j : kind f -> c_dec (f_codec f) old j <> Panic.
Proof.
  intros [t o|t o|t o]; cbn [f_codec c_dec str_codec time_codec time_ptr_codec]; destruct j; cbn; try discriminate.
Qed.
Lemma dec_fields_no_panic fs o : forall vs, (forall f, In f fs -> kind f) -> dec_fields fs o vs <> Panic.
Proof.
  induction o as [|[k j] o IH]; intros vs K; cbn [dec_fields]; [discriminate|].
  destruct (field_of (tags fs) k) as [i|]; [|now apply IH].
  destruct (nth_error fs i) as [f|] eqn:Ef; [|now apply IH].
  destruct (nth_error vs i) as [v|] eqn:Ev; [|now apply IH].
  pose proof (dec_no_panic f v j (K f (nth_error_In _ _ Ef))) as N.
  destruct (c_dec (f_codec f) v j); cbn; [now apply IH|discriminate|contradiction].
Qed.
Lemma decode_no_panic fs j vs : (forall f, In f fs -> kind f) -> unmarshal_with_extra fs j vs <> Panic.
Proof.
  intros K. unfold unmarshal_with_extra. destruct j as [| | | | |o]; try discriminate.
  pose proof (dec_fields_no_panic fs o vs K) as N. destruct (dec_fields fs o vs); cbn; congruence.
Qed.
Lemma parse_mark_no_panic e j : parse_mark e j <> Panic.
Proof.
  unfold parse_mark. destruct (te_parse e j) as [[typ x]|]; [|discriminate]. destruct (String.eqb typ typ_mark); [|discriminate].
  cbn [negb]. pose proof (decode_no_panic mark_fields x (zeros mark_fields) ltac:(kinds)) as N.
  destruct (unmarshal_with_extra mark_fields x (zeros mark_fields)) as [[vs y]| |]; cbn; congruence.
Qed.
Lemma parse_delegation_no_panic e j : parse_delegation e j <> Panic.
Proof.
  unfold parse_delegation. destruct (te_parse e j) as [[typ x]|]; [|discriminate]. destruct (String.eqb typ typ_delegation); [|discriminate].
  cbn [negb]. pose proof (decode_no_panic delegation_fields x (zeros delegation_fields) ltac:(kinds)) as N.
  destruct (unmarshal_with_extra delegation_fields x (zeros delegation_fields)) as [[vs y]| |]; cbn; congruence.
Qed.
Lemma verify_time_no_panic now a b : verify_time_ptr now a b <> Panic.
Proof. unfold verify_time_ptr. destruct (match a with Some _ => _ | None => _ end); [discriminate|]. destruct (match b with Some _ => _ | None => _ end); discriminate. Qed.
Lemma mark_external_no_panic e p m ks tmo : mark_verify_external e p m ks tmo <> Panic.
Proof.
  unfold mark_verify_external, mark_delegation, deleg_verify_external.
  destruct (verify_time_ptr _ _ _) eqn:E; cbn [bind]; [|discriminate|now apply verify_time_no_panic in E].
  destruct (verify_with_set _ _ _); cbn [negb]; [|discriminate]. destruct tmo as [|[o oks] tmo]; [discriminate|].
  destruct (String.eqb (mk_deleg m) ""); cbn [bind]; [discriminate|].
  pose proof (parse_delegation_no_panic e (mk_deleg m)) as N.
  destruct (parse_delegation e (mk_deleg m)) as [d| |]; cbn [bind]; [|discriminate|contradiction].
  destruct (String.eqb (dg_type d) _); [|discriminate]. destruct (String.eqb (dg_sub d) _); [|discriminate].
  destruct (String.eqb (dg_iss d) _); [|discriminate]. cbn [negb].
  destruct (verify_time_ptr _ (Some (dg_iat d)) _) eqn:E2; cbn [bind]; [|discriminate|now apply verify_time_no_panic in E2].
  destruct (verify_with_set _ _ _); discriminate.
Qed.
Lemma info_external_no_panic e p t ks tmo : fst (info_verify_external e p t ks tmo) <> Panic.
Proof.
  unfold info_verify_external.
  assert (N : info_mark e t <> Panic).
  { unfold info_mark. pose proof (parse_mark_no_panic e (ti_jwt t)) as N.
    destruct (ti_mark t) as [m0|]; [destruct (mk_msg m0); [discriminate|]|];
      destruct (parse_mark e (ti_jwt t)); cbn; congruence. }
  destruct (info_mark e t) as [[m t']| |]; cbn [fst]; [|discriminate|contradiction].
  destruct (negb _); [discriminate|apply mark_external_no_panic].
Qed.
Lemma verified_external_total e p ks tmo : forall ts i, exists r, verified_external e p i ts ks tmo = Ok r.
Proof.
  induction ts as [|t ts IH]; intros i; cbn [verified_external]; [eauto|].
  pose proof (info_external_no_panic e (i :: p) t ks tmo) as N.
  destruct (info_verify_external e (i :: p) t ks tmo) as [[[]| |] t']; cbn [fst] in N; [|apply IH|contradiction].
  destruct (IH (S i)) as (r & ->). cbn. eauto.
Qed.
Theorem verified_external_exact e p ts ks tmo : exists r,
  verified_external e p 0 ts ks tmo = Ok r /\
  map visible r = map visible (picked (fun i t => is_ok (fst (info_verify_external e (i :: p) t ks tmo))) 0 ts).
Proof. destruct (verified_external_total e p ks tmo ts 0) as (r & H). exists r. split; [exact H|]. now apply verified_external_spec. Qed.

Theorem verified_marks_exact fuel e p ts ta r :
  verified_marks fuel e p ts ta = Done (Ok r) ->
  map visible r = map visible (picked (fun i t => succeeds (verify_mark fuel e (i :: p) t ta)) 0 ts).
Proof. apply verified_federation_spec. Qed.
Theorem verified_marks_total fuel e p ts ta :
  (forall k t, nth_error ts k = Some t -> exists x, verify_mark fuel e (k :: p) t ta = Done x /\ x <> Panic) ->
  exists r, verified_marks fuel e p ts ta = Done (Ok r).
Proof. intros H. apply verified_federation_total. exact H. Qed.

Theorem find_info_first f ts :
  match find_info f ts with
  | Some t => exists pre post, ts = (pre ++ t :: post)%list /\ f t = true /\ forall x, In x pre -> f x = false
  | None => forall x, In x ts -> f x = false
  end.
Proof.
  induction ts as [|t ts IH]; cbn [find_info]; [intros x []|]. destruct (f t) eqn:E.
  - exists [], ts. repeat split; auto. intros x [].
  - destruct (find_info f ts) as [t0|].
    + destruct IH as (pre & post & -> & F & P). exists (t :: pre), post. repeat split; auto. intros x [<-|Hx]; auto.
    + intros x [<-|Hx]; auto.
Qed.
