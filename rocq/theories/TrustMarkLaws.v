(** Metadata resolvers and the issuing of trust marks. *)
From Coq Require Import Lia Permutation.
From Verif Require Import Base GoVal Policy Schema Metadata Chain Resolver SpecResolver SpecChain FloatTime SpecTime Json SpecJson
  TrustMark SpecTrustMark BaseFacts ChainFacts ResolverFacts ResolverLaws FloatFacts TimeFacts JsonFacts TrustMarkFacts.
Local Open Scope string_scope.

(** ** C35 *)
Lemma resolve_valid_det f f' w tas types start r r' :
  resolve_valid f w tas types start = Done r -> resolve_valid f' w tas types start = Done r' -> r = r'.
Proof.
  intros H H'. destruct (Nat.le_ge_cases f f') as [L|L].
  - rewrite (fuel_irrelevant _ _ _ _ _ _ _ L H) in H'. congruence.
  - rewrite (fuel_irrelevant _ _ _ _ _ _ _ L H') in H. congruence.
Qed.

Theorem local_sound fuel e p rq m : local_resolve fuel e p rq = Done (Ok m) ->
  exists c, chain_to (te_world e p rq) (rq_anchors rq) (rq_sub rq) (rq_types rq) c /\ chain_metadata c = Ok m.
Proof.
  unfold local_resolve. intros H. apply rbind_ok in H. destruct H as ([pl c] & H & [= <-]).
  apply local_plain_ok in H. destruct H as (cs & m' & r & HR & ES & EM & ->). exists c. split; [|exact EM].
  exists fuel, cs. split; [exact HR|]. eapply Permutation_in; [apply (sort_path_len_perm e)|]. rewrite ES. now left.
Qed.

Theorem local_fails fuel e p rq : local_resolve fuel e p rq = Done Err ->
  forall c, ~ chain_to (te_world e p rq) (rq_anchors rq) (rq_sub rq) (rq_types rq) c.
Proof.
  unfold local_resolve. intros H c (f & cs & HR & Hc). apply rbind_err in H. destruct H as [H|(x & _ & H)]; [|discriminate].
  apply local_plain_err in H. destruct H as [H|H]; pose proof (resolve_valid_det _ _ _ _ _ _ _ _ H HR) as E;
    [discriminate|injection E as <-; destruct Hc].
Qed.

Theorem local_complete e p rq c : chain_to (te_world e p rq) (rq_anchors rq) (rq_sub rq) (rq_types rq) c ->
  exists fuel m, local_resolve fuel e p rq = Done (Ok m).
Proof.
  intros (f & cs & HR & Hc). exists f.
  destruct (sort_path_len e cs) as [|c1 r1] eqn:ES.
  { pose proof (sort_path_len_perm e cs) as P. rewrite ES in P. apply Permutation_nil in P. subst. destruct Hc. }
  assert (Hc1 : In c1 cs) by (eapply Permutation_in; [apply (sort_path_len_perm e)|]; rewrite ES; now left).
  pose proof (resolve_valid_ok _ _ _ _ _ _ HR c1 Hc1) as V. destruct (chain_metadata c1) as [m| |] eqn:EM; try discriminate.
  exists m. unfold local_resolve.
  rewrite (proj2 (local_plain_ok f e p rq (Payload m [] (messages c1)) c1)) by (exists cs, m, r1; auto). reflexivity.
Qed.

(** Shortest for at most two chains, and when the chains come in ascending order. *)
Theorem local_shortest fuel e p rq cs m :
  resolve_valid fuel (te_world e p rq) (map (fun id => Anchor id None) (rq_anchors rq)) (rq_types rq) (rq_sub rq) = Done (Ok cs) ->
  List.length cs <= 2 \/ (List.length cs <= 12 /\ sorted_by (fun c => Z.of_nat (path_len c)) cs) ->
  local_resolve fuel e p rq = Done (Ok m) ->
  exists c, minimal cs c /\ chain_metadata c = Ok m.
Proof.
  intros HR HS H. unfold local_resolve in H. apply rbind_ok in H. destruct H as ([pl c] & H & [= <-]).
  apply local_plain_ok in H. destruct H as (cs' & m' & r & HR' & ES & EM & ->).
  pose proof (resolve_valid_det _ _ _ _ _ _ _ _ HR HR') as E. injection E as <-. exists c. split; [|exact EM].
  assert (S : sorted_by (fun c => Z.of_nat (path_len c)) (c :: r)).
  { rewrite <- ES. unfold sort_path_len. destruct HS as [HS|[HL HS]].
    - rewrite (proj2 (Nat.leb_le _ _)) by lia. now apply sort_asc_two.
    - rewrite (proj2 (Nat.leb_le _ _)) by lia. rewrite sort_asc_sorted_input; auto. }
  assert (P : Permutation (c :: r) cs) by (rewrite <- ES; apply sort_path_len_perm).
  split; [eapply Permutation_in; [exact P|now left]|].
  intros d Hd. apply (Permutation_in d (Permutation_sym P)) in Hd. destruct Hd as [<-|Hd]; [lia|].
  apply In_nth with (d := c) in Hd. destruct Hd as (k & Hk & <-).
  specialize (S 0 (Datatypes.S k) c). cbn [nth List.length] in S. lia.
Qed.

(** ** C36 *)
Theorem op_ignores_keys fuel e p tas tas' issuer :
  anchor_ids tas = anchor_ids tas' -> resolve_op fuel e p tas issuer = resolve_op fuel e p tas' issuer.
Proof. unfold resolve_op. now intros ->. Qed.

Theorem op_sound fuel e p tas issuer op : te_default e = LocalR ->
  resolve_op fuel e p tas issuer = Done (Ok op) ->
  exists c m, chain_to (te_world e p (Req issuer (anchor_ids tas) ["openid_provider"])) (anchor_ids tas) issuer ["openid_provider"] c /\
    chain_metadata c = Ok (Some m) /\ op = md_op m.
Proof.
  intros D H. unfold resolve_op in H. rewrite D in H. apply rbind_ok in H. destruct H as (m & H & H').
  apply local_sound in H. destruct H as (c & CT & EM). destruct m as [m|]; [|discriminate]. injection H' as <-.
  exists c, m. auto.
Qed.

(** ** C37 *)
Lemma remote_payload_ok e p ep rq pl : remote_payload e p ep rq = Ok pl <->
  exists b j, te_remote e p ep rq = ABody b /\ te_parse e b = Some ("resolve-response+jwt", j) /\ te_payload e j = Some pl.
Proof.
  unfold remote_payload, remote_response, parse_response. destruct (te_remote e p ep rq) as [|code|b].
  - split; [discriminate|]. intros (b & j & H & _). discriminate.
  - split; [destruct (status_of code); discriminate|]. intros (b & j & H & _). discriminate.
  - destruct (te_parse e b) as [[typ j]|] eqn:EP; cbn [bind].
    + destruct (String.eqb_spec typ typ_resolve) as [->|N]; cbn [negb].
      * destruct (te_payload e j) as [pl'|] eqn:EL; cbn [bind].
        -- split; [intros [= <-]; exists b, j; auto|]. intros (b' & j' & [= <-] & Ep & El). rewrite EP in Ep. injection Ep as <-. congruence.
        -- split; [discriminate|]. intros (b' & j' & [= <-] & Ep & El). rewrite EP in Ep. injection Ep as <-. congruence.
      * cbn. split; [discriminate|]. intros (b' & j' & [= <-] & Ep & El). rewrite EP in Ep. injection Ep as E _. now elim N.
    + split; [discriminate|]. intros (b' & j' & [= <-] & Ep & El). congruence.
Qed.

Lemma usable_step e p rq id :
  (forall pl, usable e p rq id pl <->
     exists ec, te_config e p id = Some ec /\ resolve_endpoint ec <> "" /\ remote_payload e p (resolve_endpoint ec) rq = Ok pl).
Proof.
  intros pl. unfold usable. split.
  - intros (ec & b & j & H1 & H2 & H3 & H4 & H5). exists ec. split; auto. split; auto. apply remote_payload_ok. eauto.
  - intros (ec & H1 & H2 & H3). apply remote_payload_ok in H3. destruct H3 as (b & j & ? & ? & ?). exists ec, b, j. auto 10.
Qed.

Lemma ask_anchors_spec e p rq : forall ids i,
  match ask_anchors e p i ids rq with
  | Some pl => exists k id, nth_error ids k = Some id /\ usable e (i + k :: p) rq id pl /\
                 forall k' id' pl', k' < k -> nth_error ids k' = Some id' -> ~ usable e (i + k' :: p) rq id' pl'
  | None => forall k id pl, nth_error ids k = Some id -> ~ usable e (i + k :: p) rq id pl
  end.
Proof.
  induction ids as [|id ids IH]; intros i; cbn [ask_anchors]; [intros [|k] id pl H; discriminate|].
  assert (D : (exists pl, remote_payload e (i :: p) match te_config e (i :: p) id with Some ec => resolve_endpoint ec | None => "" end rq = Ok pl /\
                 usable e (i :: p) rq id pl /\
                 ask_anchors e p i (id :: ids) rq = Some pl) \/
              ((forall pl, ~ usable e (i :: p) rq id pl) /\ ask_anchors e p i (id :: ids) rq = ask_anchors e p (S i) ids rq)).
  { cbn [ask_anchors]. destruct (te_config e (i :: p) id) as [ec|] eqn:EC.
    - destruct (String.eqb_spec (resolve_endpoint ec) "") as [EE|NE].
      + right. split; auto. intros pl U. apply usable_step in U. destruct U as (ec' & E & N & _). congruence.
      + destruct (remote_payload e (i :: p) (resolve_endpoint ec) rq) as [pl| |] eqn:ER.
        * left. exists pl. split; auto. split; auto. apply usable_step. eauto.
        * right. split; auto. intros pl U. apply usable_step in U. destruct U as (ec' & E & N & H). rewrite EC in E. injection E as <-. congruence.
        * right. split; auto. intros pl U. apply usable_step in U. destruct U as (ec' & E & N & H). rewrite EC in E. injection E as <-. congruence.
    - right. split; auto. intros pl U. apply usable_step in U. destruct U as (ec' & E & N & _). congruence. }
  cbn [ask_anchors] in D. destruct D as [(pl & _ & U & E)|(N & E)]; rewrite E.
  - exists 0, id. rewrite Nat.add_0_r. split; [reflexivity|]. split; [exact U|]. intros k' id' pl' L. lia.
  - specialize (IH (S i)). destruct (ask_anchors e p (S i) ids rq) as [pl|].
    + destruct IH as (k & id0 & Hk & U & F). exists (S k), id0. replace (i + S k) with (S i + k) by lia.
      split; [exact Hk|]. split; [exact U|]. intros [|k'] id' pl' L H.
      * injection H as <-. rewrite Nat.add_0_r. apply N.
      * replace (i + S k') with (S i + k') by lia. apply F; [lia|exact H].
    + intros [|k] id0 pl H; [injection H as <-; rewrite Nat.add_0_r; apply N|].
      replace (i + S k) with (S i + k) by lia. now apply IH.
Qed.

(** The first usable answer, or the local one. *)
Theorem smart_first fuel e p rq k id pl :
  nth_error (rq_anchors rq) k = Some id -> usable e (k :: p) rq id pl ->
  (forall k' id' pl', k' < k -> nth_error (rq_anchors rq) k' = Some id' -> ~ usable e (k' :: p) rq id' pl') ->
  resolve_payload fuel e SmartR p rq = Done (Ok pl) /\ resolve_metadata fuel e SmartR p rq = Done (Ok (pl_metadata pl)).
Proof.
  intros Hk U F. cbn [resolve_payload resolve_metadata]. unfold smart_payload.
  pose proof (ask_anchors_spec e p rq (rq_anchors rq) 0) as S. cbn [Nat.add] in S.
  destruct (ask_anchors e p 0 (rq_anchors rq) rq) as [pl0|].
  - destruct S as (k0 & id0 & Hk0 & U0 & F0).
    assert (k0 = k).
    { destruct (Nat.lt_trichotomy k0 k) as [L|[E|L]]; auto; exfalso; [eapply F; eauto|eapply F0; eauto]. }
    subst k0. rewrite Hk in Hk0. injection Hk0 as <-.
    assert (pl0 = pl) as ->.
    { apply usable_step in U, U0. destruct U as (ec & E & _ & R), U0 as (ec' & E' & _ & R'). rewrite E in E'. injection E' as <-. congruence. }
    auto.
  - exfalso. eapply S; eauto.
Qed.

Theorem smart_local fuel e p rq :
  (forall k id pl, nth_error (rq_anchors rq) k = Some id -> ~ usable e (k :: p) rq id pl) ->
  resolve_payload fuel e SmartR p rq = resolve_payload fuel e LocalR p rq /\
  (forall pl, resolve_payload fuel e LocalR p rq = Done (Ok pl) ->
     resolve_metadata fuel e SmartR p rq = resolve_metadata fuel e LocalR p rq) /\
  (resolve_metadata fuel e LocalR p rq = Done Err <-> resolve_payload fuel e LocalR p rq = Done Err).
Proof.
  intros N. cbn [resolve_payload resolve_metadata]. unfold smart_payload.
  pose proof (ask_anchors_spec e p rq (rq_anchors rq) 0) as S. cbn [Nat.add] in S.
  destruct (ask_anchors e p 0 (rq_anchors rq) rq) as [pl0|].
  { destruct S as (k0 & id0 & Hk0 & U0 & _). exfalso. eapply N; eauto. }
  split; [reflexivity|]. split.
  - intros pl H. rewrite H. cbn [rbind]. unfold local_payload in H. apply rbind_ok in H. destruct H as (r & H & H').
    unfold local_resolve. rewrite H. cbn [rbind]. destruct (snd r) as [|leaf c]; [discriminate|].
    apply rbind_ok in H'. destruct H' as (ms & _ & [= <-]). reflexivity.
  - unfold local_resolve, local_payload. split; intros H; apply rbind_err in H; destruct H as [H|(r & H & H')].
    + rewrite H. reflexivity.
    + discriminate.
    + rewrite H. reflexivity.
    + exfalso. destruct (snd r) as [|leaf c]; [discriminate|]. apply rbind_err in H'.
      destruct H' as [H'|(ms & _ & H')]; [|discriminate]. revert H'. generalize 0 (infos_of leaf) (last (leaf :: c) leaf).
      intros i ts ta. revert i. induction ts as [|t ts IH]; intros i; cbn [verified_federation]; [discriminate|].
      destruct (info_verify_federation _ _ _ _ _) as [[[[]| |]|] t']; try discriminate; [|apply IH].
      intros H'. apply rbind_err in H'. destruct H' as [H'|(ms & _ & H')]; [eapply IH; exact H'|discriminate].
Qed.

(** ResolvePossible falls back to local resolution when every endpoint leaves it open. *)
Theorem possible_local fuel e p rq :
  (forall k id, nth_error (rq_anchors rq) k = Some id -> undecided e (k :: p) rq id) ->
  resolve_possible fuel e SmartR p rq = resolve_possible fuel e LocalR p rq.
Proof.
  intros U. simpl. unfold smart_possible.
  assert (A : forall ids i, (forall k id, nth_error ids k = Some id -> undecided e (i + k :: p) rq id) -> ask_possible e p i ids rq = None).
  { induction ids as [|id ids IH]; intros i H; [reflexivity|]. cbn [ask_possible].
    assert (R : ask_possible e p (S i) ids rq = None).
    { apply IH. intros k x Hk. specialize (H (S k) x Hk). now replace (S i + k) with (i + S k) by lia. }
    pose proof (H 0 id eq_refl) as H0. rewrite Nat.add_0_r in H0.
    destruct (te_config e (i :: p) id) as [ec|] eqn:E; [|exact R].
    destruct (String.eqb (resolve_endpoint ec) "") eqn:Q; [exact R|]. apply String.eqb_neq in Q.
    destruct (H0 ec E Q) as (code & Ha & N1 & N2). unfold remote_possible, remote_response. rewrite Ha. unfold status_of.
    apply String.eqb_neq in N1, N2. rewrite N1, N2.
    destruct (_ || _)%bool; exact R. }
  now rewrite (A (rq_anchors rq) 0 U).
Qed.

(** ** C38 *)
Theorem remote_unverified e v p ep rq : remote_payload (with_verify e v) p ep rq = remote_payload e p ep rq.
Proof. reflexivity. Qed.
Theorem remote_typ e p ep rq pl : remote_payload e p ep rq = Ok pl ->
  exists b j, te_remote e p ep rq = ABody b /\ te_parse e b = Some ("resolve-response+jwt", j) /\ te_payload e j = Some pl.
Proof. apply remote_payload_ok. Qed.

(** ** C41 *)
Lemma picked_in {A} (f : nat -> A -> bool) (l : list A) : forall i x, In x (picked f i l) -> exists k, nth_error l k = Some x /\ f (i + k) x = true.
Proof.
  induction l as [|y l IH]; intros i x; cbn [picked]; [intros []|]. destruct (f i y) eqn:E.
  - intros [<-|H]; [exists 0; rewrite Nat.add_0_r; auto|]. destruct (IH _ _ H) as (k & Hk & F).
    exists (S k). split; auto. now replace (i + S k) with (S i + k) by lia.
  - intros H. destruct (IH _ _ H) as (k & Hk & F). exists (S k). split; auto. now replace (i + S k) with (S i + k) by lia.
Qed.

Theorem reported_marks fuel e p rq pl t : te_default e = LocalR ->
  (forall q iss ta, decodes e (te_world e q (issuer_request iss ta))) ->
  resolve_payload fuel e LocalR p rq = Done (Ok pl) -> In t (pl_marks pl) ->
  exists leaf c, chain_to (te_world e p rq) (rq_anchors rq) (rq_sub rq) (rq_types rq) (leaf :: c) /\
    In (ti_type t, ti_jwt t) (st_marks leaf) /\
    exists k, recognised (chain_keys (fun _ => True)) e (k :: p) t (last (leaf :: c) leaf).
Proof.
  intros D DE H Ht. cbn [resolve_payload] in H. unfold local_payload in H. apply rbind_ok in H.
  destruct H as ([pl' c] & HP & H). cbn [fst snd] in H. destruct c as [|leaf c]; [discriminate|].
  apply rbind_ok in H. destruct H as (ms & HV & [= <-]). cbn [pl_marks] in Ht.
  apply local_plain_ok in HP. destruct HP as (cs & m & r & HR & ES & EM & ->).
  exists leaf, c. split.
  { exists fuel, cs. split; [exact HR|]. eapply Permutation_in; [apply (sort_path_len_perm e)|]. rewrite ES. now left. }
  pose proof (verified_marks_exact fuel e p (infos_of leaf) (last (leaf :: c) leaf) ms HV) as E.
  apply (in_map visible) in Ht. rewrite E in Ht. apply in_map_iff in Ht. destruct Ht as (t0 & Ev & Ht0).
  apply picked_in in Ht0. destruct Ht0 as (k & Hk & F). cbn [Nat.add] in F.
  assert (Hi : exists ty j, t0 = Info ty j [] None /\ In (ty, j) (st_marks leaf)).
  { unfold infos_of in Hk. apply nth_error_In in Hk. apply in_map_iff in Hk. destruct Hk as ([ty j] & <- & Hin). eauto. }
  destruct Hi as (ty & j & -> & Hin). unfold visible in Ev. cbn in Ev. injection Ev as -> -> _. split; [exact Hin|].
  exists k. destruct (verify_mark fuel e (k :: p) _ _) as [[[]| |]|] eqn:EV; try discriminate F.
  assert (R : recognised (chain_keys (fun _ => True)) e (k :: p) (Info (ti_type t) (ti_jwt t) [] None) (last (leaf :: c) leaf)).
  { apply (verify_mark_iff e); [exact D|intros ? ? [=]|intros iss; apply DE|eauto]. }
  destruct R as (m0 & ks & K & V & I). exists m0, ks. split; [exact K|]. split; [|exact I].
  destruct V as [V1 V2 V3 V4 V5]. constructor; auto.
Qed.

(** ** Issuing *)
Lemma issuer_specs_type m : issuer_specs m -> forall typ spec, lookup typ m = Some spec -> ms_type spec = typ.
Proof.
  assert (P : forall s m, (forall typ spec, lookup typ m = Some spec -> ms_type spec = typ) ->
                          forall typ spec, lookup typ (insert (ms_type s) s m) = Some spec -> ms_type spec = typ).
  { intros s m0 H typ spec. rewrite lookup_insert. destruct (String.eqb_spec typ (ms_type s)); [now intros [= <-]|apply H]. }
  induction 1 as [l|s m _ IH].
  - unfold new_issuer. assert (Q : forall m, (forall typ spec, lookup typ m = Some spec -> ms_type spec = typ) ->
      forall typ spec, lookup typ (fold_left (fun m s => insert (ms_type s) s m) l m) = Some spec -> ms_type spec = typ).
    { induction l as [|s l IH]; intros m0 H; cbn [fold_left]; [exact H|]. apply IH. now apply P. }
    apply Q. discriminate.
  - now apply P.
Qed.

Lemma time_becomes t o x : becomes (JField t o time_codec) (GTime x) (GTime (json_time x)).
Proof. unfold becomes. cbn. now rewrite Bool.andb_false_r. Qed.
Lemma time_ptr_becomes t o x : becomes (JField t o time_ptr_codec) (GTimePtr x) (GTimePtr (option_map json_time x)).
Proof. unfold becomes. destruct x, o; reflexivity. Qed.
Lemma str_becomes t o s : becomes (JField t o str_codec) (GStr s) (GStr s).
Proof. unfold becomes. destruct o, s; reflexivity. Qed.

Theorem issued_mark e sign k ent specs spec now typ sub lf t :
  signer e sign k -> issuer_specs specs -> lookup typ specs = Some spec -> no_clash mark_fields (ms_extra spec) ->
  issue_mark sign ent specs now typ sub lf = Ok t ->
  let life := match lf with Some l => l | None => ms_lifetime spec end in
  exists m, is_mark e (ti_jwt t) m /\ mk_iss m = ent /\ mk_sub m = sub /\ mk_type m = typ /\ ti_type t = typ /\
    mk_iat m = json_time now /\ mk_exp m = (if Z.eqb life 0 then None else Some (json_time (now + life)%Z)) /\
    mk_deleg m = ms_deleg spec /\ mk_extra m = ms_extra spec /\
    in_sync e t /\ forall ks, te_verify e (ti_jwt t) ks = true <-> In k ks.
Proof.
  intros SG IS L NC H. unfold issue_mark in H. rewrite L in H. cbv zeta. pose proof (issuer_specs_type _ IS _ _ L) as ET.
  set (life := match lf with Some l => l | None => ms_lifetime spec end) in *.
  set (tm := Mark _ _ _ _ _ _ _ _ _ _) in H. apply bind_ok in H. destruct H as (jwt & HS & [= <-]). cbn [ti_jwt ti_type].
  unfold sign_mark in HS. destruct (sign typ_mark _) as [j|] eqn:ES; [|discriminate]. injection HS as ->.
  destruct (SG _ _ _ ES) as [HP HV].
  exists (Mark ent sub (ms_type spec) (json_time now) (ms_logo spec)
            (option_map json_time (if Z.eqb life 0 then None else Some (now + life)%Z)) (ms_ref spec) (ms_deleg spec) (ms_extra spec) (Some jwt)).
  split.
  { eexists. split; [exact HP|]. split; [|reflexivity]. apply marshal_becomes; [|unfold mark_fields, mark_values; cbn [mk_iss mk_sub mk_type mk_iat mk_logo mk_exp mk_ref mk_deleg mk_extra tm]|exact NC].
    - apply types_distinct. cbn. tauto.
    - repeat (constructor; [first [apply str_becomes|apply time_becomes|apply time_ptr_becomes]|]). constructor. }
  cbn [mk_iss mk_sub mk_type mk_iat mk_exp mk_deleg mk_extra]. repeat split; auto.
  - now destruct (Z.eqb life 0).
  - intros m j [= <-]. discriminate.
  - intros H. now apply HV.
  - intros H. now apply HV.
Qed.

Lemma json_time_close t : in_range t -> (Z.abs (json_time t - t) <= 1500)%Z /\ json_time t <> zero_time.
Proof.
  intros R. unfold in_range in R. assert (C : (Z.abs (json_time t - t) <= 1500)%Z) by (apply time_roundtrip_close; lia).
  split; [exact C|]. unfold zero_time. lia.
Qed.

Lemma present_some t : t <> zero_time -> present (Some t) = Some t.
Proof. intros N. unfold present. now destruct (Z.eqb_spec t zero_time). Qed.

Lemma issued_verify e p sign k ent specs spec now typ sub lf t ks :
  signer e sign k -> issuer_specs specs -> lookup typ specs = Some spec -> no_clash mark_fields (ms_extra spec) ->
  issue_mark sign ent specs now typ sub lf = Ok t -> In k ks ->
  let life := match lf with Some l => l | None => ms_lifetime spec end in
  fst (info_verify_external e p t (Some ks) []) = Ok tt <->
  live (te_now e p false) (json_time now) (if Z.eqb life 0 then None else Some (json_time (now + life)%Z)).
Proof.
  intros SG IS L NC H HK life.
  destruct (issued_mark e sign k ent specs spec now typ sub lf t SG IS L NC H)
    as (m & IM & _ & _ & E3 & E4 & E5 & E6 & _ & _ & SY & HV). fold life in E6.
  rewrite (info_external_spec e p t (Some ks) [] SY). cbn [hd_error]. rewrite <- E5, <- E6. split.
  - intros (m' & V). rewrite (is_mark_fun _ _ _ _ IM (mv_parses _ _ _ _ _ _ V)). apply (mv_live _ _ _ _ _ _ V).
  - intros Lv. exists m. split; auto; [congruence| |discriminate].
    destruct ks as [|k0 ks]; [destruct HK|]. exists k0, ks. split; [reflexivity|]. now apply HV.
Qed.

Theorem issued_valid e p sign k ent specs spec now typ sub lf t ks :
  signer e sign k -> issuer_specs specs -> lookup typ specs = Some spec -> no_clash mark_fields (ms_extra spec) ->
  issue_mark sign ent specs now typ sub lf = Ok t -> In k ks ->
  let life := match lf with Some l => l | None => ms_lifetime spec end in
  in_range now -> in_range (now + life)%Z ->
  (now + 1500 <= te_now e p false)%Z ->
  ((life = 0 \/ te_now e p false <= now + life - 1500)%Z -> fst (info_verify_external e p t (Some ks) []) = Ok tt) /\
  ((life <> 0 /\ now + life + 1500 < te_now e p false)%Z -> fst (info_verify_external e p t (Some ks) []) = Err).
Proof.
  intros SG IS L NC H HK life R1 R2 HN.
  pose proof (issued_verify e p sign k ent specs spec now typ sub lf t ks SG IS L NC H HK) as V. fold life in V. cbv zeta in V.
  destruct (json_time_close _ R1) as [C1 Z1]. destruct (json_time_close _ R2) as [C2 Z2]. split.
  - intros HL. apply V. unfold live. rewrite (present_some _ Z1). split; [intros x [= <-]; lia|].
    destruct (Z.eqb_spec life 0) as [E|N]; [discriminate|]. rewrite (present_some _ Z2). intros x [= <-]. lia.
  - intros [N HL]. pose proof (info_external_no_panic e p t (Some ks) []) as NP.
    destruct (fst (info_verify_external e p t (Some ks) [])) as [[]| |]; [|reflexivity|contradiction].
    exfalso. pose proof (proj1 V eq_refl) as [_ B]. destruct (Z.eqb_spec life 0); [contradiction|].
    rewrite (present_some _ Z2) in B. specialize (B _ eq_refl). lia.
Qed.

(** Exact for whole seconds. *)
Theorem issued_exact e p sign k ent specs spec s typ sub lf t ks l :
  signer e sign k -> issuer_specs specs -> lookup typ specs = Some spec -> no_clash mark_fields (ms_extra spec) ->
  issue_mark sign ent specs (seconds s) typ sub lf = Ok t -> In k ks ->
  match lf with Some l => l | None => ms_lifetime spec end = seconds l ->
  (Z.abs s <= 4611686018)%Z -> (Z.abs (s + l) <= 4611686018)%Z ->
  (fst (info_verify_external e p t (Some ks) []) = Ok tt <->
   (seconds s <= te_now e p false)%Z /\ (l = 0%Z \/ (te_now e p false <= seconds (s + l))%Z)).
Proof.
  intros SG IS L NC H HK EL R1 R2.
  pose proof (issued_verify e p sign k ent specs spec (seconds s) typ sub lf t ks SG IS L NC H HK) as V. cbv zeta in V.
  rewrite EL in V. rewrite V.
  assert (J1 : json_time (seconds s) = seconds s) by now apply seconds_roundtrip.
  replace (seconds s + seconds l)%Z with (seconds (s + l)) by (unfold seconds; lia).
  assert (J2 : json_time (seconds (s + l)) = seconds (s + l)) by now apply seconds_roundtrip.
  assert (Z1 : seconds s <> zero_time) by (unfold seconds, zero_time; lia).
  assert (Z2 : seconds (s + l) <> zero_time) by (unfold seconds, zero_time; lia).
  unfold live, in_window. rewrite J1, J2, (present_some _ Z1).
  destruct (Z.eqb_spec (seconds l) 0) as [E|N].
  - assert (l = 0%Z) by (unfold seconds in E; lia). split.
    + intros [A _]. split; [now apply A|now left].
    + intros [A _]. split; [now intros x [= <-]|discriminate].
  - rewrite (present_some _ Z2). assert (l <> 0%Z) by (intros ->; now apply N). split.
    + intros [A B]. split; [now apply A|right; now apply B].
    + intros [A [B|B]]; [contradiction|]. split; now intros x [= <-].
Qed.

Theorem issue_unknown sign ent specs now typ sub lf : ~ In typ (mark_types specs) -> issue_mark sign ent specs now typ sub lf = Err.
Proof. intros H. unfold issue_mark. now rewrite (proj2 (lookup_None typ specs) H). Qed.

(** ** Delegations *)
Lemma claim_overlay (fs : list (jfield gval)) vs x k : no_exact_clash fs x -> In k (tags fs) -> NoDup (tags fs) ->
  claim k (marshal fs vs x) = lookup k (enc_fields fs vs).
Proof.
  intros [N C] Hk NT. unfold claim, marshal. rewrite lookup_rev_NoDup by (apply overlay_NoDup; now apply enc_fields_NoDup).
  rewrite lookup_overlay. destruct (lookup k (rev x)) as [v|] eqn:E; [|reflexivity].
  exfalso. apply lookup_In in E. apply in_rev in E. apply (C k); auto. unfold keys. apply in_map_iff. now exists (k, v).
Qed.

Theorem delegation_lifetime sign ent specs spec now typ sub lf jwt :
  lookup typ specs = Some spec -> no_exact_clash delegation_fields (ow_extra spec) ->
  delegate sign ent specs now typ sub lf = Ok jwt ->
  exists j, sign "trust-mark-delegation+jwt" j = Some jwt /\
    claim "iss" j = Some (JStr ent) /\ claim "sub" j = Some (JStr sub) /\ claim "trust_mark_type" j = Some (JStr (ow_id spec)) /\
    claim "iat" j = Some (JNum (encode_time now)) /\
    claim "exp" j = (if Z.eqb (ow_lifetime spec) 0 then None
                     else Some (JNum (encode_time (now + match lf with Some l => l | None => ow_lifetime spec end)%Z))).
Proof.
  intros L NC H. unfold delegate in H. rewrite L in H. unfold sign_delegation in H.
  set (d := Deleg _ _ _ _ _ _ _ _) in H. destruct (sign typ_delegation _) as [j|] eqn:ES; [|discriminate]. injection H as ->.
  eexists. split; [exact ES|].
  assert (NT : NoDup (tags delegation_fields)) by (apply NoDup_tags, types_distinct; cbn; tauto).
  rewrite !claim_overlay; auto; try (cbn; tauto).
  unfold d, deleg_values, delegation_fields. cbn [dg_iss dg_sub dg_type dg_iat dg_exp dg_ref enc_fields f_omit f_codec andb].
  destruct (Z.eqb (ow_lifetime spec) 0); destruct (c_empty str_codec (GStr (ow_ref spec))) eqn:ER; cbn; rewrite ?ER; repeat split; try reflexivity;
    destruct (ow_ref spec); cbn; auto; discriminate.
Qed.

(** ** DelegationJWT.VerifyFederation *)
Theorem delegation_federation e p jwt d ta : is_delegation e jwt d ->
  (deleg_verify_federation e p d ta = Ok tt <->
   live (te_now e p true) (dg_iat d) (dg_exp d) /\
   exists owner ks, lookup (dg_type d) (st_mark_owners ta) = Some (owner, ks) /\ signed_with e jwt ks).
Proof.
  intros (j & _ & _ & M). unfold deleg_verify_federation. rewrite <- live_spec, M.
  destruct (verify_time_ptr _ _ _) as [[]| |]; cbn [bind]; [|split; [discriminate|intros [? _]; discriminate]..].
  destruct (lookup (dg_type d) (st_mark_owners ta)) as [[o ks]|].
  - destruct (verify_with_set e (Some jwt) ks) eqn:EV.
    + apply verify_set_spec in EV. split; auto. intros _. split; auto. exists o, ks. auto.
    + split; [discriminate|]. intros (_ & o' & ks' & [= <- <-] & S). apply verify_set_spec in S. congruence.
  - split; [discriminate|]. intros (_ & o' & ks' & E & _). discriminate.
Qed.

(** ** C72 *)
Lemma first_metadata_np cs : (forall c, In c cs -> chain_metadata c <> Panic) -> first_with_metadata cs <> Panic.
Proof.
  induction cs as [|c cs IH]; intros H; cbn [first_with_metadata]; [discriminate|].
  pose proof (H c (or_introl eq_refl)). destruct (chain_metadata c); [discriminate|apply IH; intros; apply H; now right|contradiction].
Qed.

Theorem verify_mark_returns U e p t ta fuel : te_default e = LocalR -> in_sync e t ->
  (forall iss, decodes e (te_world e p (issuer_request iss ta))) ->
  (forall iss q a ec, w_config (te_world e p (issuer_request iss ta)) q a = Some ec ->
     incl (st_hints ec) U /\ st_jwks ec <> None) ->
  (forall m f, is_mark e (ti_jwt t) m ->
     resolve_valid f (te_world e p (issuer_request (mk_iss m) ta)) [Anchor (st_sub ta) None] [] (mk_iss m) <> Done Panic) ->
  S (List.length U) < fuel ->
  exists r, verify_mark fuel e p t ta = Done r /\ r <> Panic.
Proof.
  intros DL IS DE HU NP HF. destruct fuel as [|f]; [lia|].
  assert (K : forall m, is_mark e (ti_jwt t) m -> exists r, issuer_keys (S f) e p (mk_iss m) ta = Done r /\ r <> Panic).
  { intros mm HM. specialize (NP mm). revert NP. generalize (mk_iss mm). intros iss NP. cbn [issuer_keys]. destruct (String.eqb iss (st_sub ta)); [eexists; split; [reflexivity|discriminate]|].
    rewrite DL.
    destruct (finite_terminates U (te_world e p (issuer_request iss ta)) [Anchor (st_sub ta) None] [] iss f) as (r & R).
    { intros q a ec E. now apply (HU iss q a). }
    { lia. }
    pose proof (NP f HM) as N. rewrite R in N.
    destruct (local_plain f e p {| rq_sub := iss; rq_anchors := [st_sub ta]; rq_types := [] |}) as [[[pl c]| |]|] eqn:EP.
    - cbn [rbind fst]. apply local_plain_ok in EP. destruct EP as (cs & m & r0 & HR & ES & EM & ->). cbn [pl_chain].
      assert (Hc : In c cs) by (eapply Permutation_in; [apply (sort_path_len_perm e)|]; rewrite ES; now left).
      destruct (chain_first (te_world e p (issuer_request iss ta)) [st_sub ta] iss c) as (s & r' & -> & EC); [exists f, cs; auto|].
      cbn [messages map]. rewrite (DE iss _ _ _ EC). eexists. split; [reflexivity|].
      destruct (HU iss _ _ _ EC) as (_ & NK). destruct (st_jwks s) as [l|]; [|contradiction]. cbn. destruct (Nat.eqb _ _); discriminate.
    - cbn. eexists; split; [reflexivity|discriminate].
    - exfalso. unfold local_plain in EP. cbn [rq_anchors rq_types rq_sub map] in EP. unfold issuer_request in R. rewrite R in EP. cbn [rbind] in EP.
      destruct r as [cs| |]; [|discriminate|now apply N]. destruct cs as [|c0 cs]; [discriminate|].
      pose proof (resolve_valid_ok _ _ _ _ _ _ R) as V.
      assert (FN : first_with_metadata (sort_path_len e (c0 :: cs)) <> Panic).
      { apply first_metadata_np. intros x Hx. pose proof (V x (Permutation_in _ (sort_path_len_perm e _) Hx)) as Y.
        destruct (chain_metadata x); discriminate. }
      injection EP as EP. destruct (first_with_metadata (sort_path_len e (c0 :: cs))) as [[m0 c1]| |]; cbn in EP; congruence.
    - exfalso. unfold local_plain in EP. cbn [rq_anchors rq_types rq_sub map] in EP. unfold issuer_request in R. rewrite R in EP. cbn [rbind] in EP.
      destruct r as [[|]| |]; discriminate. }
  unfold verify_mark, info_verify_federation.
  assert (N : info_mark e t <> Panic).
  { unfold info_mark. pose proof (parse_mark_no_panic e (ti_jwt t)) as N.
    destruct (ti_mark t) as [m0|]; [destruct (mk_msg m0); [discriminate|]|];
      destruct (parse_mark e (ti_jwt t)); cbn; congruence. }
  destruct (info_mark e t) as [[m t']| |] eqn:EI; [|eexists; split; [reflexivity|discriminate]|contradiction]. cbn [fst].
  destruct (negb _); [eexists; split; [reflexivity|discriminate]|].
  unfold mark_verify_federation. destruct (match lookup (mk_type m) (st_mark_issuers ta) with Some l => _ | None => _ end);
    [eexists; split; [reflexivity|discriminate]|].
  destruct (K m) as (r & -> & NR); [apply (info_mark_sync e t IS); eauto|]. destruct r as [ks| |]; cbn [rbind]; [|eexists; split; [reflexivity|discriminate]|contradiction].
  destruct (lookup (mk_type m) (st_mark_owners ta)); (eexists; split; [reflexivity|apply mark_external_no_panic]).
Qed.
