(** Proofs about the end of the verification of trust marks when a remote resolver is the
    default. *)
From Coq Require Import Lia Permutation.
From Verif Require Import Base BaseFacts GoVal Policy Schema Metadata Chain Resolver SpecResolver ResolverLaws FloatTime SpecTime Json SpecJson TrustMark
  SpecTrustMark TrustMarkFacts TrustMarkLaws SpecMarkDefault MarkDefaultFacts SpecMarkReturns.
Local Open Scope string_scope.

Lemma info_mark_no_panic e t : info_mark e t <> Panic.
Proof.
  unfold info_mark. pose proof (parse_mark_no_panic e (ti_jwt t)) as N.
  destruct (ti_mark t) as [m0|]; [destruct (mk_msg m0); [discriminate|]|]; destruct (parse_mark e (ti_jwt t)); cbn; congruence.
Qed.

(** ** A resolve endpoint *)

Lemma remote_no_panic e p ep rq : remote_payload e p ep rq <> Panic.
Proof.
  unfold remote_payload, remote_response, parse_response. destruct (te_remote e p ep rq) as [|c|b]; [discriminate|discriminate|].
  destruct (te_parse e b) as [[typ j]|]; [|discriminate]. destruct (negb _); [discriminate|]. destruct (te_payload e j); discriminate.
Qed.

Lemma told_end e p iss pl : exists r, match (match pl_chain pl with j :: _ => te_stmt e j | [] => te_config e p iss end) with
  | None => Done Err
  | Some tmi => Done (n <- jwks_len (st_jwks tmi) ;; if Nat.eqb n 0 then Err else Ok (st_jwks tmi))
  end = Done r /\ (r = Panic <-> exists s, told_statement e p iss pl s /\ st_jwks s = None).
Proof.
  unfold told_statement. assert (X : forall o : option stmt, exists r, match o with None => Done Err
    | Some tmi => Done (n <- jwks_len (st_jwks tmi) ;; if Nat.eqb n 0 then Err else Ok (st_jwks tmi)) end = Done r /\ (r = Panic <-> exists s, o = Some s /\ st_jwks s = None)).
  { intros [s|]; eexists; (split; [reflexivity|]); split.
    - destruct (st_jwks s) as [l|] eqn:E; [cbn; destruct (Nat.eqb _ _); discriminate|eauto].
    - intros (s' & [= <-] & ->). reflexivity.
    - discriminate.
    - intros (s' & E & _). discriminate. }
  destruct (pl_chain pl); apply X.
Qed.

Theorem remote_returns e p t ta ep fuel : te_default e = SimpleR ep -> in_sync e t -> 0 < fuel ->
  exists r, verify_mark fuel e p t ta = Done r /\
    (r = Panic <-> exists m pl s, may_count e t ta m /\ mk_iss m <> st_sub ta /\
       responds e p ep (issuer_request (mk_iss m) ta) pl /\ told_statement e p (mk_iss m) pl s /\ st_jwks s = None).
Proof.
  intros DR IS HF. destruct fuel as [|f]; [lia|]. unfold verify_mark, info_verify_federation. pose proof (info_mark_sync e t IS) as IM.
  pose proof (info_mark_no_panic e t) as NP. destruct (info_mark e t) as [[m t']| |] eqn:EI; [| |contradiction]; cbn [fst].
  2:{ eexists; split; [reflexivity|]. split; [discriminate|]. intros (m & _ & _ & (M & _) & _). apply IM in M. destruct M as (t' & M). discriminate M. }
  assert (M : is_mark e (ti_jwt t) m) by (apply IM; eauto).
  assert (MF : forall m', may_count e t ta m' -> m' = m) by (intros m' (M' & _); eapply is_mark_fun; eauto).
  destruct (String.eqb_spec (mk_type m) (ti_type t)) as [ET|NT]; cbn [negb].
  2:{ eexists; split; [reflexivity|]. split; [discriminate|]. intros (m' & _ & _ & C & _). pose proof (MF _ C) as ->. destruct C as (_ & ? & _). contradiction. }
  unfold mark_verify_federation.
  destruct (match lookup (mk_type m) (st_mark_issuers ta) with Some l => negb (mem (mk_iss m) l) | None => false end) eqn:EL.
  { eexists; split; [reflexivity|]. split; [discriminate|]. intros (m' & _ & _ & C & _). pose proof (MF _ C) as ->. destruct C as (_ & _ & C).
    destruct (lookup (mk_type m) (st_mark_issuers ta)) as [l|]; [|discriminate]. specialize (C l eq_refl). apply mem_In in C. now rewrite C in EL. }
  assert (MC : may_count e t ta m).
  { split; auto. split; auto. intros l L. rewrite L in EL. apply mem_In. now destruct (mem (mk_iss m) l). }
  assert (K : exists k, issuer_keys (S f) e p (mk_iss m) ta = Done k /\
    (k = Panic <-> mk_iss m <> st_sub ta /\ exists pl s, responds e p ep (issuer_request (mk_iss m) ta) pl /\ told_statement e p (mk_iss m) pl s /\ st_jwks s = None)).
  { cbn [issuer_keys]. destruct (String.eqb_spec (mk_iss m) (st_sub ta)) as [E|N]; [eexists; split; [reflexivity|]; split; [discriminate|now intros [X _]]|].
    rewrite DR. change (Req (mk_iss m) [st_sub ta] []) with (issuer_request (mk_iss m) ta).
    destruct (remote_payload e p ep (issuer_request (mk_iss m) ta)) as [pl| |] eqn:EP; cbn [rbind].
    - destruct (told_end e p (mk_iss m) pl) as (r & R & E). exists r. split; [exact R|]. rewrite E. split.
      + intros (s & T & J). split; auto. exists pl, s. split; auto. now apply remote_payload_ok.
      + intros (_ & pl' & s & RP & T & J). apply remote_payload_ok in RP. assert (pl' = pl) as -> by congruence. eauto.
    - eexists; split; [reflexivity|]. split; [discriminate|]. intros (_ & pl' & s & RP & _). apply remote_payload_ok in RP. congruence.
    - now apply remote_no_panic in EP. }
  destruct K as (k & -> & KP).
  assert (G : k <> Panic -> ~ exists m0 pl s, may_count e t ta m0 /\ mk_iss m0 <> st_sub ta /\
       responds e p ep (issuer_request (mk_iss m0) ta) pl /\ told_statement e p (mk_iss m0) pl s /\ st_jwks s = None).
  { intros NK (m0 & pl & s & C & N & X). pose proof (MF _ C) as ->. apply NK, KP. eauto. }
  destruct k as [ks| |]; cbn [rbind].
  - assert (NK : Ok ks <> Panic) by discriminate.
    destruct (lookup (mk_type m) (st_mark_owners ta)); (eexists; split; [reflexivity|]; split; [intros X; now apply mark_external_no_panic in X|intros X; now apply (G NK) in X]).
  - assert (NK : @Err jwks <> Panic) by discriminate. eexists; split; [reflexivity|]. split; [discriminate|intros X; now apply (G NK) in X].
  - eexists; split; [reflexivity|]. split; auto. intros _. destruct KP as [KP _]. destruct (KP eq_refl) as (N & pl & s & X). exists m, pl, s. tauto.
Qed.

(** ** The smart resolver *)

Lemma federation_returns keys e p t ta : in_sync e t ->
  (forall m, is_mark e (ti_jwt t) m -> exists r, keys p (mk_iss m) ta = Done r /\ r <> Panic) ->
  exists r, fst (info_verify_federation keys e p t ta) = Done r /\ r <> Panic.
Proof.
  intros IS K. unfold info_verify_federation. pose proof (info_mark_no_panic e t) as N.
  destruct (info_mark e t) as [[m t']| |] eqn:EI; [|eexists; split; [reflexivity|discriminate]|contradiction]. cbn [fst].
  destruct (negb _); [eexists; split; [reflexivity|discriminate]|].
  unfold mark_verify_federation. destruct (match lookup (mk_type m) (st_mark_issuers ta) with Some l => _ | None => _ end);
    [eexists; split; [reflexivity|discriminate]|].
  destruct (K m) as (r & -> & NR); [apply (info_mark_sync e t IS); eauto|]. destruct r as [ks| |]; cbn [rbind]; [|eexists; split; [reflexivity|discriminate]|contradiction].
  destruct (lookup (mk_type m) (st_mark_owners ta)); (eexists; split; [reflexivity|apply mark_external_no_panic]).
Qed.

Lemma told_fine e p iss pl : all_have_keys e -> exists r, match (match pl_chain pl with j :: _ => te_stmt e j | [] => te_config e p iss end) with
  | None => Done Err
  | Some tmi => Done (n <- jwks_len (st_jwks tmi) ;; if Nat.eqb n 0 then Err else Ok (st_jwks tmi))
  end = Done r /\ r <> Panic.
Proof.
  intros [KS KC]. destruct (told_end e p iss pl) as (r & R & E). exists r. split; [exact R|]. intros X. apply E in X. destruct X as (s & T & J).
  unfold told_statement in T. destruct (pl_chain pl) as [|j l]; [exact (KC _ _ _ T J)|exact (KS _ _ T J)].
Qed.

Section Smart.
Context (U : list string) (rank : string -> nat) (e : env).
Context (HK : all_have_keys e) (HU : superiors_among U e) (HC : resolves_calmly e) (HD : marks_descend rank e).

Lemma plain_returns f q iss ta : List.length U < f ->
  exists r, local_plain f e q (issuer_request iss ta) = Done r /\ r <> Panic.
Proof.
  intros HF. destruct (finite_terminates U (te_world e q (issuer_request iss ta)) [Anchor (st_sub ta) None] [] iss f) as (r & R).
  { intros q' a ec E. exact (HU q iss ta q' a ec E). } { exact HF. }
  pose proof (HC q iss ta f) as N. unfold local_plain. cbn [issuer_request rq_anchors rq_types rq_sub map] in *. unfold issuer_request in *.
  rewrite R in N |- *. cbn [rbind]. destruct r as [cs| |]; [|cbn; eexists; split; [reflexivity|discriminate]|contradiction]. cbn [rbind].
  destruct cs as [|c0 cs]; [eexists; split; [reflexivity|discriminate]|].
  pose proof (resolve_valid_ok _ _ _ _ _ _ R) as V. eexists. split; [reflexivity|].
  assert (FN : first_with_metadata (sort_path_len e (c0 :: cs)) <> Panic).
  { apply first_metadata_np. intros x Hx. pose proof (V x (Permutation_in _ (sort_path_len_perm e _) Hx)) as Y. destruct (chain_metadata x); discriminate. }
  destruct (first_with_metadata (sort_path_len e (c0 :: cs))) as [[m0 c1]| |]; cbn; congruence.
Qed.

Definition keys_end (n : nat) : Prop := forall fuel q iss ta, rank iss < n -> S (List.length U) + rank iss < fuel ->
  exists r, issuer_keys fuel e q iss ta = Done r /\ r <> Panic.

Lemma marks_end n f q iss ta s x : keys_end n -> rank iss <= n -> w_config (te_world e q (issuer_request iss ta)) [] iss = Some s ->
  S (List.length U) + rank iss <= f -> exists ms, verified_federation (issuer_keys f e) e q 0 (infos_of s) x = Done (Ok ms).
Proof.
  intros KE HN EC HF. apply verified_federation_total. intros k t Ht. apply federation_returns.
  - apply nth_error_In in Ht. unfold infos_of in Ht. apply in_map_iff in Ht. destruct Ht as (tj & <- & _). intros m j X. discriminate X.
  - apply nth_error_In in Ht. unfold infos_of in Ht. apply in_map_iff in Ht. destruct Ht as (tj & <- & Htj). cbn [ti_jwt]. intros m M.
    pose proof (HD q iss ta s tj m EC Htj M) as L. apply KE; lia.
Qed.

Lemma local_end n f q iss ta : keys_end n -> rank iss <= n -> S (List.length U) + rank iss <= f ->
  exists r, local_payload (issuer_keys f e) f e q (issuer_request iss ta) = Done r /\ r <> Panic.
Proof.
  intros KE HN HF. unfold local_payload. destruct (plain_returns f q iss ta) as (r & R & NR); [lia|]. rewrite R.
  destruct r as [[pl c]| |]; [|eexists; split; [reflexivity|discriminate]|contradiction]. cbn [rbind fst snd].
  destruct (local_start _ _ _ _ _ _ _ R) as (s & r' & -> & EC & _ & _).
  destruct (marks_end n f q iss ta s (last (s :: r') s) KE HN EC HF) as (ms & ->). cbn [rbind]. eexists. split; [reflexivity|discriminate].
Qed.

Lemma keys_return (DS : te_default e = SmartR) : forall n, keys_end n.
Proof.
  induction n as [|n IH]; [intros fuel q iss ta L; lia|]. intros [|f] q iss ta L HF; [lia|]. cbn [issuer_keys].
  destruct (String.eqb iss (st_sub ta)); [eexists; split; [reflexivity|discriminate]|]. rewrite DS. unfold smart_payload.
  change (Req iss [st_sub ta] []) with (issuer_request iss ta).
  destruct (ask_anchors e q 0 (rq_anchors (issuer_request iss ta)) (issuer_request iss ta)) as [pl|]; cbn [rbind]; [now apply told_fine|].
  destruct (local_end n f q iss ta IH ltac:(lia) ltac:(lia)) as (r & -> & NR). destruct r as [pl| |]; cbn [rbind]; [now apply told_fine|eexists; split; [reflexivity|discriminate]|contradiction].
Qed.

Theorem smart_returns p t ta fuel : te_default e = SmartR -> in_sync e t ->
  (forall m, is_mark e (ti_jwt t) m -> S (List.length U) + rank (mk_iss m) < fuel) ->
  exists r, verify_mark fuel e p t ta = Done r /\ r <> Panic.
Proof. intros DS IS HF. apply federation_returns; auto. intros m M. apply (keys_return DS (S (rank (mk_iss m)))); [lia|now apply HF]. Qed.

Lemma smart_keys_found p iss ta : te_default e = SmartR -> decodes e (te_world e p (issuer_request iss ta)) ->
  forall ks, smart_keys e p iss ta ks -> exists fuel, issuer_keys fuel e p iss ta = Done (Ok ks).
Proof.
  intros DS DE ks [[-> ->]|[(N & pl & Us & K)|(N & NU & K)]]; [exists 1; cbn [issuer_keys]; now rewrite String.eqb_refl| |].
  - exists 1. cbn [issuer_keys]. destruct (String.eqb_spec iss (st_sub ta)); [contradiction|]. rewrite DS. unfold smart_payload.
    pose proof (asked_one e p (issuer_request iss ta) (st_sub ta) eq_refl) as A.
    change (Req iss [st_sub ta] []) with (issuer_request iss ta).
    destruct (ask_anchors e p 0 (rq_anchors (issuer_request iss ta)) (issuer_request iss ta)) as [pl0|]; [|exfalso; exact (A pl Us)].
    rewrite (usable_det _ _ _ _ _ _ A Us). cbn [rbind]. now apply told_spec.
  - destruct K as [[E _]|(_ & s & r & k & l & CT & _ & -> & EK)]; [contradiction|].
    destruct (chain_first _ _ _ _ CT) as (s2 & r3 & [= <- <-] & EC2). destruct CT as (f0 & cs & HR & Hc).
    set (f := S (List.length U) + rank iss). exists (S f). cbn [issuer_keys]. destruct (String.eqb_spec iss (st_sub ta)); [contradiction|]. rewrite DS. unfold smart_payload.
    pose proof (asked_one e p (issuer_request iss ta) (st_sub ta) eq_refl) as A.
    change (Req iss [st_sub ta] []) with (issuer_request iss ta).
    destruct (ask_anchors e p 0 (rq_anchors (issuer_request iss ta)) (issuer_request iss ta)) as [pl0|]; [exfalso; exact (NU _ A)|].
    assert (HR' : resolve_valid f (te_world e p (issuer_request iss ta)) [Anchor (st_sub ta) None] [] iss = Done (Ok cs)).
    { destruct (finite_terminates U (te_world e p (issuer_request iss ta)) [Anchor (st_sub ta) None] [] iss f) as (r' & R).
      { intros q' a ec E. exact (HU p iss ta q' a ec E). } { unfold f. lia. }
      rewrite R. f_equal. exact (resolve_valid_det _ _ _ _ _ _ _ _ R HR). }
    destruct (sort_path_len e cs) as [|c1 r1] eqn:ES.
    { pose proof (sort_path_len_perm e cs) as P. rewrite ES in P. apply Permutation_nil in P. subst. destruct Hc. }
    assert (Hc1 : In c1 cs) by (eapply Permutation_in; [apply (sort_path_len_perm e)|]; rewrite ES; now left).
    pose proof (resolve_valid_ok _ _ _ _ _ _ HR c1 Hc1) as V. destruct (chain_metadata c1) as [m| |] eqn:EM; try discriminate.
    assert (HP : local_plain f e p (issuer_request iss ta) = Done (Ok (Payload m [] (messages c1), c1))) by (apply local_plain_ok; exists cs, m, r1; auto).
    destruct (local_start _ _ _ _ _ _ _ HP) as (s1 & r2 & -> & EC1 & _ & _).
    rewrite EC1 in EC2. injection EC2 as ->. unfold local_payload. rewrite HP. cbn [rbind fst snd].
    destruct (marks_end (rank iss) f p iss ta s (last (s :: r2) s) (keys_return DS (rank iss)) (le_n _) EC1 (le_n _)) as (ms & ->).
    cbn [rbind pl_chain pl_metadata messages map]. rewrite (DE _ _ _ EC1), EK. reflexivity.
Qed.

Theorem verify_mark_smart_descend p t ta : te_default e = SmartR -> in_sync e t -> (forall iss, decodes e (te_world e p (issuer_request iss ta))) ->
  ((exists fuel, verify_mark fuel e p t ta = Done (Ok tt)) <-> recognised smart_keys e p t ta).
Proof.
  intros DS S DE. split; [intros (fuel & H); eapply verify_mark_smart; eauto|].
  intros (m & ks & K & V & HI). destruct (smart_keys_found p (mk_iss m) ta DS (DE _) ks K) as (fuel & KF).
  exists fuel. eapply info_federation_conv; eauto.
Qed.
End Smart.

(** ** The marks a resolver reports *)

Lemma local_reported (K : env -> list nat -> string -> stmt -> jwks -> Prop) fuel e p rq pl t :
  (forall q t ta, in_sync e t -> verify_mark fuel e q t ta = Done (Ok tt) -> recognised K e q t ta) ->
  local_payload (issuer_keys fuel e) fuel e p rq = Done (Ok pl) -> In t (pl_marks pl) ->
  exists leaf c, chain_to (te_world e p rq) (rq_anchors rq) (rq_sub rq) (rq_types rq) (leaf :: c) /\
    In (ti_type t, ti_jwt t) (st_marks leaf) /\ exists k, recognised K e (k :: p) t (last (leaf :: c) leaf).
Proof.
  intros HK H Ht. unfold local_payload in H. apply rbind_ok in H.
  destruct H as ([pl' c] & HP & H). cbn [fst snd] in H. destruct c as [|leaf c]; [discriminate|].
  apply rbind_ok in H. destruct H as (ms & HV & [= <-]). cbn [pl_marks] in Ht.
  apply local_plain_ok in HP. destruct HP as (cs & m & r & HR & ES & EM & ->).
  exists leaf, c. split.
  { exists fuel, cs. split; [exact HR|]. eapply Permutation_in; [apply (sort_path_len_perm e)|]. rewrite ES. now left. }
  pose proof (verified_marks_exact fuel e p (infos_of leaf) (last (leaf :: c) leaf) ms HV) as E.
  apply (in_map visible) in Ht. rewrite E in Ht. apply in_map_iff in Ht. destruct Ht as (t0 & Ev & Ht0).
  apply picked_in in Ht0. destruct Ht0 as (k & Hk & F). cbn [Nat.add] in F.
  assert (Hi : exists ty j, t0 = Info ty j [] None /\ In (ty, j) (st_marks leaf)).
  { unfold infos_of in Hk. apply nth_error_In in Hk. apply in_map_iff in Hk. destruct Hk as ([ty j] & <- & Hin). eauto. }
  destruct Hi as (ty & j & -> & Hin). unfold visible in Ev. cbn in Ev. injection Ev as -> -> _. split; [exact Hin|].
  exists k. destruct (verify_mark fuel e (k :: p) _ _) as [[[]| |]|] eqn:EV; try discriminate F.
  apply HK in EV; [|intros ? ? [=]].
  destruct EV as (m0 & ks & K0 & V & I). exists m0, ks. split; [exact K0|]. split; [|exact I].
  destruct V as [V1 V2 V3 V4 V5]. constructor; auto.
Qed.

Theorem reported_remote fuel e p rq pl t ep : te_default e = SimpleR ep ->
  resolve_payload fuel e LocalR p rq = Done (Ok pl) -> In t (pl_marks pl) ->
  exists leaf c, chain_to (te_world e p rq) (rq_anchors rq) (rq_sub rq) (rq_types rq) (leaf :: c) /\
    In (ti_type t, ti_jwt t) (st_marks leaf) /\ exists k, recognised (remote_keys ep) e (k :: p) t (last (leaf :: c) leaf).
Proof.
  intros D H. cbn [resolve_payload] in H. apply (local_reported _ fuel); auto.
  intros q t' ta S V. apply (verify_mark_remote e q t' ta ep D S). eauto.
Qed.

Theorem reported_smart fuel e p rq pl t : te_default e = SmartR ->
  (forall q iss ta, decodes e (te_world e q (issuer_request iss ta))) ->
  resolve_payload fuel e SmartR p rq = Done (Ok pl) -> In t (pl_marks pl) ->
  (exists k id, nth_error (rq_anchors rq) k = Some id /\ usable e (k :: p) rq id pl) \/
  (exists leaf c, chain_to (te_world e p rq) (rq_anchors rq) (rq_sub rq) (rq_types rq) (leaf :: c) /\
    In (ti_type t, ti_jwt t) (st_marks leaf) /\ exists k, recognised smart_keys e (k :: p) t (last (leaf :: c) leaf)).
Proof.
  intros D DE H Ht. cbn [resolve_payload] in H. unfold smart_payload in H. pose proof (ask_anchors_spec e p rq (rq_anchors rq) 0) as A.
  destruct (ask_anchors e p 0 (rq_anchors rq) rq) as [pl'|].
  - injection H as <-. destruct A as (k & id & E & U & _). left. eauto.
  - right. apply (local_reported _ fuel e p rq pl t); auto. intros q t' ta S V. eapply verify_mark_smart; eauto.
Qed.
