(** Proofs about subordinate listings. *)
From Verif Require Import Base BaseFacts GoVal Policy Schema Metadata Chain Resolver TrustMark Refresher FloatTime Cache SpecCache CacheFacts MetaCacheFacts ListCache SpecListCache.
Local Open Scope nat_scope.
Local Open Scope list_scope.

Lemma list_get_snd now ep k : snd (list_cache_get now ep k) = snd (cache_get now (list_key ep) k).
Proof. unfold list_cache_get. now destruct (cache_get now (list_key ep) k) as [[[]|] ?]. Qed.
Lemma list_keys_apart s sk ep : In s subsystems -> s <> key_subordinate_listing -> cache_key s sk <> list_key ep.
Proof. intros H N E. apply keys_injective in E; [|exact H|cbn; tauto]. now destruct E. Qed.
Lemma list_key_inj ep ep' : list_key ep = list_key ep' -> ep = ep'.
Proof. intros E. apply keys_injective in E; [|cbn; tauto..]. now destruct E. Qed.

Lemma luse_memory k u : memory (apply_luse k u) = memory k.
Proof.
  destruct u as [t0 t1 ep r|now ss sk ttl|now which]; cbn [apply_luse].
  - unfold fetch_list. pose proof (list_get_snd t0 ep k) as E. pose proof (gget_memory t0 (list_key ep) k) as M. rewrite <- E in M.
    destruct (list_cache_get t0 ep k) as [[ids|] k']; cbn [snd] in *; [exact M|].
    destruct (http_fetch_list r); cbn [snd]; try exact M. unfold list_cache_set. now rewrite gset_memory.
  - apply gset_memory.
  - apply gsweep_memory.
Qed.

Lemma luse_entries k u e : In e (entries (apply_luse k u)) ->
  In e (entries k) \/
  (exists t0 t1 ep r ids, u = LFetch t0 t1 ep r /\ http_fetch_list r = Ok ids /\ en_key e = list_key ep /\ en_val e = LIds ids /\
     exp_set (memory k) t1 listing_ttl e) \/
  (exists now ss sk ttl, u = LOther now ss sk ttl /\ en_key e = cache_key ss sk).
Proof.
  destruct u as [t0 t1 ep r|now ss sk ttl|now which]; cbn [apply_luse].
  - unfold fetch_list. pose proof (list_get_snd t0 ep k) as E. pose proof (gget_memory t0 (list_key ep) k) as M.
    pose proof (gget_entries t0 (list_key ep) k e) as GE. rewrite <- E in M, GE.
    destruct (list_cache_get t0 ep k) as [[ids|] k']; cbn [snd] in *; [now left; apply GE|].
    destruct (http_fetch_list r) as [ids| |] eqn:R; cbn [snd]; try (now left; apply GE).
    unfold list_cache_set. intros I. apply gset_entries in I. rewrite M in I.
    destruct I as [[I _] | (K & Va & X)]; [now left; apply GE|].
    right. left. exists t0, t1, ep, r, ids. auto.
  - intros I. apply gset_entries in I. destruct I as [[I _] | (K & _ & _)]; [now left|]. right. right. now exists now, ss, sk, ttl.
  - intros I. left. now apply gsweep_entries in I.
Qed.

Lemma luses_snoc h u k : after_luses (h ++ [u]) k = apply_luse (after_luses h k) u.
Proof. unfold after_luses. now rewrite fold_left_app. Qed.
Lemma luses_memory h k : memory (after_luses h k) = memory k.
Proof. induction h as [|u h IH] using rev_ind; [reflexivity|]. now rewrite luses_snoc, luse_memory. Qed.

Lemma luse_origin h k0 : entries k0 = [] -> Forall luse_ok h ->
  forall e ep, In e (entries (after_luses h k0)) -> en_key e = list_key ep ->
  exists t0 t1 r ids, In (LFetch t0 t1 ep r) h /\ http_fetch_list r = Ok ids /\ en_val e = LIds ids /\
    exp_set (memory k0) t1 listing_ttl e.
Proof.
  intros E0. induction h as [|u h IH] using rev_ind; intros P e ep I K.
  { cbn in I. rewrite E0 in I. destruct I. }
  apply Forall_app in P. destruct P as [P PU]. apply Forall_inv in PU.
  rewrite luses_snoc in I. apply luse_entries in I. destruct I as [I | [X | X]].
  - destruct (IH P e ep I K) as (t0 & t1 & r & ids & IU & X). exists t0, t1, r, ids. split; [apply in_app_iff; now left|exact X].
  - destruct X as (t0 & t1 & ep' & r & ids & -> & R & K' & Va & X). rewrite K in K'. apply list_key_inj in K' as <-. rewrite luses_memory in X.
    exists t0, t1, r, ids. split; [apply in_app_iff; right; now left|]. auto.
  - destruct X as (now & ss & sk & ttl & -> & K'). exfalso. rewrite K in K'. destruct PU as [P1 P2]. symmetry in K'.
    now apply (list_keys_apart ss sk ep P1 P2).
Qed.

Definition seen_ids (ids : option (list string)) : list string := match ids with Some l => l | None => [] end.

Lemma fetched h k0 t0 t1 ep r l : entries k0 = [] -> Forall luse_ok h ->
  fst (fetch_list t0 t1 ep r (after_luses h k0)) = Ok l ->
  (exists ids, http_fetch_list r = Ok ids /\ l = seen_ids ids) \/
  exists t0' t1' r' e, In (LFetch t0' t1' ep r') h /\ http_fetch_list r' = Ok (Some l) /\
    not_expired t0 (memory k0) e /\ exp_set (V := lcached) (memory k0) t1' listing_ttl e.
Proof.
  intros E0 P. unfold fetch_list. destruct (list_cache_get t0 ep (after_luses h k0)) as [[ids|] k'] eqn:E; cbn [fst].
  - intros [= <-]. right. unfold list_cache_get in E. pose proof (gget_hit t0 (list_key ep) (after_luses h k0)) as G.
    destruct (cache_get t0 (list_key ep) (after_luses h k0)) as [[[ids0|]|] k'']; try discriminate. injection E as -> <-.
    destruct (G _ eq_refl) as (e & I & K & Va & NX). rewrite luses_memory in NX.
    destruct (luse_origin h k0 E0 P e ep I K) as (t0' & t1' & r' & ids1 & IU & R & Va' & X). rewrite Va in Va'. injection Va' as <-.
    exists t0', t1', r', e. auto.
  - destruct (http_fetch_list r) as [ids| |]; cbn [fst]; intros [= <-]. left. now exists ids.
Qed.

Lemma ttl_pos : (0 < listing_ttl)%Z. Proof. reflexivity. Qed.

Lemma fresh_memory t0 t1 e : (0 < t1)%Z -> (t1 + listing_ttl < 2 ^ 63)%Z ->
  not_expired t0 true e -> exp_set (V := lcached) true t1 listing_ttl e -> (t0 <= t1 + listing_ttl)%Z.
Proof.
  cbn [not_expired exp_set]. intros H1 H2 NX [S EX]. unfold expired in NX. rewrite EX in NX.
  destruct (mem_exp_spec t1 listing_ttl H1 H2 S) as [[E _] | [_ E]]; [discriminate E|]. rewrite E in NX. now apply Z.ltb_ge in NX.
Qed.

Lemma fresh_redis t0 t1 e : not_expired t0 false e -> exp_set (V := lcached) false t1 listing_ttl e -> (t0 < t1 + listing_ttl + ms)%Z.
Proof.
  cbn [not_expired exp_set]. intros NX EX. specialize (EX ttl_pos). unfold red_expired in NX. rewrite EX in NX.
  unfold red_exp in NX. apply Z.ltb_ge in NX. change (Z.ltb listing_ttl ms) with false in NX. cbn iota in NX.
  change (listing_ttl / ms)%Z with 3600000%Z in NX. unfold listing_ttl.
  pose proof (Z.div_mod t0 ms). pose proof (Z.mod_pos_bound t0 ms). pose proof (Z.mul_div_le t1 ms). unfold ms in *. lia.
Qed.

Theorem listing_source h k0 t0 t1 ep r l : (k0 = Memory [] \/ k0 = Redis []) -> Forall luse_ok h -> Forall luse_in_range h ->
  fst (fetch_list t0 t1 ep r (after_luses h k0)) = Ok l ->
  (exists ids, http_fetch_list r = Ok ids /\ l = seen_ids ids) \/
  exists t0' t1' r', In (LFetch t0' t1' ep r') h /\ http_fetch_list r' = Ok (Some l) /\ (t0 < t1' + listing_ttl + ms)%Z /\
    (k0 = Memory [] -> (t0 <= t1' + listing_ttl)%Z).
Proof.
  intros E0 P R H. assert (EE : entries k0 = []) by (destruct E0 as [-> | ->]; reflexivity).
  destruct (fetched h k0 t0 t1 ep r l EE P H) as [X | (t0' & t1' & r' & e & I & HF & NX & EX)]; [now left|right].
  exists t0', t1', r'. rewrite Forall_forall in R. destruct (R _ I) as [R1 R2]. split; [exact I|]. split; [exact HF|].
  destruct E0 as [-> | ->]; cbn [memory] in NX, EX.
  - pose proof (fresh_memory t0 t1' e R1 R2 NX EX). split; [unfold ms; lia|auto].
  - split; [now apply (fresh_redis t0 t1' e)|discriminate].
Qed.

Lemma reply_listing r ids : r <> ROther -> http_fetch_list r = Ok ids -> listing_in r = Some (seen_ids ids).
Proof. destruct r; cbn; intros N; try discriminate; [|congruence]. intros [= ->]. now destruct ids. Qed.

Theorem listing_published h k0 t0 t1 ep r l : (k0 = Memory [] \/ k0 = Redis []) -> Forall luse_ok h -> Forall luse_in_range h ->
  r <> ROther -> (forall t0' t1' ep', ~ In (LFetch t0' t1' ep' ROther) h) ->
  fst (fetch_list t0 t1 ep r (after_luses h k0)) = Ok l ->
  listing_in r = Some l \/
  exists t0' t1' r', In (LFetch t0' t1' ep r') h /\ listing_in r' = Some l /\ (t0 < t1' + listing_ttl + ms)%Z.
Proof.
  intros E0 P R N NH H. destruct (listing_source h k0 t0 t1 ep r l E0 P R H) as [(ids & HF & ->) | (t0' & t1' & r' & I & HF & T & _)].
  - left. now apply reply_listing.
  - right. exists t0', t1', r'. split; [exact I|]. split; [|exact T]. change l with (seen_ids (Some l)). apply reply_listing; [|exact HF].
    intros ->. exact (NH _ _ _ I).
Qed.

(** [l] is what the reply lists, or the reply is no listing at all and [l] is empty. *)
Lemma reply_cases r ids : http_fetch_list r = Ok ids -> listing_in r = Some (seen_ids ids) \/ (r = ROther /\ seen_ids ids = []).
Proof. destruct r as [| |i|]; cbn; intros H; try discriminate H; injection H as <-; [left; now destruct i|right; auto]. Qed.

Theorem listing_own h k0 t0 t1 ep r l : (k0 = Memory [] \/ k0 = Redis []) -> Forall luse_ok h -> Forall luse_in_range h ->
  fst (fetch_list t0 t1 ep r (after_luses h k0)) = Ok l ->
  exists r', (r' = r \/ exists t0' t1', In (LFetch t0' t1' ep r') h /\ (t0 < t1' + listing_ttl + ms)%Z) /\
    (listing_in r' = Some l \/ (r' = ROther /\ l = [])).
Proof.
  intros E0 P R H. destruct (listing_source h k0 t0 t1 ep r l E0 P R H) as [(ids & HF & ->) | (t0' & t1' & r' & I & HF & T & _)].
  - exists r. split; [now left|]. now apply reply_cases.
  - exists r'. split; [right; now exists t0', t1'|]. now apply (reply_cases r' (Some l)).
Qed.
