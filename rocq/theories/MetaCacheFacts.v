(** Proofs about the cache of resolved metadata. *)
From Verif Require Import Base BaseFacts GoVal Policy Schema Metadata SpecMetadata Chain SpecChain CombineFacts MetadataFacts ChainFacts Resolver TrustMark Refresher FloatTime Cache SpecCache CacheFacts MetaCache SpecMetaCache.
Local Open Scope nat_scope.
Local Open Scope list_scope.

Section Generic.
  Context {V : Type}.
  Definition memory (c : cache V) : bool := match c with Memory _ => true | Redis _ => false end.
  Definition exp_set (mem : bool) (t2 : time) (ttl : Z) (e : entry V) : Prop :=
    if mem then storing ttl = true /\ en_exp e = mem_exp t2 ttl else (0 < ttl)%Z -> en_exp e = red_exp t2 ttl.

  Lemma gset_entries now k v ttl (c : cache V) e : In e (entries (cache_set now k v ttl c)) ->
    (In e (entries c) /\ en_key e <> k) \/
    (en_key e = k /\ en_val e = v /\ exp_set (memory c) now ttl e).
  Proof.
    destruct c as [l|l]; cbn [cache_set entries memory].
    - unfold mem_set. destruct (negb _ && _) eqn:ET.
      + intros I. apply filter_In in I. destruct I as [I K]. left. split; [exact I|]. now apply negb_true_iff, String.eqb_neq in K.
      + set (x := Entry k v (mem_exp now ttl)). intros I.
        assert (J : In e (x :: drop_entry k l)).
        { destruct (N.ltb _ _); [|exact I]. rewrite (app_removelast_last x) by discriminate. apply in_app_iff. now left. }
        destruct J as [<- | J].
        * right. repeat split. unfold storing. now rewrite ET.
        * apply filter_In in J. destruct J as [J K]. left. split; [exact J|]. now apply negb_true_iff, String.eqb_neq in K.
    - unfold red_set. intros [<- | J].
      + right. cbn [en_key en_val exp_set en_exp]. repeat split. intros P. apply Z.ltb_lt in P. now rewrite P.
      + apply filter_In in J. destruct J as [J K]. left. split; [exact J|]. now apply negb_true_iff, String.eqb_neq in K.
  Qed.
  Lemma gset_memory now k v ttl (c : cache V) : memory (cache_set now k v ttl c) = memory c.
  Proof. now destruct c. Qed.
  Lemma gget_memory now k (c : cache V) : memory (snd (cache_get now k c)) = memory c.
  Proof. destruct c as [l|l]; cbn; [|reflexivity]. now destruct (mem_get now k l). Qed.
  Lemma gget_entries now k (c : cache V) e : In e (entries (snd (cache_get now k c))) -> In e (entries c).
  Proof.
    destruct c as [l|l]; cbn [cache_get]; [|now cbn]. unfold mem_get. destruct (find_entry k l) as [x|]; [|now cbn].
    destruct (expired now x); cbn [snd entries]; [apply filter_incl|easy].
  Qed.
  Lemma gsweep_entries now which (c : cache V) e : In e (entries (cache_sweep now which c)) -> In e (entries c).
  Proof. destruct c; cbn [cache_sweep entries]; apply filter_incl. Qed.
  Lemma gsweep_memory now which (c : cache V) : memory (cache_sweep now which c) = memory c.
  Proof. now destruct c. Qed.

  (** A hit: the entry, not expired. *)
  Definition not_expired (now : time) (mem : bool) (e : entry V) : Prop :=
    if mem then expired now e = false else red_expired now e = false.
  Lemma gget_hit now k (c : cache V) v : fst (cache_get now k c) = Some v ->
    exists e, In e (entries c) /\ en_key e = k /\ en_val e = v /\ not_expired now (memory c) e.
  Proof.
    destruct c as [l|l]; cbn [cache_get entries memory].
    - unfold mem_get. destruct (find_entry k l) as [e|] eqn:F; [|discriminate].
      destruct (expired now e) eqn:X; cbn [fst]; [discriminate|]. intros [= <-]. apply find_some in F. destruct F as [I K].
      exists e. auto.
    - cbn [fst]. unfold red_find. destruct (find_entry k l) as [e|] eqn:F; [|discriminate].
      destruct (red_expired now e) eqn:X; cbn [option_map]; [discriminate|]. intros [= <-]. apply find_some in F. destruct F as [I K].
      exists e. auto.
  Qed.
End Generic.

(** ** Where entries come from *)

Lemma meta_get_snd now d k : snd (meta_cache_get now d k) = snd (cache_get now (meta_key d) k).
Proof. unfold meta_cache_get. now destruct (cache_get now (meta_key d) k) as [[[]|] ?]. Qed.

Lemma meta_keys_apart s sk d : In s subsystems -> s <> key_resolved_metadata -> cache_key s sk <> meta_key d.
Proof. intros H N E. apply keys_injective in E; [|exact H|cbn; tauto]. now destruct E. Qed.
Lemma meta_key_inj d d' : meta_key d = meta_key d' -> d = d'.
Proof. intros E. apply keys_injective in E; [|cbn; tauto..]. now destruct E. Qed.

(** The call stored [m] under the digest [d]. *)
Definition stored_by (u : muse) (d : string) (c : chain) (m : metadata) (t1 t2 : time) : Prop :=
  exists d1 t0, u = MCall c d1 d t0 t1 t2 /\ chain_metadata c = Ok (Some m) /\ 2 <= List.length c.

Lemma muse_memory k u : memory (apply_muse k u) = memory k.
Proof.
  destruct u as [c d1 d2 t0 t1 t2|now ss sk ttl|now which]; cbn [apply_muse].
  - unfold metadata_cached. pose proof (meta_get_snd t0 d1 k) as E. pose proof (gget_memory t0 (meta_key d1) k) as M. rewrite <- E in M.
    destruct (meta_cache_get t0 d1 k) as [[m|] k']; cbn [snd] in *; [exact M|].
    destruct (chain_metadata c) as [[m|]| |]; try exact M. destruct c as [|? [|? ?]]; try exact M. unfold meta_cache_set. now rewrite gset_memory.
  - apply gset_memory.
  - apply gsweep_memory.
Qed.

Lemma muse_entries k u e : In e (entries (apply_muse k u)) ->
  In e (entries k) \/
  (exists d c m t1 t2, stored_by u d c m t1 t2 /\ en_key e = meta_key d /\ en_val e = MMeta m /\
     exp_set (memory k) t2 (until (expires_at c) t1) e) \/
  (exists now ss sk ttl, u = MOther now ss sk ttl /\ en_key e = cache_key ss sk).
Proof.
  destruct u as [c d1 d2 t0 t1 t2|now ss sk ttl|now which]; cbn [apply_muse].
  - unfold metadata_cached. pose proof (meta_get_snd t0 d1 k) as E. pose proof (gget_memory t0 (meta_key d1) k) as M.
    pose proof (gget_entries t0 (meta_key d1) k e) as GE. rewrite <- E in M, GE.
    destruct (meta_cache_get t0 d1 k) as [[m|] k']; cbn [snd] in *; [now left; apply GE|].
    destruct (chain_metadata c) as [[m|]| |] eqn:R; try (now left; apply GE).
    destruct c as [|s [|s' c]]; try (now left; apply GE). unfold meta_cache_set. intros I. apply gset_entries in I. rewrite M in I.
    destruct I as [[I _] | (K & Va & X)]; [now left; apply GE|].
    right. left. exists d2, (s :: s' :: c), m, t1, t2. repeat split; auto. exists d1, t0. repeat split; auto. cbn [List.length]. lia.
  - intros I. apply gset_entries in I. destruct I as [[I _] | (K & _ & _)]; [now left|]. right. right. now exists now, ss, sk, ttl.
  - intros I. left. now apply gsweep_entries in I.
Qed.

Lemma muses_snoc h u k : after_muses (h ++ [u]) k = apply_muse (after_muses h k) u.
Proof. unfold after_muses. now rewrite fold_left_app. Qed.
Lemma muses_memory h k : memory (after_muses h k) = memory k.
Proof. induction h as [|u h IH] using rev_ind; [reflexivity|]. now rewrite muses_snoc, muse_memory. Qed.

Lemma muse_origin digest_of h k0 : empty_cache k0 -> Forall (muse_ok digest_of) h ->
  forall e d, In e (entries (after_muses h k0)) -> en_key e = meta_key d ->
  exists u c m t1 t2, In u h /\ stored_by u d c m t1 t2 /\ en_val e = MMeta m /\
    exp_set (memory k0) t2 (until (expires_at c) t1) e.
Proof.
  intros E0. induction h as [|u h IH] using rev_ind; intros P e d I K.
  { destruct E0 as [-> | ->]; destruct I. }
  apply Forall_app in P. destruct P as [P PU]. apply Forall_inv in PU.
  rewrite muses_snoc in I. apply muse_entries in I. destruct I as [I | [X | X]].
  - destruct (IH P e d I K) as (u0 & c & m & t1 & t2 & IU & X). exists u0, c, m, t1, t2. split; [apply in_app_iff; now left|exact X].
  - destruct X as (d' & c & m & t1 & t2 & S & K' & Va & X). rewrite K in K'. apply meta_key_inj in K' as <-. rewrite muses_memory in X.
    exists u, c, m, t1, t2. split; [apply in_app_iff; right; now left|]. auto.
  - destruct X as (now & ss & sk & ttl & -> & K'). exfalso. rewrite K in K'. destruct PU as [P1 P2]. symmetry in K'.
    now apply (meta_keys_apart ss sk d P1 P2).
Qed.

Lemma same_statements_sym c c' : same_statements c c' -> same_statements c' c.
Proof. induction 1 as [|a b l l' [E1 E2] _ IH]; constructor; auto. Qed.
Lemma same_statements_messages c c' : same_statements c c' -> messages c = messages c'.
Proof. induction 1 as [|a b l l' [E1 E2] _ IH]; cbn; [reflexivity|]. f_equal; auto. Qed.
Lemma same_statements_exp c c' : same_statements c c' -> expires_at c = expires_at c'.
Proof.
  intros H. destruct H as [|a b l l' [_ E] H]; [reflexivity|]. cbn [expires_at]. rewrite E. clear E a. generalize (st_exp b).
  induction H as [|x y l l' [_ E] _ IH]; intros t; cbn [fold_left]; [reflexivity|]. now rewrite E, IH.
Qed.

(** A result is fresh, or an earlier one for the same statements. *)
Lemma served digest_of h k0 c d1 d2 t0 t1 t2 :
  no_collision digest_of -> empty_cache k0 -> Forall (muse_ok digest_of) h -> digest_of c d1 ->
  fst (metadata_cached d1 d2 t0 t1 t2 c (after_muses h k0)) = chain_metadata c \/
  exists c' d1' d2' t0' t1' t2' m, In (MCall c' d1' d2' t0' t1' t2') h /\ same_statements c c' /\ 2 <= List.length c' /\
    chain_metadata c' = Ok (Some m) /\
    fst (metadata_cached d1 d2 t0 t1 t2 c (after_muses h k0)) = Ok (Some (md_msgpack m)) /\
    exists e, not_expired t0 (memory k0) e /\ exp_set (V := mcached) (memory k0) t2' (until (expires_at c') t1') e.
Proof.
  intros NC E0 P D. unfold metadata_cached.
  destruct (meta_cache_get t0 d1 (after_muses h k0)) as [[m|] k'] eqn:E; [right|now left].
  unfold meta_cache_get in E. pose proof (gget_hit t0 (meta_key d1) (after_muses h k0)) as G.
  destruct (cache_get t0 (meta_key d1) (after_muses h k0)) as [[[m0|]|] k'']; try discriminate. injection E as <- <-.
  destruct (G _ eq_refl) as (e & I & K & Va & NX). rewrite muses_memory in NX.
  destruct (muse_origin digest_of h k0 E0 P e d1 I K) as (u & c' & m & t1' & t2' & IU & (d1' & t0' & -> & CM & L) & Va' & X).
  rewrite Va in Va'. injection Va' as <-.
  assert (PU : muse_ok digest_of (MCall c' d1' d1 t0' t1' t2')) by (rewrite Forall_forall in P; now apply P). destruct PU as [_ D'].
  exists c', d1', d1, t0', t1', t2', m0. split; [exact IU|]. split; [exact (NC _ _ _ D D')|]. repeat split; auto. now exists e.
Qed.

Theorem meta_own digest_of h k0 c d1 d2 t0 t1 t2 :
  no_collision digest_of -> empty_cache k0 -> Forall (muse_ok digest_of) h -> digest_of c d1 ->
  fst (metadata_cached d1 d2 t0 t1 t2 c (after_muses h k0)) = chain_metadata c \/
  exists c' d1' d2' t0' t1' t2' m, In (MCall c' d1' d2' t0' t1' t2') h /\ same_statements c c' /\ 2 <= List.length c' /\
    chain_metadata c' = Ok (Some m) /\
    fst (metadata_cached d1 d2 t0 t1 t2 c (after_muses h k0)) = Ok (Some (md_msgpack m)).
Proof.
  intros NC E0 P D. destruct (served digest_of h k0 c d1 d2 t0 t1 t2 NC E0 P D) as [H | (c' & d1' & d2' & t0' & t1' & t2' & m & H)]; [now left|].
  right. exists c', d1', d2', t0', t1', t2', m. tauto.
Qed.

Lemma until_pos x t1 t2 : (0 < t1)%Z -> (t1 <= t2)%Z -> (x + (t2 - t1) < 2 ^ 63)%Z -> (0 < until x t1)%Z -> until x t1 = (x - t1)%Z.
Proof. unfold until, sat. lia. Qed.

Theorem meta_memory_expires digest_of h c d1 d2 t0 t1 t2 :
  no_collision digest_of -> Forall (muse_ok digest_of) h -> Forall muse_in_range h -> digest_of c d1 ->
  (forall c' d1' d2' t0' t1' t2', In (MCall c' d1' d2' t0' t1' t2') h -> (expires_at c' - t1')%Z <> (-1)%Z) ->
  (forall c' d1' d2' t0' t1' t2', In (MCall c' d1' d2' t0' t1' t2') h -> (expires_at c + (t2' - t1') < t0)%Z) ->
  fst (metadata_cached d1 d2 t0 t1 t2 c (after_muses h (Memory []))) = chain_metadata c.
Proof.
  intros NC P R D N1 LATE.
  destruct (served digest_of h (Memory []) c d1 d2 t0 t1 t2 NC (or_introl eq_refl) P D) as [H | (c' & d1' & d2' & t0' & t1' & t2' & m & I & S & _ & _ & _ & e & NX & ST & EX)]; [exact H|exfalso].
  cbn [memory not_expired] in NX. rewrite Forall_forall in R. specialize (R _ I). cbn [muse_in_range] in R. destruct R as (R1 & R2 & R3).
  specialize (N1 _ _ _ _ _ _ I). specialize (LATE _ _ _ _ _ _ I). rewrite (same_statements_exp _ _ S) in LATE.
  assert (U1 : until (expires_at c') t1' <> (-1)%Z) by (unfold until, sat; lia).
  assert (PT : (0 < until (expires_at c') t1')%Z).
  { unfold storing in ST. apply negb_true_iff, andb_false_iff in ST. destruct ST as [ST|ST].
    - apply negb_false_iff, Z.eqb_eq in ST. contradiction.
    - apply Z.ltb_ge in ST. lia. }
  pose proof (until_pos _ _ _ R1 R2 R3 PT) as U. unfold expired in NX. rewrite EX in NX.
  destruct (mem_exp_spec t2' (until (expires_at c') t1')) as [[E' _] | [_ E']]; try lia; auto. rewrite E', U in NX.
  apply Z.ltb_ge in NX. lia.
Qed.

Theorem meta_redis_expires digest_of h c d1 d2 t0 t1 t2 :
  no_collision digest_of -> Forall (muse_ok digest_of) h -> Forall muse_in_range h -> digest_of c d1 ->
  (forall c' d1' d2' t0' t1' t2', In (MCall c' d1' d2' t0' t1' t2') h -> (t1' < expires_at c')%Z) ->
  (forall c' d1' d2' t0' t1' t2', In (MCall c' d1' d2' t0' t1' t2') h -> (expires_at c + (t2' - t1') + 2 * ms <= t0)%Z) ->
  fst (metadata_cached d1 d2 t0 t1 t2 c (after_muses h (Redis []))) = chain_metadata c.
Proof.
  intros NC P R D N1 LATE.
  destruct (served digest_of h (Redis []) c d1 d2 t0 t1 t2 NC (or_intror eq_refl) P D) as [H | (c' & d1' & d2' & t0' & t1' & t2' & m & I & S & _ & _ & _ & e & NX & EX)]; [exact H|exfalso].
  cbn [memory not_expired] in NX. cbn [memory exp_set] in EX. rewrite Forall_forall in R. specialize (R _ I). cbn [muse_in_range] in R. destruct R as (R1 & R2 & R3).
  specialize (N1 _ _ _ _ _ _ I). specialize (LATE _ _ _ _ _ _ I). rewrite (same_statements_exp _ _ S) in LATE.
  assert (PT : (0 < until (expires_at c') t1')%Z) by (unfold until, sat; lia).
  pose proof (until_pos _ _ _ R1 R2 R3 PT) as U. specialize (EX PT). rewrite U in EX. unfold red_expired in NX. rewrite EX in NX.
  unfold red_exp in NX. apply Z.ltb_ge in NX.
  pose proof (Z.div_mod t0 ms). pose proof (Z.mod_pos_bound t0 ms). pose proof (Z.mul_div_le t2' ms).
  pose proof (Z.mul_div_le (expires_at c' - t1') ms). unfold ms in *.
  destruct (Z.ltb_spec (expires_at c' - t1') 1000000); lia.
Qed.

(** ** Values do not depend on the history *)

Lemma combine_loop_keys parent sub : forall out o, combine_loop parent sub out = Ok o ->
  forall k, In k (keys o) -> In k (keys out) \/ In k (keys parent).
Proof.
  induction parent as [|[k' pv] parent IH]; intros out o; cbn [combine_loop].
  - intros [= <-] k I. now left.
  - assert (G : forall x, combine_loop parent sub (insert k' x out) = Ok o -> forall k, In k (keys o) -> In k (keys out) \/ In k (keys ((k', pv) :: parent))).
    { intros x H k I. destruct (IH _ _ H k I) as [J|J]; [|right; now right].
      apply keys_insert_In in J. destruct J as [-> | J]; [right; now left|now left]. }
    destruct (lookup k' sub) as [sv|]; [|apply G]. intros H. apply bind_ok in H as (c & _ & H). now apply (G c).
Qed.

Lemma merge_rest_keys {V} (b : smap V) : forall out k, In k (keys (merge_rest b out)) -> In k (keys out) \/ In k (keys b).
Proof.
  induction b as [|[k' v] b IH]; intros out k; cbn [merge_rest]; [now left|].
  destruct (has k' out); intros H; apply IH in H; destruct H as [H|H]; auto; try (right; now right).
  apply keys_insert_In in H. destruct H as [-> | H]; [right; now left|now left].
Qed.

Lemma combine2_keys p s o : combine2 p s = Ok o -> forall k, In k (keys (pol o)) -> In k (keys (pol p)) \/ In k (keys (pol s)).
Proof.
  unfold combine2. destruct (pol s) as [|a l] eqn:ES; [intros [= <-] k I; now left|].
  destruct (pol p) as [|b l'] eqn:EP; [intros [= <-] k I; right; now rewrite ES in I|].
  intros H k I. apply bind_ok in H as (out & HO & H). apply bind_ok in H as (_ & _ & H).
  assert (HE : o = Some (merge_rest (a :: l) out)) by congruence. subst o. cbn [pol] in I.
  apply merge_rest_keys in I. destruct I as [I|I]; [|now right]. apply (combine_loop_keys _ _ _ _ HO) in I. destruct I as [[]|I]; now left.
Qed.

Lemma combine_keys_in ps o : combine_policies ps = Ok o -> forall k, In k (keys (pol o)) -> exists q, In q ps /\ In k (keys (pol q)).
Proof.
  destruct ps as [|p ps]; cbn [combine_policies]; [intros [= <-] k []|].
  intros H. apply bind_ok in H as (_ & _ & H). intros k I.
  assert (G : forall ps p, combine_fold p ps = Ok o -> In k (keys (pol p)) \/ exists q, In q ps /\ In k (keys (pol q))).
  { clear H. clear ps p. induction ps as [|q ps IH]; intros p; cbn [combine_fold]; [intros [= <-]; now left|].
    intros H. apply bind_ok in H as (p' & H1 & H). destruct (IH _ H) as [J | (x & J1 & J2)].
    - apply (combine2_keys _ _ _ H1) in J. destruct J as [J|J]; [now left|]. right. exists q. split; [now left|exact J].
    - right. exists x. split; [now right|exact J2]. }
  destruct (G _ _ H) as [J | (q & J1 & J2)]; [exists p; split; [now left|exact J]|exists q; split; [now right|exact J2]].
Qed.

Lemma lookup_keys {V} k (m : smap V) : lookup k m <> None <-> In k (keys m).
Proof.
  split.
  - intros H. destruct (lookup k m) eqn:E; [|congruence]. apply lookup_In in E. unfold keys. apply in_map_iff. now exists (k, v).
  - intros H E. now apply (proj1 (lookup_None k m)) in E.
Qed.

Definition ov (m : option emeta) : option emeta := option_map em_values m.
Definition rov (r : res (option emeta)) : res (option emeta) := m <- r ;; Ok (ov m).

Lemma rov_ok_eq a b : rov a = rov b -> (exists x y, a = Ok x /\ b = Ok y /\ ov x = ov y) \/ (a = Err /\ b = Err) \/ (a = Panic /\ b = Panic).
Proof. destruct a, b; cbn; intros H; try discriminate H; [injection H as H|..]; eauto 8. Qed.

Lemma apply_one_explicit t sch c p em : In sch entity_schemas ->
  combine_policies (policies_of (snd t) c) = Ok p -> fst t (leaf_metadata c) = em -> explicit t sch c ->
  rov (apply_one em p) = rov (apply_one (option_map msgpack_roundtrip em) p).
Proof.
  intros IS CP E X. destruct p as [q|]; [|destruct em; reflexivity]. destruct em as [m|]; [|reflexivity]. cbn [apply_one option_map].
  destruct (X m E) as (obj & D & H).
  assert (EQ := decode_cached sch obj m q IS D).
  assert (EQ' : (m1 <- apply_policy m q ;; Ok (em_fields m1)) = (m2 <- apply_policy (msgpack_roundtrip m) q ;; Ok (em_fields m2))).
  { apply EQ. intros r IR S L. apply (H r IR S). apply lookup_keys in L. destruct (combine_keys_in _ _ CP (fr_tag r) L) as (x & I1 & I2).
    exists x. split; [exact I1|]. now apply lookup_keys. }
  unfold rov. destruct (apply_policy m q) as [m1| |], (apply_policy (msgpack_roundtrip m) q) as [m2| |]; cbn [bind] in EQ' |- *; try discriminate EQ'; try reflexivity.
  injection EQ' as EF. cbn [ov option_map]. unfold em_values. now rewrite EF.
Qed.

Lemma apply_field_none ws fv p : lookup (fr_tag (fst fv)) p = None -> apply_field ws p fv = Ok fv.
Proof. intros H. unfold apply_field. destruct fv as [r v]. cbn [fst] in H. now rewrite H. Qed.

Lemma map_res_id {A} (f : A -> res A) l : (forall x, In x l -> f x = Ok x) -> map_res f l = Ok l.
Proof.
  induction l as [|x l IH]; intros H; [reflexivity|]. cbn [map_res]. rewrite H by now left. cbn [bind]. rewrite IH; [reflexivity|]. intros y I. apply H. now right.
Qed.

Lemma apply_one_untouched t c p em : combine_policies (policies_of (snd t) c) = Ok p -> fst t (leaf_metadata c) = em -> untouched t c ->
  rov (apply_one em p) = rov (apply_one (option_map msgpack_roundtrip_alias em) p).
Proof.
  intros CP E X. destruct p as [q|]; [|destruct em; reflexivity]. destruct em as [m|]; [|reflexivity]. cbn [apply_one option_map].
  assert (N : forall tag, lookup tag q = None).
  { intros tag. destruct (lookup tag q) eqn:L; [|reflexivity]. exfalso.
    assert (I : In tag (keys (pol (Some q)))) by (apply lookup_keys; cbn [pol]; congruence).
    destruct (combine_keys_in _ _ CP tag I) as (x & I1 & I2). apply (X m E tag). exists x. split; [exact I1|]. now apply lookup_keys. }
  unfold apply_policy. rewrite (map_res_id _ (em_fields m)) by (intros fv _; now apply apply_field_none).
  rewrite (map_res_id _ (em_fields (msgpack_roundtrip_alias m))) by (intros fv _; now apply apply_field_none). reflexivity.
Qed.

Lemma combine_sel sel c p : merge_policies (map st_policy c) = Ok p ->
  combine_policies (policies_of mp_op c) = Ok (mp_op p) /\ combine_policies (policies_of mp_rp c) = Ok (mp_rp p) /\
  combine_policies (policies_of mp_as c) = Ok (mp_as p) /\ combine_policies (policies_of mp_oc c) = Ok (mp_oc p) /\
  combine_policies (policies_of mp_pr c) = Ok (mp_pr p) /\ combine_policies (policies_of mp_fe c) = Ok (mp_fe p) /\ sel = sel :> nat.
Proof.
  intros H. apply merge_policies_types in H as (H1 & H2 & H3 & H4 & H5 & H6). rewrite !policies_of_present in *. repeat split; auto.
Qed.

Lemma md_apply_values m m' p :
  rov (apply_one (md_op m) (mp_op p)) = rov (apply_one (md_op m') (mp_op p)) ->
  rov (apply_one (md_rp m) (mp_rp p)) = rov (apply_one (md_rp m') (mp_rp p)) ->
  rov (apply_one (md_as m) (mp_as p)) = rov (apply_one (md_as m') (mp_as p)) ->
  rov (apply_one (md_oc m) (mp_oc p)) = rov (apply_one (md_oc m') (mp_oc p)) ->
  rov (apply_one (md_pr m) (mp_pr p)) = rov (apply_one (md_pr m') (mp_pr p)) ->
  rov (apply_one (md_fe m) (mp_fe p)) = rov (apply_one (md_fe m') (mp_fe p)) ->
  md_extra m = md_extra m' ->
  (r <- md_apply m (Some p) ;; Ok (md_values r)) = (r <- md_apply m' (Some p) ;; Ok (md_values r)).
Proof.
  intros H1 H2 H3 H4 H5 H6 H7. cbn [md_apply]. rewrite H7.
  apply rov_ok_eq in H1 as [(x1 & y1 & -> & -> & H1) | [[-> ->] | [-> ->]]]; cbn [bind]; try reflexivity.
  apply rov_ok_eq in H2 as [(x2 & y2 & -> & -> & H2) | [[-> ->] | [-> ->]]]; cbn [bind]; try reflexivity.
  apply rov_ok_eq in H3 as [(x3 & y3 & -> & -> & H3) | [[-> ->] | [-> ->]]]; cbn [bind]; try reflexivity.
  apply rov_ok_eq in H4 as [(x4 & y4 & -> & -> & H4) | [[-> ->] | [-> ->]]]; cbn [bind]; try reflexivity.
  apply rov_ok_eq in H5 as [(x5 & y5 & -> & -> & H5) | [[-> ->] | [-> ->]]]; cbn [bind]; try reflexivity.
  apply rov_ok_eq in H6 as [(x6 & y6 & -> & -> & H6) | [[-> ->] | [-> ->]]]; cbn [bind]; try reflexivity.
  destruct (map_res _ (md_extra m')); cbn [bind]; try reflexivity.
  unfold md_values. cbn [md_op md_rp md_as md_oc md_pr md_fe md_extra]. unfold ov in *. now rewrite H1, H2, H3, H4, H5, H6.
Qed.

Lemma md_apply_safe c p : cache_safe c -> merge_policies (map st_policy c) = Ok p ->
  (r <- md_apply (leaf_metadata c) (Some p) ;; Ok (md_values r)) = (r <- md_apply (md_msgpack (leaf_metadata c)) (Some p) ;; Ok (md_values r)).
Proof.
  intros (S1 & S2 & S3 & S4 & S5 & S6) H. apply (combine_sel 0) in H as (H1 & H2 & H3 & H4 & H5 & H6 & _).
  apply md_apply_values; cbn [md_msgpack md_op md_rp md_as md_oc md_pr md_fe md_extra].
  - apply (apply_one_explicit (md_op, mp_op) op_schema c); auto. cbn; tauto.
  - apply (apply_one_explicit (md_rp, mp_rp) rp_schema c); auto. cbn; tauto.
  - apply (apply_one_untouched (md_as, mp_as) c); auto.
  - apply (apply_one_untouched (md_oc, mp_oc) c); auto.
  - apply (apply_one_explicit (md_pr, mp_pr) pr_schema c); auto. cbn; tauto.
  - apply (apply_one_explicit (md_fe, mp_fe) fe_schema c); auto. cbn; tauto.
  - reflexivity.
Qed.

Lemma md_values_msgpack m : md_values (md_msgpack m) = md_values m.
Proof. destruct m as [a b c d e f x]. unfold md_values, md_msgpack. cbn. destruct a, b, c, d, e, f; reflexivity. Qed.

Lemma from_jwt_policy dec s : from_jwt dec s -> st_policy s = st_policy (dec (st_jwt s)) /\ st_policy_crit s = st_policy_crit (dec (st_jwt s)).
Proof. intros [H | H]; rewrite H at 1 3; split; reflexivity. Qed.

Lemma from_jwt_maps dec c : Forall (from_jwt dec) c ->
  map st_policy c = map st_policy (decoded dec c) /\ flat_map st_policy_crit c = flat_map st_policy_crit (decoded dec c).
Proof.
  unfold decoded, messages. induction 1 as [|s c F _ [IH1 IH2]]; [split; reflexivity|]. cbn [map flat_map].
  apply from_jwt_policy in F as [F1 F2]. now rewrite F1, F2, IH1, IH2.
Qed.

Lemma stmt_msgpack_metadata s : st_metadata (stmt_msgpack s) = option_map md_msgpack (st_metadata s).
Proof. reflexivity. Qed.

Theorem chain_values dec c : Forall (from_jwt dec) c -> cache_safe (decoded dec c) ->
  result_values (chain_metadata c) = result_values (chain_metadata (decoded dec c)).
Proof.
  intros F CS. pose proof (from_jwt_maps dec c F) as [E1 E2].
  destruct c as [|s [|s' c]]; [reflexivity| |].
  - apply Forall_inv in F. change (decoded dec [s]) with [dec (st_jwt s)]. cbn [chain_metadata].
    destruct F as [F | F]; [now rewrite F at 1|]. rewrite F at 1. rewrite stmt_msgpack_metadata. unfold result_values. cbn [bind].
    destruct (st_metadata (dec (st_jwt s))); [|reflexivity]. cbn [option_map]. now rewrite md_values_msgpack.
  - change (decoded dec (s :: s' :: c)) with (dec (st_jwt s) :: dec (st_jwt s') :: decoded dec c) in *.
    rewrite !chain_metadata_two. unfold unsupported_crit. rewrite E2.
    destruct (subtract _ _); [|reflexivity]. rewrite E1.
    destruct (merge_policies _) as [p| |] eqn:MP; cbn [bind]; try reflexivity.
    pose proof (md_apply_safe _ p CS MP) as A.
    assert (L : leaf_metadata (s :: s' :: c) = leaf_metadata (dec (st_jwt s) :: dec (st_jwt s') :: decoded dec c) \/
                leaf_metadata (s :: s' :: c) = md_msgpack (leaf_metadata (dec (st_jwt s) :: dec (st_jwt s') :: decoded dec c))).
    { apply Forall_inv in F. cbn [leaf_metadata]. destruct F as [F | F]; [left; now rewrite F at 1|right].
      rewrite F at 1. rewrite stmt_msgpack_metadata. now destruct (st_metadata (dec (st_jwt s))). }
    unfold result_values. destruct L as [-> | ->]; [reflexivity|].
    destruct (md_apply (md_msgpack _) (Some p)) as [x| |], (md_apply (leaf_metadata _) (Some p)) as [y| |]; cbn [bind] in A |- *; try discriminate A; try reflexivity.
    apply (f_equal (fun r => match r with Ok v => v | _ => md_values x end)) in A. cbn beta iota in A. cbn [option_map]. now rewrite A.
Qed.

Theorem meta_history digest_of dec h k0 c d1 d2 t0 t1 t2 :
  no_collision digest_of -> empty_cache k0 -> Forall (muse_ok digest_of) h -> digest_of c d1 ->
  (forall c' d1' d2' t0' t1' t2', In (MCall c' d1' d2' t0' t1' t2') h -> Forall (from_jwt dec) c') -> Forall (from_jwt dec) c ->
  cache_safe (decoded dec c) ->
  result_values (fst (metadata_cached d1 d2 t0 t1 t2 c (after_muses h k0))) = result_values (chain_metadata (decoded dec c)).
Proof.
  intros NC E0 P D FH FC CS.
  destruct (meta_own digest_of h k0 c d1 d2 t0 t1 t2 NC E0 P D) as [-> | (c' & d1' & d2' & t0' & t1' & t2' & m & I & S & _ & CM & ->)].
  - now apply chain_values.
  - assert (E : decoded dec c = decoded dec c') by (unfold decoded; now rewrite (same_statements_messages _ _ S)).
    rewrite E in CS |- *. rewrite <- (chain_values dec c' (FH _ _ _ _ _ _ I) CS), CM. unfold result_values. cbn [bind option_map].
    now rewrite md_values_msgpack.
Qed.

(** ** Errors are not cached *)

Theorem meta_error_again d1 d2 t0 t1 t2 c k : fst (metadata_cached d1 d2 t0 t1 t2 c k) = Err ->
  forall d, fst (meta_cache_get t0 d (snd (metadata_cached d1 d2 t0 t1 t2 c k))) = None \/
            fst (meta_cache_get t0 d (snd (metadata_cached d1 d2 t0 t1 t2 c k))) = fst (meta_cache_get t0 d k).
Proof.
  unfold metadata_cached. pose proof (meta_get_snd t0 d1 k) as E. destruct (meta_cache_get t0 d1 k) as [[m|] k']; cbn [fst snd] in *; [discriminate|].
  intros H d. rewrite H. subst k'. destruct k as [l|l]; cbn [cache_get snd]; [|now right].
  unfold mem_get. destruct (find_entry (meta_key d1) l) as [e|] eqn:F; [|now right].
  destruct (expired t0 e) eqn:X; cbn [snd]; [|now right].
  unfold meta_cache_get. cbn [cache_get]. unfold mem_get.
  destruct (String.eqb_spec (meta_key d) (meta_key d1)) as [-> | N].
  - left. replace (find_entry (meta_key d1) (drop_entry (meta_key d1) l)) with (@None (entry mcached)); [reflexivity|].
    symmetry. unfold find_entry, drop_entry. clear. induction l as [|y l IH]; [reflexivity|]. cbn [filter].
    destruct (String.eqb (en_key y) (meta_key d1)) eqn:K; cbn [negb]; [exact IH|]. cbn [find]. now rewrite K.
  - right. rewrite find_drop_other by congruence. destruct (find_entry (meta_key d) l) as [y|]; [|reflexivity].
    destruct (expired t0 y); [reflexivity|]. now destruct (en_val y).
Qed.
