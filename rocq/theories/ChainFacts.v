(** Proofs about trust chains. *)
From Verif Require Import Base GoVal Policy Schema Metadata Chain BaseFacts SpecPolicy SpecMetadata SpecChain
  PolicyFacts MergeFacts RespectFacts ListFacts OpFacts CombineFacts MetadataFacts.

(** ** crit (C15) *)

Lemma dedup_In l x : In x (dedup l) <-> In x l.
Proof.
  induction l as [|y l IH]; simpl; [tauto|]. rewrite filter_In, IH.
  destruct (String.eqb_spec y x) as [->|N]; simpl; intuition; try discriminate.
Qed.

Lemma unsupported_nil c : unsupported_crit c = [] <-> crit_supported c.
Proof.
  unfold unsupported_crit, subtract, crit_supported.
  assert (E : forall o, mem o (map op_name operator_order) = known o).
  { intros o. unfold known. cbn [map operator_order op_name]. reflexivity. }
  split.
  - intros H s o Hs Ho. rewrite <- E. destruct (mem o (map op_name operator_order)) eqn:M; auto. exfalso.
    assert (K : In o (filter (fun x => negb (mem x (map op_name operator_order))) (dedup (flat_map st_policy_crit c)))).
    { apply filter_In. split; [|now rewrite M]. apply dedup_In, in_flat_map. eauto. }
    rewrite H in K. destruct K.
  - intros H. destruct (filter _ _) as [|o l] eqn:F; auto. exfalso.
    assert (K : In o (o :: l)) by now left. rewrite <- F in K. apply filter_In in K as [K1 K2].
    apply dedup_In, in_flat_map in K1 as (s & Hs & Ho). rewrite E, (H s o Hs Ho) in K2. discriminate.
Qed.

Lemma chain_metadata_two s s' c :
  chain_metadata (s :: s' :: c) =
  match unsupported_crit (s :: s' :: c) with
  | _ :: _ => Err
  | [] => p <- merge_policies (map st_policy (s :: s' :: c)) ;;
          m <- md_apply (leaf_metadata (s :: s' :: c)) (Some p) ;; Ok (Some m)
  end.
Proof. reflexivity. Qed.

Theorem crit_rejected c : 2 <= List.length c -> ~ crit_supported c -> chain_metadata c = Err.
Proof.
  destruct c as [|s [|s' c]]; simpl List.length; try lia. intros _ H. rewrite chain_metadata_two.
  destruct (unsupported_crit _) eqn:E; auto. now apply unsupported_nil in E.
Qed.

Theorem crit_no_influence c : crit_supported c -> chain_metadata c = chain_metadata (map without_crit c).
Proof.
  intros H. destruct c as [|s [|s' c]]; auto.
  cbn [map]. rewrite !chain_metadata_two.
  assert (E : unsupported_crit (s :: s' :: c) = []) by now apply unsupported_nil.
  assert (E' : unsupported_crit (without_crit s :: without_crit s' :: map without_crit c) = []).
  { apply unsupported_nil. intros x o Hx Ho.
    change (In x (map without_crit (s :: s' :: c))) in Hx. apply in_map_iff in Hx as (y & <- & _). destruct Ho. }
  rewrite E, E'. cbn [map]. rewrite map_map. reflexivity.
Qed.

(** ** Metadata per entity type (C16) *)

Lemma policies_of_present sel c : map sel (present (map st_policy c)) = policies_of sel c.
Proof.
  unfold present, policies_of. induction c as [|s c IH]; simpl; auto.
  rewrite map_app, IH. f_equal. now destruct (st_policy s).
Qed.

Lemma merge_policies_types ps p :
  merge_policies ps = Ok p ->
  combine_policies (map mp_op (present ps)) = Ok (mp_op p) /\ combine_policies (map mp_rp (present ps)) = Ok (mp_rp p) /\
  combine_policies (map mp_as (present ps)) = Ok (mp_as p) /\ combine_policies (map mp_oc (present ps)) = Ok (mp_oc p) /\
  combine_policies (map mp_pr (present ps)) = Ok (mp_pr p) /\ combine_policies (map mp_fe (present ps)) = Ok (mp_fe p).
Proof.
  unfold merge_policies. intros H.
  apply bind_ok in H as (a & -> & H). apply bind_ok in H as (b & -> & H). apply bind_ok in H as (c & -> & H).
  apply bind_ok in H as (d & -> & H). apply bind_ok in H as (e & -> & H). apply bind_ok in H as (f & -> & H).
  apply bind_ok in H as (g & Hg & H). injection H as <-. cbn. repeat (split; auto).
Qed.

Lemma apply_one_result m p m' :
  apply_one m p = Ok m' ->
  match p, m with
  | None, m => m' = m
  | Some _, None => m' = None
  | Some q, Some em => exists em', apply_policy em q = Ok em' /\ m' = Some em'
  end.
Proof.
  unfold apply_one. destruct p, m; intros H; try (now injection H as <-).
  apply bind_ok in H as (r & E & H). injection H as <-. eauto.
Qed.

Theorem chain_metadata_types c md :
  2 <= List.length c -> chain_metadata c = Ok md ->
  exists m, md = Some m /\ (forall t, In t entity_types -> type_result t c m) /\
            md_extra m = md_extra (leaf_metadata c).
Proof.
  destruct c as [|s [|s' c]]; simpl List.length; try lia. intros _ H. rewrite chain_metadata_two in H.
  destruct (unsupported_crit _); try discriminate.
  apply bind_ok in H as (p & Hp & H). apply bind_ok in H as (m & Hm & H). injection H as <-.
  exists m. split; auto.
  apply merge_policies_types in Hp as (H1 & H2 & H3 & H4 & H5 & H6).
  apply md_apply_types in Hm as (K1 & K2 & K3 & K4 & K5 & K6 & K7). split; auto.
  rewrite !policies_of_present in *.
  intros t Ht. unfold type_result. simpl in Ht.
  destruct Ht as [<-|[<-|[<-|[<-|[<-|[<-|[]]]]]]]; cbn [fst snd].
  - exists (mp_op p). split; auto. now apply apply_one_result in K1.
  - exists (mp_rp p). split; auto. now apply apply_one_result in K2.
  - exists (mp_as p). split; auto. now apply apply_one_result in K3.
  - exists (mp_oc p). split; auto. now apply apply_one_result in K4.
  - exists (mp_pr p). split; auto. now apply apply_one_result in K5.
  - exists (mp_fe p). split; auto. now apply apply_one_result in K6.
Qed.

(** Conversely: for metadata and policies without additional entity types, the chain
    metadata is defined whenever every type's result is. *)
Lemma type_result_apply t c m p :
  type_result t c m -> combine_policies (policies_of (snd t) c) = Ok p ->
  apply_one (fst t (leaf_metadata c)) p = Ok (fst t m).
Proof.
  intros (q & Hq & H) Hp. assert (q = p) by congruence. subst q.
  unfold apply_one. destruct p, (fst t (leaf_metadata c)); simpl in *; try congruence.
  destruct H as (em' & -> & ->). reflexivity.
Qed.

Theorem chain_metadata_complete c m :
  2 <= List.length c -> crit_supported c ->
  (forall t, In t entity_types -> type_result t c m) ->
  (forall s p, In s c -> st_policy s = Some p -> mp_extra p = []) ->
  md_extra m = md_extra (leaf_metadata c) ->
  chain_metadata c = Ok (Some m).
Proof.
  intros HL HC HT HX HE.
  assert (EX : extra_keys (present (map st_policy c)) = []).
  { unfold extra_keys, present. replace (flat_map (fun p => keys (mp_extra p)) _) with (@nil string); auto.
    symmetry. clear -HX. induction c as [|s c IH]; auto. cbn [map flat_map].
    destruct (st_policy s) as [p|] eqn:E; cbn [app flat_map].
    - rewrite (HX s p (or_introl eq_refl) E). simpl. apply IH. intros s' p' H. apply HX. now right.
    - apply IH. intros s' p' H. apply HX. now right. }
  destruct c as [|s [|s' c]]; simpl List.length in HL; try lia. rewrite chain_metadata_two.
  apply unsupported_nil in HC. rewrite HC. set (cc := s :: s' :: c) in *.
  unfold merge_policies. rewrite !policies_of_present, EX.
  pose proof (HT (md_op, mp_op)) as T1. pose proof (HT (md_rp, mp_rp)) as T2. pose proof (HT (md_as, mp_as)) as T3.
  pose proof (HT (md_oc, mp_oc)) as T4. pose proof (HT (md_pr, mp_pr)) as T5. pose proof (HT (md_fe, mp_fe)) as T6.
  unfold entity_types in *. simpl In in *.
  specialize (T1 ltac:(tauto)). specialize (T2 ltac:(tauto)). specialize (T3 ltac:(tauto)).
  specialize (T4 ltac:(tauto)). specialize (T5 ltac:(tauto)). specialize (T6 ltac:(tauto)).
  destruct (T1) as (p1 & E1 & _). destruct (T2) as (p2 & E2 & _). destruct (T3) as (p3 & E3 & _).
  destruct (T4) as (p4 & E4 & _). destruct (T5) as (p5 & E5 & _). destruct (T6) as (p6 & E6 & _).
  pose proof (type_result_apply _ _ _ _ T1 E1) as A1. pose proof (type_result_apply _ _ _ _ T2 E2) as A2.
  pose proof (type_result_apply _ _ _ _ T3 E3) as A3. pose proof (type_result_apply _ _ _ _ T4 E4) as A4.
  pose proof (type_result_apply _ _ _ _ T5 E5) as A5. pose proof (type_result_apply _ _ _ _ T6 E6) as A6.
  cbn [fst snd] in *. rewrite E1, E2, E3, E4, E5, E6. cbn [bind map_res].
  unfold md_apply. cbn [mp_op mp_rp mp_as mp_oc mp_pr mp_fe mp_extra].
  rewrite A1, A2, A3, A4, A5, A6. cbn [bind].
  replace (map_res (apply_extra []) (md_extra (leaf_metadata cc))) with (Ok (md_extra (leaf_metadata cc))).
  - cbn [bind]. rewrite <- HE. now destruct m.
  - symmetry. rewrite (map_res_ok_map _ (fun x => x)), map_id; auto.
Qed.

(** ** End to end: no superior's restriction is lost (C01 over chains) *)

Theorem chain_never_relaxes c md t k (ss : list (option sentry)) :
  2 <= List.length c -> chain_metadata c = Ok (Some md) -> In t entity_types ->
  Forall2 (policy_denotes k) (policies_of (snd t) c) ss ->
  Forall (fun p => verify_policy (pol p) = Ok tt) (policies_of (snd t) c) ->
  (exists s, In (Some s) ss) ->
  forall em r v, fst t (leaf_metadata c) = Some em ->
    find (fun fv : frow * gval => String.eqb k (fr_tag (fst fv))) (em_fields em) = Some (r, v) ->
    fr_name r <> "Scope"%string ->
    (exists l, strs v l) -> (mem (fr_name r) (em_set em) = false -> absent v) ->
  exists em' v', fst t md = Some em' /\
    (exists v0, assign (fr_ty r) v' = Ok v0 /\ em_tag k em' = Some v0) /\
    forall s, In (Some s) ss -> respects s v' /\ (is_slice v' = false -> respects_essential s v').
Proof.
  intros HL HM Ht HF HV [s0 Hs0] em r v He Hf Hn Hv Hset.
  destruct (chain_metadata_types c _ HL HM) as (m & E & T & _). injection E as <-.
  destruct (T t Ht) as (p & Hp & R).
  assert (ND : Forall (fun p => NoDup (keys (pol p))) (policies_of (snd t) c)).
  { clear -HF. induction HF as [|a b l l' [N _] _ IH]; constructor; auto. }
  assert (Vp : verify_policy (pol p) = Ok tt).
  { destruct (combine_policies_verified _ _ ND Hp) as [V|(first & pre & post & E & _)]; auto.
    rewrite Forall_forall in HV. apply HV. rewrite E. right. apply in_or_app. right. now left. }
  assert (LK : lookup k (pol p) <> None).
  { eapply combine_policies_keep; eauto.
    assert (X : exists q, In q (policies_of (snd t) c) /\ policy_denotes k q (Some s0)).
    { clear -HF Hs0. induction HF as [|a b l l' H _ IH]; [destruct Hs0|]. destruct Hs0 as [E|K].
      - subst b. exists a. split; [now left|auto].
      - destruct (IH K) as (q & Hq & Dq). exists q. split; [now right|auto]. }
    destruct X as (q & Hq & _ & Dq). exists q. split; auto. destruct (lookup k (pol q)); [congruence|contradiction]. }
  destruct p as [q|]; [|simpl in LK; congruence]. cbn [pol] in *. rewrite He in R.
  destruct R as (em' & Ha & Hmd).
  destruct (lookup k q) as [e|] eqn:Ek; [|congruence].
  pose proof Ha as Ha'. apply apply_policy_fields in Ha' as [_ FF].
  pose proof (find_parallel _ _ k _ _ FF) as P. unfold by_tag in P. rewrite Hf in P.
  destruct (find _ (em_fields em')) as [[r' v0]|] eqn:Ef; [|contradiction].
  assert (Etag : fr_tag r = k). { apply find_some in Hf as [_ B]. symmetry. now apply String.eqb_eq. }
  unfold apply_field in P. rewrite Etag, Ek in P.
  apply bind_ok in P as (v' & Hv' & P). apply bind_ok in P as (v'' & Hv'' & P). injection P as <- <-.
  assert (SF : scope_fix (fr_name r) v' = v').
  { unfold scope_fix. destruct (String.eqb_spec (fr_name r) "Scope"); [contradiction|reflexivity]. }
  rewrite SF in Hv''.
  exists em', v'. split; auto. split.
  - exists v''. split; auto. unfold em_tag. now rewrite Ef.
  - intros s Hs. eapply (combine_policies_never_relax k _ ss (Some q) e v); eauto.
Qed.

(** ** ExpiresAt (C32) *)

Lemma fold_min_spec r acc :
  let m := fold_left (fun exp st => if before (st_exp st) exp then st_exp st else exp) r acc in
  (m = acc \/ exists s, In s r /\ st_exp s = m) /\ (m <= acc)%Z /\ forall s, In s r -> (m <= st_exp s)%Z.
Proof.
  revert acc. induction r as [|s r IH]; intros acc; cbn [fold_left].
  - cbn zeta. split; [now left|]. split; [lia|intros s []].
  - specialize (IH (if before (st_exp s) acc then st_exp s else acc)). cbn zeta in *.
    set (m := fold_left _ r _) in *. destruct IH as (H1 & H2 & H3).
    unfold before in *. destruct (Z.ltb_spec (st_exp s) acc) as [L|L].
    + split; [|split; [lia|]].
      * right. destruct H1 as [H1|(x & Hx & E)]; [exists s; split; [now left|auto]|exists x; split; [now right|auto]].
      * intros x [<-|Hx]; auto.
    + split; [|split; [lia|]].
      * destruct H1 as [H1|(x & Hx & E)]; [now left|right; exists x; split; [now right|auto]].
      * intros x [<-|Hx]; auto. lia.
Qed.

Theorem expires_at_min c : c <> [] -> is_min (expires_at c) c.
Proof.
  destruct c as [|s r]; [congruence|]. intros _. cbn [expires_at].
  destruct (fold_min_spec r (st_exp s)) as (H1 & H2 & H3). split.
  - destruct H1 as [->|(x & Hx & E)]; [exists s; split; [now left|auto]|exists x; split; [now right|auto]].
  - intros x [<-|Hx]; auto.
Qed.

(** ** Filters (C33) *)

Lemma filter_checker_filter check cs : filter_checker check cs = filter check cs.
Proof. induction cs as [|c cs IH]; simpl; auto. now rewrite IH. Qed.

Lemma filter_exactly check (P : chain -> Prop) cs :
  (forall c, In c cs -> check c = true <-> P c) -> exactly P (filter_checker check cs) cs.
Proof.
  rewrite filter_checker_filter. induction cs as [|c cs IH]; intros H; simpl; [constructor|].
  pose proof (H c (or_introl eq_refl)) as K. specialize (IH (fun d Hd => H d (or_intror Hd))).
  destruct (check c); constructor; auto; [now apply K|]. intros Pc. apply K in Pc. discriminate.
Qed.

Theorem path_len_intermediates c : path_len c = intermediates c.
Proof. unfold path_len, intermediates. destruct (Nat.leb_spec (List.length c) 3); lia. Qed.

Theorem filter_max_exact n cs :
  (0 <= n)%Z -> exactly (fun c => (Z.of_nat (intermediates c) <= n)%Z) (filter_max_path_len n cs) cs.
Proof.
  intros Hn. unfold filter_max_path_len, filter_path_len. destruct cs as [|c r].
  - constructor.
  - destruct (Z.ltb_spec n 0); [lia|]. apply filter_exactly. intros d _.
    now rewrite Z.leb_le, path_len_intermediates.
Qed.

Lemma fold_minlen r acc :
  let m := fold_left (fun m d => if Z.ltb (Z.of_nat (path_len d)) m then Z.of_nat (path_len d) else m) r acc in
  (m = acc \/ exists s, In s r /\ Z.of_nat (path_len s) = m) /\ (m <= acc)%Z /\
  forall s, In s r -> (m <= Z.of_nat (path_len s))%Z.
Proof.
  revert acc. induction r as [|s r IH]; intros acc; cbn [fold_left].
  - cbn zeta. split; [now left|]. split; [lia|intros s []].
  - specialize (IH (if Z.ltb (Z.of_nat (path_len s)) acc then Z.of_nat (path_len s) else acc)). cbn zeta in *.
    set (m := fold_left _ r _) in *. destruct IH as (H1 & H2 & H3).
    destruct (Z.ltb_spec (Z.of_nat (path_len s)) acc) as [L|L].
    + split; [|split; [lia|]].
      * right. destruct H1 as [H1|(x & Hx & E)]; [exists s; split; [now left|auto]|exists x; split; [now right|auto]].
      * intros x [<-|Hx]; auto.
    + split; [|split; [lia|]].
      * destruct H1 as [H1|(x & Hx & E)]; [now left|right; exists x; split; [now right|auto]].
      * intros x [<-|Hx]; auto. lia.
Qed.

Theorem filter_min_exact cs :
  exactly (fun c => forall d, In d cs -> intermediates c <= intermediates d) (filter_min_path_len cs) cs.
Proof.
  unfold filter_min_path_len, filter_path_len. destruct cs as [|c r].
  - constructor.
  - destruct (Z.ltb_spec (-1) 0); [|lia].
    destruct (fold_minlen r (Z.of_nat (path_len c))) as (H1 & H2 & H3).
    set (m := fold_left _ r _) in *. apply filter_exactly. intros d Hd. rewrite Z.leb_le. split.
    + intros K x [<-|Hx]; rewrite <- !path_len_intermediates; [lia|]. specialize (H3 x Hx). lia.
    + intros K. destruct H1 as [->|(x & Hx & <-)].
      * specialize (K c (or_introl eq_refl)). rewrite <- !path_len_intermediates in K. lia.
      * specialize (K x (or_intror Hx)). rewrite <- !path_len_intermediates in K. lia.
Qed.

Theorem filter_anchor_exact id cs : exactly (ends_at id) (filter_anchor id cs) cs.
Proof.
  apply filter_exactly. intros c _. unfold check_anchor, ends_at.
  destruct (rev c) as [|s r] eqn:E.
  - split; [discriminate|]. intros (pre & s & -> & _). rewrite rev_app_distr in E. discriminate.
  - assert (C : c = rev r ++ [s]). { rewrite <- (rev_involutive c), E. reflexivity. }
    rewrite String.eqb_eq. split.
    + intros <-. exists (rev r), s. auto.
    + intros (pre & s' & C' & <-). rewrite C in C'. apply app_inj_tail in C' as [_ ->]. reflexivity.
Qed.

Theorem filter_valid_exact cs :
  exactly (fun c => exists md, chain_metadata c = Ok md) (filter_valid_metadata cs) cs.
Proof.
  apply filter_exactly. intros c _. destruct (chain_metadata c); simpl; split; eauto; try discriminate; now intros [? ?].
Qed.

(** Filters compose left to right. *)
Theorem run_filters_compose fs cs :
  (forall f, In f fs -> f [] = []) -> run_filters fs cs = fold_left (fun c f => f c) fs cs.
Proof.
  revert cs. induction fs as [|f fs IH]; intros cs H; cbn [run_filters fold_left]; auto.
  destruct (f cs) as [|d ds] eqn:E.
  - symmetry. clear -H. assert (G : forall f, In f fs -> f [] = []) by (intros; apply H; now right). clear H.
    induction fs as [|g fs IH]; cbn [fold_left]; auto. rewrite G; [|now left]. apply IH. intros; apply G. now right.
  - apply IH. intros g Hg. apply H. now right.
Qed.

(** ** Sorting (C34) *)

Lemma swap_down_perm {A} j (l : list A) : Permutation (swap_down j l) l.
Proof.
  unfold swap_down. destruct (skipn (j - 1) l) as [|a [|b r]] eqn:E; auto.
  rewrite <- (firstn_skipn (j - 1) l) at 2. rewrite E. apply Permutation_app_head. constructor.
Qed.

Lemma sink_perm {A} less j (l : list A) : Permutation (sink less j l) l.
Proof.
  revert l. induction j as [|j IH]; intros l; cbn [sink]; auto. destruct (less (S j) j); auto.
  rewrite IH. apply swap_down_perm.
Qed.

Lemma insertion_perm {A} less n : forall i (l : list A), Permutation (insertion less i n l) l.
Proof.
  induction n as [|n IH]; intros i l; cbn [insertion]; auto. rewrite IH. apply sink_perm.
Qed.

Theorem sort_asc_perm score cs : Permutation (sort_asc score cs) cs.
Proof. apply insertion_perm. Qed.
Theorem sort_desc_perm score cs : Permutation (sort_desc score cs) cs.
Proof. apply insertion_perm. Qed.

(** The comparison never says "less" for sorted input: nothing moves. *)
Lemma insertion_id {A} less n : forall i (l : list A),
  1 <= i -> (forall k, i <= k < i + n -> less k (k - 1) = false) -> insertion less i n l = l.
Proof.
  induction n as [|n IH]; intros i l Hi H; cbn [insertion]; auto.
  assert (E : sink less i l = l).
  { destruct i as [|j]; [lia|]. cbn [sink]. replace (less (S j) j) with false; auto.
    rewrite <- (H (S j)) by lia. f_equal. lia. }
  rewrite E. apply IH; [lia|]. intros k Hk. apply H. lia.
Qed.

Lemma nth_scores (score : chain -> Z) cs i d : i < List.length cs -> nth i (map score cs) 0%Z = score (nth i cs d).
Proof. intros H. rewrite (nth_indep _ 0%Z (score d)); [apply map_nth|now rewrite map_length]. Qed.

Theorem sort_asc_sorted_input score cs : sorted_by score cs -> sort_asc score cs = cs.
Proof.
  intros H. unfold sort_asc, sort_slice. apply insertion_id; [lia|]. intros k Hk.
  rewrite (nth_scores score cs k []), (nth_scores score cs (k - 1) []) by lia.
  apply Z.ltb_ge. apply H; lia.
Qed.

Theorem sort_asc_two score cs : List.length cs <= 2 -> sorted_by score (sort_asc score cs).
Proof.
  intros L i j d Hij Hj. rewrite (Permutation_length (sort_asc_perm score cs)) in Hj.
  destruct cs as [|a [|b [|c cs]]]; simpl List.length in *; try lia.
  assert (i = 0) by lia. assert (j = 1) by lia. subst.
  unfold sort_asc, sort_slice. cbn -[Z.ltb]. destruct (Z.ltb_spec (score b) (score a)); cbn; lia.
Qed.

Theorem sort_desc_sorted_input score cs : sorted_by (fun c => (- score c)%Z) cs -> sort_desc score cs = cs.
Proof.
  intros H. unfold sort_desc, sort_slice. apply insertion_id; [lia|]. intros k Hk.
  rewrite (nth_scores score cs k []), (nth_scores score cs (k - 1) []) by lia.
  apply Z.ltb_ge. specialize (H (k - 1) k []). lia.
Qed.

Theorem sort_desc_two score cs : List.length cs <= 2 -> sorted_by (fun c => (- score c)%Z) (sort_desc score cs).
Proof.
  intros L i j d Hij Hj. rewrite (Permutation_length (sort_desc_perm score cs)) in Hj.
  destruct cs as [|a [|b [|c cs]]]; simpl List.length in *; try lia.
  assert (i = 0) by lia. assert (j = 1) by lia. subst.
  unfold sort_desc, sort_slice. cbn -[Z.ltb]. destruct (Z.ltb_spec (score a) (score b)); cbn; lia.
Qed.

(** Whatever swaps sort.Slice performs, nothing is lost or duplicated. *)
Lemma swap_at_perm {A} i j (l : list A) : Permutation (swap_at i j l) l.
Proof.
  unfold swap_at. destruct (skipn i l) as [|a r] eqn:E; auto.
  destruct (skipn (j - i - 1) r) as [|b r'] eqn:E'; auto.
  rewrite <- (firstn_skipn i l) at 2. rewrite E. apply Permutation_app_head.
  rewrite <- (firstn_skipn (j - i - 1) r) at 2. rewrite E'.
  set (m := firstn (j - i - 1) r).
  transitivity (b :: a :: m ++ r').
  - constructor. apply Permutation_sym, Permutation_middle.
  - rewrite perm_swap. constructor. apply Permutation_middle.
Qed.

Theorem sort_swaps_perm {A} (swaps : list (nat * nat)) (l : list A) : Permutation (sort_swaps swaps l) l.
Proof.
  unfold sort_swaps. revert l. induction swaps as [|[i j] sw IH]; intros l; cbn [fold_left]; auto.
  rewrite IH. apply swap_at_perm.
Qed.

Theorem sort_perms score cs : Permutation (sort_asc score cs) cs /\ Permutation (sort_desc score cs) cs.
Proof. split; [apply sort_asc_perm|apply sort_desc_perm]. Qed.
Theorem sort_two score cs : List.length cs <= 2 ->
  sorted_by score (sort_asc score cs) /\ sorted_by (fun c => (- score c)%Z) (sort_desc score cs).
Proof. split; [now apply sort_asc_two|now apply sort_desc_two]. Qed.
Theorem sort_sorted_input score cs :
  (sorted_by score cs -> sort_asc score cs = cs) /\ (sorted_by (fun c => (- score c)%Z) cs -> sort_desc score cs = cs).
Proof. split; [apply sort_asc_sorted_input|apply sort_desc_sorted_input]. Qed.
