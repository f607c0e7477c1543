(** Combination of whole policies: closed form, verification, order independence,
    strictness along a list of policies. *)
From Verif Require Import Base GoVal Policy BaseFacts SpecPolicy PolicyFacts MergeFacts RespectFacts OpFacts.

Definition combine_at (sub : policy) (kv : string * entry) : res (string * entry) :=
  let '(k, pv) := kv in
  match lookup k sub with
  | None => Ok (k, pv)
  | Some sv => c <- merge_entries pv sv ;; Ok (k, c)
  end.

Lemma combine_loop_closed parent sub out :
  NoDup (keys parent) -> (forall k, In k (keys parent) -> lookup k out = None) ->
  combine_loop parent sub out = (l <- map_res (combine_at sub) parent ;; Ok (out ++ l)).
Proof.
  revert out. induction parent as [|[k pv] parent IH]; intros out ND Hout; simpl.
  - now rewrite app_nil_r.
  - inversion ND as [|x y Hx ND']; subst.
    assert (Hnext : forall c k', In k' (keys parent) -> lookup k' (out ++ [(k, c)]) = None).
    { intros c k' Hk'. rewrite lookup_app, Hout by (simpl; auto). simpl.
      destruct (String.eqb_spec k' k); auto. subst. contradiction. }
    destruct (lookup k sub) as [sv|].
    + destruct (merge_entries pv sv) as [c| |]; cbn [bind]; auto.
      rewrite insert_app by (apply Hout; simpl; auto).
      rewrite IH; auto. destruct (map_res (combine_at sub) parent); simpl; auto. now rewrite <- app_assoc.
    + cbn [bind]. rewrite insert_app by (apply Hout; simpl; auto).
      rewrite IH; auto. destruct (map_res (combine_at sub) parent); simpl; auto. now rewrite <- app_assoc.
Qed.

Lemma combine_at_keys b l l' : map_res (combine_at b) l = Ok l' -> keys l' = keys l.
Proof.
  rewrite map_res_Forall2. intros H. induction H as [|[k av] [k' c] l l' H _ IH]; simpl; auto.
  f_equal; auto. simpl in H. destruct (lookup k b); [destruct (merge_entries _ _)|]; simpl in H; congruence.
Qed.

Definition combine_raw (p s : policy) : res policy :=
  l <- map_res (combine_at s) p ;; Ok (l ++ rest p s).


Lemma has_keys {V} (a b : smap V) k : keys a = keys b -> has k a = has k b.
Proof.
  intros E. unfold has.
  destruct (lookup k a) eqn:E1, (lookup k b) eqn:E2; auto.
  - apply lookup_keys in E1. apply lookup_None in E2. congruence.
  - apply lookup_keys in E2. apply lookup_None in E1. congruence.
Qed.

Lemma combine_body_closed p s :
  NoDup (keys p) -> NoDup (keys s) ->
  (out <- combine_loop p s [] ;; let out := merge_rest s out in _ <- verify_policy out ;; Ok (Some out))
  = (out <- combine_raw p s ;; _ <- verify_policy out ;; Ok (Some out)).
Proof.
  intros NDp NDs. rewrite combine_loop_closed by auto. unfold combine_raw.
  destruct (map_res (combine_at s) p) as [l| |] eqn:E; cbn [bind]; auto.
  rewrite merge_rest_closed by auto. simpl app.
  assert (rest l s = rest p s) as ->; auto.
  unfold rest. apply filter_ext. intros [k v]. simpl. f_equal. apply has_keys. eapply combine_at_keys; eauto.
Qed.

(** Three-way description of combining two policies. *)
Lemma combine2_cases parent sub o :
  NoDup (keys (pol parent)) -> NoDup (keys (pol sub)) ->
  combine2 parent sub = Ok o ->
  (pol sub = [] /\ o = parent) \/
  (pol sub <> [] /\ pol parent = [] /\ o = sub) \/
  (pol sub <> [] /\ pol parent <> [] /\ exists q, o = Some q /\ combine_raw (pol parent) (pol sub) = Ok q /\ verify_policy q = Ok tt).
Proof.
  intros NDp NDs. unfold combine2.
  destruct (pol sub) as [|s0 sub'] eqn:Es; [intros H; injection H as <-; auto|].
  destruct (pol parent) as [|p0 parent'] eqn:Ep.
  - intros H; injection H as <-. right; left. repeat split; auto; discriminate.
  - intros H. right; right. split; [discriminate|]. split; [discriminate|].
    rewrite combine_body_closed in H by auto.
    apply bind_ok in H as (q & Hq & H). apply bind_ok in H as ([] & Hv & H). injection H as <-. eauto.
Qed.

Definition combined_at (p s o : policy) (k : string) : Prop :=
  match lookup k p, lookup k s with
  | Some pv, Some sv => exists c, merge_entries pv sv = Ok c /\ lookup k o = Some c
  | Some pv, None => lookup k o = Some pv
  | None, Some sv => lookup k o = Some sv
  | None, None => lookup k o = None
  end.

Lemma combine_at_lookup b l l' : NoDup (keys l) -> map_res (combine_at b) l = Ok l' ->
  forall k, match lookup k l with
            | None => lookup k l' = None
            | Some av => exists c, combine_at b (k, av) = Ok (k, c) /\ lookup k l' = Some c
            end.
Proof.
  rewrite map_res_Forall2. intros ND H. induction H as [|[k0 av] [k' c] l l' H HF IH]; simpl; auto.
  inversion ND as [|x y Hx ND']; subst.
  assert (k' = k0).
  { simpl in H. destruct (lookup k0 b); [destruct (merge_entries _ _)|]; simpl in H; congruence. }
  subst k'. intros k. destruct (String.eqb_spec k k0).
  - subst. simpl in H. eauto.
  - apply IH; auto.
Qed.

Lemma combine_raw_lookup p s q :
  NoDup (keys p) -> NoDup (keys s) -> combine_raw p s = Ok q ->
  NoDup (keys q) /\ forall k, combined_at p s q k.
Proof.
  intros NDp NDs H. unfold combine_raw in H. apply bind_ok in H as (l & Hl & H). injection H as <-.
  pose proof (combine_at_keys _ _ _ Hl) as Ek. split.
  - unfold keys in *. rewrite map_app, Ek.
    assert (NDr : NoDup (keys (rest p s))) by (now apply keys_filter_NoDup).
    assert (Hd : forall k, In k (keys p) -> ~ In k (keys (rest p s))).
    { intros k H1 H2. apply rest_keys in H2. tauto. }
    clear -NDp NDr Hd. unfold keys in *. induction (map fst p) as [|x xs IH]; simpl; auto.
    inversion NDp; subst. constructor.
    + rewrite in_app_iff. intros [H|H]; [contradiction|]. apply (Hd x); simpl; auto.
    + apply IH; auto. intros k Hk. apply Hd. simpl; auto.
  - intros k. unfold combined_at. rewrite lookup_app, lookup_rest. unfold has.
    pose proof (combine_at_lookup _ _ _ NDp Hl k) as Hm.
    destruct (lookup k p) as [pv|] eqn:Ep.
    + destruct Hm as (c & Hc & ->). simpl in Hc. destruct (lookup k s) as [sv|].
      * apply bind_ok in Hc as (c' & Hc' & E). injection E as <-. eauto.
      * congruence.
    + rewrite Hm. destruct (lookup k s); auto.
Qed.

Lemma combine2_lookup parent sub o :
  NoDup (keys (pol parent)) -> NoDup (keys (pol sub)) ->
  combine2 parent sub = Ok o ->
  NoDup (keys (pol o)) /\ forall k, combined_at (pol parent) (pol sub) (pol o) k.
Proof.
  intros NDp NDs H. destruct (combine2_cases _ _ _ NDp NDs H) as [[E ->]|[(_ & E & ->)|(_ & _ & q & -> & Hq & _)]].
  - split; auto. intros k. unfold combined_at. rewrite E. simpl. destruct (lookup k (pol parent)); auto.
  - split; auto. intros k. unfold combined_at. rewrite E. simpl. destruct (lookup k (pol sub)); auto.
  - now apply combine_raw_lookup.
Qed.

(** ** C05: is the result verified? *)


Lemma combine_raw_nonempty p s q : p <> [] -> combine_raw p s = Ok q -> q <> [].
Proof.
  unfold combine_raw. intros Hp H. apply bind_ok in H as (l & Hl & H). injection H as <-.
  apply combine_at_keys in Hl. destruct p, l; simpl in *; try discriminate; congruence.
Qed.

Lemma combine_fold_verified ps : forall out o,
  NoDup (keys (pol out)) -> Forall (fun p => NoDup (keys (pol p))) ps ->
  combine_fold out ps = Ok o ->
  verify_policy (pol out) = Ok tt -> ~ pnil out -> verify_policy (pol o) = Ok tt.
Proof.
  induction ps as [|p ps IH]; simpl; intros out o ND F H V N.
  - injection H as <-. auto.
  - inversion F as [|? ? F1 F2]; subst. apply bind_ok in H as (out' & H1 & H2).
    pose proof (proj1 (combine2_lookup _ _ _ ND F1 H1)) as ND'.
    destruct (combine2_cases _ _ _ ND F1 H1) as [[E ->]|[(_ & E & ->)|(_ & _ & q & -> & Hq & Hv)]].
    + eapply IH; eauto.
    + contradiction.
    + eapply IH; eauto. unfold pnil. simpl. eapply combine_raw_nonempty; eauto.
Qed.

(** The only result that has not been verified is a policy returned as it is because
    every other policy in the list is empty and it is not the first. *)
Lemma combine_fold_cases ps : forall out o,
  NoDup (keys (pol out)) -> Forall (fun p => NoDup (keys (pol p))) ps ->
  combine_fold out ps = Ok o -> pnil out ->
  verify_policy (pol o) = Ok tt \/
  exists pre post, ps = pre ++ o :: post /\ Forall pnil pre /\ Forall pnil post.
Proof.
  induction ps as [|p ps IH]; simpl; intros out o ND F H N.
  - injection H as <-. left. unfold pnil in N. now rewrite N.
  - inversion F as [|? ? F1 F2]; subst. apply bind_ok in H as (out' & H1 & H2).
    pose proof (proj1 (combine2_lookup _ _ _ ND F1 H1)) as ND'.
    destruct (combine2_cases _ _ _ ND F1 H1) as [[E ->]|[(Hs & E & ->)|(_ & Hp & _)]].
    + destruct (IH _ _ ND F2 H2 N) as [V|(pre & post & -> & P1 & P2)]; auto.
      right. exists (p :: pre), post. repeat split; auto.
    + (* from here on p is the accumulator *)
      clear IH. assert (Hcase : forall ps, Forall (fun p => NoDup (keys (pol p))) ps -> combine_fold p ps = Ok o ->
                verify_policy (pol o) = Ok tt \/ (o = p /\ Forall pnil ps)).
      { clear -F1 Hs. induction ps as [|p1 ps IH]; simpl; intros F H.
        - injection H as <-. auto.
        - inversion F as [|? ? G1 G2]; subst. apply bind_ok in H as (out' & H1 & H2).
          destruct (combine2_cases _ _ _ F1 G1 H1) as [[E ->]|[(_ & E & ->)|(_ & _ & q & -> & Hq & Hv)]].
          + destruct (IH G2 H2) as [V|[-> P]]; auto.
          + contradiction.
          + left. eapply combine_fold_verified; [| |exact H2| |]; auto.
            * exact (proj1 (combine_raw_lookup _ _ _ F1 G1 Hq)).
            * unfold pnil. simpl. eapply combine_raw_nonempty; eauto. }
      destruct (Hcase ps F2 H2) as [V|[-> P]]; auto.
      right. exists [], ps. auto.
    + contradiction.
Qed.

Theorem combine_policies_verified ps o :
  Forall (fun p => NoDup (keys (pol p))) ps ->
  combine_policies ps = Ok o ->
  verify_policy (pol o) = Ok tt \/
  exists first pre post, ps = first :: pre ++ o :: post /\ pnil first /\ Forall pnil pre /\ Forall pnil post.
Proof.
  destruct ps as [|p ps]; simpl; intros F H.
  - injection H as <-. now left.
  - inversion F as [|? ? F1 F2]; subst. apply bind_ok in H as ([] & V & H).
    destruct (pol p) as [|x xs] eqn:E.
    + destruct (combine_fold_cases ps p o) as [V'|(pre & post & -> & P1 & P2)]; auto.
      { now rewrite E. }
      right. exists p, pre, post. auto.
    + left. eapply combine_fold_verified; eauto.
      * now rewrite E.
      * now rewrite E.
      * unfold pnil. rewrite E. discriminate.
Qed.

(** ** C07: order independence *)


Lemma verify_combinations_perm active active' todo :
  Permutation active active' -> check_combinations active todo = check_combinations active' todo.
Proof.
  intros P. induction todo as [|o todo IH]; simpl; auto. rewrite IH. f_equal.
  unfold check_combination. destruct (operator_of o) as [x|]; auto. destruct (may_combine_with x) as [mc|]; auto.
  assert (Permutation (subtract active (map op_name mc ++ [op_name x])) (subtract active' (map op_name mc ++ [op_name x]))) as P'
    by (now apply filter_perm).
  destruct (subtract active _); [apply Permutation_nil in P'; now rewrite P'|].
  destruct (subtract active' _); auto. apply Permutation_sym, Permutation_nil in P'. discriminate.
Qed.

Lemma check_combinations_todo active todo todo' :
  Permutation todo todo' -> check_combinations active todo = check_combinations active todo'.
Proof.
  assert (C : forall o, check_combination active o = Ok tt \/ check_combination active o = Err).
  { intros o. unfold check_combination. destruct (operator_of o) as [x|]; auto.
    destruct (may_combine_with x); auto. destruct (subtract _ _); auto. }
  intros P. induction P; simpl; auto.
  - now rewrite IHP.
  - destruct (C x) as [-> | ->], (C y) as [-> | ->]; reflexivity.
  - congruence.
Qed.

Lemma run_verifiers_same e e' :
  same_map e e' -> run_verifiers policy_verifiers e = run_verifiers policy_verifiers e'.
Proof.
  intros S. unfold policy_verifiers. cbn [run_verifiers].
  unfold verify_subset_superset_oneof, verify_subset_superset, verify_add_in_subset, verify_add_in_oneof,
    verify_add_in_value, verify_oneof_has_values, verify_subset_and_value, verify_default_and_value, verify_sub, get, has.
  rewrite !(S _). reflexivity.
Qed.

Lemma verify_entry_variant e e' : order_variant e e' -> verify_entry e = verify_entry e'.
Proof.
  intros [ND P]. unfold verify_entry.
  assert (Pk : Permutation (keys e) (keys e')) by (now apply Permutation_map).
  rewrite (verify_combinations_perm (keys e) (keys e')) by auto.
  rewrite (check_combinations_todo _ (keys e) (keys e')) by auto.
  now rewrite (run_verifiers_same e e') by (now apply perm_same_map).
Qed.

Lemma apply_to_variant e e' v set : order_variant e e' -> apply_to e v set = apply_to e' v set.
Proof. intros [ND P]. apply apply_to_same. intros o. unfold get. now apply perm_same_map. Qed.


Lemma verify_policy_Forall p : verify_policy p = Ok tt <-> Forall (fun ke => verify_entry (snd ke) = Ok tt) p.
Proof.
  induction p as [|[k e] p IH]; simpl.
  - split; auto.
  - split; intros H.
    + apply bind_ok in H as ([] & H1 & H2). constructor; auto. now apply IH.
    + inversion H as [|? ? H1 H2]; subst. simpl in H1. rewrite H1. simpl. now apply IH.
Qed.

Lemma verify_policy_variant p p' : policy_variant p p' -> verify_policy p = Ok tt -> verify_policy p' = Ok tt.
Proof.
  intros (ND & q & P & F) H. rewrite verify_policy_Forall in *.
  assert (H' : Forall (fun ke : string * entry => verify_entry (snd ke) = Ok tt) q).
  { rewrite Forall_forall in *. intros x Hx. apply H. eapply Permutation_in; [apply Permutation_sym; exact P|auto]. }
  clear P H ND. induction F as [|a b q p' [_ V] F IH]; auto.
  inversion H'; subst. constructor; auto. rewrite <- (verify_entry_variant _ _ V). auto.
Qed.

Lemma Forall2_keys q p' : Forall2 row_variant q p' -> keys q = keys p'.
Proof. induction 1 as [|a b q p' [E _] F IH]; simpl; auto. unfold keys in *. simpl. now rewrite E, IH. Qed.

Lemma policy_variant_lookup p p' k :
  policy_variant p p' ->
  match lookup k p, lookup k p' with
  | Some e, Some e' => order_variant e e'
  | None, None => True
  | _, _ => False
  end.
Proof.
  intros (ND & q & P & F). rewrite (perm_same_map _ _ ND P k).
  clear P ND p. induction F as [|[k1 e1] [k2 e2] q p' [E V] F IH]; simpl; auto.
  simpl in E. subst k2. destruct (String.eqb k k1); auto.
Qed.

Lemma policy_variant_intro p p' :
  NoDup (keys p) -> NoDup (keys p') ->
  (forall k, match lookup k p, lookup k p' with
             | Some e, Some e' => order_variant e e'
             | None, None => True
             | _, _ => False
             end) ->
  policy_variant p p'.
Proof.
  intros ND ND' H. split; auto. revert p ND H.
  induction p' as [|[k e'] p' IH]; intros p ND H.
  - exists []. destruct p as [|[k e] p]; auto.
    specialize (H k). simpl in H. rewrite String.eqb_refl in H. contradiction.
  - inversion ND' as [|? ? Hk ND'']; subst.
    pose proof (H k) as Hk0. simpl in Hk0. rewrite String.eqb_refl in Hk0.
    destruct (lookup k p) as [e|] eqn:E; [|contradiction].
    apply lookup_In in E as Hin. apply in_split in Hin as (l1 & l2 & ->).
    assert (P : Permutation (l1 ++ (k, e) :: l2) ((k, e) :: l1 ++ l2)).
    { apply Permutation_sym, Permutation_middle. }
    pose proof (perm_keys_NoDup _ _ ND P) as ND2. simpl in ND2. inversion ND2 as [|? ? Hn ND3]; subst.
    destruct (IH ND'' (l1 ++ l2) ND3) as (q & Pq & Fq).
    { intros k1. specialize (H k1). rewrite (perm_same_map _ _ ND P k1) in H. cbn [lookup] in H.
      destruct (String.eqb_spec k1 k) as [E1|Hne]; [|exact H]. rewrite E1.
      apply lookup_None in Hn. rewrite Hn. apply lookup_None in Hk. now rewrite Hk. }
    exists ((k, e) :: q). split.
    + eapply Permutation_trans; [exact P|]. now constructor.
    + constructor; auto. split; auto.
Qed.


(** No operator unknown to the library occurs under the same attribute in both. *)
Definition policies_shared_known (p s : policy) : Prop :=
  forall k e e', lookup k p = Some e -> lookup k s = Some e' -> shared_known e e'.

Lemma policy_variant_clean p p' : policy_variant p p' -> clean p -> clean p'.
Proof.
  intros V [ND C]. pose proof V as (_ & q & P & F). split.
  - rewrite <- (Forall2_keys _ _ F). eapply perm_keys_NoDup; eauto.
  - intros k e' He'. pose proof (policy_variant_lookup _ _ k V) as H. rewrite He' in H.
    destruct (lookup k p); [|contradiction]. destruct H. eapply perm_keys_NoDup; eauto.
Qed.

Lemma combine_raw_ok p s :
  NoDup (keys p) ->
  (forall k e e', lookup k p = Some e -> lookup k s = Some e' -> exists c, merge_entries e e' = Ok c) ->
  exists q, combine_raw p s = Ok q.
Proof.
  intros ND H. unfold combine_raw.
  assert (exists l, map_res (combine_at s) p = Ok l) as (l & ->).
  { assert (H' : forall x, In x p -> exists y, combine_at s x = Ok y).
    { intros [k e] Hx. simpl. destruct (lookup k s) eqn:E; eauto.
      destruct (H k e e0) as (c & ->); simpl; eauto using In_lookup. }
    clear -H'. induction p as [|x p IH]; simpl; eauto.
    destruct (H' x (or_introl eq_refl)) as (y & ->). simpl.
    destruct IH as (l & ->); [intros; apply H'; simpl; auto|]. simpl; eauto. }
  simpl; eauto.
Qed.

Lemma combine_raw_variant p p' s s' q :
  clean p -> clean s -> policies_shared_known p s ->
  policy_variant p p' -> policy_variant s s' ->
  combine_raw p s = Ok q -> exists q', combine_raw p' s' = Ok q' /\ policy_variant q q'.
Proof.
  intros Cp Cs HK Vp Vs H.
  pose proof (policy_variant_clean _ _ Vp Cp) as Cp'. pose proof (policy_variant_clean _ _ Vs Cs) as Cs'.
  destruct (combine_raw_lookup _ _ _ (proj1 Cp) (proj1 Cs) H) as [NDq Lq].
  assert (Hm : forall k e e', lookup k p' = Some e -> lookup k s' = Some e' ->
             exists c, merge_entries e e' = Ok c /\ exists c0, lookup k q = Some c0 /\ order_variant c0 c).
  { intros k e e' He He'. pose proof (policy_variant_lookup _ _ k Vp) as H1. pose proof (policy_variant_lookup _ _ k Vs) as H2.
    rewrite He in H1. rewrite He' in H2. specialize (Lq k). unfold combined_at in Lq.
    destruct (lookup k p) as [e0|] eqn:E0; [|contradiction]. destruct (lookup k s) as [e0'|] eqn:E0'; [|contradiction].
    destruct Lq as (c0 & Hc0 & El). destruct H1 as [N1 P1], H2 as [N2 P2].
    destruct (merge_entries_perm _ _ _ _ _ N1 N2 (HK _ _ _ E0 E0') P1 P2 Hc0) as (c & Hc & Pc).
    exists c. split; auto. exists c0. split; auto. split; auto.
    eapply merge_entries_lookup; [exact N1|exact N2|eauto|exact Hc0]. }
  destruct (combine_raw_ok p' s' (proj1 Cp')) as (q' & Hq').
  { intros. destruct (Hm k e e') as (c & Hc & _); eauto. }
  exists q'. split; auto.
  destruct (combine_raw_lookup _ _ _ (proj1 Cp') (proj1 Cs') Hq') as [NDq' Lq'].
  apply policy_variant_intro; auto. intros k.
  specialize (Lq k). specialize (Lq' k). unfold combined_at in *.
  pose proof (policy_variant_lookup _ _ k Vp) as H1. pose proof (policy_variant_lookup _ _ k Vs) as H2.
  destruct (lookup k p) as [e0|] eqn:E0, (lookup k p') as [e1|] eqn:E1; try contradiction;
  destruct (lookup k s) as [f0|] eqn:F0, (lookup k s') as [f1|] eqn:F1; try contradiction.
  - destruct (Hm k e1 f1 E1 F1) as (c & Hc & c0 & Hc0 & V). destruct Lq' as (c' & Hc' & ->).
    rewrite Hc in Hc'. injection Hc' as <-. now rewrite Hc0.
  - now rewrite Lq, Lq'.
  - now rewrite Lq, Lq'.
  - now rewrite Lq, Lq'.
Qed.


Lemma variant_nil p : policy_variant [] p -> p = [].
Proof. intros (_ & q & P & F). apply Permutation_nil in P. subst. now inversion F. Qed.

Lemma variant_nil_r p : policy_variant p [] -> p = [].
Proof. intros (_ & q & P & F). inversion F; subst. apply Permutation_sym, Permutation_nil in P. auto. Qed.

Lemma gpolicy_variant_pol p p' : gpolicy_variant p p' -> policy_variant (pol p) (pol p').
Proof.
  destruct p, p'; simpl; try contradiction; auto. intros _. split; [constructor|]. exists []. auto.
Qed.

Lemma combine2_variant p p' s s' o :
  clean (pol p) -> clean (pol s) -> policies_shared_known (pol p) (pol s) ->
  gpolicy_variant p p' -> gpolicy_variant s s' ->
  combine2 p s = Ok o -> exists o', combine2 p' s' = Ok o' /\ gpolicy_variant o o'.
Proof.
  intros Cp Cs HK Vp Vs H.
  pose proof (gpolicy_variant_pol _ _ Vp) as Vp'. pose proof (gpolicy_variant_pol _ _ Vs) as Vs'.
  destruct (combine2_cases _ _ _ (proj1 Cp) (proj1 Cs) H) as [[E ->]|[(N & E & ->)|(N & M & q & -> & Hq & Hv)]].
  - exists p'. split; auto. unfold combine2. rewrite E in Vs'. apply variant_nil in Vs'. now rewrite Vs'.
  - exists s'. split; auto. unfold combine2. rewrite E in Vp'. apply variant_nil in Vp'. rewrite Vp'.
    destruct (pol s') eqn:Es; auto. apply variant_nil_r in Vs'. contradiction.
  - destruct (combine_raw_variant _ _ _ _ _ Cp Cs HK Vp' Vs' Hq) as (q' & Hq' & Vq).
    exists (Some q'). split; auto. unfold combine2.
    destruct (pol s') eqn:Es; [apply variant_nil_r in Vs'; contradiction|].
    destruct (pol p') eqn:Ep; [apply variant_nil_r in Vp'; contradiction|].
    rewrite <- Es, <- Ep in *.
    rewrite combine_body_closed.
    + rewrite Hq'. cbn [bind]. now rewrite (verify_policy_variant _ _ Vq Hv).
    + eapply policy_variant_clean; eauto.
    + eapply policy_variant_clean; eauto.
Qed.

(** ** C01 along a list of policies *)


Definition stronger (a b : sentry) : Prop :=
  (forall v, respects a v -> respects b v) /\ (forall v, respects_essential a v -> respects_essential b v).

Lemma stronger_refl a : stronger a a.
Proof. split; auto. Qed.

Lemma value_nodup_smerge a b : value_nodup a -> value_nodup b -> value_nodup (smerge a b).
Proof.
  unfold value_nodup, smerge. cbn [se_value]. destruct (se_value a) as [[]|]; simpl; auto;
    destruct (se_value b) as [[]|]; auto.
Qed.

Lemma combine_fold_stronger k ps : forall out so ss o,
  policy_denotes k out so -> Forall2 (policy_denotes k) ps ss ->
  combine_fold out ps = Ok o ->
  exists sf, policy_denotes k o sf /\
    (forall s, so = Some s \/ In (Some s) ss -> exists f, sf = Some f /\ stronger f s).
Proof.
  induction ps as [|p ps IH]; intros out so ss o D F H.
  - simpl in H. injection H as <-. inversion F; subst. exists so. split; auto.
    intros s [->|[]]. exists s. split; auto using stronger_refl.
  - inversion F as [|? sp ? ss' Dp F']; subst. simpl in H. apply bind_ok in H as (out' & H1 & H2).
    destruct (combine2_lookup _ _ _ (proj1 D) (proj1 Dp) H1) as [ND' L]. specialize (L k).
    unfold combined_at in L.
    assert (exists so', policy_denotes k out' so' /\
              forall s, so = Some s \/ sp = Some s -> exists f, so' = Some f /\ stronger f s) as (so' & D' & HS).
    { destruct D as [ND D], Dp as [NDp Dp].
      destruct (lookup k (pol out)) as [e|] eqn:Ee, so as [s1|]; try contradiction;
      destruct (lookup k (pol p)) as [e'|] eqn:Ee', sp as [s2|]; try contradiction.
      - destruct D as [De Vn], Dp as [De' Vn']. destruct L as (c & Hc & Ec).
        destruct (merge_denotes _ _ _ _ _ De De' Hc) as [Dc HA].
        exists (Some (smerge s1 s2)). split.
        + split; auto. rewrite Ec. split; auto using value_nodup_smerge.
        + intros s [E|E]; injection E as <-; eexists; (split; [reflexivity|]); split; intros v Hv.
          * now apply (respects_smerge s1 s2).
          * now apply (respects_essential_smerge s1 s2).
          * now apply (respects_smerge s1 s2).
          * now apply (respects_essential_smerge s1 s2).
      - exists (Some s1). split; [split; [auto|now rewrite L]|]. intros s [E|E]; [|discriminate].
        injection E as <-. eauto using stronger_refl.
      - exists (Some s2). split; [split; [auto|now rewrite L]|]. intros s [E|E]; [discriminate|].
        injection E as <-. eauto using stronger_refl.
      - exists None. split; [split; [auto|now rewrite L]|]. intros s [E|E]; discriminate. }
    destruct (IH out' so' ss' o D' F' H2) as (sf & Df & HF).
    exists sf. split; auto.
    assert (Hup : forall s, so = Some s \/ sp = Some s -> exists f, sf = Some f /\ stronger f s).
    { intros s Hs. destruct (HS s Hs) as (f & -> & S1). destruct (HF f (or_introl eq_refl)) as (g & -> & S2).
      exists g. split; auto. destruct S1, S2. split; auto. }
    intros s [Hs|[Hs|Hs]]; auto.
Qed.

Theorem combine_policies_never_relax k ps ss o m v set v' :
  Forall2 (policy_denotes k) ps ss ->
  combine_policies ps = Ok o -> verify_policy (pol o) = Ok tt ->
  lookup k (pol o) = Some m ->
  (exists l, strs v l) -> (set = false -> absent v) ->
  apply_to m v set = Ok v' ->
  forall s, In (Some s) ss ->
    respects s v' /\ (is_slice v' = false -> respects_essential s v').
Proof.
  intros F H V Em Sv Hs HA s Hin.
  destruct ps as [|p ps]; inversion F as [|? sp ? ss' Dp F']; subst.
  - destruct Hin.
  - simpl in H. apply bind_ok in H as ([] & _ & H).
    destruct (combine_fold_stronger k ps p sp ss' o Dp F' H) as (sf & [ND Df] & HF).
    rewrite Em in Df. destruct (HF s) as (f & -> & S1 & S2).
    { destruct Hin as [->|Hin]; auto. }
    destruct Df as [Dm _].
    assert (Ve : verify_entry m = Ok tt).
    { rewrite verify_policy_Forall, Forall_forall in V. apply (V (k, m)). now apply lookup_In. }
    destruct (apply_respects m f Dm (verify_entry_verified _ _ Dm Ve) v set v' Sv Hs HA) as [R RE].
    split; auto.
Qed.

(** ... and an attribute restricted by some policy of the list keeps an entry. *)
Theorem combine_policies_keep k ps o :
  Forall (fun p => NoDup (keys (pol p))) ps ->
  combine_policies ps = Ok o ->
  (exists p, In p ps /\ lookup k (pol p) <> None) -> lookup k (pol o) <> None.
Proof.
  destruct ps as [|p ps]; simpl; intros F H (q & Hin & Hq); [destruct Hin|].
  inversion F as [|? ? F1 F2]; subst. apply bind_ok in H as ([] & _ & H).
  assert (G : forall ps out, NoDup (keys (pol out)) -> Forall (fun p => NoDup (keys (pol p))) ps ->
             combine_fold out ps = Ok o ->
             lookup k (pol out) <> None \/ (exists q, In q ps /\ lookup k (pol q) <> None) -> lookup k (pol o) <> None).
  { clear. induction ps as [|p ps IH]; simpl; intros out ND F H Hk.
    - injection H as <-. destruct Hk as [|(q & [] & _)]; auto.
    - inversion F as [|? ? F1 F2]; subst. apply bind_ok in H as (out' & H1 & H2).
      destruct (combine2_lookup _ _ _ ND F1 H1) as [ND' L]. specialize (L k). unfold combined_at in L.
      apply (IH out' ND' F2 H2).
      destruct Hk as [Hk|(q & [->|Hq] & Hk)].
      + left. destruct (lookup k (pol out)); [|congruence]. destruct (lookup k (pol p)).
        * destruct L as (c & _ & ->). discriminate.
        * now rewrite L.
      + left. destruct (lookup k (pol q)); [|congruence]. destruct (lookup k (pol out)).
        * destruct L as (c & _ & ->). discriminate.
        * now rewrite L.
      + right. eauto. }
  apply (G ps p F1 F2 H). destruct Hin as [->|Hin]; eauto.
Qed.

(** ** C07 along a list of policies *)


Lemma all_known_shared p s : all_known p -> policies_shared_known p s.
Proof. intros [_ H] k e e' He _ o Ho _. eapply H; eauto. Qed.

Lemma combine2_all_known p s o :
  all_known (pol p) -> all_known (pol s) -> combine2 p s = Ok o -> all_known (pol o).
Proof.
  intros [Cp Kp] [Cs Ks] H.
  destruct (combine2_lookup _ _ _ (proj1 Cp) (proj1 Cs) H) as [ND L].
  assert (G : forall k e, lookup k (pol o) = Some e -> NoDup (keys e) /\ forall op, In op (keys e) -> known op = true).
  { intros k e He. specialize (L k). unfold combined_at in L.
    destruct (lookup k (pol p)) as [pe|] eqn:Ep, (lookup k (pol s)) as [se|] eqn:Es.
    - destruct L as (c & Hc & L). rewrite He in L. injection L as <-.
      destruct (merge_entries_lookup _ _ _ (proj2 Cp _ _ Ep) (proj2 Cs _ _ Es) ltac:(intros x Hx _; eapply Kp; eauto) Hc) as [N M].
      split; auto. intros op Hop. destruct (keys_lookup _ _ Hop) as [v Hv]. specialize (M op). unfold merged_at in M.
      destruct (lookup op pe) eqn:E1; [eapply Kp; eauto; eapply lookup_keys; eauto|].
      destruct (lookup op se) eqn:E2; [eapply Ks; eauto; eapply lookup_keys; eauto|]. congruence.
    - rewrite He in L. injection L as <-. split; [eapply Cp; eauto|eapply Kp; eauto].
    - rewrite He in L. injection L as <-. split; [eapply Cs; eauto|eapply Ks; eauto].
    - congruence. }
  split; [split|]; auto; intros; eapply G; eauto.
Qed.

Lemma combine_fold_variant ps : forall ps' out out' o,
  all_known (pol out) -> Forall (fun p => all_known (pol p)) ps ->
  gpolicy_variant out out' -> Forall2 gpolicy_variant ps ps' ->
  combine_fold out ps = Ok o -> exists o', combine_fold out' ps' = Ok o' /\ gpolicy_variant o o'.
Proof.
  induction ps as [|p ps IH]; intros ps' out out' o Ko K V F H; inversion F as [|? p' ? ps'' Vp F']; subst; simpl in *.
  - injection H as <-. eauto.
  - inversion K as [|? ? K1 K2]; subst. apply bind_ok in H as (o1 & H1 & H2).
    destruct (combine2_variant _ _ _ _ _ (proj1 Ko) (proj1 K1) (all_known_shared _ _ Ko) V Vp H1) as (o1' & H1' & V1).
    rewrite H1'. cbn [bind].
    apply (IH ps'' o1 o1' o); auto. exact (combine2_all_known _ _ _ Ko K1 H1).
Qed.

Lemma order_variant_sym e e' : order_variant e e' -> order_variant e' e.
Proof. intros [ND P]. split; [eapply perm_keys_NoDup; eauto|now apply Permutation_sym]. Qed.

Lemma policy_variant_sym p p' : policy_variant p p' -> policy_variant p' p.
Proof.
  intros V. pose proof V as (ND & q & P & F).
  apply policy_variant_intro; auto.
  - rewrite <- (Forall2_keys _ _ F). eapply perm_keys_NoDup; eauto.
  - intros k. pose proof (policy_variant_lookup _ _ k V) as H.
    destruct (lookup k p), (lookup k p'); auto using order_variant_sym.
Qed.

Lemma gpolicy_variant_sym p p' : gpolicy_variant p p' -> gpolicy_variant p' p.
Proof. destruct p, p'; simpl; auto using policy_variant_sym. Qed.

Lemma policy_variant_all_known p p' : policy_variant p p' -> all_known p -> all_known p'.
Proof.
  intros V [C K]. split; [eapply policy_variant_clean; eauto|].
  intros k e' He' o Ho. pose proof (policy_variant_lookup _ _ k V) as H. rewrite He' in H.
  destruct (lookup k p) as [e|] eqn:E; [|contradiction]. destruct H as [_ P].
  eapply K; eauto. eapply Permutation_in; [|exact Ho]. apply Permutation_map. now apply Permutation_sym.
Qed.

Theorem combine_policies_variant ps ps' o :
  Forall (fun p => all_known (pol p)) ps -> Forall2 gpolicy_variant ps ps' ->
  combine_policies ps = Ok o -> exists o', combine_policies ps' = Ok o' /\ gpolicy_variant o o'.
Proof.
  intros K F H. destruct ps as [|p ps]; inversion F as [|? p' ? ps'' Vp F']; subst; simpl in *.
  - injection H as <-. exists None. simpl; auto.
  - inversion K as [|? ? K1 K2]; subst. apply bind_ok in H as ([] & V & H).
    rewrite (verify_policy_variant _ _ (gpolicy_variant_pol _ _ Vp) V). simpl.
    eapply combine_fold_variant; eauto.
Qed.

Theorem combine_policies_variant_iff ps ps' :
  Forall (fun p => all_known (pol p)) ps -> Forall2 gpolicy_variant ps ps' ->
  is_ok (combine_policies ps) = is_ok (combine_policies ps').
Proof.
  intros K F.
  assert (K' : Forall (fun p => all_known (pol p)) ps').
  { clear -K F. induction F; inversion K; subst; constructor; auto.
    eapply policy_variant_all_known; eauto. now apply gpolicy_variant_pol. }
  assert (F' : Forall2 gpolicy_variant ps' ps).
  { clear -F. induction F; constructor; auto using gpolicy_variant_sym. }
  destruct (combine_policies ps) as [o| |] eqn:E.
  - destruct (combine_policies_variant _ _ _ K F E) as (o' & -> & _). reflexivity.
  - destruct (combine_policies ps') as [o'| |] eqn:E'; auto.
    destruct (combine_policies_variant _ _ _ K' F' E') as (o & E1 & _). congruence.
  - destruct (combine_policies ps') as [o'| |] eqn:E'; auto.
    destruct (combine_policies_variant _ _ _ K' F' E') as (o & E1 & _). congruence.
Qed.
