(** The resolved value of a list attribute is what the operator table makes of it. *)
From Verif Require Import Base GoVal Policy Schema Metadata Chain BaseFacts SpecPolicy SpecMetadata SpecChain SpecResolver Resolver SpecExact
  PolicyFacts MergeFacts RespectFacts ListFacts OpFacts CombineFacts MetadataFacts PolicyLaws ChainFacts.

Lemma s_union_loop_missing out l : NoDup l -> s_union_loop out l = add_missing out l.
Proof.
  revert out. induction l as [|x l IH]; intros out N; simpl.
  - unfold add_missing. simpl. now rewrite app_nil_r.
  - inversion N as [|? ? Hx N']; subst. unfold add_missing. simpl. destruct (mem x out) eqn:E; simpl.
    + apply IH; auto.
    + rewrite IH by auto. unfold add_missing. rewrite <- app_assoc. f_equal. simpl. f_equal.
      apply filter_ext_in. intros y Hy. f_equal. unfold mem. rewrite existsb_app. simpl.
      destruct (String.eqb_spec y x); [subst; contradiction|now rewrite orb_false_r].
Qed.

Lemma s_union_missing a b : NoDup b -> s_union a b = add_missing a b.
Proof.
  intros N. unfold s_union. destruct b as [|x b].
  - unfold add_missing. simpl. now rewrite app_nil_r.
  - destruct a as [|y a].
    + unfold add_missing. simpl. f_equal. symmetry. clear. induction b; simpl; congruence.
    + now apply s_union_loop_missing.
Qed.

Lemma add_missing_NoDup a b : NoDup a -> NoDup b -> NoDup (add_missing a b).
Proof.
  intros Na Nb. unfold add_missing.
  assert (Nf : NoDup (filter (fun x => negb (mem x a)) b)) by now apply NoDup_filter.
  assert (D : forall x, In x (filter (fun x => negb (mem x a)) b) -> ~ In x a).
  { intros x H. apply filter_In in H as [_ H]. apply mem_nIn. now apply negb_true_iff. }
  set (f := filter _ b) in *. clearbody f.
  induction a as [|y l IH]; simpl app; auto.
  inversion Na; subst. constructor.
  - rewrite in_app_iff. intros [K|K]; auto. apply (D _ K). now left.
  - apply IH; auto. intros z Hz K. apply (D _ Hz). now right.
Qed.

Definition clean (s : sentry) : Prop := opt (se_add s) (@NoDup string) /\ opt (se_superset_of s) (@NoDup string).

Lemma smerge_merged a b : clean b -> smerge a b = merged a b.
Proof.
  intros [H1 H2]. unfold smerge, merged.
  assert (U : forall x y : option (list string), opt y (@NoDup string) -> first_some s_union x y = both add_missing x y).
  { intros [x|] [y|] N; simpl; auto. now rewrite s_union_missing. }
  rewrite (U _ _ H1), (U _ _ H2). reflexivity.
Qed.

Lemma clean_merged a b : clean a -> clean b -> clean (merged a b).
Proof.
  intros [A1 A2] [B1 B2]. unfold clean, merged. cbn [se_add se_superset_of].
  split; [destruct (se_add a), (se_add b)|destruct (se_superset_of a), (se_superset_of b)]; simpl in *; auto using add_missing_NoDup.
Qed.

Lemma merge_eq_result o a b c : eq_op o -> merge_op o a b = Ok c -> c = a \/ c = b.
Proof.
  intros [-> | ->]; cbn [merge_op].
  - intros H. apply bind_ok in H as ([] & _ & H); [injection H as <-; auto|discriminate].
  - destruct (is_nil a); [intros H; injection H as <-; auto|]. destruct (is_nil b); [intros H; injection H as <-; auto|].
    intros H. apply bind_ok in H as ([] & _ & H); [injection H as <-; auto|discriminate].
Qed.

Lemma list_operands_merge a b m :
  NoDup (keys a) -> NoDup (keys b) -> shared_known a b -> merge_entries a b = Ok m ->
  list_operands a -> list_operands b -> list_operands m.
Proof.
  intros NA NB HK H LA LB k v Hk Hv.
  destruct (merge_entries_lookup _ _ _ NA NB HK H) as [_ F]. specialize (F k). unfold merged_at in F.
  destruct (lookup k a) as [av|] eqn:Ea, (lookup k b) as [bv|] eqn:Eb.
  - destruct F as (o & c & Eo & Ec & El).
    assert (EO : eq_op o). { destruct Hk; subst k; injection Eo as <-; [now left|now right]. }
    assert (v = c) by congruence. subst c.
    destruct (merge_eq_result _ _ _ _ EO Ec); subst v; [eapply LA|eapply LB]; eauto.
  - assert (v = av) by congruence. subst. eapply LA; eauto.
  - assert (v = bv) by congruence. subst. eapply LB; eauto.
  - congruence.
Qed.

Lemma combine2_list_entry k p q o sp sq :
  list_entry k p sp -> list_entry k q sq -> combine2 p q = Ok o ->
  list_entry k o (both merged sp sq) /\
  match sp, sq with Some a, Some b => values_agree a b | _, _ => True end.
Proof.
  intros ([NP DP] & LP & CP) ([NQ DQ] & LQ & CQ) H.
  destruct (combine2_lookup _ _ _ NP NQ H) as [NO L]. specialize (L k). unfold combined_at in L.
  unfold list_entry, policy_denotes.
  destruct (lookup k (pol p)) as [e|] eqn:Ee, sp as [a|]; try contradiction;
  destruct (lookup k (pol q)) as [e'|] eqn:Ee', sq as [b|]; try contradiction; simpl both.
  - destruct DP as [De Va], DQ as [De' Vb]. destruct L as (c & Hc & Ec).
    destruct (merge_denotes _ _ _ _ _ De De' Hc) as [Dc HA].
    assert (CB : clean b) by now apply CQ. assert (CA : clean a) by now apply CP.
    rewrite (smerge_merged _ _ CB) in Dc. split; [|exact HA]. rewrite Ec. split; [|split].
    + repeat split; auto; try apply Dc. rewrite <- (smerge_merged _ _ CB). now apply value_nodup_smerge.
    + intros x E. injection E as <-. eapply list_operands_merge; [apply De|apply De'|eapply denotes_shared_known, De|exact Hc| |]; auto.
    + intros x E. injection E as <-. now apply clean_merged.
  - rewrite L. repeat split; auto; try apply DP; now apply CP.
  - rewrite L. repeat split; auto; try apply DQ; now apply CQ.
  - rewrite L. repeat split; auto; discriminate.
Qed.

Lemma combine_fold_list_entry k ps : forall out so ss o,
  list_entry k out so -> Forall2 (list_entry k) ps ss -> combine_fold out ps = Ok o ->
  list_entry k o (fold_left (both merged) ss so).
Proof.
  induction ps as [|p ps IH]; intros out so ss o D F H; inversion F as [|? sp ? ss' Dp F']; subst; cbn [combine_fold fold_left] in *.
  - injection H as <-. exact D.
  - apply bind_ok in H as (out' & H1 & H2).
    destruct (combine2_list_entry _ _ _ _ _ _ D Dp H1) as [D' _]. eapply IH; eauto.
Qed.

Theorem combine_list_entry k ps ss o :
  Forall2 (list_entry k) ps ss -> combine_policies ps = Ok o -> list_entry k o (all_merged ss).
Proof.
  intros F H. destruct ps as [|p ps]; inversion F as [|? sp ? ss' Dp F']; subst; cbn [combine_policies] in H.
  - injection H as <-. repeat split; simpl; auto; try constructor; discriminate.
  - apply bind_ok in H as ([] & _ & H). unfold all_merged. cbn [fold_left].
    change (both merged None sp) with sp. eapply combine_fold_list_entry; eauto.
Qed.

(** ** Over a chain *)

Theorem chain_list_result c md t k ss em r n cur :
  2 <= List.length c -> chain_metadata c = Ok (Some md) -> In t entity_types ->
  Forall2 (list_entry k) (policies_of (snd t) c) ss ->
  fst t (leaf_metadata c) = Some em ->
  find (fun fv : frow * gval => String.eqb k (fr_tag (fst fv))) (em_fields em) = Some (r, VSlice TStr n (map VStr cur)) ->
  fr_ty r = TSlice TStr -> fr_name r <> "Scope"%string ->
  let set := mem (fr_name r) (em_set em) in
  (set = false -> n = true /\ cur = []) ->
  table_form (all_merged ss) set ->
  exists out em' n',
    table_result (all_merged ss) (if set then Some cur else None) = Ok out /\
    fst t md = Some em' /\
    em_tag k em' = Some (VSlice TStr n' (map VStr (match out with Some l => l | None => [] end))).
Proof.
  intros HL HM Ht HF He Hf Hty Hn set Hset HT.
  destruct (chain_metadata_types c _ HL HM) as (m & E & T & _). injection E as <-.
  destruct (T t Ht) as (p & Hp & R). rewrite He in R.
  destruct (combine_list_entry _ _ _ _ HF Hp) as ([ND D] & LO & CL).
  set (f := all_merged ss) in *.
  assert (Etag : fr_tag r = k). { apply find_some in Hf as [_ B]. symmetry. now apply String.eqb_eq. }
  assert (SAME : fst t md = Some em -> f = None ->
     exists out em' n', table_result f (if set then Some cur else None) = Ok out /\ fst t md = Some em' /\
       em_tag k em' = Some (VSlice TStr n' (map VStr (match out with Some l => l | None => [] end)))).
  { intros E1 ->. exists (if set then Some cur else None), em, n. split; [reflexivity|]. split; auto.
    unfold em_tag. rewrite Hf. cbn [snd]. destruct set; auto. destruct (Hset eq_refl) as [-> ->]. reflexivity. }
  destruct p as [q|].
  2:{ cbn [pol lookup] in D. destruct f; [contradiction|]. apply SAME; auto. }
  destruct R as (em' & Ha & Hmd). cbn [pol] in *.
  pose proof Ha as Ha'. apply apply_policy_fields in Ha' as [_ FF].
  pose proof (find_parallel _ _ k _ _ FF) as P. unfold by_tag in P. rewrite Hf in P.
  destruct (find _ (em_fields em')) as [[r' v0]|] eqn:Ef; [|contradiction].
  unfold apply_field in P. rewrite Etag in P.
  destruct (lookup k q) as [e|] eqn:Ek.
  - destruct f as [s|]; [|contradiction]. destruct D as [De _].
    apply bind_ok in P as (v' & Hv' & P). apply bind_ok in P as (v'' & Hv'' & P). injection P as <- <-.
    assert (SF : scope_fix (fr_name r) v' = v').
    { unfold scope_fix. destruct (String.eqb_spec (fr_name r) "Scope"); [contradiction|reflexivity]. }
    rewrite SF in Hv''. destruct HT as [HT1 HT2].
    pose proof (list_operators e s n cur set De (LO _ eq_refl) (proj1 (CL _ eq_refl)) HT1 Hset HT2) as O.
    fold set in Hv'. rewrite Hv' in O. cbn [table_result].
    destruct (spec_apply s (if set then Some cur else None)) as [out| |]; simpl in O; try contradiction.
    exists out, em'. destruct out as [l|].
    + destruct O as (n' & ->). exists n'. split; auto. split; auto. unfold em_tag. rewrite Ef. cbn [snd].
      unfold assign in Hv''. rewrite Hty in Hv''. cbn [typeof] in Hv''. simpl in Hv''. congruence.
    + exists true. split; auto. split; auto. unfold em_tag. rewrite Ef. cbn [snd map].
      unfold assign in Hv''. rewrite Hty in Hv''. destruct O as [-> | ->]; simpl in Hv''; congruence.
  - destruct f as [s|]; [contradiction|].
    injection P as <- <-. exists (if set then Some cur else None), em', n. split; [reflexivity|]. split; auto.
    unfold em_tag. rewrite Ef. cbn [snd]. destruct set; auto. destruct (Hset eq_refl) as [-> ->]. reflexivity.
Qed.

(** ** Policies that disagree on the value *)

Lemma agree_same a b x y : values_agree a b -> value_nodup a -> se_value a = Some x -> se_value b = Some y -> same_value x y.
Proof.
  unfold values_agree, value_nodup. intros H N E0 E. rewrite E0 in H, N. rewrite E in H. destruct x as [l|], y as [l'|]; simpl; auto.
  destruct H as [HL HI]. now apply incl_len_same.
Qed.

Lemma same_value_trans x y z : same_value x y -> same_value y z -> same_value x z.
Proof. destruct x, y, z; simpl; try tauto. intros A B u. rewrite (A u). apply B. Qed.

Lemma same_value_sym x y : same_value x y -> same_value y x.
Proof. destruct x, y; simpl; try tauto. intros A u. symmetry. apply A. Qed.

Lemma same_value_refl x : same_value x x.
Proof. destruct x; simpl; auto. intros u. tauto. Qed.

Lemma combine2_policy_denotes k p q o sp sq :
  policy_denotes k p sp -> policy_denotes k q sq -> combine2 p q = Ok o ->
  policy_denotes k o (both smerge sp sq) /\
  match sp, sq with Some a, Some b => values_agree a b | _, _ => True end.
Proof.
  intros [NP DP] [NQ DQ] H.
  destruct (combine2_lookup _ _ _ NP NQ H) as [NO L]. specialize (L k). unfold combined_at in L.
  unfold policy_denotes.
  destruct (lookup k (pol p)) as [e|] eqn:Ee, sp as [a|]; try contradiction;
  destruct (lookup k (pol q)) as [e'|] eqn:Ee', sq as [b|]; try contradiction; simpl both.
  - destruct DP as [De Va], DQ as [De' Vb]. destruct L as (c & Hc & Ec).
    destruct (merge_denotes _ _ _ _ _ De De' Hc) as [Dc HA].
    split; [|exact HA]. rewrite Ec. repeat split; auto; try apply Dc. now apply value_nodup_smerge.
  - rewrite L. auto.
  - rewrite L. auto.
  - rewrite L. auto.
Qed.

Lemma combine_fold_values k ps : forall out so ss o,
  policy_denotes k out so -> Forall2 (policy_denotes k) ps ss -> combine_fold out ps = Ok o ->
  exists v, forall s x, so = Some s \/ In (Some s) ss -> se_value s = Some x -> same_value x v.
Proof.
  induction ps as [|p ps IH]; intros out so ss o D F H; inversion F as [|? sp ? ss' Dp F']; subst; cbn [combine_fold] in *.
  - destruct so as [s|]; [|exists None; intros s x [E|[]]; discriminate].
    exists (match se_value s with Some x => x | None => None end).
    intros s' x [E|[]] Ev. injection E as <-. rewrite Ev. apply same_value_refl.
  - apply bind_ok in H as (out' & H1 & H2).
    destruct (combine2_policy_denotes _ _ _ _ _ _ D Dp H1) as [D' A].
    destruct (IH _ _ _ _ D' F' H2) as (v & Hv). exists v. intros s x Hs Ev.
    destruct Hs as [-> | [-> | Hs]].
    + destruct sp as [b|]; [|apply (Hv s); auto].
      apply (Hv (smerge s b)); [now left|]. unfold smerge. cbn [se_value]. rewrite Ev. now destruct (se_value b).
    + destruct so as [a|]; [|apply (Hv s); auto].
      destruct (se_value a) as [y|] eqn:Ea.
      * apply same_value_trans with y.
        -- apply same_value_sym. eapply agree_same; eauto.
           destruct D as [_ D]. destruct (lookup k (pol out)); [apply D|contradiction].
        -- apply (Hv (smerge a s)); [now left|]. unfold smerge. cbn [se_value]. rewrite Ea, Ev. reflexivity.
      * apply (Hv (smerge a s)); [now left|]. unfold smerge. cbn [se_value]. rewrite Ea, Ev. reflexivity.
    + apply (Hv s); auto.
Qed.

Theorem combine_values_agree k ps ss o :
  Forall2 (policy_denotes k) ps ss -> combine_policies ps = Ok o ->
  forall s s' x y, In (Some s) ss -> In (Some s') ss -> se_value s = Some x -> se_value s' = Some y -> same_value x y.
Proof.
  intros F H s s' x y Hs Hs' Ex Ey.
  destruct ps as [|p ps]; inversion F as [|? sp ? ss' Dp F']; subst; cbn [combine_policies] in H; [destruct Hs|].
  apply bind_ok in H as ([] & _ & H). destruct (combine_fold_values _ _ _ _ _ _ Dp F' H) as (v & Hv).
  apply same_value_trans with v; [|apply same_value_sym].
  - now apply (Hv s).
  - now apply (Hv s').
Qed.

Theorem chain_values_agree c md t k ss :
  2 <= List.length c -> chain_metadata c = Ok (Some md) -> In t entity_types ->
  Forall2 (policy_denotes k) (policies_of (snd t) c) ss ->
  forall s s' x y, In (Some s) ss -> In (Some s') ss -> se_value s = Some x -> se_value s' = Some y -> same_value x y.
Proof.
  intros HL HM Ht HF. destruct (chain_metadata_types c _ HL HM) as (m & E & T & _).
  destruct (T t Ht) as (p & Hp & _). eapply combine_values_agree; eauto.
Qed.
