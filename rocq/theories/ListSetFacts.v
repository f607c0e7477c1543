(** List attributes over a chain when operands repeat elements. *)
From Verif Require Import Base GoVal Policy Schema Metadata Chain BaseFacts SpecPolicy SpecMetadata SpecChain SpecResolver Resolver SpecExact
  PolicyFacts MergeFacts RespectFacts ListFacts OpFacts CombineFacts MetadataFacts PolicyLaws ChainFacts ListResultFacts
  SpecExactList ExactListFacts SpecNull NullFacts SpecListSet.

(** ** Entries that differ only in how often operands repeat elements *)

Definition osame (x y : option (list string)) : Prop :=
  match x, y with Some a, Some b => same_elements a b | None, None => True | _, _ => False end.

Record sim (s s' : sentry) : Prop := {
  si_value : se_value s = se_value s'; si_default : se_default s = se_default s';
  si_one_of : se_one_of s = se_one_of s'; si_subset_of : se_subset_of s = se_subset_of s';
  si_essential : se_essential s = se_essential s';
  si_add : osame (se_add s) (se_add s'); si_superset_of : osame (se_superset_of s) (se_superset_of s') }.

Lemma osame_refl x : osame x x.
Proof. destruct x; simpl; auto. intros y. tauto. Qed.

Lemma sim_refl s : sim s s.
Proof. constructor; auto using osame_refl. Qed.

Lemma in_union_loop x l : forall out, In x (s_union_loop out l) <-> In x out \/ In x l.
Proof.
  induction l as [|y l IH]; intros out; simpl; [tauto|]. destruct (mem y out) eqn:E.
  - rewrite IH. apply mem_In in E. split; [tauto|]. intros [H|[<-|H]]; auto.
  - rewrite IH, in_app_iff. simpl. tauto.
Qed.

Lemma in_union x a b : In x (s_union a b) <-> In x a \/ In x b.
Proof.
  unfold s_union. destruct b as [|y b]; [simpl; tauto|]. destruct a as [|z a]; [simpl; tauto|]. apply in_union_loop.
Qed.

Lemma in_missing x a b : In x (add_missing a b) <-> In x a \/ In x b.
Proof.
  unfold add_missing. rewrite in_app_iff, filter_In. split; [tauto|]. intros [H|H]; auto.
  destruct (mem x a) eqn:E; [apply mem_In in E; auto|]. right. auto.
Qed.

Lemma union_same a b a' b' : same_elements a a' -> same_elements b b' -> same_elements (s_union a b) (add_missing a' b').
Proof. intros H1 H2 x. rewrite in_union, in_missing. now rewrite (H1 x), (H2 x). Qed.

Lemma sim_merge a b a' b' : sim a a' -> sim b b' -> sim (smerge a b) (merged a' b').
Proof.
  intros [A1 A2 A3 A4 A5 A6 A7] [B1 B2 B3 B4 B5 B6 B7].
  constructor; unfold smerge, merged; cbn [se_value se_add se_default se_one_of se_subset_of se_superset_of se_essential].
  - now rewrite A1, B1.
  - now rewrite A2, B2.
  - now rewrite A3, B3.
  - now rewrite A4, B4.
  - now rewrite A5, B5.
  - destruct (se_add a), (se_add a'), (se_add b), (se_add b'); simpl in *; try contradiction; auto using union_same.
  - destruct (se_superset_of a), (se_superset_of a'), (se_superset_of b), (se_superset_of b'); simpl in *; try contradiction; auto using union_same.
Qed.

(** Outcomes of the table that are the same sets. *)
Definition out_same (a b : res (option (list string))) : Prop :=
  match a, b with
  | Ok x, Ok y => osame x y
  | Err, Err => True
  | Panic, Panic => True
  | _, _ => False
  end.

Lemma mem_same x a b : same_elements a b -> mem x a = mem x b.
Proof.
  intros H. destruct (mem x a) eqn:E1, (mem x b) eqn:E2; auto; [apply mem_In, H, mem_In in E1|apply mem_In, H, mem_In in E2]; congruence.
Qed.

Lemma keep_same a b l : same_elements a b -> same_elements (keep_allowed a l) (keep_allowed b l).
Proof. intros H x. unfold keep_allowed. rewrite !filter_In. now rewrite (H x). Qed.

Lemma superset_same a b l l' : same_elements a b -> same_elements l l' ->
  forallb (fun x => mem x a) l = forallb (fun x => mem x b) l'.
Proof.
  intros H1 H2. apply eq_true_iff_eq. rewrite !forallb_forall. split; intros H x Hx.
  - rewrite <- (mem_same x a b H1). apply H, H2, Hx.
  - rewrite (mem_same x a b H1). apply H, H2, Hx.
Qed.

Lemma rest_same s s' v v' : sim s s' -> osame v v' -> out_same (spec_rest s v) (spec_rest s' v').
Proof.
  intros [S1 S2 S3 S4 S5 S6 S7] H. unfold spec_rest. destruct v as [c|], v' as [c'|]; simpl in H; try contradiction.
  - rewrite <- S3, <- S4. destruct (se_one_of s); simpl; auto.
    assert (K : same_elements (match se_subset_of s with Some l => keep_allowed c l | None => c end)
                              (match se_subset_of s with Some l => keep_allowed c' l | None => c' end)).
    { destruct (se_subset_of s); auto using keep_same. }
    destruct (se_superset_of s), (se_superset_of s'); simpl in S7; try contradiction; simpl; auto.
    rewrite (superset_same _ _ _ _ K S7). destruct (forallb _ _); simpl; auto.
  - unfold spec_ess. rewrite <- S5. now destruct (se_essential s) as [[]|].
Qed.

Lemma apply_same s s' x : sim s s' -> out_same (spec_apply s x) (spec_apply s' x).
Proof.
  intros S. rewrite !spec_apply_unfold. apply rest_same; auto. destruct S as [S1 S2 S3 S4 S5 S6 S7].
  unfold spec_value. rewrite <- S1. set (v := match se_value s with Some y => y | None => x end).
  assert (A : osame (spec_add s v) (spec_add s' v)).
  { unfold spec_add. destruct (se_add s) as [a|], (se_add s') as [a'|]; simpl in S6; try contradiction; auto using osame_refl.
    destruct v as [c|]; simpl; auto. intros y. rewrite !in_missing. now rewrite (S6 y). }
  unfold spec_default. rewrite <- S2. destruct (spec_add s v), (spec_add s' v); simpl in A; try contradiction;
    destruct (se_default s); simpl; auto. intros y; tauto.
Qed.

Lemma sim_essential s s' : sim s s' -> only_essential s -> only_essential s'.
Proof.
  intros [S1 S2 S3 S4 S5 S6 S7] [E V A D O B P]. constructor; try congruence.
  - rewrite A in S6. now destruct (se_add s').
  - rewrite P in S7. now destruct (se_superset_of s').
Qed.

(** ** Combination *)

Definition found (k : string) (p : gpolicy) (s : option sentry) : Prop :=
  exists s', any_list_entry k p s' /\ match s', s with Some a, Some b => sim a b | None, None => True | _, _ => False end.

Lemma combine2_found k p q o sp sq : found k p sp -> any_list_entry k q sq -> combine2 p q = Ok o ->
  found k o (both merged sp sq).
Proof.
  intros (sp' & [NP DP] & SP) [NQ DQ] H.
  destruct (combine2_lookup _ _ _ NP NQ H) as [NO L]. specialize (L k). unfold combined_at in L.
  unfold found, any_list_entry.
  destruct (lookup k (pol p)) as [e|] eqn:Ee, sp' as [a|]; try contradiction; destruct sp as [a0|]; try contradiction;
  destruct (lookup k (pol q)) as [e'|] eqn:Ee', sq as [b|]; try contradiction; simpl both.
  - destruct DP as [De Le], DQ as [De' Le']. destruct L as (c & Hc & Ec).
    destruct (merge_denotes _ _ _ _ _ De De' Hc) as [Dc _]. exists (Some (smerge a b)). split.
    + split; auto. rewrite Ec. split; auto.
      eapply list_operands_merge; [apply De|apply De'|eapply denotes_shared_known, De|exact Hc| |]; auto.
    + apply sim_merge; auto using sim_refl.
  - exists (Some a). split; auto. split; auto. now rewrite L.
  - exists (Some b). split; [split; auto; now rewrite L|apply sim_refl].
  - exists None. split; auto. split; auto. now rewrite L.
Qed.

Lemma combine_fold_found k ps : forall out so ss o,
  found k out so -> Forall2 (any_list_entry k) ps ss -> combine_fold out ps = Ok o ->
  found k o (fold_left (both merged) ss so).
Proof.
  induction ps as [|p ps IH]; intros out so ss o D F H; inversion F as [|? sp ? ss' Dp F']; subst; cbn [combine_fold fold_left] in *.
  - injection H as <-. exact D.
  - apply bind_ok in H as (out' & H1 & H2). eapply IH; eauto. eapply combine2_found; eauto.
Qed.

Lemma combine_found k ps ss o : Forall2 (any_list_entry k) ps ss -> combine_policies ps = Ok o -> found k o (all_merged ss).
Proof.
  intros F H. destruct ps as [|p ps]; inversion F as [|? sp ? ss' Dp F']; subst; cbn [combine_policies] in H.
  - injection H as <-. exists None. split; [split; [constructor|exact I]|exact I].
  - apply bind_ok in H as ([] & _ & H). unfold all_merged. cbn [fold_left].
    change (both merged None sp) with sp. eapply combine_fold_found; eauto.
    exists sp. split; auto. destruct sp; auto using sim_refl.
Qed.

(** ** Over a chain *)

Theorem chain_list_sets c md t k ss em r n cur :
  2 <= List.length c -> chain_metadata c = Ok (Some md) -> In t entity_types ->
  Forall2 (any_list_entry k) (policies_of (snd t) c) ss ->
  fst t (leaf_metadata c) = Some em ->
  find (fun fv : frow * gval => String.eqb k (fr_tag (fst fv))) (em_fields em) = Some (r, VSlice TStr n (map VStr cur)) ->
  fr_ty r = TSlice TStr -> fr_name r <> "Scope"%string ->
  let set := mem (fr_name r) (em_set em) in
  (set = false -> n = true /\ cur = []) ->
  (forall s, all_merged ss = Some s -> se_value s = Some None -> se_add s = None \/ se_one_of s = None) ->
  exists out em' n' l',
    (table_result (all_merged ss) (if set then Some cur else None) = Ok out \/
     out = None /\ set = false /\ exists s, all_merged ss = Some s /\ only_essential s) /\
    fst t md = Some em' /\
    em_tag k em' = Some (VSlice TStr n' (map VStr l')) /\
    same_elements l' (match out with Some l => l | None => [] end).
Proof.
  intros HL HM Ht HF He Hf Hty Hn set Hset HT.
  destruct (chain_metadata_types c _ HL HM) as (m & E & T & _). injection E as <-.
  destruct (T t Ht) as (p & Hp & R). rewrite He in R.
  destruct (combine_found _ _ _ _ HF Hp) as (f' & [ND D] & SF').
  set (f := all_merged ss) in *.
  assert (Etag : fr_tag r = k). { apply List.find_some in Hf as [_ B]. symmetry. now apply String.eqb_eq. }
  assert (SAME : forall em' v, em_tag k em' = Some v -> v = VSlice TStr n (map VStr cur) -> fst t md = Some em' -> f = None ->
     exists out em' n' l', (table_result f (if set then Some cur else None) = Ok out \/
       out = None /\ set = false /\ exists s, f = Some s /\ only_essential s) /\ fst t md = Some em' /\
       em_tag k em' = Some (VSlice TStr n' (map VStr l')) /\ same_elements l' (match out with Some l => l | None => [] end)).
  { intros em' v E1 -> E2 ->. exists (if set then Some cur else None), em', n, cur. split; [left; reflexivity|]. split; auto. split; auto.
    destruct set; [intros x; tauto|]. destruct (Hset eq_refl) as [_ ->]. intros x; tauto. }
  destruct p as [q|].
  2:{ cbn [pol lookup] in D. destruct f'; [contradiction|]. destruct f; [contradiction|].
      apply (SAME em (VSlice TStr n (map VStr cur))); auto. unfold em_tag. now rewrite Hf. }
  destruct R as (em' & Ha & Hmd). cbn [pol] in *.
  pose proof Ha as Ha'. apply apply_policy_fields in Ha' as [_ FF].
  pose proof (find_parallel _ _ k _ _ FF) as P. unfold by_tag in P. rewrite Hf in P.
  destruct (find _ (em_fields em')) as [[r' v0]|] eqn:Ef; [|contradiction].
  assert (Etg : em_tag k em' = Some v0) by (unfold em_tag; now rewrite Ef).
  unfold apply_field in P. rewrite Etag in P.
  destruct (lookup k q) as [e|] eqn:Ek.
  2:{ destruct f'; [contradiction|]. destruct f; [contradiction|]. injection P as <- <-. eapply SAME; eauto. }
  destruct f' as [s'|]; [|contradiction]. destruct f as [s|]; [|contradiction]. destruct D as [De Le].
  apply bind_ok in P as (v' & Hv' & P). apply bind_ok in P as (v'' & Hv'' & P). injection P as <- <-.
  assert (SF : scope_fix (fr_name r) v' = v').
  { unfold scope_fix. destruct (String.eqb_spec (fr_name r) "Scope"); [contradiction|reflexivity]. }
  rewrite SF, Hty in Hv''. fold set in Hv'. specialize (HT s eq_refl).
  pose proof (apply_same s' s (if set then Some cur else None) SF') as AS.
  cbn [table_result].
  assert (Conc : forall out' l' n', spec_apply s' (if set then Some cur else None) = Ok out' -> v'' = VSlice TStr n' (map VStr l') ->
     same_elements l' (match out' with Some l => l | None => [] end) ->
     exists out em' n' l', (spec_apply s (if set then Some cur else None) = Ok out \/
       out = None /\ set = false /\ exists s0, Some s = Some s0 /\ only_essential s0) /\ fst t md = Some em' /\
       em_tag k em' = Some (VSlice TStr n' (map VStr l')) /\ same_elements l' (match out with Some l => l | None => [] end)).
  { intros out' l' n' E1 -> E2. rewrite E1 in AS. destruct (spec_apply s _) as [out| |] eqn:E3; simpl in AS; try contradiction.
    exists out, em', n', l'. split; auto. split; auto. split; auto.
    destruct out', out; simpl in AS; try contradiction; auto. intros x. now rewrite (E2 x), (AS x). }
  destruct (se_value s') as [[lv|]|] eqn:Ev.
  2:{ (* null *)
    destruct SF' as [S1 S2 S3 S4 S5 S6 S7].
    assert (HT' : se_add s' = None \/ se_one_of s' = None).
    { destruct HT as [K|K]; [congruence| |]; [left|right; congruence]. rewrite K in S6. now destruct (se_add s'). }
    destruct (null_list e s' _ _ _ _ (if set then Some cur else None) De Le Ev HT' Hv' Hv'') as (out & n' & Ho & E).
    apply (Conc out _ n' Ho E). intros x; tauto. }
  all: assert (HT' : se_value s' = Some None -> se_add s' = None /\ se_default s' = None) by congruence.
  all: pose proof (set_exact e s' n cur set De Le HT' Hset) as O.
  all: assert (OE : (set = false /\ only_essential s') \/ ~ (set = false /\ only_essential s')).
  1,3: (destruct set; [right; intros [K _]; discriminate|];
    destruct (lone_cases e s' false De) as [HE|(_ & V & A & F & Ess)];
    [right; intros (_ & [E V A F _ _ _]); unfold spec_ess in HE; rewrite E, V, A, F in HE; destruct (HE eq_refl) as [H|[H|[H|H]]]; discriminate|];
    destruct (se_one_of s') eqn:O1; [right; intros (_ & K); pose proof (oe_one_of _ K); congruence|];
    destruct (se_subset_of s') eqn:O2; [right; intros (_ & K); pose proof (oe_subset_of _ K); congruence|];
    destruct (se_superset_of s') eqn:O3; [right; intros (_ & K); pose proof (oe_superset_of _ K); congruence|];
    left; split; auto; constructor; auto).
  all: destruct OE as [(Es & OE)|N].
  1,3: destruct (Hset Es) as [En Ec]; rewrite En, Ec, Es in Hv'; cbn [map] in Hv'; destruct OE as [O1 O2 O3 O4 O5 O6 O7] eqn:EOE;
       rewrite (lone_essential e s') in Hv' by assumption; rewrite O5, O6, O7 in Hv'; injection Hv' as <-; injection Hv'' as <-;
       exists None, em', true, []; (split; [right; repeat split; auto; exists s; split; auto; eapply sim_essential; eauto|]);
       repeat split; auto; simpl; tauto.
  all: apply O in N; rewrite Hv' in N.
  all: destruct (spec_apply s' (if set then Some cur else None)) as [out| |] eqn:Eo; simpl in N; try contradiction.
  all: destruct out as [l|].
  1,3: destruct N as (n' & l' & -> & S'); injection Hv'' as <-; eapply Conc; eauto.
  all: apply (Conc None [] true); auto; [destruct N as [-> | ->]; simpl in Hv''; now injection Hv'' as <-|intros x; tauto].
Qed.
