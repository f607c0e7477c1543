(** ApplyTo on list attributes: the exact set of entries for which it computes the operator
    table, with operands of add that repeat elements. *)
From Verif Require Import Base GoVal Policy BaseFacts SpecPolicy SpecExactList PolicyFacts MergeFacts RespectFacts
  ListFacts OpFacts CombineFacts MetadataFacts PolicyLaws ChainFacts Schema Metadata Chain SpecMetadata SpecChain SpecResolver
  Resolver SpecExact ListResultFacts.

Definition spec_union (s : sentry) (v : option (list string)) :=
  match se_add s, v with
  | None, _ => v
  | Some l, None => Some l
  | Some l, Some c => Some (s_union c l)
  end.

Section Union.
  Variables (e : entry) (s : sentry).
  Hypothesis D : denotes e s.
  Hypothesis L : list_operands e.
  Hypothesis NV : se_value s = Some None -> se_add s = None /\ se_default s = None.

  Lemma apply_union n cur set :
    (set = false -> n = true /\ cur = []) ->
    (spec_ess s = true -> set = true \/ is_some (se_value s) = true \/ is_some (se_add s) = true \/ is_some (se_default s) = true) ->
    list_outcome (apply_to e (VSlice TStr n (map VStr cur)) set)
                 (spec_rest s (spec_default s (spec_union s (spec_value s (if set then Some cur else None))))).
  Proof.
    intros Hset HE. unfold apply_to, operator_order.
    set (o0 := if set then Some cur else None).
    assert (R0 : R (VSlice TStr n (map VStr cur)) set o0).
    { unfold o0, R. destruct set; [eauto|]. destruct (Hset eq_refl) as [-> ->]. auto. }
    (* value *)
    assert (exists v1 s1, R v1 s1 (spec_value s o0) /\ (v1 = VNil <-> se_value s = Some None) /\
        apply_ops [OValue; OAdd; ODefault; OOneOf; OSubsetOf; OSupersetOf; OEssential] e (entry_essential e) (VSlice TStr n (map VStr cur)) set
        = apply_ops [OAdd; ODefault; OOneOf; OSubsetOf; OSupersetOf; OEssential] e (entry_essential e) v1 s1) as (v1 & s1 & R1 & N1 & ->).
    { pose proof (dn_value _ _ D) as Dv. unfold spec_value.
      destruct (se_value s) as [[lv|]|]; simpl in Dv.
      - destruct Dv as (pv & Ep & Sp).
        exists (VSlice TStr false (map VStr lv)), true. split; [simpl; eauto|]. split; [split; discriminate|].
        apply step_some with pv; auto. cbn [apply_op]. rewrite (strs_not_nil _ _ Sp).
        destruct (L _ _ (or_introl eq_refl) Ep) as [->|Hs]; [destruct Sp as [(? & ? & _)|(? & ? & ? & ?)]; discriminate|].
        rewrite (list_cast _ _ n (map VStr cur) Sp Hs). reflexivity.
      - exists VNil, false. split; [simpl; auto|]. split; [tauto|].
        apply step_some with VNil; auto.
      - exists (VSlice TStr n (map VStr cur)), set. split; [exact R0|]. split; [split; discriminate|].
        now apply step_none. }
    clear R0. set (o1 := spec_value s o0) in *.
    (* add *)
    assert (exists v2 s2, R v2 s2 (spec_union s o1) /\ (v2 = VNil -> se_value s = Some None) /\
        (spec_union s o1 = None -> se_add s = None /\ v2 = v1) /\
        apply_ops [OAdd; ODefault; OOneOf; OSubsetOf; OSupersetOf; OEssential] e (entry_essential e) v1 s1
        = apply_ops [ODefault; OOneOf; OSubsetOf; OSupersetOf; OEssential] e (entry_essential e) v2 s2) as (v2 & s2 & R2 & N2 & P2 & ->).
    { pose proof (dn_add _ _ D) as Da. unfold spec_union.
      destruct (se_add s) as [la|] eqn:Ea; simpl in Da.
      - destruct Da as (pv & Ep & Sp).
        assert (v1 <> VNil). { intros E. apply N1 in E. destruct (NV E). discriminate. }
        assert (E0 : exists n0 c, v1 = VSlice TStr n0 (map VStr c) /\ o1 = (if s1 then Some c else None) /\ (s1 = false -> c = [])).
        { destruct o1 as [c|]; simpl in R1.
          - destruct R1 as [-> (n0 & ->)]. exists n0, c. repeat split; auto. discriminate.
          - destruct R1 as [-> [->| ->]]; [congruence|]. exists true, []. auto. }
        destruct E0 as (n0 & c & -> & Eo & Ec).
        destruct (union_strs (VSlice TStr n0 (map VStr c)) pv c la) as (t & n1 & Ht & Eu & (n2 & E2 & _)); auto.
        { right; eauto. }
        simpl in E2. injection E2 as <- _.
        exists (VSlice TStr n1 (map VStr (s_union c la))), true. split; [|split; [|split]].
        + rewrite Eo. destruct s1; simpl.
          * eauto.
          * rewrite (Ec eq_refl). split; auto. exists n1. do 2 f_equal. unfold s_union. destruct la; auto.
        + discriminate.
        + destruct o1; discriminate.
        + apply step_some with pv; auto. cbn [apply_op is_nil]. rewrite (strs_not_nil _ _ Sp), Eu. reflexivity.
      - exists v1, s1. split; [exact R1|]. split; [apply N1|]. split; auto. now apply step_none. }
    set (o2 := spec_union s o1) in *.
    (* default *)
    assert (exists v3 s3, R v3 s3 (spec_default s o2) /\ (spec_default s o2 = None -> v3 = v1 /\ se_add s = None /\ se_default s = None) /\
        apply_ops [ODefault; OOneOf; OSubsetOf; OSupersetOf; OEssential] e (entry_essential e) v2 s2
        = apply_ops [OOneOf; OSubsetOf; OSupersetOf; OEssential] e (entry_essential e) v3 s3) as (v3 & s3 & R3 & P3 & ->).
    { pose proof (dn_default _ _ D) as Dd. unfold spec_default.
      destruct (se_default s) as [ld|] eqn:Ed; simpl in Dd.
      - destruct Dd as (pv & Ep & Sp).
        destruct o2 as [c|]; simpl in R2.
        + destruct R2 as [-> (n0 & ->)]. exists (VSlice TStr n0 (map VStr c)), true.
          split; [simpl; eauto|]. split; [discriminate|]. apply step_some with pv; auto.
        + destruct R2 as [-> Hv].
          assert (v2 = VSlice TStr true []) as ->.
          { destruct Hv as [->|]; auto. destruct (NV (N2 eq_refl)). discriminate. }
          destruct (L _ _ (or_intror eq_refl) Ep) as [->|Hs]; [destruct Sp as [(? & ? & _)|(? & ? & ? & ?)]; discriminate|].
          exists (VSlice TStr false (map VStr ld)), true. split; [simpl; eauto|]. split; [discriminate|].
          apply step_some with pv; auto. cbn [apply_op negb is_nil is_zero bind].
          rewrite (list_cast _ _ true [] Sp Hs). reflexivity.
      - exists v2, s2. split; [exact R2|]. split; [|now apply step_none]. intros E.
        destruct (P2 E) as [E1 ->]. auto. }
    apply rest_list; auto.
    intros Ess EN. destruct (P3 EN) as (-> & Ea & Ed).
    assert (o2 = o1). { unfold o2, spec_union. now rewrite Ea. }
    assert (o1 = None). { rewrite <- H. unfold spec_default in EN. now rewrite Ed in EN. }
    destruct (HE Ess) as [K|[K|[K|K]]].
    - subst set. unfold o1, spec_value in H0. simpl in o0. destruct (se_value s) as [[]|] eqn:Ev; try discriminate.
      now apply N1.
    - unfold o1, spec_value in H0. destruct (se_value s) as [[]|] eqn:Ev; try discriminate. now apply N1.
    - rewrite Ea in K. discriminate.
    - rewrite Ed in K. discriminate.
  Qed.
End Union.

Definition same_opt (a b : option (list string)) : Prop :=
  match a, b with
  | Some x, Some y => same_elements x y
  | None, None => True
  | _, _ => False
  end.

Definition same_spec (a b : res (option (list string))) : Prop :=
  match a, b with
  | Ok x, Ok y => same_opt x y
  | Err, Err => True
  | _, _ => False
  end.

Lemma same_elements_refl l : same_elements l l.
Proof. intros x. tauto. Qed.

Lemma same_mem a b x : same_elements a b -> mem x a = mem x b.
Proof.
  intros S. destruct (mem x a) eqn:A, (mem x b) eqn:B; auto.
  - apply mem_In, S, mem_In in A. congruence.
  - apply mem_In, S, mem_In in B. congruence.
Qed.

Lemma forallb_same (f g : string -> bool) l : (forall x, f x = g x) -> forallb f l = forallb g l.
Proof. intros H. induction l; simpl; auto. now rewrite H, IHl. Qed.

Lemma same_rest s a b : same_opt a b -> same_spec (spec_rest s a) (spec_rest s b).
Proof.
  intros S. unfold spec_rest. destruct a as [a|], b as [b|]; try contradiction.
  2:{ destruct (spec_ess s); exact I. }
  destruct (se_one_of s); [exact I|]. cbv zeta.
  assert (S' : same_elements (match se_subset_of s with Some q => keep_allowed a q | None => a end)
                             (match se_subset_of s with Some q => keep_allowed b q | None => b end)).
  { destruct (se_subset_of s); auto. intros x. unfold keep_allowed. rewrite !filter_In. now rewrite (S x). }
  destruct (se_superset_of s) as [q|]; [|exact S'].
  rewrite (forallb_same _ (fun x => mem x (match se_subset_of s with Some q => keep_allowed b q | None => b end))).
  - destruct (forallb _ q); simpl; auto.
  - intros x. now apply same_mem.
Qed.

Lemma same_adds s v : same_opt (spec_union s v) (spec_add s v).
Proof.
  unfold spec_union, spec_add. destruct (se_add s) as [l|], v as [c|]; simpl; auto using same_elements_refl.
  intros x. rewrite s_union_In. unfold add_missing. rewrite in_app_iff, filter_In.
  destruct (mem x c) eqn:E; simpl.
  - apply mem_In in E. tauto.
  - split; [intros [H|H]; auto|tauto]. 
Qed.

Lemma same_default s a b : same_opt a b -> same_opt (spec_default s a) (spec_default s b).
Proof.
  intros S. unfold spec_default. destruct (se_default s), a, b; simpl in *; auto using same_elements_refl; contradiction.
Qed.

Lemma spec_outcome r a b : list_outcome r a -> same_spec a b -> set_outcome r b.
Proof.
  unfold list_outcome, set_outcome. destruct r as [v| |], a as [[a|]| |], b as [[b|]| |]; simpl; try tauto.
  intros (n & ->) S. exists n, a. auto.
Qed.

(** The only deviation. *)
Lemma lone_essential e s :
  denotes e s -> se_value s = None -> se_add s = None -> se_default s = None -> se_essential s = Some true ->
  apply_to e (VSlice TStr true []) false =
  match se_one_of s, se_subset_of s, se_superset_of s with
  | None, None, None => Ok (VSlice TStr true [])
  | _, _, _ => Err
  end.
Proof.
  intros D V A F E.
  pose proof (dn_value _ _ D) as Dv. rewrite V in Dv. pose proof (dn_add _ _ D) as Da. rewrite A in Da.
  pose proof (dn_default _ _ D) as Dd. rewrite F in Dd. simpl in Dv, Da, Dd.
  pose proof (dn_one_of _ _ D) as Do. pose proof (dn_subset_of _ _ D) as Ds.
  pose proof (dn_superset_of _ _ D) as Dp. pose proof (dn_essential _ _ D) as De. rewrite E in De. simpl in De.
  unfold apply_to, operator_order. rewrite !step_none by assumption.
  assert (entry_essential e = true) as ->. { unfold entry_essential, get. simpl op_name. now rewrite De. }
  cbn [apply_ops]. unfold get. simpl op_name.
  destruct (se_one_of s); simpl in Do.
  { destruct Do as (pv & -> & Sp). cbn [apply_op negb andb]. rewrite (strs_not_nil _ _ Sp). reflexivity. }
  rewrite Do. destruct (se_subset_of s); simpl in Ds.
  { destruct Ds as (pv & -> & Sp). cbn [apply_op negb andb]. rewrite (strs_not_nil _ _ Sp). reflexivity. }
  rewrite Ds. destruct (se_superset_of s); simpl in Dp.
  { destruct Dp as (pv & -> & Sp). cbn [apply_op negb andb]. rewrite (strs_not_nil _ _ Sp). reflexivity. }
  rewrite Dp, De. reflexivity.
Qed.

Lemma lone_spec s :
  se_value s = None -> se_add s = None -> se_default s = None -> se_essential s = Some true -> spec_apply s None = Err.
Proof. intros V A F E. unfold spec_apply. now rewrite V, A, F, E. Qed.

Lemma lone_cases e s set :
  denotes e s ->
  (spec_ess s = true -> set = true \/ is_some (se_value s) = true \/ is_some (se_add s) = true \/ is_some (se_default s) = true) \/
  (set = false /\ se_value s = None /\ se_add s = None /\ se_default s = None /\ se_essential s = Some true).
Proof.
  intros _. unfold spec_ess. destruct (se_essential s) as [[]|]; try (left; discriminate).
  destruct set; [left; auto|]. destruct (se_value s); [left; auto|]. destruct (se_add s); [left; auto|].
  destruct (se_default s); [left; auto|]. right. auto.
Qed.

Theorem list_exact e s n cur set :
  denotes e s -> list_operands e -> opt (se_add s) (@NoDup string) ->
  (se_value s = Some None -> se_add s = None /\ se_default s = None) ->
  (set = false -> n = true /\ cur = []) ->
  (list_outcome (apply_to e (VSlice TStr n (map VStr cur)) set) (spec_apply s (if set then Some cur else None)) <->
   ~ (set = false /\ only_essential s)).
Proof.
  intros D L ND NV Hs. destruct (lone_cases e s set D) as [HE|(-> & V & A & F & E)].
  - split.
    + intros _ (-> & O). destruct O as [E V A F _ _ _]. unfold spec_ess in HE. rewrite E in HE.
      specialize (HE eq_refl). rewrite V, A, F in HE. simpl in HE. destruct HE as [H|[H|[H|H]]]; discriminate.
    + intros _. now apply apply_list.
  - destruct (Hs eq_refl) as [-> ->]. simpl map. rewrite (lone_essential e s) by assumption. rewrite lone_spec by assumption.
    split.
    + intros H (_ & O). destruct O as [_ _ _ _ O1 O2 O3]. rewrite O1, O2, O3 in H. exact H.
    + intros H. destruct (se_one_of s) eqn:O1; [exact I|]. destruct (se_subset_of s) eqn:O2; [exact I|].
      destruct (se_superset_of s) eqn:O3; [exact I|]. exfalso. apply H. split; auto. now constructor.
Qed.

Theorem set_exact e s n cur set :
  denotes e s -> list_operands e ->
  (se_value s = Some None -> se_add s = None /\ se_default s = None) ->
  (set = false -> n = true /\ cur = []) ->
  (set_outcome (apply_to e (VSlice TStr n (map VStr cur)) set) (spec_apply s (if set then Some cur else None)) <->
   ~ (set = false /\ only_essential s)).
Proof.
  intros D L NV Hs. destruct (lone_cases e s set D) as [HE|(-> & V & A & F & E)].
  - split.
    + intros _ (-> & O). destruct O as [E V A F _ _ _]. unfold spec_ess in HE. rewrite E in HE.
      specialize (HE eq_refl). rewrite V, A, F in HE. simpl in HE. destruct HE as [H|[H|[H|H]]]; discriminate.
    + intros _. eapply spec_outcome; [exact (apply_union e s D L NV n cur set Hs HE)|]. rewrite spec_apply_unfold.
      apply same_rest, same_default, same_adds.
  - destruct (Hs eq_refl) as [-> ->]. simpl map. rewrite (lone_essential e s) by assumption. rewrite lone_spec by assumption.
    split.
    + intros H (_ & O). destruct O as [_ _ _ _ O1 O2 O3]. rewrite O1, O2, O3 in H. exact H.
    + intros H. destruct (se_one_of s) eqn:O1; [exact I|]. destruct (se_subset_of s) eqn:O2; [exact I|].
      destruct (se_superset_of s) eqn:O3; [exact I|]. exfalso. apply H. split; auto. now constructor.
Qed.

(** What the verifiers already exclude. *)
Lemma run_verifiers_in vs p f : run_verifiers vs p = Ok tt -> In f vs -> f p = Ok tt.
Proof.
  induction vs as [|g vs IH]; simpl; [contradiction|]. intros H [->|I].
  - apply bind_ok in H as ([] & H & _). exact H.
  - apply bind_ok in H as (? & _ & H). auto.
Qed.

Theorem verified_null e s :
  denotes e s -> verify_entry e = Ok tt -> se_add s <> Some [] ->
  se_value s = Some None -> se_add s = None /\ se_default s = None.
Proof.
  intros D V NE N. apply bind_ok in V as (_ & _ & V).
  pose proof (run_verifiers_in _ _ verify_add_in_value V) as VA.
  pose proof (run_verifiers_in _ _ verify_default_and_value V) as VD.
  assert (VA' : verify_add_in_value e = Ok tt) by (apply VA; unfold policy_verifiers; simpl; tauto).
  assert (VD' : verify_default_and_value e = Ok tt) by (apply VD; unfold policy_verifiers; simpl; tauto).
  pose proof (dn_value _ _ D) as Dv. rewrite N in Dv. split.
  - pose proof (dn_add _ _ D) as Da. destruct (se_add s) as [l|]; auto. simpl in Da. destruct Da as (pv & E & S).
    exfalso. unfold verify_add_in_value, verify_sub, get in VA'. simpl op_name in VA'. rewrite E, Dv in VA'.
    destruct l as [|x l]; [congruence|].
    unfold is_subset_of in VA'. destruct (strs_slicify _ _ S) as (t & n & _ & Es). rewrite Es in VA'.
    simpl in VA'. discriminate.
  - pose proof (dn_default _ _ D) as Dd. destruct (se_default s) as [l|]; auto. simpl in Dd. destruct Dd as (pv & E & S).
    exfalso. unfold verify_default_and_value, get in VD'. simpl op_name in VD'. rewrite E, Dv in VD'. discriminate.
Qed.

Theorem list_exact_verified e s n cur set :
  denotes e s -> list_operands e -> opt (se_add s) (@NoDup string) ->
  verify_entry e = Ok tt -> se_add s <> Some [] -> (set = false -> n = true /\ cur = []) ->
  (list_outcome (apply_to e (VSlice TStr n (map VStr cur)) set) (spec_apply s (if set then Some cur else None)) <->
   ~ (set = false /\ only_essential s)).
Proof. intros D L ND V NE Hs. apply list_exact; auto. now apply (verified_null e). Qed.

Theorem set_exact_verified e s n cur set :
  denotes e s -> list_operands e -> verify_entry e = Ok tt -> se_add s <> Some [] ->
  (set = false -> n = true /\ cur = []) ->
  (set_outcome (apply_to e (VSlice TStr n (map VStr cur)) set) (spec_apply s (if set then Some cur else None)) <->
   ~ (set = false /\ only_essential s)).
Proof. intros D L V NE Hs. apply set_exact; auto. now apply (verified_null e). Qed.

(** ** Over a chain *)

Theorem chain_list_exact c md t k ss em r n cur :
  2 <= List.length c -> chain_metadata c = Ok (Some md) -> In t entity_types ->
  Forall2 (list_entry k) (policies_of (snd t) c) ss ->
  fst t (leaf_metadata c) = Some em ->
  find (fun fv : frow * gval => String.eqb k (fr_tag (fst fv))) (em_fields em) = Some (r, VSlice TStr n (map VStr cur)) ->
  fr_ty r = TSlice TStr -> fr_name r <> "Scope"%string ->
  let set := mem (fr_name r) (em_set em) in
  (set = false -> n = true /\ cur = []) ->
  (forall s, all_merged ss = Some s -> se_value s = Some None -> se_add s = None /\ se_default s = None) ->
  exists out em' n',
    (table_result (all_merged ss) (if set then Some cur else None) = Ok out \/
     out = None /\ set = false /\ exists s, all_merged ss = Some s /\ only_essential s) /\
    fst t md = Some em' /\
    em_tag k em' = Some (VSlice TStr n' (map VStr (match out with Some l => l | None => [] end))).
Proof.
  intros HL HM Ht HF He Hf Hty Hn set Hset HT.
  destruct (chain_metadata_types c _ HL HM) as (m & E & T & _). injection E as <-.
  destruct (T t Ht) as (p & Hp & R). rewrite He in R.
  destruct (combine_list_entry _ _ _ _ HF Hp) as ([ND D] & LO & CL).
  set (f := all_merged ss) in *.
  assert (Etag : fr_tag r = k). { apply find_some in Hf as [_ B]. symmetry. now apply String.eqb_eq. }
  assert (SAME : fst t md = Some em -> f = None ->
     exists out em' n', (table_result f (if set then Some cur else None) = Ok out \/
       out = None /\ set = false /\ exists s, f = Some s /\ only_essential s) /\ fst t md = Some em' /\
       em_tag k em' = Some (VSlice TStr n' (map VStr (match out with Some l => l | None => [] end)))).
  { intros E1 ->. exists (if set then Some cur else None), em, n. split; [left; reflexivity|]. split; auto.
    unfold em_tag. rewrite Hf. cbn [snd]. destruct set; auto. destruct (Hset eq_refl) as [-> ->]. reflexivity. }
  destruct p as [q|].
  2:{ cbn [pol lookup] in D. destruct f; [contradiction|]. apply SAME; auto. }
  destruct R as (em' & Ha & Hmd). cbn [pol] in *.
  pose proof Ha as Ha'. apply apply_policy_fields in Ha' as [_ FF].
  pose proof (find_parallel _ _ k _ _ FF) as P. unfold by_tag in P. rewrite Hf in P.
  destruct (find _ (em_fields em')) as [[r' v0]|] eqn:Ef; [|contradiction].
  unfold apply_field in P. rewrite Etag in P.
  destruct (lookup k q) as [e|] eqn:Ek.
  - destruct f as [s|]; [|contradiction]. destruct D as [De _].
    apply bind_ok in P as (v' & Hv' & P). apply bind_ok in P as (v'' & Hv'' & P). injection P as <- <-.
    assert (SF : scope_fix (fr_name r) v' = v').
    { unfold scope_fix. destruct (String.eqb_spec (fr_name r) "Scope"); [contradiction|reflexivity]. }
    rewrite SF in Hv''. specialize (HT s eq_refl).
    pose proof (list_exact e s n cur set De (LO _ eq_refl) (proj1 (CL _ eq_refl)) HT Hset) as O.
    fold set in Hv'.
    destruct (lone_cases e s set De) as [HE|(Es & V & A & F & Ess)].
    + assert (N : ~ (set = false /\ only_essential s)).
      { intros (K & O'). destruct O' as [E V A F _ _ _]. unfold spec_ess in HE. rewrite E, V, A, F, K in HE.
        destruct (HE eq_refl) as [H|[H|[H|H]]]; discriminate. }
      apply O in N. rewrite Hv' in N. cbn [table_result].
      destruct (spec_apply s (if set then Some cur else None)) as [out| |]; simpl in N; try contradiction.
      exists out, em'. destruct out as [l|].
      * destruct N as (n' & ->). exists n'. split; auto. split; auto. unfold em_tag. rewrite Ef. cbn [snd].
        unfold assign in Hv''. rewrite Hty in Hv''. cbn [typeof] in Hv''. simpl in Hv''. congruence.
      * exists true. split; auto. split; auto. unfold em_tag. rewrite Ef. cbn [snd map].
        unfold assign in Hv''. rewrite Hty in Hv''. destruct N as [-> | ->]; simpl in Hv''; congruence.
    + destruct (Hset Es) as [En Ec]. rewrite En, Ec, Es in Hv'. cbn [map] in Hv'. rewrite (lone_essential e s) in Hv' by assumption.
      destruct (se_one_of s) eqn:O1; [discriminate|]. destruct (se_subset_of s) eqn:O2; [discriminate|].
      destruct (se_superset_of s) eqn:O3; [discriminate|]. injection Hv' as <-.
      exists None, em', true. split; [|split; auto].
      * right. repeat split; auto. exists s. split; auto. now constructor.
      * unfold em_tag. rewrite Ef. cbn [snd map].
        unfold assign in Hv''. rewrite Hty in Hv''. simpl in Hv''. congruence.
  - destruct f as [s|]; [contradiction|].
    injection P as <- <-. exists (if set then Some cur else None), em', n. split; [left; reflexivity|]. split; auto.
    unfold em_tag. rewrite Ef. cbn [snd]. destruct set; auto. destruct (Hset eq_refl) as [-> ->]. reflexivity.
Qed.

Theorem merge_essential_any a b : exists x, merge_op OEssential a b = Ok (VBool x) /\
  (x = true <-> a = VBool true \/ b = VBool true).
Proof.
  destruct a as [|[]| | | | | |], b as [|[]| | | | | |]; cbn [merge_op orb]; eexists; (split; [reflexivity|]);
    intuition (try discriminate; auto).
Qed.
