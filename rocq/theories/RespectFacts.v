(** Merged policies are at least as strict as their parts. *)
From Verif Require Import Base GoVal Policy BaseFacts SpecPolicy PolicyFacts MergeFacts.

Definition first_some {A} (f : A -> A -> A) (x y : option A) : option A :=
  match x, y with
  | Some a, Some b => Some (f a b)
  | Some a, None => Some a
  | None, y => y
  end.

Definition smerge (a b : sentry) : sentry :=
  SEntry (first_some (fun x _ => x) (se_value a) (se_value b))
         (first_some s_union (se_add a) (se_add b))
         (first_some (fun x _ => x) (se_default a) (se_default b))
         (first_some s_inter (se_one_of a) (se_one_of b))
         (first_some s_inter (se_subset_of a) (se_subset_of b))
         (first_some s_union (se_superset_of a) (se_superset_of b))
         (first_some orb (se_essential a) (se_essential b)).

Lemma known_operator k :
  In k ["value"; "add"; "default"; "one_of"; "subset_of"; "superset_of"; "essential"]%string ->
  operator_of k <> None.
Proof. simpl. intros H. intuition; subst; discriminate. Qed.

Lemma denotes_shared_known a b sa : denotes a sa -> shared_known a b.
Proof. intros D k Ha _. apply known_operator_of, known_operator. eapply dn_known; eauto. Qed.

Definition values_agree (a b : sentry) : Prop :=
  match se_value a, se_value b with
  | Some (Some la), Some (Some lb) => List.length la = List.length lb /\ incl la lb
  | Some (Some _), Some None | Some None, Some (Some _) => False
  | _, _ => True
  end.

Section Merge.
  Variables (a b m : entry) (sa sb : sentry).
  Hypothesis Da : denotes a sa.
  Hypothesis Db : denotes b sb.
  Hypothesis Hm : merge_entries a b = Ok m.

  Let facts : NoDup (keys m) /\ forall k, merged_at a b m k.
  Proof.
    apply merge_entries_lookup; auto.
    - apply Da.
    - apply Db.
    - eapply denotes_shared_known; eauto.
  Qed.

  Lemma merge_operand k o f x y :
    operator_of k = Some o ->
    operand_is a k x -> operand_is b k y ->
    (forall u v l l' c, strs u l -> strs v l' -> merge_op o u v = Ok c -> strs c (f l l')) ->
    operand_is m k (first_some f x y).
  Proof.
    intros Ho Hx Hy Hf. destruct facts as [_ F]. specialize (F k). unfold merged_at in F.
    destruct x as [lx|], y as [ly|]; simpl in *.
    - destruct Hx as (u & Eu & Su), Hy as (v & Ev & Sv). rewrite Eu, Ev in F.
      destruct F as (o' & c & Eo & Ec & El). rewrite Ho in Eo. injection Eo as <-.
      exists c. split; eauto.
    - destruct Hx as (u & Eu & Su). rewrite Eu, Hy in F. eauto.
    - destruct Hy as (v & Ev & Sv). rewrite Hx, Ev in F. eauto.
    - rewrite Hx, Hy in F. auto.
  Qed.

  Lemma merge_union_strs o u v l l' c :
    o = OAdd \/ o = OSupersetOf ->
    strs u l -> strs v l' -> merge_op o u v = Ok c -> strs c (s_union l l').
  Proof.
    intros Ho Su Sv. pose proof (strs_not_nil _ _ Su) as Nu. pose proof (strs_not_nil _ _ Sv) as Nv.
    destruct (union_strs _ _ _ _ Su Sv) as (t & n & Ht & E & _).
    destruct Ho as [-> | ->]; simpl; rewrite Nu, Nv, E; intros H; injection H as <-; right; eauto.
  Qed.

  Lemma merge_inter_strs o u v l l' c :
    o = OSubsetOf \/ o = OOneOf ->
    strs u l -> strs v l' -> merge_op o u v = Ok c -> strs c (s_inter l l').
  Proof.
    intros Ho Su Sv. pose proof (strs_not_nil _ _ Su) as Nu. pose proof (strs_not_nil _ _ Sv) as Nv.
    destruct (intersect_strs _ _ _ _ Su Sv) as (t & Ht & E & _).
    destruct Ho as [-> | ->]; simpl; rewrite Nu, Nv, E; intros H; injection H as <-; right; eauto.
  Qed.

  Lemma merge_value_strs u v l l' c :
    strs u l -> strs v l' -> merge_op OValue u v = Ok c ->
    c = u /\ List.length l = List.length l' /\ incl l l'.
  Proof.
    intros Su Sv. simpl. rewrite (slice_equal_strs _ _ _ _ Su Sv). simpl.
    destruct (_ && _) eqn:E; [|discriminate]. intros H. injection H as <-.
    apply andb_true_iff in E as [E1 E2]. apply Nat.eqb_eq in E1. apply forallb_mem_incl in E2. auto.
  Qed.

  Lemma merge_default_strs u v l l' c :
    strs u l -> strs v l' -> merge_op ODefault u v = Ok c -> strs c l.
  Proof.
    intros Su Sv. simpl. rewrite (strs_not_nil _ _ Su), (strs_not_nil _ _ Sv), (slice_equal_strs _ _ _ _ Su Sv). simpl.
    destruct (_ && _) eqn:E; [|discriminate]. intros H. now injection H as <-.
  Qed.

  Lemma merge_denotes : denotes m (smerge sa sb) /\ values_agree sa sb.
  Proof.
    pose proof facts as [ND F].
    assert (HV : values_agree sa sb /\
             match se_value (smerge sa sb) with
             | Some None => lookup "value" m = Some VNil
             | Some (Some l) => operand_is m "value" (Some l)
             | None => operand_is m "value" None
             end).
    { pose proof (dn_value _ _ Da) as Ha. pose proof (dn_value _ _ Db) as Hb.
      unfold values_agree, smerge. cbn [se_value]. specialize (F "value"%string). unfold merged_at in F.
      destruct (se_value sa) as [[la|]|], (se_value sb) as [[lb|]|]; simpl in *.
      - destruct Ha as (u & Eu & Su), Hb as (v & Ev & Sv). rewrite Eu, Ev in F.
        destruct F as (o & c & Eo & Ec & El). injection Eo as <-.
        destruct (merge_value_strs _ _ _ _ _ Su Sv Ec) as (-> & H). eauto.
      - destruct Ha as (u & Eu & Su). rewrite Eu, Hb in F.
        destruct F as (o & c & Eo & Ec & El). injection Eo as <-. simpl in Ec.
        unfold slice_equal in Ec. rewrite (strs_not_nil _ _ Su) in Ec. discriminate.
      - destruct Ha as (u & Eu & Su). rewrite Eu, Hb in F. eauto.
      - destruct Hb as (v & Ev & Sv). rewrite Ha, Ev in F.
        destruct F as (o & c & Eo & Ec & El). injection Eo as <-. simpl in Ec.
        unfold slice_equal in Ec. rewrite (strs_not_nil _ _ Sv) in Ec. discriminate.
      - rewrite Ha, Hb in F. destruct F as (o & c & Eo & Ec & El). injection Eo as <-. simpl in Ec.
        injection Ec as <-. auto.
      - rewrite Ha, Hb in F. auto.
      - destruct Hb as (v & Ev & Sv). rewrite Ha, Ev in F. eauto.
      - rewrite Ha, Hb in F. auto.
      - rewrite Ha, Hb in F. auto. }
    destruct HV as [HA HV]. split; [|exact HA].
    constructor; auto.
    - intros k Hk. destruct (keys_lookup _ _ Hk) as [v Ev]. specialize (F k). unfold merged_at in F.
      destruct (lookup k a) eqn:Ea; [eapply (dn_known _ _ Da), lookup_keys; eauto|].
      destruct (lookup k b) eqn:Eb; [eapply (dn_known _ _ Db), lookup_keys; eauto|congruence].
    - apply (merge_operand _ OAdd); [reflexivity|apply Da|apply Db|].
      intros; eapply merge_union_strs; eauto.
    - apply (merge_operand _ ODefault); [reflexivity|apply Da|apply Db|].
      intros u v l l' c Su Sv Ec. eapply merge_default_strs; [exact Su|exact Sv|exact Ec].
    - apply (merge_operand _ OOneOf); [reflexivity|apply Da|apply Db|].
      intros; eapply (merge_inter_strs OOneOf); eauto.
    - apply (merge_operand _ OSubsetOf); [reflexivity|apply Da|apply Db|].
      intros; eapply (merge_inter_strs OSubsetOf); eauto.
    - apply (merge_operand _ OSupersetOf); [reflexivity|apply Da|apply Db|].
      intros; eapply (merge_union_strs OSupersetOf); eauto.
    - pose proof (dn_essential _ _ Da) as Ha. pose proof (dn_essential _ _ Db) as Hb.
      specialize (F "essential"%string). unfold merged_at in F. rewrite Ha, Hb in F.
      unfold smerge. cbn [se_essential].
      destruct (se_essential sa) as [x|], (se_essential sb) as [y|]; simpl in *; auto.
      destruct F as (o & c & Eo & Ec & El). injection Eo as <-. injection Ec as <-. exact El.
  Qed.
End Merge.

(** A value that respects the merged entry respects both parts. *)
Lemma same_elements_trans l1 l2 l3 : same_elements l1 l2 -> same_elements l2 l3 -> same_elements l1 l3.
Proof. intros A B x. rewrite (A x). apply B. Qed.

Lemma incl_len_same (l l' : list string) :
  NoDup l -> List.length l = List.length l' -> incl l l' -> same_elements l l'.
Proof.
  intros ND HL HI x. split; [apply HI|].
  apply (NoDup_length_incl ND); auto. lia.
Qed.

Lemma respects_smerge a b v :
  values_agree a b -> value_nodup a -> respects (smerge a b) v -> respects a v /\ respects b v.
Proof.
  intros HA HN [Rv Ra Ro Rs Rp]. unfold smerge in *. cbn [se_value se_add se_one_of se_subset_of se_superset_of] in *.
  unfold values_agree, value_nodup in *.
  split; constructor.
  - destruct (se_value a) as [[la|]|]; simpl in *; auto; destruct (se_value b) as [[lb|]|]; auto.
  - destruct (se_add a) as [la|], (se_add b) as [lb|]; simpl in *; auto.
    destruct Ra as (l' & S & I). exists l'. split; auto. intros x Hx. apply I, s_union_In. auto.
  - destruct (se_one_of a) as [la|], (se_one_of b) as [lb|]; simpl in *; auto.
    destruct Ro as [R|(x & S & I)]; [auto|right]. exists x. split; auto. now apply s_inter_In in I.
  - destruct (se_subset_of a) as [la|], (se_subset_of b) as [lb|]; simpl in *; auto.
    destruct Rs as [R|(l' & S & I)]; [auto|right]. exists l'. split; auto. intros x Hx. apply I, s_inter_In in Hx. tauto.
  - destruct (se_superset_of a) as [la|], (se_superset_of b) as [lb|]; simpl in *; auto.
    destruct Rp as [R|(l' & S & I)]; [auto|right]. exists l'. split; auto. intros x Hx. apply I, s_union_In. auto.
  - destruct (se_value a) as [[la|]|], (se_value b) as [[lb|]|]; simpl in *; auto; try tauto.
    destruct Rv as (l' & S & E). exists l'. split; auto. eapply same_elements_trans; eauto.
    destruct HA. now apply incl_len_same.
  - destruct (se_add a) as [la|], (se_add b) as [lb|]; simpl in *; auto.
    destruct Ra as (l' & S & I). exists l'. split; auto. intros x Hx. apply I, s_union_In. auto.
  - destruct (se_one_of a) as [la|], (se_one_of b) as [lb|]; simpl in *; auto.
    destruct Ro as [R|(x & S & I)]; [auto|right]. exists x. split; auto. now apply s_inter_In in I.
  - destruct (se_subset_of a) as [la|], (se_subset_of b) as [lb|]; simpl in *; auto.
    destruct Rs as [R|(l' & S & I)]; [auto|right]. exists l'. split; auto. intros x Hx. apply I, s_inter_In in Hx. tauto.
  - destruct (se_superset_of a) as [la|], (se_superset_of b) as [lb|]; simpl in *; auto.
    destruct Rp as [R|(l' & S & I)]; [auto|right]. exists l'. split; auto. intros x Hx. apply I, s_union_In. auto.
Qed.

Lemma respects_essential_smerge a b v :
  respects_essential (smerge a b) v -> respects_essential a v /\ respects_essential b v.
Proof.
  unfold respects_essential, smerge. cbn [se_essential].
  destruct (se_essential a) as [[]|], (se_essential b) as [[]|]; simpl; intuition congruence.
Qed.

(** ** What verification guarantees *)
Record verified (s : sentry) : Prop := {
  vf_oneof_add : se_one_of s <> None -> se_add s = None;
  vf_oneof_sub : se_one_of s <> None -> se_subset_of s = None /\ se_superset_of s = None;
  vf_super_sub : opt (se_superset_of s) (fun p => opt (se_subset_of s) (fun q => incl p q));
  vf_add_sub : opt (se_add s) (fun p => opt (se_subset_of s) (fun q => incl p q));
  vf_add_value : opt (se_add s) (fun p => opt (se_value s) (fun x =>
      match x with Some q => incl p q | None => p = [] end));
  vf_value_sub : opt (se_value s) (fun x => opt (se_subset_of s) (fun q =>
      match x with Some p => incl p q | None => False end));
  vf_value_default : se_value s = Some None -> se_default s = None }.

Lemma check_combinations_In active todo o :
  check_combinations active todo = Ok tt -> In o todo -> check_combination active o = Ok tt.
Proof.
  induction todo as [|x todo IH]; simpl; [tauto|].
  intros H [->|Hi]; apply bind_ok in H as ([] & H1 & H2); auto.
Qed.

Lemma run_verifiers_In vs p v : run_verifiers vs p = Ok tt -> In v vs -> v p = Ok tt.
Proof.
  induction vs as [|x vs IH]; simpl; [tauto|].
  intros H [->|Hi]; apply bind_ok in H as ([] & H1 & H2); auto.
Qed.

Lemma verify_sub_strs small big p x y :
  operand_is p (op_name small) x -> operand_is p (op_name big) y ->
  verify_sub small big p = Ok tt ->
  opt x (fun l => opt y (fun l' => incl l l')).
Proof.
  unfold verify_sub, get. intros Hx Hy H.
  destruct x as [lx|], y as [ly|]; simpl in *; auto.
  destruct Hx as (u & Eu & Su), Hy as (v & Ev & Sv). rewrite Eu, Ev in H.
  rewrite (is_subset_of_strs _ _ _ _ Su Sv) in H. cbn [bind] in H.
  destruct (forallb _ _) eqn:E; [|discriminate]. now apply forallb_mem_incl.
Qed.

Lemma verify_entry_verified e s : denotes e s -> verify_entry e = Ok tt -> verified s.
Proof.
  intros D H. unfold verify_entry in H. apply bind_ok in H as ([] & HC & HV).
  pose proof (fun v Hv => run_verifiers_In _ _ v HV Hv) as R. clear HV.
  assert (Hop : forall k x, operand_is e k x -> x <> None -> In k (keys e)).
  { intros k [l|] Hx Hn; [|congruence]. destruct Hx as (v & Ev & _). eapply lookup_keys; eauto. }
  constructor.
  - intros Ho. pose proof (Hop _ _ (dn_one_of _ _ D) Ho) as Hk.
    pose proof (check_combinations_In _ _ _ HC Hk) as C.
    destruct (se_add s) as [la|] eqn:Ea; auto. exfalso.
    pose proof (dn_add _ _ D) as Da. rewrite Ea in Da.
    assert (Hka : In "add"%string (keys e)). { eapply Hop; [exact Da|discriminate]. }
    unfold check_combination in C. change (operator_of "one_of") with (Some OOneOf) in C. cbn [may_combine_with] in C.
    destruct (subtract _ _) as [|z zs] eqn:Es; [|discriminate].
    assert (In "add"%string (subtract (keys e) (map op_name [OValue; ODefault; OEssential] ++ [op_name OOneOf]))).
    { unfold subtract. apply filter_In. split; auto. }
    rewrite Es in H. destruct H.
  - intros Ho. pose proof (Hop _ _ (dn_one_of _ _ D) Ho) as Hk.
    specialize (R verify_subset_superset_oneof ltac:(simpl; auto)).
    unfold verify_subset_superset_oneof in R. simpl op_name in R.
    apply has_In in Hk. rewrite Hk in R. simpl in R.
    destruct (has "subset_of" e) eqn:E1; [discriminate|]. destruct (has "superset_of" e) eqn:E2; [discriminate|].
    apply has_false in E1. apply has_false in E2.
    pose proof (dn_subset_of _ _ D) as D1. pose proof (dn_superset_of _ _ D) as D2.
    split.
    + destruct (se_subset_of s); auto. destruct D1 as (v & Ev & _). congruence.
    + destruct (se_superset_of s); auto. destruct D2 as (v & Ev & _). congruence.
  - apply (verify_sub_strs OSupersetOf OSubsetOf e); [apply D|apply D|]. apply R. simpl; auto.
  - apply (verify_sub_strs OAdd OSubsetOf e); [apply D|apply D|]. apply R. simpl; auto.
  - pose proof (R verify_add_in_value ltac:(simpl; auto 9)) as Hv. unfold verify_add_in_value in Hv.
    pose proof (dn_value _ _ D) as Dv. pose proof (dn_add _ _ D) as Da.
    destruct (se_value s) as [[lv|]|] eqn:Ev.
    + pose proof (verify_sub_strs OAdd OValue e _ _ Da Dv Hv) as K. destruct (se_add s); auto.
    + destruct (se_add s) as [la|]; simpl in *; auto. destruct Da as (u & Eu & Su).
      unfold verify_sub, get in Hv. simpl op_name in Hv. rewrite Eu, Dv in Hv.
      unfold is_subset_of in Hv. apply strs_slicify in Su as (t & n & _ & E). rewrite E in Hv. simpl in Hv.
      destruct la; auto. simpl in Hv. discriminate.
    + destruct (se_add s); simpl; auto.
  - pose proof (R verify_subset_and_value ltac:(simpl; auto 9)) as Hv. unfold verify_subset_and_value in Hv.
    pose proof (dn_value _ _ D) as Dv. pose proof (dn_subset_of _ _ D) as Ds.
    destruct (se_value s) as [[lv|]|] eqn:Ev; simpl; auto.
    + pose proof (verify_sub_strs OValue OSubsetOf e _ _ Dv Ds Hv) as K. simpl in K. destruct (se_subset_of s); auto.
    + destruct (se_subset_of s) as [la|]; simpl in *; auto. destruct Ds as (u & Eu & Su).
      unfold verify_sub, get in Hv. simpl op_name in Hv. rewrite Eu, Dv in Hv. discriminate.
  - intros Ev. pose proof (R verify_default_and_value ltac:(simpl; auto 10)) as Hv. unfold verify_default_and_value in Hv.
    pose proof (dn_value _ _ D) as Dv. rewrite Ev in Dv. pose proof (dn_default _ _ D) as Dd.
    unfold get in Hv. simpl op_name in Hv. rewrite Dv in Hv.
    destruct (se_default s); auto. destruct Dd as (u & Eu & _). rewrite Eu in Hv. discriminate.
Qed.

(** ** Application *)

(** What the caller knows about an attribute: its strings, and that an unset one is
    absent. *)
Definition attr_ok (v : gval) (set : bool) : Prop :=
  (v = VNil /\ set = false) \/ ((exists l, strs v l) /\ (set = false -> absent v)).

Lemma absent_is_zero v : (exists l, strs v l) -> absent v -> is_zero v = Ok true.
Proof.
  intros (l & S) [->|[->|(t & ->)]]; auto.
  destruct S as [(s & E & _)|(t & n & _ & E)]; discriminate.
Qed.

Definition step_value (x : option (option (list string))) v set v1 s1 : Prop :=
  match x with
  | None => v1 = v /\ s1 = set
  | Some None => v1 = VNil /\ s1 = false
  | Some (Some l) => strs v1 l /\ s1 = true
  end.

Section Apply.
  Variables (e : entry) (s : sentry).
  Hypothesis D : denotes e s.
  Hypothesis V : verified s.

  Lemma apply_ops_cons o os ess v set r :
    apply_ops (o :: os) e ess v set = Ok r ->
    match get o e with
    | None => apply_ops os e ess v set = Ok r
    | Some pv => exists v' s', apply_op o v set pv ess = Ok (v', s') /\ apply_ops os e ess v' s' = Ok r
    end.
  Proof.
    simpl. destruct (get o e); auto. intros H. apply bind_ok in H as ([v' s'] & H1 & H2). eauto.
  Qed.

  Lemma apply_respects v set v' :
    (exists l, strs v l) -> (set = false -> absent v) ->
    apply_to e v set = Ok v' -> respects s v' /\ (is_slice v' = false -> respects_essential s v').
  Proof.
    intros Hv Hset H. unfold apply_to in H. apply bind_ok in H as ([vf sf] & H & E). injection E as ->.
    (* value *)
    unfold operator_order in H. apply apply_ops_cons in H.
    assert (exists v1 s1, step_value (se_value s) v set v1 s1 /\
              apply_ops [OAdd; ODefault; OOneOf; OSubsetOf; OSupersetOf; OEssential] e (entry_essential e) v1 s1 = Ok (v', sf))
      as (v1 & s1 & P1 & H1).
    { unfold get in H. simpl op_name in H. pose proof (dn_value _ _ D) as Dv.
      destruct (se_value s) as [[lv|]|]; simpl in Dv.
      - destruct Dv as (pv & Ep & Sp). rewrite Ep in H. destruct H as (v1 & s1 & H1 & H2).
        exists v1, s1. split; auto. cbn [apply_op] in H1. rewrite (strs_not_nil _ _ Sp) in H1.
        destruct Hv as (l & Sv). destruct (slice_cast_strs_ok _ _ _ _ Sp Sv) as (r & Er & Sr).
        rewrite Er in H1. injection H1 as <- <-. simpl; auto.
      - rewrite Dv in H. destruct H as (v1 & s1 & H1 & H2). exists v1, s1. split; auto.
        simpl in H1. injection H1 as <- <-. simpl; auto.
      - rewrite Dv in H. exists v, set. simpl; auto. }
    clear H.
    assert (A1 : attr_ok v1 s1).
    { destruct (se_value s) as [[lv|]|]; simpl in P1; destruct P1 as [P1 P1']; subst.
      - right. split; eauto. discriminate.
      - left; auto.
      - right. auto. }
    (* add *)
    apply apply_ops_cons in H1.
    assert (exists v2 s2, (match se_add s with
                 | None => v2 = v1 /\ s2 = s1
                 | Some la => s2 = true /\ exists l2, strs v2 l2 /\ incl la l2 /\
                     (v1 = VNil /\ l2 = la \/ exists l1, strs v1 l1 /\ forall x, In x l2 <-> In x l1 \/ In x la)
                 end) /\
              apply_ops [ODefault; OOneOf; OSubsetOf; OSupersetOf; OEssential] e (entry_essential e) v2 s2 = Ok (v', sf))
      as (v2 & s2 & P2 & H2).
    { unfold get in H1. simpl op_name in H1. pose proof (dn_add _ _ D) as Da.
      destruct (se_add s) as [la|]; simpl in Da.
      - destruct Da as (pv & Ep & Sp). rewrite Ep in H1. destruct H1 as (v2 & s2 & H1 & H2).
        exists v2, s2. split; auto. cbn [apply_op] in H1. rewrite (strs_not_nil _ _ Sp) in H1.
        destruct A1 as [[-> ->]|[(l1 & S1) _]].
        + simpl in H1. injection H1 as <- <-. split; auto. exists la. repeat split; auto. apply incl_refl.
        + rewrite (strs_not_nil _ _ S1) in H1.
          destruct (union_strs _ _ _ _ S1 Sp) as (t & n & Ht & Eu & _). rewrite Eu in H1. injection H1 as <- <-.
          split; auto. exists (s_union l1 la). split; [now apply strs_slice|]. split.
          * intros x Hx. apply s_union_In. auto.
          * right. exists l1. split; auto. intros x. apply s_union_In.
      - rewrite Da in H1. exists v1, s1. auto. }
    clear H1.
    assert (A2 : attr_ok v2 s2).
    { destruct (se_add s) as [la|].
      - destruct P2 as (-> & l2 & S2 & _). right. split; eauto. discriminate.
      - destruct P2 as [-> ->]. auto. }
    (* default *)
    apply apply_ops_cons in H2.
    assert (exists v3 s3, (s2 = true -> v3 = v2 /\ s3 = s2) /\ (se_default s = None -> v3 = v2 /\ s3 = s2) /\
              attr_ok v3 s3 /\
              apply_ops [OOneOf; OSubsetOf; OSupersetOf; OEssential] e (entry_essential e) v3 s3 = Ok (v', sf))
      as (v3 & s3 & P3 & P3' & A3 & H3).
    { unfold get in H2. simpl op_name in H2. pose proof (dn_default _ _ D) as Dd.
      destruct (se_default s) as [ld|]; simpl in Dd.
      - destruct Dd as (pv & Ep & Sp). rewrite Ep in H2. destruct H2 as (v3 & s3 & H2 & H3).
        exists v3, s3. cbn [apply_op] in H2. destruct s2; cbn [negb] in H2.
        + injection H2 as <- <-. repeat split; auto; discriminate.
        + split; [discriminate|]. split; [discriminate|]. split; auto.
          destruct A2 as [[-> _]|[A2 Ab]].
          * simpl in H2. destruct (slice_cast_strs pv ld VNil Sp) as [[E _]|[_ E]]; simpl in E; rewrite E in H2;
              simpl in H2; [|discriminate].
            injection H2 as <- <-. right. split; eauto. discriminate.
          * rewrite (absent_is_zero _ A2 (Ab eq_refl)) in H2.
            destruct A2 as (l2 & S2). rewrite (strs_not_nil _ _ S2) in H2. cbn [bind] in H2.
            destruct (slice_cast_strs_ok _ _ _ _ Sp S2) as (r & Er & Sr). rewrite Er in H2. injection H2 as <- <-.
            right. split; eauto. discriminate.
      - rewrite Dd in H2. exists v2, s2. auto. }
    clear H2.
    (* one_of *)
    apply apply_ops_cons in H3.
    assert (apply_ops [OSubsetOf; OSupersetOf; OEssential] e (entry_essential e) v3 s3 = Ok (v', sf) /\
            opt (se_one_of s) (fun l => s3 = true -> exists x, v3 = VStr x /\ In x l)) as [H4 P4].
    { unfold get in H3. simpl op_name in H3. pose proof (dn_one_of _ _ D) as Do.
      destruct (se_one_of s) as [lo|]; simpl in Do.
      - destruct Do as (pv & Ep & Sp). rewrite Ep in H3. destruct H3 as (v4 & s4 & H3 & H4).
        cbn [apply_op] in H3. rewrite (strs_not_nil _ _ Sp) in H3.
        destruct s3; cbn [negb andb] in H3.
        + destruct (slice_contains v3 (slicify pv)) eqn:E; [|discriminate]. injection H3 as <- <-.
          split; auto. intros _. destruct A3 as [[_ A3]|[(l3 & S3) _]]; [discriminate|].
          destruct S3 as [(x & -> & _)|(t & n & Ht & ->)].
          * rewrite (slice_contains_strs _ _ _ Sp) in E. apply mem_In in E. eauto.
          * exfalso. apply strs_slicify in Sp as (t' & n' & _ & E'). rewrite E' in E. simpl in E.
            apply existsb_exists in E as (y & Hy & E). apply in_map_iff in Hy as (z & <- & _). discriminate.
        + destruct (entry_essential e); simpl in H3; [discriminate|]. injection H3 as <- <-. split; [exact H4|]. intros K; discriminate K.
      - rewrite Do in H3. split; [exact H3|exact I]. }
    clear H3.
    (* subset_of *)
    apply apply_ops_cons in H4.
    assert (exists v5 s5, apply_ops [OSupersetOf; OEssential] e (entry_essential e) v5 s5 = Ok (v', sf) /\
              s5 = s3 /\ (se_subset_of s = None -> v5 = v3) /\
              (s3 = false -> v5 = v3) /\
              (s3 = true -> exists l3 l5, strs v3 l3 /\ strs v5 l5 /\
                 forall x, In x l5 <-> In x l3 /\ opt (se_subset_of s) (fun l => In x l)) /\
              attr_ok v5 s5) as (v5 & s5 & H5 & -> & P5n & P5f & P5 & A5).
    { unfold get in H4. simpl op_name in H4. pose proof (dn_subset_of _ _ D) as Ds.
      destruct (se_subset_of s) as [ls|]; simpl in Ds.
      - destruct Ds as (pv & Ep & Sp). rewrite Ep in H4. destruct H4 as (v5 & s5 & H4 & H5).
        exists v5, s5. split; auto. cbn [apply_op] in H4. rewrite (strs_not_nil _ _ Sp) in H4.
        destruct s3; cbn [negb andb] in H4.
        + destruct A3 as [[_ A3]|[(l3 & S3) _]]; [discriminate|].
          assert (Eq : forall w, slicify (slicify w) = slicify w).
          { intros w. destruct w; simpl; auto; try (destruct (typeof _)); auto. }
          assert (S3' : strs (slicify v3) l3).
          { apply strs_slicify in S3 as (t & n & Ht & ->). now apply strs_slice. }
          assert (Sp' : strs (slicify pv) ls).
          { apply strs_slicify in Sp as (t & n & Ht & ->). now apply strs_slice. }
          destruct (intersect_strs _ _ _ _ S3' Sp') as (t & Ht & E & _). rewrite E in H4. injection H4 as <- <-.
          split; auto. split; [discriminate|]. split; [discriminate|]. split.
          * intros _. exists l3, (s_inter l3 ls). split; auto. split; [now apply strs_slice|].
            intros x. apply s_inter_In.
          * right. split; [exists (s_inter l3 ls); now apply strs_slice|discriminate].
        + destruct (entry_essential e); simpl in H4; [discriminate|]. injection H4 as <- <-.
          split; auto. split; auto. split; auto. split; [discriminate|auto].
      - rewrite Ds in H4. exists v3, s3. split; auto. split; auto. split; auto. split; auto. split; auto.
        intros ->. destruct A3 as [[_ A3]|[(l3 & S3) _]]; [discriminate|].
        exists l3, l3. split; auto. split; auto. simpl. tauto. }
    clear H4.
    (* superset_of *)
    apply apply_ops_cons in H5.
    assert (apply_ops [OEssential] e (entry_essential e) v5 s3 = Ok (v', sf) /\
            opt (se_superset_of s) (fun l => s3 = true -> exists l5, strs v5 l5 /\ incl l l5)) as [H6 P6].
    { unfold get in H5. simpl op_name in H5. pose proof (dn_superset_of _ _ D) as Ds.
      destruct (se_superset_of s) as [ls|]; simpl in Ds.
      - destruct Ds as (pv & Ep & Sp). rewrite Ep in H5. destruct H5 as (v6 & s6 & H5 & H6).
        cbn [apply_op] in H5. rewrite (strs_not_nil _ _ Sp) in H5.
        destruct s3; cbn [negb andb] in H5.
        + destruct A5 as [[_ A5]|[(l5 & S5) _]]; [discriminate|].
          assert (S5' : strs (slicify v5) l5).
          { apply strs_slicify in S5 as (t & n & Ht & ->). now apply strs_slice. }
          assert (Sp' : strs (slicify pv) ls).
          { apply strs_slicify in Sp as (t & n & Ht & ->). now apply strs_slice. }
          unfold is_superset_of in H5. rewrite (is_subset_of_strs _ _ _ _ Sp' S5') in H5. cbn [bind] in H5.
          destruct (forallb _ _) eqn:E; [|discriminate]. injection H5 as <- <-.
          split; auto. intros _. exists l5. split; auto. now apply forallb_mem_incl.
        + destruct (entry_essential e); simpl in H5; [discriminate|]. injection H5 as <- <-. split; [exact H6|]. intros K; discriminate K.
      - rewrite Ds in H5. split; [exact H5|exact I]. }
    clear H5.
    (* essential *)
    apply apply_ops_cons in H6.
    assert (v' = v5 /\ (se_essential s = Some true -> v5 <> VNil /\ (is_slice v5 = false -> is_zero v5 = Ok false)))
      as [-> P7].
    { unfold get in H6. simpl op_name in H6. rewrite (dn_essential _ _ D) in H6.
      destruct (se_essential s) as [[]|]; simpl in H6.
      - destruct H6 as (v7 & s7 & H6 & H7). injection H7 as <- <-.
        destruct (is_nil v5) eqn:En; [discriminate|].
        destruct (is_slice v5) eqn:Es.
        + injection H6 as <- <-. split; auto. intros _. split; [destruct v5; discriminate|discriminate].
        + destruct (is_zero v5) as [[]| |] eqn:Ez; simpl in H6; try discriminate.
          injection H6 as <- <-. split; auto. intros _. split; auto. destruct v5; discriminate.
      - destruct H6 as (v7 & s7 & H6 & H7). injection H6 as <- <-. injection H7 as <- <-. split; auto. discriminate.
      - injection H6 as <- <-. split; auto. discriminate. }
    clear H6.
    assert (Abs : s3 = false -> absent v5).
    { intros E. destruct A5 as [[-> _]|[_ A5]]; [left; auto|]. auto. }
    split.
    2:{ intros Hs HE. destruct (P7 HE) as [N Z]. specialize (Z Hs).
        intros [->|[->|(t & ->)]]; try congruence; discriminate. }
    constructor.
    - (* value *)
      pose proof (vf_add_value _ V) as VA. pose proof (vf_value_sub _ V) as VS.
      pose proof (vf_value_default _ V) as VD.
      destruct (se_value s) as [[lv|]|]; simpl in *; auto.
      + destruct P1 as [S1 ->].
        assert (s2 = true /\ exists l2, strs v2 l2 /\ same_elements l2 lv) as (-> & l2 & S2 & E2).
        { destruct (se_add s) as [la|]; simpl in VA.
          - destruct P2 as (-> & l2 & S2 & _ & [[E _]|(l1 & S1' & E)]).
            + subst v1. destruct S1 as [(? & ? & _)|(? & ? & ? & ?)]; discriminate.
            + split; auto. exists l2. split; auto. rewrite (strs_fun _ _ _ S1' S1) in E.
              intros x. rewrite E. split; [intros [K|K]; auto|auto].
          - destruct P2 as [-> ->]. split; auto. exists lv. split; auto. intros x; tauto. }
        destruct (P3 eq_refl) as [-> ->].
        destruct (P5 eq_refl) as (l3 & l5 & S3 & S5 & E5).
        exists l5. split; auto. rewrite (strs_fun _ _ _ S3 S2) in E5. intros x. rewrite E5, (E2 x).
        destruct (se_subset_of s) as [ls|]; simpl in *; [|tauto]. split; [tauto|]. intros K. split; auto.
      + destruct P1 as [-> ->].
        assert (v2 = VNil /\ s2 = false \/ strs v2 [] /\ s2 = true) as B.
        { destruct (se_add s) as [la|]; simpl in VA.
          - subst la. destruct P2 as (-> & l2 & S2 & _ & [[_ ->]|(l1 & S1' & E)]); auto.
            destruct S1' as [(? & ? & _)|(? & ? & ? & ?)]; discriminate.
          - destruct P2 as [-> ->]. auto. }
        destruct (P3' (VD eq_refl)) as [-> ->].
        destruct (se_subset_of s); [contradiction|]. rewrite P5n by auto. tauto.
    - (* add *)
      pose proof (vf_add_sub _ V) as VS.
      destruct (se_add s) as [la|]; simpl in *; auto.
      destruct P2 as (-> & l2 & S2 & I2 & _).
      destruct (P3 eq_refl) as [-> ->].
      destruct (P5 eq_refl) as (l3 & l5 & S3 & S5 & E5).
      exists l5. split; auto. rewrite (strs_fun _ _ _ S3 S2) in E5. intros x Hx. apply E5. split; auto.
      destruct (se_subset_of s) as [ls|]; simpl in *; auto.
    - (* one_of *)
      pose proof (vf_oneof_sub _ V) as VS.
      destruct (se_one_of s) as [lo|]; simpl in *; auto.
      destruct VS as [Vs _]; [discriminate|]. rewrite (P5n Vs) in *.
      destruct s3; [right|left; auto].
      destruct (P4 eq_refl) as (x & -> & Hx). exists x. split; auto. left; eauto.
    - destruct (se_subset_of s) as [ls|]; simpl in *; auto.
      destruct s3; [right|left; auto].
      destruct (P5 eq_refl) as (l3 & l5 & S3 & S5 & E5). exists l5. split; auto.
      intros x Hx. apply E5 in Hx. tauto.
    - destruct (se_superset_of s) as [ls|]; simpl in *; auto.
      destruct s3; [right|left]; auto.
  Qed.
End Apply.

Theorem merge_never_relaxes a b m sa sb v set v' :
  denotes a sa -> denotes b sb -> value_nodup sa ->
  merge_entries a b = Ok m -> verify_entry m = Ok tt ->
  (exists l, strs v l) -> (set = false -> absent v) ->
  apply_to m v set = Ok v' ->
  (respects sa v' /\ respects sb v') /\
  (is_slice v' = false -> respects_essential sa v' /\ respects_essential sb v').
Proof.
  intros Da Db Hn Hm Hv Sv Hs H.
  destruct (merge_denotes a b m sa sb Da Db Hm) as [Dm HA].
  destruct (apply_respects m _ Dm (verify_entry_verified _ _ Dm Hv) v set v' Sv Hs H) as [R RE].
  split; [now apply respects_smerge|]. intros E. now apply respects_essential_smerge, RE.
Qed.
