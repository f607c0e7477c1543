(** ApplyTo on list attributes computes the operator table. *)
From Verif Require Import Base GoVal Policy BaseFacts SpecPolicy PolicyFacts MergeFacts RespectFacts.

Lemma s_union_loop_filter out l :
  NoDup l -> s_union_loop out l = out ++ filter (fun x => negb (mem x out)) l.
Proof.
  revert out. induction l as [|x l IH]; intros out ND; simpl.
  - now rewrite app_nil_r.
  - inversion ND as [|? ? Hx ND']; subst. destruct (mem x out) eqn:E; simpl.
    + now apply IH.
    + rewrite IH by auto. rewrite <- app_assoc. simpl. f_equal. f_equal.
      apply filter_ext_in. intros y Hy. f_equal. unfold mem. rewrite existsb_app. simpl.
      rewrite orb_false_r. destruct (String.eqb_spec y x); [subst; contradiction|]. now rewrite orb_false_r.
Qed.

Lemma filter_true {A} (l : list A) : filter (fun _ => true) l = l.
Proof. induction l; simpl; congruence. Qed.

Lemma s_union_add_missing cur l : NoDup l -> s_union cur l = add_missing cur l.
Proof.
  intros ND. unfold s_union, add_missing. destruct l as [|x l].
  - simpl. now rewrite app_nil_r.
  - destruct cur as [|c cur].
    + simpl. now rewrite filter_true.
    + apply s_union_loop_filter; auto.
Qed.

Definition R (v : gval) (set : bool) (o : option (list string)) : Prop :=
  match o with
  | Some l => set = true /\ exists n, v = VSlice TStr n (map VStr l)
  | None => set = false /\ (v = VNil \/ v = VSlice TStr true [])
  end.

Lemma R_strs v set l : R v set (Some l) -> strs v l.
Proof. intros [_ (n & ->)]. right. eauto. Qed.

Lemma list_cast pv l n cur :
  strs pv l -> is_slice pv = true ->
  slice_cast pv (slicify (VSlice TStr n cur)) = Ok (VSlice TStr false (map VStr l)).
Proof.
  intros S Hs. destruct S as [(s & -> & _)|(t & m & Ht & ->)]; [discriminate|].
  simpl. rewrite cast_strs by auto. reflexivity.
Qed.

Definition spec_value (s : sentry) (cur : option (list string)) :=
  match se_value s with Some x => x | None => cur end.
Definition spec_add (s : sentry) (v : option (list string)) :=
  match se_add s, v with
  | None, _ => v
  | Some l, None => Some l
  | Some l, Some c => Some (add_missing c l)
  end.
Definition spec_default (s : sentry) (v : option (list string)) :=
  match se_default s, v with Some l, None => Some l | _, _ => v end.
Definition spec_ess (s : sentry) := match se_essential s with Some true => true | _ => false end.
Definition spec_rest (s : sentry) (v : option (list string)) : res (option (list string)) :=
  match v with
  | None => if spec_ess s then Err else Ok None
  | Some c =>
      match se_one_of s with
      | Some _ => Err
      | None =>
          let c := match se_subset_of s with Some l => keep_allowed c l | None => c end in
          match se_superset_of s with
          | Some l => if forallb (fun x => mem x c) l then Ok (Some c) else Err
          | None => Ok (Some c)
          end
      end
  end.

Lemma spec_apply_unfold s cur :
  spec_apply s cur = spec_rest s (spec_default s (spec_add s (spec_value s cur))).
Proof. reflexivity. Qed.

Definition is_some {A} (x : option A) : bool := match x with Some _ => true | None => false end.

Lemma step_none o os e ess v set :
  get o e = None -> apply_ops (o :: os) e ess v set = apply_ops os e ess v set.
Proof. intros H. simpl. now rewrite H. Qed.

Lemma step_some o os e ess v set pv v' s' :
  get o e = Some pv -> apply_op o v set pv ess = Ok (v', s') ->
  apply_ops (o :: os) e ess v set = apply_ops os e ess v' s'.
Proof. intros H H'. simpl. now rewrite H, H'. Qed.

Section ListApply.
  Variables (e : entry) (s : sentry).
  Hypothesis D : denotes e s.
  Hypothesis L : list_operands e.
  Hypothesis NDadd : opt (se_add s) (@NoDup string).
  (* null value is not combined with add or default *)
  Hypothesis NV : se_value s = Some None -> se_add s = None /\ se_default s = None.

  Lemma ess_eq : entry_essential e = spec_ess s.
  Proof.
    unfold entry_essential, get, spec_ess. simpl op_name. rewrite (dn_essential _ _ D).
    destruct (se_essential s) as [[]|]; reflexivity.
  Qed.

  Lemma get_none o x : operand_is e (op_name o) x -> x = None -> get o e = None.
  Proof. intros H ->. exact H. Qed.

  (** From the state after default, the remaining operators. *)
  Lemma rest_list v set o :
    R v set o ->
    (spec_ess s = true -> o = None -> v = VNil) ->
    list_outcome ('(v', _) <- apply_ops [OOneOf; OSubsetOf; OSupersetOf; OEssential] e (entry_essential e) v set ;; Ok v')
                 (spec_rest s o).
  Proof.
    intros HR HE. rewrite ess_eq.
    pose proof (dn_one_of _ _ D) as Do. pose proof (dn_subset_of _ _ D) as Ds.
    pose proof (dn_superset_of _ _ D) as Dp. pose proof (dn_essential _ _ D) as De.
    destruct o as [l|].
    - (* present *)
      destruct HR as [-> (n & ->)]. unfold spec_rest.
      cbn [apply_ops]. unfold get. simpl op_name.
      destruct (se_one_of s) as [lo|]; simpl in Do.
      { destruct Do as (pv & -> & Sp). cbn [apply_op negb andb]. rewrite (strs_not_nil _ _ Sp).
        pose proof (strs_slicify _ _ Sp) as (t & n' & _ & E'). rewrite E'.
        replace (slice_contains (VSlice TStr n (map VStr l)) (VSlice t n' (map VStr lo))) with false.
        - exact I.
        - symmetry. simpl. clear. induction lo; simpl; auto. }
      rewrite Do.
      assert (Hsub : exists n', (match lookup "subset_of" e with
                | Some pv => '(v', s') <- apply_op OSubsetOf (VSlice TStr n (map VStr l)) true pv (spec_ess s) ;;
                     match lookup "superset_of" e with
                     | Some pv0 => '(v'0, s'0) <- apply_op OSupersetOf v' s' pv0 (spec_ess s) ;;
                       match lookup "essential" e with
                       | Some pv1 => '(v'1, s'1) <- apply_op OEssential v'0 s'0 pv1 (spec_ess s) ;; Ok (v'1, s'1)
                       | None => Ok (v'0, s'0)
                       end
                     | None =>
                       match lookup "essential" e with
                       | Some pv1 => '(v'1, s'1) <- apply_op OEssential v' s' pv1 (spec_ess s) ;; Ok (v'1, s'1)
                       | None => Ok (v', s')
                       end
                     end
                | None =>
                     match lookup "superset_of" e with
                     | Some pv0 => '(v'0, s'0) <- apply_op OSupersetOf (VSlice TStr n (map VStr l)) true pv0 (spec_ess s) ;;
                       match lookup "essential" e with
                       | Some pv1 => '(v'1, s'1) <- apply_op OEssential v'0 s'0 pv1 (spec_ess s) ;; Ok (v'1, s'1)
                       | None => Ok (v'0, s'0)
                       end
                     | None =>
                       match lookup "essential" e with
                       | Some pv1 => '(v'1, s'1) <- apply_op OEssential (VSlice TStr n (map VStr l)) true pv1 (spec_ess s) ;; Ok (v'1, s'1)
                       | None => Ok (VSlice TStr n (map VStr l), true)
                       end
                     end
                end) =
              let c := match se_subset_of s with Some q => keep_allowed l q | None => l end in
              match lookup "superset_of" e with
              | Some pv0 => '(v'0, s'0) <- apply_op OSupersetOf (VSlice TStr n' (map VStr c)) true pv0 (spec_ess s) ;;
                match lookup "essential" e with
                | Some pv1 => '(v'1, s'1) <- apply_op OEssential v'0 s'0 pv1 (spec_ess s) ;; Ok (v'1, s'1)
                | None => Ok (v'0, s'0)
                end
              | None =>
                match lookup "essential" e with
                | Some pv1 => '(v'1, s'1) <- apply_op OEssential (VSlice TStr n' (map VStr c)) true pv1 (spec_ess s) ;; Ok (v'1, s'1)
                | None => Ok (VSlice TStr n' (map VStr c), true)
                end
              end).
      { destruct (se_subset_of s) as [ls|]; simpl in Ds.
        - destruct Ds as (pv & -> & Sp). cbn [apply_op negb andb]. rewrite (strs_not_nil _ _ Sp).
          assert (Sp' : strs (slicify pv) ls).
          { pose proof (strs_slicify _ _ Sp) as (t & n' & Ht & ->). now apply strs_slice. }
          destruct (intersect_strs (slicify (VSlice TStr n (map VStr l))) (slicify pv) l ls) as (t & Ht & E & (n2 & E2)); auto.
          { simpl. right. eauto. }
          rewrite E. simpl in E2. injection E2 as <- _. cbn [bind].
          exists (nilb (s_inter l ls)). reflexivity.
        - rewrite Ds. exists n. reflexivity. }
      destruct Hsub as (n' & ->). cbv zeta.
      set (c := match se_subset_of s with Some q => keep_allowed l q | None => l end).
      destruct (se_superset_of s) as [lp|]; simpl in Dp.
      + destruct Dp as (pv & -> & Sp). cbn [apply_op negb andb]. rewrite (strs_not_nil _ _ Sp).
        assert (Sp' : strs (slicify pv) lp).
        { pose proof (strs_slicify _ _ Sp) as (t & n2 & Ht & ->). now apply strs_slice. }
        unfold is_superset_of.
        rewrite (is_subset_of_strs (slicify pv) (slicify (VSlice TStr n' (map VStr c))) lp c); auto.
        2:{ simpl. right. eauto. }
        cbn [bind]. destruct (forallb _ lp); [|exact I].
        rewrite De. destruct (se_essential s) as [[]|]; simpl; eauto.
      + rewrite Dp, De. destruct (se_essential s) as [[]|]; simpl; eauto.
    - (* absent *)
      destruct HR as [-> Hv]. unfold spec_rest.
      destruct (spec_ess s) eqn:Es.
      + rewrite (HE eq_refl eq_refl). clear Hv HE.
        assert (E : exists r, apply_ops [OOneOf; OSubsetOf; OSupersetOf; OEssential] e true VNil false = r /\ r = Err).
        { eexists. split; [reflexivity|].
          cbn [apply_ops]. unfold get. simpl op_name.
          unfold spec_ess in Es. destruct (se_essential s) as [[]|] eqn:Ess; try discriminate. rewrite De. simpl option_map.
          destruct (se_one_of s) as [lo|]; simpl in Do.
          { destruct Do as (pv & -> & Sp). cbn [apply_op negb andb]. rewrite (strs_not_nil _ _ Sp). reflexivity. }
          rewrite Do.
          destruct (se_subset_of s) as [ls|]; simpl in Ds.
          { destruct Ds as (pv & -> & Sp). cbn [apply_op negb andb]. rewrite (strs_not_nil _ _ Sp). reflexivity. }
          rewrite Ds.
          destruct (se_superset_of s) as [lp|]; simpl in Dp.
          { destruct Dp as (pv & -> & Sp). cbn [apply_op negb andb]. rewrite (strs_not_nil _ _ Sp). reflexivity. }
          rewrite Dp. reflexivity. }
        destruct E as (r & -> & ->). exact I.
      + assert (E : apply_ops [OOneOf; OSubsetOf; OSupersetOf; OEssential] e false v false = Ok (v, false)).
        { cbn [apply_ops]. unfold get. simpl op_name. rewrite De.
          unfold spec_ess in Es.
          destruct (lookup "one_of" e), (lookup "subset_of" e), (lookup "superset_of" e);
            cbn [apply_op negb andb bind]; destruct (se_essential s) as [[]|]; simpl; try discriminate; reflexivity. }
        rewrite E. simpl. exact Hv.
  Qed.

  Lemma apply_list n cur set :
    (set = false -> n = true /\ cur = []) ->
    (spec_ess s = true -> set = true \/ is_some (se_value s) = true \/ is_some (se_add s) = true \/ is_some (se_default s) = true) ->
    list_outcome (apply_to e (VSlice TStr n (map VStr cur)) set)
                 (spec_apply s (if set then Some cur else None)).
  Proof.
    intros Hset HE. rewrite spec_apply_unfold. unfold apply_to, operator_order.
    set (o0 := if set then Some cur else None).
    assert (R0 : R (VSlice TStr n (map VStr cur)) set o0).
    { unfold o0, R. destruct set; [eauto|]. destruct (Hset eq_refl) as [-> ->]. auto. }
    (* value *)
    assert (exists v1 s1, R v1 s1 (spec_value s o0) /\ (v1 = VNil <-> se_value s = Some None) /\
        apply_ops [OValue; OAdd; ODefault; OOneOf; OSubsetOf; OSupersetOf; OEssential] e (entry_essential e) (VSlice TStr n (map VStr cur)) set
        = apply_ops [OAdd; ODefault; OOneOf; OSubsetOf; OSupersetOf; OEssential] e (entry_essential e) v1 s1) as (v1 & s1 & R1 & N1 & ->).
    { pose proof (dn_value _ _ D) as Dv. unfold spec_value.
      destruct (se_value s) as [[lv|]|]; simpl in Dv.
      - destruct Dv as (pv & Ep & Sp).
        exists (VSlice TStr false (map VStr lv)), true. split; [simpl; eauto|]. split; [split; discriminate|].
        apply step_some with pv; auto. cbn [apply_op]. rewrite (strs_not_nil _ _ Sp).
        destruct (L _ _ (or_introl eq_refl) Ep) as [->|Hs]; [destruct Sp as [(? & ? & _)|(? & ? & ? & ?)]; discriminate|].
        rewrite (list_cast _ _ n (map VStr cur) Sp Hs). reflexivity.
      - exists VNil, false. split; [simpl; auto|]. split; [tauto|].
        apply step_some with VNil; auto.
      - exists (VSlice TStr n (map VStr cur)), set. split; [exact R0|]. split; [split; discriminate|].
        now apply step_none. }
    clear R0. set (o1 := spec_value s o0) in *.
    (* add *)
    assert (exists v2 s2, R v2 s2 (spec_add s o1) /\ (v2 = VNil -> se_value s = Some None) /\
        (spec_add s o1 = None -> se_add s = None /\ v2 = v1) /\
        apply_ops [OAdd; ODefault; OOneOf; OSubsetOf; OSupersetOf; OEssential] e (entry_essential e) v1 s1
        = apply_ops [ODefault; OOneOf; OSubsetOf; OSupersetOf; OEssential] e (entry_essential e) v2 s2) as (v2 & s2 & R2 & N2 & P2 & ->).
    { pose proof (dn_add _ _ D) as Da. unfold spec_add.
      destruct (se_add s) as [la|] eqn:Ea; simpl in Da.
      - destruct Da as (pv & Ep & Sp).
        assert (v1 <> VNil). { intros E. apply N1 in E. destruct (NV E). discriminate. }
        assert (E0 : exists n0 c, v1 = VSlice TStr n0 (map VStr c) /\ o1 = (if s1 then Some c else None) /\ (s1 = false -> c = [])).
        { destruct o1 as [c|]; simpl in R1.
          - destruct R1 as [-> (n0 & ->)]. exists n0, c. repeat split; auto. discriminate.
          - destruct R1 as [-> [->| ->]]; [congruence|]. exists true, []. auto. }
        destruct E0 as (n0 & c & -> & Eo & Ec).
        destruct (union_strs (VSlice TStr n0 (map VStr c)) pv c la) as (t & n1 & Ht & Eu & (n2 & E2 & _)); auto.
        { right; eauto. }
        simpl in E2. injection E2 as <- _.
        exists (VSlice TStr n1 (map VStr (s_union c la))), true. split; [|split; [|split]].
        + rewrite Eo. destruct s1; simpl.
          * rewrite s_union_add_missing by auto. eauto.
          * rewrite (Ec eq_refl). split; auto. exists n1. do 2 f_equal. unfold s_union. destruct la; auto.
        + discriminate.
        + destruct o1; discriminate.
        + apply step_some with pv; auto. cbn [apply_op is_nil]. rewrite (strs_not_nil _ _ Sp), Eu. reflexivity.
      - exists v1, s1. split; [exact R1|]. split; [apply N1|]. split; auto. now apply step_none. }
    set (o2 := spec_add s o1) in *.
    (* default *)
    assert (exists v3 s3, R v3 s3 (spec_default s o2) /\ (spec_default s o2 = None -> v3 = v1 /\ se_add s = None /\ se_default s = None) /\
        apply_ops [ODefault; OOneOf; OSubsetOf; OSupersetOf; OEssential] e (entry_essential e) v2 s2
        = apply_ops [OOneOf; OSubsetOf; OSupersetOf; OEssential] e (entry_essential e) v3 s3) as (v3 & s3 & R3 & P3 & ->).
    { pose proof (dn_default _ _ D) as Dd. unfold spec_default.
      destruct (se_default s) as [ld|] eqn:Ed; simpl in Dd.
      - destruct Dd as (pv & Ep & Sp).
        destruct o2 as [c|]; simpl in R2.
        + destruct R2 as [-> (n0 & ->)]. exists (VSlice TStr n0 (map VStr c)), true.
          split; [simpl; eauto|]. split; [discriminate|]. apply step_some with pv; auto.
        + destruct R2 as [-> Hv].
          assert (v2 = VSlice TStr true []) as ->.
          { destruct Hv as [->|]; auto. destruct (NV (N2 eq_refl)). discriminate. }
          destruct (L _ _ (or_intror eq_refl) Ep) as [->|Hs]; [destruct Sp as [(? & ? & _)|(? & ? & ? & ?)]; discriminate|].
          exists (VSlice TStr false (map VStr ld)), true. split; [simpl; eauto|]. split; [discriminate|].
          apply step_some with pv; auto. cbn [apply_op negb is_nil is_zero bind].
          rewrite (list_cast _ _ true [] Sp Hs). reflexivity.
      - exists v2, s2. split; [exact R2|]. split; [|now apply step_none]. intros E.
        destruct (P2 E) as [E1 ->]. auto. }
    apply rest_list; auto.
    intros Ess EN. destruct (P3 EN) as (-> & Ea & Ed).
    assert (o2 = o1). { unfold o2, spec_add. now rewrite Ea. }
    assert (o1 = None). { rewrite <- H. unfold spec_default in EN. now rewrite Ed in EN. }
    destruct (HE Ess) as [K|[K|[K|K]]].
    - subst set. unfold o1, spec_value in H0. simpl in o0. destruct (se_value s) as [[]|] eqn:Ev; try discriminate.
      now apply N1.
    - unfold o1, spec_value in H0. destruct (se_value s) as [[]|] eqn:Ev; try discriminate. now apply N1.
    - rewrite Ea in K. discriminate.
    - rewrite Ed in K. discriminate.
  Qed.
End ListApply.

(** The specification is idempotent. *)
Lemma keep_allowed_idem c l : keep_allowed (keep_allowed c l) l = keep_allowed c l.
Proof.
  unfold keep_allowed. induction c as [|x c IH]; simpl; auto.
  destruct (mem x l) eqn:E; simpl; [rewrite E|]; congruence.
Qed.

Lemma filter_none {A} (f : A -> bool) l : (forall x, In x l -> f x = false) -> filter f l = [].
Proof.
  induction l as [|x l IH]; simpl; intros H; auto. rewrite H by auto. auto.
Qed.

Lemma filter_all {A} (f : A -> bool) l : (forall x, In x l -> f x = true) -> filter f l = l.
Proof.
  induction l as [|x l IH]; simpl; intros H; auto. rewrite H by auto. f_equal. auto.
Qed.

Lemma add_missing_all c l : incl l c -> add_missing c l = c.
Proof.
  intros H. unfold add_missing. rewrite filter_none, app_nil_r; auto.
  intros x Hx. apply negb_false_iff, mem_In. auto.
Qed.

Lemma keep_add c la ls :
  keep_allowed (add_missing (keep_allowed (add_missing c la) ls) la) ls = keep_allowed (add_missing c la) ls.
Proof.
  unfold add_missing at 1. unfold keep_allowed at 1. rewrite filter_app.
  fold (keep_allowed (keep_allowed (add_missing c la) ls) ls). rewrite keep_allowed_idem.
  rewrite filter_none, app_nil_r; auto.
  intros x Hx. apply filter_In in Hx as [Hx Hn]. apply negb_true_iff in Hn.
  destruct (mem x ls) eqn:E; auto. exfalso.
  apply mem_nIn in Hn. apply Hn. unfold keep_allowed. apply filter_In. split; auto.
  unfold add_missing. apply in_app_iff. destruct (mem x c) eqn:Ec; [left; now apply mem_In|].
  right. apply filter_In. rewrite Ec. auto.
Qed.

Lemma spec_apply_idem s cur o : spec_apply s cur = Ok o -> spec_apply s o = Ok o.
Proof.
  rewrite !spec_apply_unfold. intros H.
  unfold spec_value in *.
  destruct (se_value s) as [x|] eqn:Ev.
  { (* value decides everything *) 
    revert H. set (w := spec_default s (spec_add s x)). intros H. exact H. }
  destruct (spec_default s (spec_add s cur)) as [c|] eqn:Ec.
  - simpl in H. destruct (se_one_of s) eqn:Eo; [discriminate|].
    remember (match se_subset_of s with Some l => keep_allowed c l | None => c end) as c1 eqn:Ec1.
    assert (o = Some c1).
    { destruct (se_superset_of s) as [lp|]; [destruct (forallb _ lp); [|discriminate]|]; congruence. }
    subst o.
    assert (Es : spec_rest s (Some c1) = Ok (Some c1) ).
    { simpl. rewrite Eo.
      assert ((match se_subset_of s with Some l => keep_allowed c1 l | None => c1 end) = c1) as ->.
      { subst c1. destruct (se_subset_of s); auto using keep_allowed_idem. }
      exact H. }
    assert (Ed : spec_default s (spec_add s (Some c1)) = spec_add s (Some c1)).
    { unfold spec_default. destruct (se_default s); auto. unfold spec_add. destruct (se_add s); auto. }
    rewrite Ed. unfold spec_add. destruct (se_add s) as [la|] eqn:Ea; auto.
    (* adding again changes nothing after the intersection *)
    assert (Hc : c = add_missing (match cur with Some c0 => c0 | None => [] end) la).
    { unfold spec_add in Ec. rewrite Ea in Ec. destruct cur as [c0|]; unfold spec_default in Ec;
        destruct (se_default s); injection Ec as <-; auto; unfold add_missing; simpl; now rewrite filter_true. }
    simpl. rewrite Eo.
    assert ((match se_subset_of s with Some l => keep_allowed (add_missing c1 la) l | None => add_missing c1 la end) = c1) as ->.
    { subst c1. destruct (se_subset_of s) as [ls|].
      - rewrite Hc. apply keep_add.
      - apply add_missing_all. rewrite Hc. intros x Hx. unfold add_missing. apply in_app_iff.
        destruct (mem x (match cur with Some c0 => c0 | None => [] end)) eqn:E; [left; now apply mem_In|].
        right. apply filter_In. rewrite E. auto. }
    exact H.
  - simpl in H. destruct (spec_ess s) eqn:Es; [discriminate|]. injection H as <-.
    assert (se_add s = None /\ cur = None) as [Ea ->].
    { unfold spec_default, spec_add in Ec. destruct (se_add s), cur, (se_default s); try discriminate; auto. }
    rewrite Ec. simpl. now rewrite Es.
Qed.
