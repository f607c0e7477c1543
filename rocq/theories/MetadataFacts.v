(** Proofs about typed metadata. *)
From Verif Require Import Base GoVal Policy Schema Metadata BaseFacts SpecPolicy SpecMetadata PolicyFacts
  MergeFacts RespectFacts ListFacts OpFacts.

(** ** Application never panics on well-typed policies (C03) *)

Definition good (r : frow) (v : gval) : Prop :=
  well_typed_value (fr_ty r) v \/ (list_like r /\ exists n l, v = VSlice TStr n (map VStr l)).

Lemma good_list r v : list_like r -> good r v ->
  exists n l, slicify v = VSlice TStr n (map VStr l) /\ strs v l.
Proof.
  intros L [W|(_ & n & l & ->)].
  - destruct L as [E|[_ E]]; rewrite E in W; cbn in W.
    + destruct W as (n & l & ->). exists n, l. split; [reflexivity|]. right; eauto.
    + destruct v; try discriminate. exists false, [s]. split; [reflexivity|]. left; eauto.
  - exists n, l. split; [reflexivity|]. right; eauto.
Qed.

Lemma good_not_nil r v : good r v -> is_nil v = false.
Proof.
  intros [W|(_ & n & l & ->)]; auto. unfold well_typed_value in W.
  destruct (fr_ty r) as [| | | | | |t|t]; try (destruct v; simpl in *; congruence).
  destruct t; try (destruct v; simpl in *; congruence). destruct W as (n & l & ->). reflexivity.
Qed.

Lemma fits_scalar r v : typeof v = Some (fr_ty r) -> is_slice v = false -> good r v.
Proof.
  intros T S. left. unfold well_typed_value. destruct (fr_ty r) eqn:E; auto.
  destruct v; simpl in *; congruence.
Qed.

Lemma cast_fits r v pv :
  good r v -> operand_fits r pv -> pv <> VNil ->
  exists v', slice_cast pv (slicify v) = Ok v' /\ good r v'.
Proof.
  intros G [->|[[T S]|[L (t & n & l & ->)]]] N; [congruence| |].
  - exists pv. split; [destruct pv; simpl in *; congruence|]. now apply fits_scalar.
  - destruct (good_list _ _ L G) as (n' & l' & -> & _). cbn [slice_cast typeof].
    rewrite cast_strs by auto. cbn [bind]. eexists. split; [reflexivity|]. right. eauto.
Qed.

Section NoPanic.
  Variables (r : frow) (e : entry) (ess : bool).
  Hypothesis F : fits r e.

  Definition I1 (v : gval) (set : bool) : Prop :=
    (v = VNil /\ set = false /\ lookup "value" e = Some VNil) \/ good r v.
  Definition I3 (v : gval) (set : bool) : Prop :=
    (v = VNil /\ (set = true -> absent_or_null "subset_of" e)) \/ good r v.

  Lemma run_step (P Q : gval -> bool -> Prop) o os :
    (forall v set pv, P v set -> get o e = Some pv ->
       apply_op o v set pv ess = Err \/ exists v' s', apply_op o v set pv ess = Ok (v', s') /\ Q v' s') ->
    (forall v set, P v set -> get o e = None -> Q v set) ->
    (forall v set, Q v set -> apply_ops os e ess v set <> Panic) ->
    forall v set, P v set -> apply_ops (o :: os) e ess v set <> Panic.
  Proof.
    intros H1 H2 H3 v set HP. simpl. destruct (get o e) as [pv|] eqn:E.
    - destruct (H1 v set pv HP eq_refl) as [-> | (v' & s' & -> & HQ)]; simpl; [congruence|]. now apply H3.
    - apply H3. now apply H2.
  Qed.

  Lemma run_step_ok (P Q : gval -> bool -> Prop) o os (R : gval -> Prop) :
    (forall v set pv v' s', P v set -> get o e = Some pv -> apply_op o v set pv ess = Ok (v', s') -> Q v' s') ->
    (forall v set, P v set -> get o e = None -> Q v set) ->
    (forall v set v' s', Q v set -> apply_ops os e ess v set = Ok (v', s') -> R v') ->
    forall v set v' s', P v set -> apply_ops (o :: os) e ess v set = Ok (v', s') -> R v'.
  Proof.
    intros H1 H2 H3 v set v' s' HP H. simpl in H. destruct (get o e) as [pv|] eqn:E.
    - apply bind_ok in H as ([v1 s1] & Ha & H). eapply H3; [eapply H1; eauto|exact H].
    - eapply H3; [eapply H2; eauto|exact H].
  Qed.

  Lemma step_value_np v set pv : good r v -> get OValue e = Some pv ->
    exists v' s', apply_op OValue v set pv ess = Ok (v', s') /\ I1 v' s'.
  Proof.
    intros G E. unfold get in E. cbn [op_name] in E. cbn [apply_op].
    destruct (is_nil pv) eqn:N.
    - destruct pv; try discriminate. exists VNil, false. split; auto. left. auto.
    - destruct (cast_fits r v pv G (fit_value _ _ F _ E)) as (v' & -> & G'); [intros ->; discriminate|].
      exists v', true. split; auto. now right.
  Qed.

  Lemma step_add_np v set pv : I1 v set -> get OAdd e = Some pv ->
    exists v' s', apply_op OAdd v set pv ess = Ok (v', s') /\ I1 v' s'.
  Proof.
    intros I E. unfold get in E. cbn [op_name] in E. cbn [apply_op].
    destruct I as [(-> & -> & Hv)|G].
    - destruct (fit_null _ _ F Hv) as [[A|A] _]; rewrite A in E; [discriminate|]. injection E as <-.
      exists VNil, false. split; auto. left; auto.
    - rewrite (good_not_nil _ _ G). destruct (is_nil pv) eqn:N.
      + exists v, set. split; auto. now right.
      + destruct (fit_add _ _ F) as [[A|A]|(L & pv' & lp & A & S)]; rewrite A in E; [discriminate| |].
        * injection E as <-. discriminate.
        * injection E as <-. destruct (good_list _ _ L G) as (n & l & Es & Sv).
          destruct (union_strs _ _ _ _ Sv S) as (t & n' & _ & -> & n'' & Es' & _).
          rewrite Es in Es'. injection Es' as <- _. cbn [bind].
          eexists _, true. split; [reflexivity|]. right. right. eauto.
  Qed.

  Lemma step_default_np v set pv : I1 v set -> get ODefault e = Some pv ->
    exists v' s', apply_op ODefault v set pv ess = Ok (v', s') /\ I3 v' s'.
  Proof.
    intros I E. unfold get in E. cbn [op_name] in E. cbn [apply_op].
    destruct set; cbn [negb].
    - exists v, true. split; auto. destruct I as [(_ & H & _)|G]; [discriminate|]. now right.
    - destruct I as [(-> & _ & Hv)|G].
      + destruct (fit_null _ _ F Hv) as [_ [A|A]]; rewrite A in E; [discriminate|]. injection E as <-.
        simpl. exists VNil, true. split; auto. left. split; auto. intros _. now apply (fit_default_null _ _ F).
      + rewrite (good_not_nil _ _ G).
        assert (exists z, is_zero v = Ok z) as [z ->] by (pose proof (good_not_nil _ _ G); destruct v; try discriminate; simpl; eauto).
        destruct z; cbn [bind].
        * destruct (is_nil pv) eqn:N.
          -- destruct pv; try discriminate. simpl. exists VNil, true. split; auto. left. split; auto.
             intros _. now apply (fit_default_null _ _ F).
          -- destruct (cast_fits r v pv G (fit_default _ _ F _ E)) as (v' & -> & G'); [intros ->; discriminate|].
             exists v', true. split; auto. now right.
        * exists v, false. split; auto. now right.
  Qed.

  Lemma step_oneof_np v set pv : I3 v set -> get OOneOf e = Some pv ->
    apply_op OOneOf v set pv ess = Err \/ exists v' s', apply_op OOneOf v set pv ess = Ok (v', s') /\ I3 v' s'.
  Proof.
    intros I E. cbn [apply_op].
    destruct (negb set && negb ess); [right; eauto|].
    destruct (is_nil pv); [right; eauto|].
    destruct (negb set); [now left|].
    destruct (slice_contains v (slicify pv)); [right; eauto|now left].
  Qed.

  Lemma step_subset_np v set pv : I3 v set -> get OSubsetOf e = Some pv ->
    apply_op OSubsetOf v set pv ess = Err \/ exists v' s', apply_op OSubsetOf v set pv ess = Ok (v', s') /\ (v' = VNil \/ good r v').
  Proof.
    intros I E. cbn [apply_op]. unfold get in E. cbn [op_name] in E.
    destruct (negb set && negb ess); [right; destruct I as [[-> _]|]; eauto|].
    destruct (is_nil pv) eqn:N; [right; destruct I as [[-> _]|]; eauto|].
    destruct set; cbn [negb]; [|now left]. right.
    assert (A0 : ~ absent_or_null "subset_of" e).
    { intros [A|A]; rewrite A in E; [discriminate|]. injection E as <-. discriminate. }
    destruct I as [[-> H]|G]; [exfalso; auto|].
    destruct (fit_subset _ _ F) as [A|(L & pv' & lp & A & S)]; [contradiction|].
    rewrite A in E. injection E as <-.
    destruct (good_list _ _ L G) as (n & l & Es & Sv).
    assert (S1 : strs (slicify v) l) by (rewrite Es; right; eauto).
    assert (S2 : strs (slicify pv') lp).
    { destruct (strs_slicify _ _ S) as (t & n' & Ht & ->). right; eauto. }
    destruct (intersect_strs _ _ _ _ S1 S2) as (t & _ & -> & n'' & Es').
    rewrite Es in Es'. simpl in Es'. injection Es' as <- _. cbn [bind].
    eexists _, true. split; [reflexivity|]. right. right. eauto.
  Qed.

  Definition I5 (v : gval) (set : bool) : Prop := v = VNil \/ good r v.

  Lemma step_superset_np v set pv : I5 v set -> get OSupersetOf e = Some pv ->
    apply_op OSupersetOf v set pv ess = Err \/ exists v' s', apply_op OSupersetOf v set pv ess = Ok (v', s') /\ I5 v' s'.
  Proof.
    intros I E. cbn [apply_op].
    destruct (negb set && negb ess); [right; eauto|].
    destruct (is_nil pv) eqn:N; [right; eauto|].
    destruct (negb set); [now left|].
    unfold is_superset_of, is_subset_of.
    destruct (slicify_elems pv) as (l & El); [intros ->; discriminate|].
    assert (elems (slicify (slicify pv)) = Ok l) as ->.
    { rewrite <- El. destruct pv; reflexivity. }
    cbn [bind]. destruct (forallb _ _); [right; eauto|now left].
  Qed.

  Lemma step_essential_np v set pv : I5 v set -> get OEssential e = Some pv ->
    apply_op OEssential v set pv ess = Err \/ exists v' s', apply_op OEssential v set pv ess = Ok (v', s') /\ I5 v' s'.
  Proof.
    intros I E. cbn [apply_op].
    destruct pv as [|[]| | | | | |]; try (right; eauto; fail).
    destruct v; simpl; try (now left); try (right; eauto; fail);
      match goal with |- context [if ?b then Err else _] => destruct b end; try (now left); right; eauto.
  Qed.

  Lemma apply_ops_np v set : good r v ->
    apply_ops operator_order e ess v set <> Panic /\
    (forall v' s', apply_ops operator_order e ess v set = Ok (v', s') -> v' = VNil \/ good r v').
  Proof.
    intros G. unfold operator_order. split.
    - revert v set G.
      apply (run_step (fun v _ => good r v) I1).
      { intros v set pv H1 H2. right. now apply step_value_np. }
      { intros v set H _. now right. }
      apply (run_step I1 I1); [intros; right; now apply step_add_np|auto|].
      apply (run_step I1 I3); [intros; right; now apply step_default_np| |].
      { intros v set [(-> & -> & _)|G] _; [left; split; auto; discriminate|now right]. }
      apply (run_step I3 I3); [intros; now apply step_oneof_np|auto|].
      apply (run_step I3 I5); [intros; now apply step_subset_np| |].
      { intros v set [(-> & _)|G] _; [now left|now right]. }
      apply (run_step I5 I5); [intros; now apply step_superset_np|auto|].
      apply (run_step I5 I5); [intros; now apply step_essential_np|auto|].
      simpl. congruence.
    - intros v' s'. revert v set v' s' G.
      apply (run_step_ok (fun v _ => good r v) I1 _ _ (fun v => v = VNil \/ good r v)).
      { intros v set pv v' s' H1 H2 H3. destruct (step_value_np v set pv H1 H2) as (a & b & E & I). congruence. }
      { intros v set H _. now right. }
      apply (run_step_ok I1 I1); [|auto|].
      { intros v set pv v' s' H1 H2 H3. destruct (step_add_np v set pv H1 H2) as (a & b & E & I). congruence. }
      apply (run_step_ok I1 I3).
      { intros v set pv v' s' H1 H2 H3. destruct (step_default_np v set pv H1 H2) as (a & b & E & I). congruence. }
      { intros v set [(-> & -> & _)|G] _; [left; split; auto; discriminate|now right]. }
      apply (run_step_ok I3 I3); [|auto|].
      { intros v set pv v' s' H1 H2 H3. destruct (step_oneof_np v set pv H1 H2) as [E|(a & b & E & I)]; congruence. }
      apply (run_step_ok I3 I5).
      { intros v set pv v' s' H1 H2 H3. destruct (step_subset_np v set pv H1 H2) as [E|(a & b & E & I)]; [congruence|].
        unfold I5. congruence. }
      { intros v set [(-> & _)|G] _; [now left|now right]. }
      apply (run_step_ok I5 I5); [|auto|].
      { intros v set pv v' s' H1 H2 H3. destruct (step_superset_np v set pv H1 H2) as [E|(a & b & E & I)]; congruence. }
      apply (run_step_ok I5 I5); [|auto|].
      { intros v set pv v' s' H1 H2 H3. destruct (step_essential_np v set pv H1 H2) as [E|(a & b & E & I)]; congruence. }
      simpl. intros v set v' s' I E. injection E as <- <-. exact I.
  Qed.
End NoPanic.

Lemma gty_eqb_refl t : gty_eqb t t = true.
Proof. induction t; simpl; auto. Qed.

Definition row_ok (r : frow) : Prop := (fr_name r = "Scope"%string -> fr_ty r = TStr) /\ fr_ty r <> TAny.

Lemma zero_well_typed t : t <> TAny -> well_typed_value t (zero_of t).
Proof.
  intros H. unfold well_typed_value. destruct t as [| | | | | |t|t]; simpl; auto; [congruence|].
  destruct t; simpl; auto. exists true, []. reflexivity.
Qed.

Lemma assign_good r v :
  row_ok r -> v = VNil \/ good r v ->
  exists v', assign (fr_ty r) (scope_fix (fr_name r) v) = Ok v' /\ well_typed_value (fr_ty r) v'.
Proof.
  intros [SC NA] [->|G].
  - exists (zero_of (fr_ty r)). split; [|now apply zero_well_typed].
    unfold scope_fix. now destruct (String.eqb _ _).
  - unfold scope_fix. destruct (String.eqb_spec (fr_name r) "Scope") as [E|NE].
    + specialize (SC E). destruct G as [W|(_ & n & l & ->)].
      * rewrite SC in W |- *. cbn in W. destruct v; try discriminate. exists (VStr s). auto.
      * rewrite SC. eexists. split; [reflexivity|]. reflexivity.
    + exists v. assert (T : typeof v = Some (fr_ty r) /\ well_typed_value (fr_ty r) v).
      { destruct G as [W|([L|[L _]] & n & l & ->)]; [|rewrite L; simpl; eauto|contradiction].
        split; auto. unfold well_typed_value in W. destruct (fr_ty r) as [| | | | | |t|t]; auto.
        destruct t; auto. destruct W as (n & l & ->). reflexivity. }
      destruct T as [T W]. split; auto. unfold assign. rewrite T. now rewrite gty_eqb_refl.
Qed.

Lemma apply_field_np ws p r v :
  row_ok r -> well_typed_value (fr_ty r) v ->
  (forall e, lookup (fr_tag r) p = Some e -> fits r e) ->
  apply_field ws p (r, v) <> Panic /\
  (forall fv, apply_field ws p (r, v) = Ok fv -> fst fv = r /\ well_typed_value (fr_ty r) (snd fv)).
Proof.
  intros RO W F. unfold apply_field. destruct (lookup (fr_tag r) p) as [e|] eqn:E.
  - specialize (F e eq_refl). assert (G : good r v) by now left.
    destruct (apply_ops_np r e (entry_essential e) F v (mem (fr_name r) ws) G) as [NP OK].
    unfold apply_to. destruct (apply_ops _ _ _ _ _) as [[v' s']| |]; cbn [bind]; try (split; congruence).
    destruct (assign_good r v' RO (OK _ _ eq_refl)) as (v'' & -> & W'). cbn [bind]. split; [congruence|].
    intros fv H. injection H as <-. auto.
  - split; [congruence|]. intros fv H. injection H as <-. auto.
Qed.

Lemma map_res_np {A B} (f : A -> res B) l : (forall x, In x l -> f x <> Panic) -> map_res f l <> Panic.
Proof.
  induction l as [|x l IH]; simpl; intros H; [congruence|].
  apply bind_no_panic; [auto|]. intros y _. apply bind_no_panic; [apply IH; auto|congruence].
Qed.

Lemma schemas_ok sch : In sch entity_schemas -> Forall row_ok sch.
Proof.
  assert (B : forallb (fun sch => forallb (fun r =>
      (negb (String.eqb (fr_name r) "Scope") || gty_eqb (fr_ty r) TStr) && negb (gty_eqb (fr_ty r) TAny)) sch)
      entity_schemas = true) by (vm_compute; reflexivity).
  intros H. rewrite forallb_forall in B. specialize (B _ H). rewrite forallb_forall in B.
  apply Forall_forall. intros r Hr. specialize (B r Hr). apply andb_prop in B as [B1 B2]. split.
  - intros E. rewrite E in B1. simpl in B1. destruct (fr_ty r); simpl in B1; congruence.
  - intros E. rewrite E in B2. discriminate.
Qed.

Theorem apply_policy_no_panic m p :
  known_entity m -> well_typed m ->
  (forall r e, In r (map fst (em_fields m)) -> lookup (fr_tag r) p = Some e -> fits r e) ->
  apply_policy m p <> Panic /\ forall m', apply_policy m p = Ok m' -> well_typed m'.
Proof.
  intros KE WT F. apply schemas_ok in KE. unfold well_typed in WT. rewrite Forall_forall in WT, KE.
  assert (K : forall x, In x (em_fields m) ->
      apply_field (em_set m) p x <> Panic /\
      forall fv, apply_field (em_set m) p x = Ok fv -> fst fv = fst x /\ well_typed_value (fr_ty (fst x)) (snd fv)).
  { intros [r v] H. apply apply_field_np.
    - apply KE. apply (in_map fst) in H. exact H.
    - apply (WT _ H).
    - intros e. apply F. apply (in_map fst) in H. exact H. }
  unfold apply_policy. split.
  - apply bind_no_panic; [|congruence]. apply map_res_np. intros x Hx. now apply K.
  - intros m' H. apply bind_ok in H as (fs & H & H'). injection H' as <-. unfold well_typed. cbn [em_fields].
    apply map_res_Forall2 in H. clear -H K.
    induction H as [|x y l l' Hxy _ IH]; constructor.
    + destruct (K x (or_introl eq_refl)) as [_ K']. destruct (K' _ Hxy) as [E W]. rewrite E. exact W.
    + apply IH. intros z Hz. apply K. now right.
Qed.

(** ** Idempotence on list attributes (C11) *)

Lemma map_VStr_inj l l' : map VStr l = map VStr l' -> l = l'.
Proof.
  revert l'. induction l as [|x l IH]; destruct l'; simpl; intros H; try discriminate; auto.
  injection H as -> H. f_equal; auto.
Qed.

Theorem apply_idempotent e s n cur set v1 :
  denotes e s -> list_operands e -> opt (se_add s) (@NoDup string) ->
  (se_value s = Some None -> se_add s = None /\ se_default s = None) ->
  (set = false -> n = true /\ cur = []) ->
  (se_essential s = Some true ->
     set = true \/ se_value s <> None \/ se_add s <> None \/ se_default s <> None) ->
  apply_to e (VSlice TStr n (map VStr cur)) set = Ok v1 ->
  exists n1 l set1,
    assign (TSlice TStr) v1 = Ok (VSlice TStr n1 (map VStr l)) /\
    (set1 = false <-> spec_apply s (if set then Some cur else None) = Ok None) /\
    exists v2 n2, apply_to e (VSlice TStr n1 (map VStr l)) set1 = Ok v2 /\
                  assign (TSlice TStr) v2 = Ok (VSlice TStr n2 (map VStr l)).
Proof.
  intros D L ND NV Hset HE H1.
  assert (HE' : spec_ess s = true -> set = true \/ is_some (se_value s) = true \/ is_some (se_add s) = true \/ is_some (se_default s) = true).
  { unfold spec_ess. destruct (se_essential s) as [[]|]; try discriminate. intros _.
    destruct (HE eq_refl) as [K|[K|[K|K]]]; auto;
      [destruct (se_value s)|destruct (se_add s)|destruct (se_default s)]; simpl; auto; congruence. }
  pose proof (apply_list e s D L ND NV n cur set Hset HE') as O. rewrite H1 in O.
  destruct (spec_apply s (if set then Some cur else None)) as [o| |] eqn:Es; try contradiction.
  pose proof (spec_apply_idem _ _ _ Es) as Id.
  destruct o as [l|].
  - simpl in O. destruct O as (n1 & ->). exists n1, l, true. split; [reflexivity|]. split; [split; discriminate|].
    assert (HE1 : spec_ess s = true -> true = true \/ is_some (se_value s) = true \/ is_some (se_add s) = true \/ is_some (se_default s) = true) by auto.
    pose proof (apply_list e s D L ND NV n1 l true ltac:(discriminate) HE1) as O2.
    cbn iota in O2. rewrite Id in O2. destruct (apply_to e _ true) as [v2| |]; try contradiction.
    destruct O2 as (n2 & ->). exists (VSlice TStr n2 (map VStr l)), n2. auto.
  - exists true, [], false. split; [destruct O as [->| ->]; reflexivity|]. split; [split; auto|].
    assert (HE1 : spec_ess s = true -> false = true \/ is_some (se_value s) = true \/ is_some (se_add s) = true \/ is_some (se_default s) = true).
    { intros E. rewrite spec_apply_unfold in Id. unfold spec_rest in Id.
      destruct (spec_default s _); [|rewrite E in Id; discriminate].
      destruct (se_one_of s); [discriminate|]. cbv zeta in Id. destruct (se_superset_of s); [destruct (forallb _ _)|]; discriminate. }
    pose proof (apply_list e s D L ND NV true [] false ltac:(auto) HE1) as O2.
    cbn iota in O2. rewrite Id in O2. change (map VStr []) with (@nil gval) in *.
    destruct (apply_to e (VSlice TStr true []) false) as [v2| |]; try contradiction.
    exists v2, true. split; auto. destruct O2 as [->| ->]; reflexivity.
Qed.

(** ** Frame and locality (C12, C13) *)

Lemma apply_field_row ws p x y : apply_field ws p x = Ok y -> fst y = fst x.
Proof.
  destruct x as [r v]. unfold apply_field. destruct (lookup _ _).
  - intros H. apply bind_ok in H as (v' & _ & H). apply bind_ok in H as (v'' & _ & H). now injection H as <-.
  - intros H. now injection H as <-.
Qed.

Definition by_tag (t : string) (fv : frow * gval) : bool := String.eqb t (fr_tag (fst fv)).

Lemma find_parallel ws p t l l' :
  Forall2 (fun x y => apply_field ws p x = Ok y) l l' ->
  match find (by_tag t) l, find (by_tag t) l' with
  | Some x, Some y => apply_field ws p x = Ok y
  | None, None => True
  | _, _ => False
  end.
Proof.
  induction 1 as [|x y l l' H _ IH]; simpl; auto.
  assert (B : by_tag t y = by_tag t x) by (unfold by_tag; now rewrite (apply_field_row _ _ _ _ H)).
  rewrite B. destruct (by_tag t x); auto.
Qed.

Lemma apply_policy_fields m p m' :
  apply_policy m p = Ok m' ->
  em_set m' = em_set m /\ Forall2 (fun x y => apply_field (em_set m) p x = Ok y) (em_fields m) (em_fields m').
Proof.
  unfold apply_policy. intros H. apply bind_ok in H as (fs & H & H'). injection H' as <-. cbn.
  split; auto. now apply map_res_Forall2.
Qed.

Lemma find_tag t (m : emeta) x : find (by_tag t) (em_fields m) = Some x -> fr_tag (fst x) = t.
Proof. intros H. apply find_some in H as [_ H]. symmetry. now apply String.eqb_eq. Qed.

Theorem apply_policy_frame m p m' t :
  apply_policy m p = Ok m' -> lookup t p = None -> same_attribute t m m'.
Proof.
  intros H E. apply apply_policy_fields in H as [_ H].
  pose proof (find_parallel _ _ t _ _ H) as P. unfold same_attribute, em_tag.
  change (fun fv : frow * gval => String.eqb t (fr_tag (fst fv))) with (by_tag t).
  destruct (find (by_tag t) (em_fields m)) as [[r v]|] eqn:F, (find (by_tag t) (em_fields m')); try contradiction; auto.
  apply find_tag in F. cbn [fst] in F. subst t. unfold apply_field in P. rewrite E in P. now injection P as <-.
Qed.

Theorem apply_policy_local m m2 p p2 m' m2' t :
  apply_policy m p = Ok m' -> apply_policy m2 p2 = Ok m2' ->
  map fst (em_fields m) = map fst (em_fields m2) ->
  lookup t p = lookup t p2 -> em_tag t m = em_tag t m2 -> attr_set t m = attr_set t m2 ->
  em_tag t m' = em_tag t m2'.
Proof.
  intros H H2 Rows Ep Ev Es.
  apply apply_policy_fields in H as [_ H]. apply apply_policy_fields in H2 as [_ H2].
  pose proof (find_parallel _ _ t _ _ H) as P. pose proof (find_parallel _ _ t _ _ H2) as P2.
  assert (FR : option_map fst (find (by_tag t) (em_fields m)) = option_map fst (find (by_tag t) (em_fields m2))).
  { clear -Rows. revert Rows. generalize (em_fields m) as l, (em_fields m2) as l2.
    induction l as [|x l IH]; destruct l2 as [|y l2]; simpl; intros H; try discriminate; auto.
    injection H as E H. assert (B : by_tag t y = by_tag t x) by (unfold by_tag; now rewrite E).
    rewrite B. destruct (by_tag t x); simpl; [now rewrite E|auto]. }
  unfold em_tag, attr_set in *.
  change (fun fv : frow * gval => String.eqb t (fr_tag (fst fv))) with (by_tag t) in *.
  destruct (find (by_tag t) (em_fields m)) as [[r v]|] eqn:F, (find (by_tag t) (em_fields m2)) as [[r2 v2]|] eqn:F2; try discriminate.
  - destruct (find (by_tag t) (em_fields m')) as [y|]; try contradiction.
    destruct (find (by_tag t) (em_fields m2')) as [y2|]; try contradiction.
    injection FR as <-. injection Ev as <-. apply find_tag in F. cbn [fst snd] in *. subst t.
    unfold apply_field in *. rewrite <- Ep, <- Es in P2. congruence.
  - destruct (find (by_tag t) (em_fields m')) as [y|]; try contradiction.
    destruct (find (by_tag t) (em_fields m2')) as [y2|]; try contradiction. reflexivity.
Qed.

Lemma md_apply_types m p m' :
  md_apply m (Some p) = Ok m' ->
  apply_one (md_op m) (mp_op p) = Ok (md_op m') /\ apply_one (md_rp m) (mp_rp p) = Ok (md_rp m') /\
  apply_one (md_as m) (mp_as p) = Ok (md_as m') /\ apply_one (md_oc m) (mp_oc p) = Ok (md_oc m') /\
  apply_one (md_pr m) (mp_pr p) = Ok (md_pr m') /\ apply_one (md_fe m) (mp_fe p) = Ok (md_fe m') /\
  md_extra m' = md_extra m.
Proof.
  unfold md_apply. intros H.
  apply bind_ok in H as (a & -> & H). apply bind_ok in H as (b & -> & H). apply bind_ok in H as (c & -> & H).
  apply bind_ok in H as (d & -> & H). apply bind_ok in H as (e & -> & H). apply bind_ok in H as (f & -> & H).
  apply bind_ok in H as (g & Hg & H). injection H as <-. cbn. repeat (split; auto).
  apply map_res_Forall2 in Hg. clear -Hg. induction Hg as [|x y l l' H _ IH]; auto. f_equal; auto.
  unfold apply_extra in H. destruct (lookup _ _) as [[]|]; congruence.
Qed.

Theorem apply_policy_unknown m p k e :
  ~ In k (map (fun fv : frow * gval => fr_tag (fst fv)) (em_fields m)) ->
  apply_policy m ((k, e) :: p) = apply_policy m p.
Proof.
  intros NI. unfold apply_policy. f_equal.
  induction (em_fields m) as [|[r v] l IH]; simpl in *; auto.
  rewrite IH by tauto. destruct (String.eqb_spec (fr_tag r) k); [tauto|]. reflexivity.
Qed.

(** ** scope with a single value (C14) *)

Section Scope.
  Variable w : string.
  Hypothesis Hw : w <> ""%string.

  Definition sim (a b : gval) : Prop := a = b \/ (a = VStr w /\ b = VSlice TStr false [VStr w]).

  Lemma sim_slicify a b : sim a b -> slicify a = slicify b.
  Proof. intros [->|[-> ->]]; reflexivity. Qed.

  Lemma sim_op o a b set pv ess :
    o <> OOneOf -> sim a b ->
    match apply_op o a set pv ess, apply_op o b set pv ess with
    | Ok (v, s), Ok (v', s') => s = s' /\ sim v v'
    | Err, Err | Panic, Panic => True
    | _, _ => False
    end.
  Proof.
    intros NO [->|[-> ->]].
    { destruct (apply_op o b set pv ess) as [[v s]| |]; auto. split; auto. now left. }
    assert (S : sim (VStr w) (VSlice TStr false [VStr w])) by (right; auto).
    assert (Hz : String.eqb w "" = false) by (now apply String.eqb_neq).
    destruct o; try congruence.
    - (* value *)
      cbn [apply_op]. destruct (is_nil pv); [split; auto; now left|].
      change (slicify (VSlice TStr false [VStr w])) with (slicify (VStr w)).
      destruct (slice_cast _ _); simpl; auto. split; auto. now left.
    - (* add *)
      cbn [apply_op]. change (is_nil (VStr w)) with false. change (is_nil (VSlice TStr false [VStr w])) with false. cbn iota.
      destruct (is_nil pv); [split; auto|].
      change (union (VSlice TStr false [VStr w]) pv) with (union (VStr w) pv).
      destruct (union _ _); simpl; auto. split; auto. now left.
    - (* default *)
      cbn [apply_op]. destruct (negb set) eqn:E; [|split; auto]. simpl. rewrite Hz. simpl. split; auto.
    - (* subset_of *)
      cbn [apply_op]. destruct (negb set && negb ess); [split; auto|].
      destruct (is_nil pv); [split; auto|]. destruct (negb set); [auto|].
      change (slicify (VSlice TStr false [VStr w])) with (slicify (VStr w)).
      destruct (intersect _ _); simpl; auto. split; auto. now left.
    - (* superset_of *)
      cbn [apply_op]. destruct (negb set && negb ess); [split; auto|].
      destruct (is_nil pv); [split; auto|]. destruct (negb set); [auto|].
      change (slicify (VSlice TStr false [VStr w])) with (slicify (VStr w)).
      destruct (is_superset_of _ _) as [[]| |]; simpl; auto.
    - (* essential *)
      cbn [apply_op]. destruct pv as [|[]| | | | | |]; try (split; auto; fail).
      simpl. rewrite Hz. split; auto.
  Qed.

  Lemma sim_ops e ess os : forall a b set,
    (get OOneOf e = None) -> sim a b ->
    match apply_ops os e ess a set, apply_ops os e ess b set with
    | Ok (v, s), Ok (v', s') => sim v v'
    | Err, Err | Panic, Panic => True
    | _, _ => False
    end.
  Proof.
    induction os as [|o os IH]; intros a b set NO S; simpl; auto.
    destruct (get o e) as [pv|] eqn:E; [|now apply IH].
    assert (o <> OOneOf) by congruence.
    pose proof (sim_op o a b set pv ess H S) as H1.
    destruct (apply_op o a set pv ess) as [[v s]| |], (apply_op o b set pv ess) as [[v' s']| |]; try contradiction; simpl; auto.
    destruct H1 as [-> S1]. now apply IH.
  Qed.

  Theorem scope_single e s :
    denotes e s -> list_operands e -> opt (se_add s) (@NoDup string) ->
    (se_value s = Some None -> se_add s = None /\ se_default s = None) ->
    se_one_of s = None ->
    (v' <- apply_to e (VStr w) true ;; assign TStr (scope_fix "Scope" v')) =
    match spec_apply s (Some [w]) with
    | Ok (Some l) => Ok (VStr (String.concat " " l))
    | Ok None => Ok (VStr "")
    | Err => Err
    | Panic => Panic
    end.
  Proof.
    intros D L ND NV NO.
    pose proof (apply_list e s D L ND NV false [w] true ltac:(discriminate) ltac:(auto)) as O.
    cbn iota in O. change (map VStr [w]) with [VStr w] in O.
    assert (GO : get OOneOf e = None).
    { pose proof (dn_one_of _ _ D) as Q. rewrite NO in Q. exact Q. }
    pose proof (sim_ops e (entry_essential e) operator_order (VStr w) (VSlice TStr false [VStr w]) true GO
                  (or_intror (conj eq_refl eq_refl))) as S.
    unfold apply_to in *.
    destruct (apply_ops operator_order e (entry_essential e) (VStr w) true) as [[v x]| |],
             (apply_ops operator_order e (entry_essential e) (VSlice TStr false [VStr w]) true) as [[v' x']| |];
      try contradiction; cbn [bind] in *; destruct (spec_apply s (Some [w])) as [[l|]| |]; simpl in O; try contradiction; auto.
    - destruct O as (n & ->). destruct S as [->|[-> S]].
      + cbn. do 2 f_equal. induction l as [|y l IH]; simpl; auto.
        destruct l; simpl in *; auto. now rewrite IH.
      + injection S as -> S. destruct l as [|y [|z l]]; simpl in S; try discriminate. now injection S as ->.
    - destruct O as [->| ->]; destruct S as [->|[-> S]]; try discriminate; reflexivity.
  Qed.
End Scope.

(** ** The msgpack round trip (C18) *)

Fixpoint nodupb (l : list string) : bool :=
  match l with [] => true | x :: r => negb (mem x r) && nodupb r end.

Lemma nodupb_NoDup l : nodupb l = true -> NoDup l.
Proof.
  induction l as [|x l IH]; cbn [nodupb]; intros H; constructor; apply andb_prop in H as [H1 H2]; auto.
  intros K. apply mem_In in K. now rewrite K in H1.
Qed.

Lemma names_nodup sch : In sch entity_schemas -> NoDup (map fr_name sch).
Proof.
  assert (B : forallb (fun sch => nodupb (map fr_name sch)) entity_schemas = true) by (vm_compute; reflexivity).
  intros H. rewrite forallb_forall in B. apply nodupb_NoDup. now apply B.
Qed.

Lemma mem_flat {A} (f : A -> bool) (g : A -> string) l x :
  NoDup (map g l) -> In x l -> mem (g x) (flat_map (fun y => if f y then [g y] else []) l) = f x.
Proof.
  induction l as [|y l IH]; simpl; intros ND Hin; [contradiction|].
  inversion ND as [|a b Ha Hb]; subst. destruct Hin as [->|H].
  - destruct (f x) eqn:E; simpl.
    + rewrite String.eqb_refl. reflexivity.
    + apply mem_nIn. intros K. apply in_flat_map in K as (z & Hz & K). destruct (f z); [|destruct K].
      destruct K as [K|[]]. apply Ha. rewrite <- K. now apply in_map.
  - assert (g x <> g y). { intros E. apply Ha. rewrite <- E. now apply in_map. }
    destruct (f y); simpl; [|auto].
    destruct (String.eqb_spec (g x) (g y)); [contradiction|]. simpl. now apply IH.
Qed.

Lemma mem_app s a b : mem s (a ++ b) = mem s a || mem s b.
Proof. unfold mem. now rewrite existsb_app. Qed.

Lemma map_res_ext {A B} (f g : A -> res B) l : (forall x, In x l -> f x = g x) -> map_res f l = map_res g l.
Proof.
  induction l as [|x l IH]; simpl; intros H; auto. rewrite (H x) by auto. rewrite IH by auto. reflexivity.
Qed.

Lemma decode_nonnil t j v : scalar t = false -> t <> TAny -> decode_value t j = Ok v -> msgpack_nonnil v = negb (is_nil j).
Proof.
  intros S NA H. destruct t; simpl in S; try discriminate; try congruence; destruct j; simpl in H; try discriminate.
  - injection H as <-. reflexivity.
  - injection H as <-. reflexivity.
  - injection H as <-. reflexivity.
  - apply bind_ok in H as (kv' & _ & H). injection H as <-. reflexivity.
  - injection H as <-. reflexivity.
  - apply bind_ok in H as (kv' & _ & H). injection H as <-. reflexivity.
Qed.

Lemma decode_scalar_nonnil t j v : scalar t = true -> decode_value t j = Ok v -> msgpack_nonnil v = true.
Proof. intros S H. destruct t; simpl in S; try discriminate; destruct j; simpl in H; try discriminate; now injection H as <-. Qed.

Lemma extra_row sch : In sch entity_schemas ->
  exists pre post, sch = pre ++ FRow "Extra" "-" false (TMap TAny) :: post /\
    Forall (fun r => fr_tag r <> "-"%string /\ fr_name r <> "Extra"%string) (pre ++ post).
Proof.
  assert (B : forall l, forallb (fun r => negb (String.eqb (fr_tag r) "-") && negb (String.eqb (fr_name r) "Extra")) l = true ->
     Forall (fun r => fr_tag r <> "-"%string /\ fr_name r <> "Extra"%string) l).
  { intros l H. rewrite forallb_forall in H. apply Forall_forall. intros r Hr. apply H in Hr.
    apply andb_prop in Hr as [H1 H2]. split; intros E; rewrite E in *; discriminate. }
  assert (G : forall sch, (exists n, nth_error sch n = Some (FRow "Extra" "-" false (TMap TAny)) /\
      forallb (fun r => negb (String.eqb (fr_tag r) "-") && negb (String.eqb (fr_name r) "Extra")) (firstn n sch ++ skipn (S n) sch) = true) ->
      exists pre post, sch = pre ++ FRow "Extra" "-" false (TMap TAny) :: post /\
      Forall (fun r => fr_tag r <> "-"%string /\ fr_name r <> "Extra"%string) (pre ++ post)).
  { intros l (n & E & F). exists (firstn n l), (skipn (S n) l). split; [|now apply B].
    clear F. revert l E. induction n as [|n IH]; destruct l; simpl; intros E; try discriminate.
    - now injection E as ->.
    - f_equal. now apply IH. }
  intros H. apply G. simpl in H.
  destruct H as [<-|[<-|[<-|[<-|[]]]]].
  all: match goal with |- exists n, nth_error ?l n = _ /\ _ =>
         let k := eval vm_compute in (List.length (filter (fun b => b) (map (fun r => negb (String.eqb (fr_name r) "Extra")) l))) in
         let rec try_n n := first [exists n; split; [vm_compute; reflexivity|vm_compute; reflexivity] | try_n (S n)] in
         try_n 0 end.
Qed.

Lemma Forall2_combine_fst {A B} (P : A -> B -> Prop) l l' : Forall2 P l l' -> map fst (combine l l') = l.
Proof. induction 1; simpl; auto. now f_equal. Qed.

Lemma Forall2_combine_in {A B} (P : A -> B -> Prop) l l' x :
  Forall2 P l l' -> In x (combine l l') -> P (fst x) (snd x).
Proof. induction 1; simpl; [tauto|]. intros [<-|K]; auto. Qed.

Section Cached.
  Variables (sch : list frow) (obj : smap gval) (vs : list (gval * bool)).
  Hypothesis Hs : In sch entity_schemas.
  Hypothesis Hd : Forall2 (fun r x => decode_field obj r = Ok x) sch vs.

  Definition c_ex := extra_of sch obj.
  Definition c_exv := VMap TAny (match c_ex with [] => true | _ => false end) c_ex.
  Definition c_field (rv : frow * (gval * bool)) : frow * gval :=
    let '(r, (v, _)) := rv in (r, if String.eqb (fr_tag r) "-" then c_exv else v).
  Definition c_cond (rv : frow * (gval * bool)) : bool :=
    let '(r, (_, s)) := rv in
    if String.eqb (fr_tag r) "-" then (match c_ex with [] => false | _ => true end) else s.

  Lemma rows_fst : map fst (combine sch vs) = sch.
  Proof. exact (Forall2_combine_fst _ _ _ Hd). Qed.

  Lemma rows_in rv : In rv (combine sch vs) -> decode_field obj (fst rv) = Ok (snd rv).
  Proof. exact (Forall2_combine_in _ _ _ rv Hd). Qed.

  Lemma cached_extra ws : extra_value (EMeta (map c_field (combine sch vs)) ws) = c_ex.
  Proof.
    unfold extra_value, em_get. cbn [em_fields].
    destruct (extra_row sch Hs) as (pre & post & E & F).
    assert (G : forall rows, map fst rows = sch ->
      find (fun fv : frow * gval => String.eqb "Extra" (fr_name (fst fv))) (map c_field rows)
      = Some (FRow "Extra" "-" false (TMap TAny), c_exv)).
    { intros rows. rewrite E. apply Forall_app in F as [F _]. clear -F. revert rows.
      induction pre as [|r pre IH]; intros [|[r' [v s]] rows]; cbn [map find app fst c_field]; intros H; try discriminate.
      - injection H as -> _. reflexivity.
      - injection H as -> H. destruct (Forall_inv F) as [_ Ha]. apply Forall_inv_tail in F.
        destruct (String.eqb_spec "Extra" (fr_name r)); [congruence|]. apply IH; auto. }
    rewrite (G _ rows_fst). reflexivity.
  Qed.

  Lemma cached_mem rv : In rv (combine sch vs) ->
    mem (fr_name (fst rv)) (em_set (EMeta (map c_field (combine sch vs))
      (flat_map (fun rv => if c_cond rv then [fr_name (fst rv)] else []) (combine sch vs) ++ keys c_ex)))
    = c_cond rv || mem (fr_name (fst rv)) (keys c_ex).
  Proof.
    intros H. cbn [em_set]. rewrite mem_app. f_equal.
    apply (mem_flat c_cond (fun rv => fr_name (fst rv))); auto.
    rewrite <- (map_map fst fr_name), rows_fst. now apply names_nodup.
  Qed.

  Lemma cached_mem_rt ws rv : In rv (combine sch vs) ->
    mem (fr_name (fst rv)) (em_set (msgpack_roundtrip (EMeta (map c_field (combine sch vs)) ws)))
    = msgpack_nonnil (snd (c_field rv)) || mem (fr_name (fst rv)) (keys c_ex).
  Proof.
    intros H. unfold msgpack_roundtrip. cbn [em_set]. rewrite mem_app, cached_extra. f_equal.
    replace (fr_name (fst rv)) with (fr_name (fst (c_field rv))) by (now destruct rv as [r [v s]]).
    apply (mem_flat (fun fv => msgpack_nonnil (snd fv)) (fun fv : frow * gval => fr_name (fst fv))); [|now apply in_map].
    cbn [em_fields]. rewrite map_map.
    replace (map (fun x => fr_name (fst (c_field x))) (combine sch vs)) with (map fr_name (map fst (combine sch vs))).
    - rewrite rows_fst. now apply names_nodup.
    - rewrite map_map. apply map_ext. now intros [r [v s]].
  Qed.
End Cached.

Lemma decode_meta_shape sch obj m : decode_meta sch obj = Ok m ->
  exists vs, Forall2 (fun r x => decode_field obj r = Ok x) sch vs /\
    m = EMeta (map (c_field sch obj) (combine sch vs))
      (flat_map (fun rv => if c_cond sch obj rv then [fr_name (fst rv)] else []) (combine sch vs) ++ keys (c_ex sch obj)).
Proof.
  unfold decode_meta. intros H. apply bind_ok in H as (vs & Hv & H). exists vs.
  split; [now apply map_res_Forall2|]. injection H as <-. f_equal. f_equal.
  apply flat_map_ext. intros [r [v s]]. unfold c_cond, c_ex. cbn [fst].
  destruct (String.eqb _ _); auto. destruct (extra_of sch obj); auto.
Qed.

Theorem decode_cached sch obj m p :
  In sch entity_schemas -> decode_meta sch obj = Ok m ->
  (forall r, In r sch -> scalar (fr_ty r) = true -> lookup (fr_tag r) p <> None ->
     exists j, lookup (fr_tag r) obj = Some j /\ j <> VNil) ->
  (m1 <- apply_policy m p ;; Ok (em_fields m1)) =
  (m2 <- apply_policy (msgpack_roundtrip m) p ;; Ok (em_fields m2)).
Proof.
  intros Hs Hm HP. apply decode_meta_shape in Hm as (vs & Hd & ->).
  set (m := EMeta _ _). unfold apply_policy.
  assert (E : map_res (apply_field (em_set m) p) (em_fields m) =
              map_res (apply_field (em_set (msgpack_roundtrip m)) p) (em_fields (msgpack_roundtrip m))).
  { apply map_res_ext. intros fv Hfv. cbn [em_fields m] in Hfv. apply in_map_iff in Hfv as (rv & <- & Hrv).
    pose proof (cached_mem sch obj vs Hs Hd rv Hrv) as M1. fold m in M1.
    pose proof (cached_mem_rt sch obj vs Hs Hd (em_set m) rv Hrv) as M2.
    change (EMeta (map (c_field sch obj) (combine sch vs)) (em_set m)) with m in M2.
    pose proof (rows_in sch obj vs Hd rv Hrv) as D.
    assert (Hr : In (fst rv) sch). { rewrite <- (rows_fst sch obj vs Hd). now apply in_map. }
    pose proof (schemas_ok _ Hs) as RO. rewrite Forall_forall in RO. destruct (RO _ Hr) as [_ NA].
    destruct rv as [r [v s]]. cbn [fst snd c_field] in *.
    unfold apply_field. destruct (lookup (fr_tag r) p) eqn:Ep; auto.
    assert (M : mem (fr_name r) (em_set m) = mem (fr_name r) (em_set (msgpack_roundtrip m))); [|now rewrite M].
    rewrite M1, M2. f_equal. unfold c_cond. unfold decode_field in D.
    destruct (String.eqb (fr_tag r) "-") eqn:Et.
    - unfold c_exv. destruct (c_ex sch obj); reflexivity.
    - destruct (scalar (fr_ty r)) eqn:Es.
      + destruct (HP r Hr Es) as (j & Ej & Nj); [congruence|]. rewrite Ej in D.
        apply bind_ok in D as (v' & Dv & D). injection D as <- <-.
        rewrite (decode_scalar_nonnil _ _ _ Es Dv). destruct j; try reflexivity. congruence.
      + destruct (lookup (fr_tag r) obj) as [j|].
        * apply bind_ok in D as (v' & Dv & D). injection D as <- <-. symmetry. now apply (decode_nonnil _ _ _ Es NA Dv).
        * injection D as <- <-. destruct (fr_ty r); simpl in Es; try discriminate; try congruence; reflexivity. }
  rewrite E. destruct (map_res _ (em_fields (msgpack_roundtrip m))); reflexivity.
Qed.

(** ** Decoded metadata is well typed *)

Lemma decode_value_typed t j v : t <> TAny -> decode_value t j = Ok v -> well_typed_value t v.
Proof.
  intros NA H. destruct t as [| | | | | |t'|t']; try congruence; cbn [decode_value] in H.
  1-5: destruct j; try discriminate; injection H as <-; reflexivity.
  - destruct j; try discriminate; [injection H as <-; reflexivity|].
    apply bind_ok in H as (kv' & _ & H). injection H as <-. reflexivity.
  - destruct j; try discriminate.
    + injection H as <-. destruct t'; cbn; try reflexivity. exists true, []. reflexivity.
    + apply bind_ok in H as (l' & Hl & H). injection H as <-. destruct t'; cbn; try reflexivity.
      exists false. apply map_res_Forall2 in Hl.
      assert (S : exists ss, l' = map VStr ss).
      { clear -Hl. induction Hl as [|x y l l' Hxy _ [ss ->]]; [now exists []|].
        cbn in Hxy. destruct x; try discriminate; injection Hxy as <-; [exists (""%string :: ss)|exists (s :: ss)]; reflexivity. }
      destruct S as (ss & ->). eauto.
Qed.

Theorem decode_well_typed sch obj m :
  In sch entity_schemas -> decode_meta sch obj = Ok m -> known_entity m /\ well_typed m.
Proof.
  intros Hs Hm. apply decode_meta_shape in Hm as (vs & Hd & ->).
  assert (M : map fst (map (c_field sch obj) (combine sch vs)) = sch).
  { rewrite map_map. rewrite <- (rows_fst sch obj vs Hd) at 2. apply map_ext. now intros [r [v s]]. }
  split; [unfold known_entity; cbn [em_fields]; now rewrite M|].
  unfold well_typed. cbn [em_fields]. apply Forall_forall. intros fv Hfv.
  apply in_map_iff in Hfv as (rv & <- & Hrv).
  pose proof (rows_in sch obj vs Hd rv Hrv) as D.
  assert (Hr : In (fst rv) sch). { rewrite <- (rows_fst sch obj vs Hd). now apply in_map. }
  pose proof (schemas_ok _ Hs) as RO. rewrite Forall_forall in RO. destruct (RO _ Hr) as [_ NA].
  destruct rv as [r [v s]]. cbn [fst snd c_field] in *. unfold decode_field in D.
  destruct (String.eqb_spec (fr_tag r) "-") as [Et|Et].
  - destruct (extra_row sch Hs) as (pre & post & E & F).
    assert (r = FRow "Extra" "-" false (TMap TAny)) as ->.
    { rewrite E in Hr. apply in_app_or in Hr. rewrite Forall_forall in F.
      destruct Hr as [Hr|[<-|Hr]]; auto; destruct (F r) as [K _]; try contradiction; apply in_or_app; auto. }
    reflexivity.
  - destruct (lookup (fr_tag r) obj) as [j|].
    + apply bind_ok in D as (v' & Dv & D). injection D as <- <-. now apply decode_value_typed in Dv.
    + injection D as <- <-. now apply zero_well_typed.
Qed.

Theorem decode_apply_no_panic sch obj m p :
  In sch entity_schemas -> decode_meta sch obj = Ok m ->
  (forall r e, In r sch -> lookup (fr_tag r) p = Some e -> fits r e) ->
  apply_policy m p <> Panic.
Proof.
  intros Hs Hm F. destruct (decode_well_typed _ _ _ Hs Hm) as [KE WT].
  apply apply_policy_no_panic; auto. intros r e Hr. apply F.
  apply decode_meta_shape in Hm as (vs & Hd & ->). cbn [em_fields] in Hr. rewrite map_map in Hr.
  rewrite <- (rows_fst sch obj vs Hd). erewrite map_ext; [exact Hr|]. now intros [r' [v s]].
Qed.
