(** Proofs about defaults that the same policy entry forbids. *)
From Verif Require Import Base BaseFacts GoVal Policy SpecPolicy PolicyFacts SpecExactList SpecNull NullFacts DefaultChecks SpecDefault.
Local Open Scope string_scope.
Local Open Scope list_scope.

Lemma kept_all d l : keep_allowed d l = d <-> incl d l.
Proof.
  unfold keep_allowed. split.
  - intros E x I. rewrite <- E in I. apply filter_In in I. now apply mem_In.
  - intros I. induction d as [|x d IH]; [reflexivity|]. cbn [filter]. rewrite (proj2 (mem_In x l)) by (apply I; now left).
    f_equal. apply IH. intros y J. apply I. now right.
Qed.
Lemma strs_inj l l' : map VStr l = map VStr l' -> l = l'.
Proof. revert l'. induction l as [|x l IH]; intros [|y l'] E; try discriminate; [reflexivity|]. injection E as -> E. now rewrite (IH l' E). Qed.

Lemma list_gets e s d : denotes e s -> list_operands e -> verify_entry e = Ok tt -> offers_default s d ->
  ((exists n, apply_to e (VSlice TStr true []) false = Ok (VSlice TStr n (map VStr d))) <-> fitting_list s d).
Proof.
  intros D LO V [Od Ov Oa].
  assert (X : list_outcome (apply_to e (VSlice TStr true (map VStr [])) false) (spec_apply s None)).
  { refine (proj2 (list_exact_all e s true [] false D LO _ V (fun _ => conj eq_refl eq_refl)) _).
    - rewrite Oa. exact I.
    - split; [intros [_ E]; rewrite (oe_default s E) in Od; discriminate|].
      intros [E _]. pose proof (dn_value e s D) as W. rewrite Ov in W. cbn in W. congruence. }
  unfold spec_apply in X. rewrite Ov, Oa, Od in X. cbn [map] in X. split.
  - intros [n E]. rewrite E in X. cbn [list_outcome] in X.
    destruct (se_one_of s) eqn:O1; [destruct X|].
    destruct (se_subset_of s) as [lb|] eqn:O2; destruct (se_superset_of s) as [lp|] eqn:O3.
    + destruct (forallb (fun x => mem x (keep_allowed d lb)) lp) eqn:O4; [|destruct X]. destruct X as [n' [= _ E']]. apply strs_inj in E'. symmetry in E'.
      rewrite E' in O4. apply forallb_mem_incl in O4. apply kept_all in E'. split; rewrite ?O1, ?O2, ?O3; cbn; auto.
    + destruct X as [n' [= _ E']]. apply strs_inj in E'. symmetry in E'. apply kept_all in E'. split; rewrite ?O1, ?O2, ?O3; cbn; auto.
    + destruct (forallb (fun x => mem x d) lp) eqn:O4; [|destruct X]. apply forallb_mem_incl in O4. split; rewrite ?O1, ?O2, ?O3; cbn; auto.
    + split; rewrite ?O1, ?O2, ?O3; cbn; auto.
  - intros [F1 F2 F3]. rewrite F1 in X.
    assert (K : match se_subset_of s with Some l => keep_allowed d l | None => d end = d)
      by (destruct (se_subset_of s); [now apply kept_all|reflexivity]).
    rewrite K in X.
    destruct (se_superset_of s) as [lp|]; [cbn in F3; apply forallb_mem_incl in F3; rewrite F3 in X|];
      (destruct (apply_to e (VSlice TStr true []) false) as [v| |]; cbn [list_outcome] in X; try contradiction; destruct X as [n ->]; now exists n).
Qed.

Lemma sub_check small big e ls lb : operand_is e (op_name small) ls -> operand_is e (op_name big) lb ->
  (verify_sub small big e = Ok tt <-> opt ls (fun l => opt lb (fun l' => incl l l'))).
Proof.
  intros A B. unfold verify_sub, get. destruct ls as [ls|]; cbn [operand_is opt] in *.
  - destruct A as (u & -> & Su). destruct lb as [lb|]; cbn [operand_is opt] in *.
    + destruct B as (v & -> & Sv). rewrite (is_subset_of_strs _ _ _ _ Su Sv). cbn [bind]. rewrite <- forallb_mem_incl.
      destruct (forallb (fun x => mem x lb) ls); split; congruence.
    + rewrite B. tauto.
  - rewrite A. tauto.
Qed.
Lemma not_in_strs v o lo : is_slice v = true -> strs o lo -> slice_contains v (slicify o) = false.
Proof.
  intros S H. apply strs_slicify in H as (t & n & _ & ->). destruct v; try discriminate. cbn [slice_contains].
  induction lo as [|x lo IH]; [reflexivity|]. cbn [map existsb]. rewrite IH. reflexivity.
Qed.
Lemma list_checked e s d : denotes e s -> list_operands e -> offers_default s d ->
  (run_verifiers default_checks e = Ok tt <-> fitting_list s d).
Proof.
  intros D LO [Od _ _]. pose proof (dn_default e s D) as Dd. rewrite Od in Dd.
  pose proof (sub_check ODefault OSubsetOf e (Some d) (se_subset_of s) Dd (dn_subset_of e s D)) as C2. cbn [opt] in C2.
  pose proof (sub_check OSupersetOf ODefault e (se_superset_of s) (Some d) (dn_superset_of e s D) Dd) as C3. cbn [opt] in C3.
  change (verify_default_in_subset e = Ok tt <-> opt (se_subset_of s) (fun l => incl d l)) in C2.
  change (verify_default_superset e = Ok tt <-> opt (se_superset_of s) (fun l => incl l d)) in C3.
  assert (C1 : verify_default_in_oneof e = Ok tt <-> se_one_of s = None).
  { unfold verify_default_in_oneof, get. destruct Dd as (v & Ev & Sv). cbn [op_name] in *. rewrite Ev.
    pose proof (dn_one_of e s D) as Do. destruct (se_one_of s) as [lo|]; cbn [operand_is] in Do.
    - destruct Do as (o & -> & So).
      destruct (LO "default" v (or_intror eq_refl) Ev) as [-> |Sl]; [now apply strs_not_nil in Sv|].
      rewrite (not_in_strs v o lo Sl So). split; discriminate.
    - rewrite Do. tauto. }
  unfold default_checks. cbn [run_verifiers].
  destruct (verify_default_in_oneof e) as [[]| |]; cbn [bind];
    [|split; [discriminate|intros [F _ _]; apply C1 in F; discriminate]..].
  destruct (verify_default_in_subset e) as [[]| |]; cbn [bind];
    [|split; [discriminate|intros [_ F _]; apply C2 in F; discriminate]..].
  destruct (verify_default_superset e) as [[]| |]; cbn [bind];
    [|split; [discriminate|intros [_ _ F]; apply C3 in F; discriminate]..].
  split; [|reflexivity]. intros _. split; [now apply C1|now apply C2|now apply C3].
Qed.

(** ** Text attributes *)
Lemma text_gets e s d : denotes e s -> lookup "default" e = Some (VStr d) -> d <> "" -> offers_default s [d] ->
  se_subset_of s = None -> se_superset_of s = None ->
  (apply_to e (VStr "") false = Ok (VStr d) <-> fitting_text s d).
Proof.
  intros D Ed Nd [_ Ov Oa] O2 O3.
  pose proof (dn_value e s D) as Ev. rewrite Ov in Ev. pose proof (dn_add e s D) as Ea. rewrite Oa in Ea.
  pose proof (dn_subset_of e s D) as Eb. rewrite O2 in Eb. pose proof (dn_superset_of e s D) as Ep. rewrite O3 in Ep.
  pose proof (dn_essential e s D) as Ee. pose proof (dn_one_of e s D) as Eo. cbn [operand_is] in *.
  assert (Ess : forall b, apply_op OEssential (VStr d) true (VBool b) b = Ok (VStr d, true)).
  { intros [|]; [|reflexivity]. cbn. apply String.eqb_neq in Nd. now rewrite Nd. }
  unfold apply_to, operator_order, fitting_text. cbn [apply_ops]. unfold get. cbn [op_name]. rewrite Ev, Ea, Ed, Eb, Ep, Ee.
  replace (apply_op ODefault (VStr "") false (VStr d) (entry_essential e)) with (Ok (VStr d, true)) by reflexivity. cbn [bind].
  destruct (se_one_of s) as [lo|]; cbn [operand_is opt] in *.
  - destruct Eo as (o & -> & So). unfold apply_op at 1. cbn [negb andb]. rewrite (strs_not_nil _ _ So), (slice_contains_strs d o lo So).
    destruct (mem d lo) eqn:M; cbn [bind].
    + apply mem_In in M. destruct (se_essential s) as [b|] eqn:Es; cbn [option_map] in *.
      * assert (X : entry_essential e = b) by (unfold entry_essential, get; cbn [op_name]; now rewrite Ee). rewrite X, Ess. cbn [bind]. tauto.
      * cbn [bind]. tauto.
    + split; [discriminate|]. intros I. apply mem_In in I. congruence.
  - rewrite Eo. destruct (se_essential s) as [b|] eqn:Es; cbn [option_map] in *.
    + assert (X : entry_essential e = b) by (unfold entry_essential, get; cbn [op_name]; now rewrite Ee). rewrite X, Ess. cbn [bind]. tauto.
    + cbn [bind]. tauto.
Qed.
Lemma text_checked e s d : denotes e s -> lookup "default" e = Some (VStr d) -> se_subset_of s = None -> se_superset_of s = None ->
  (run_verifiers default_checks e = Ok tt <-> fitting_text s d).
Proof.
  intros D Ed O2 O3. pose proof (dn_subset_of e s D) as Eb. rewrite O2 in Eb. pose proof (dn_superset_of e s D) as Ep. rewrite O3 in Ep.
  pose proof (dn_one_of e s D) as Eo. unfold fitting_text, default_checks. cbn [run_verifiers operand_is] in *.
  replace (verify_default_in_subset e) with (Ok tt : res unit) by (unfold verify_default_in_subset, verify_sub, get; cbn [op_name]; now rewrite Ed, Eb).
  replace (verify_default_superset e) with (Ok tt : res unit) by (unfold verify_default_superset, verify_sub, get; cbn [op_name]; now rewrite Ep).
  unfold verify_default_in_oneof, get. cbn [op_name]. rewrite Ed. destruct (se_one_of s) as [lo|]; cbn [operand_is opt] in *.
  - destruct Eo as (o & -> & So). rewrite (slice_contains_strs d o lo So). destruct (mem d lo) eqn:M; cbn [bind].
    + apply mem_In in M. tauto.
    + split; [discriminate|]. intros I. apply mem_In in I. congruence.
  - rewrite Eo. cbn [bind]. tauto.
Qed.

Theorem list_default e s d : denotes e s -> list_operands e -> verify_entry e = Ok tt -> offers_default s d ->
  ((exists n, apply_to e (VSlice TStr true []) false = Ok (VSlice TStr n (map VStr d))) <-> fitting_list s d) /\
  (run_verifiers default_checks e = Ok tt <-> fitting_list s d).
Proof. intros D LO V O. split; [now apply list_gets|now apply list_checked]. Qed.
Theorem text_default e s d : denotes e s -> lookup "default" e = Some (VStr d) -> d <> "" -> offers_default s [d] ->
  se_subset_of s = None -> se_superset_of s = None ->
  (apply_to e (VStr "") false = Ok (VStr d) <-> fitting_text s d) /\ (run_verifiers default_checks e = Ok tt <-> fitting_text s d).
Proof. intros D Ed Nd O O2 O3. split; [now apply text_gets|now apply text_checked]. Qed.
