(** Lemmas about accepted policy entries and about registered operators and verifiers. *)
From Verif Require Import Base GoVal Policy BaseFacts SpecPolicy PolicyFacts MergeFacts RespectFacts CombineFacts
  Custom SpecCustom.
From Coq Require Import Permutation.
Local Open Scope string_scope.

(** ** The combination check *)

Lemma subtract_nil (a b : list string) : subtract a b = [] <-> incl a b.
Proof.
  unfold subtract. split.
  - intros H x Hx. destruct (mem x b) eqn:E; [now apply mem_In|].
    assert (In x (filter (fun y => negb (mem y b)) a)) by (apply filter_In; rewrite E; auto).
    rewrite H in H0. destruct H0.
  - intros H. induction a as [|x a IH]; simpl; auto.
    assert (mem x b = true) as -> by (apply mem_In, H; simpl; auto).
    simpl. apply IH. intros y Hy. apply H. simpl; auto.
Qed.

Lemma r_check_combination_cases r active n : r_check_combination r active n = Ok tt \/ r_check_combination r active n = Err.
Proof.
  unfold r_check_combination. destruct (lookup n _) as [o|]; auto. destruct (on_combine o); auto.
  destruct (subtract _ _); auto.
Qed.

Lemma r_check_combination_ok r active n : r_check_combination r active n = Ok tt <->
  forall o mc k, lookup n (rg_ops r) = Some o -> on_combine o = Some mc -> In k active -> k <> on_name o -> In k mc.
Proof.
  unfold r_check_combination. destruct (lookup n _) as [o|]; [|split; auto; discriminate].
  destruct (on_combine o) as [mc|] eqn:Ec.
  - destruct (subtract _ _) as [|z zs] eqn:E; split; intros H; auto; try discriminate.
    + intros o' mc' k Ho Hm Hk Hn. injection Ho as <-. assert (mc' = mc) by congruence. subst mc'.
      apply (proj1 (subtract_nil _ _)) in E. apply E in Hk. apply in_app_iff in Hk as [Hk|[Hk|[]]]; auto. congruence.
    + exfalso. assert (X : subtract active (mc ++ [on_name o]) = []).
      { apply subtract_nil. intros k Hk. apply in_app_iff. destruct (string_dec k (on_name o)) as [-> | N]; [right; simpl; auto|].
        left. eapply H; eauto. }
      rewrite X in E. discriminate.
  - split; auto. intros _ o' mc k Ho Hm. injection Ho as <-. congruence.
Qed.

Lemma r_check_combinations_ok r active todo : r_check_combinations r active todo = Ok tt <->
  forall n, In n todo -> r_check_combination r active n = Ok tt.
Proof.
  induction todo as [|x todo IH]; simpl; [split; auto; tauto|].
  destruct (r_check_combination_cases r active x) as [E|E]; rewrite E; simpl.
  - rewrite IH. split; intros H; auto. intros n [<- | Hn]; auto.
  - split; [discriminate|]. intros H. specialize (H x (or_introl eq_refl)). congruence.
Qed.

Lemma r_check_combinations_cases r active todo :
  r_check_combinations r active todo = Ok tt \/ r_check_combinations r active todo = Err.
Proof.
  induction todo as [|x todo IH]; simpl; auto.
  destruct (r_check_combination_cases r active x) as [-> | ->]; simpl; auto.
Qed.

Lemma combinations_listed r e : r_check_combinations r (keys e) (keys e) = Ok tt <-> mutually_listed r e.
Proof.
  rewrite r_check_combinations_ok. unfold mutually_listed. split.
  - intros H n o mc k Hn Ho Hm Hk N. specialize (H n Hn). rewrite r_check_combination_ok in H. exact (H o mc k Ho Hm Hk N).
  - intros H n Hn. apply r_check_combination_ok. intros o mc k Ho Hm Hk N. exact (H n o mc k Hn Ho Hm Hk N).
Qed.

(** ** The built-in registry is the model of Policy.v *)

Lemma builtin_order : rg_order builtin = map op_name operator_order.
Proof. reflexivity. Qed.
Lemma builtin_verifiers : rg_verifiers builtin = policy_verifiers.
Proof. reflexivity. Qed.
Lemma builtin_lookup n : lookup n (rg_ops builtin) = option_map builtin_operator (operator_of n).
Proof.
  change (rg_ops builtin) with [("subset_of", builtin_operator OSubsetOf); ("one_of", builtin_operator OOneOf);
    ("superset_of", builtin_operator OSupersetOf); ("add", builtin_operator OAdd); ("value", builtin_operator OValue);
    ("default", builtin_operator ODefault); ("essential", builtin_operator OEssential)].
  unfold operator_of. cbn [lookup].
  destruct (String.eqb n "subset_of"); [reflexivity|]. destruct (String.eqb n "one_of"); [reflexivity|].
  destruct (String.eqb n "superset_of"); [reflexivity|]. destruct (String.eqb n "add"); [reflexivity|].
  destruct (String.eqb n "value"); [reflexivity|]. destruct (String.eqb n "default"); [reflexivity|].
  destruct (String.eqb n "essential"); reflexivity.
Qed.

Lemma builtin_combination active n : r_check_combination builtin active n = check_combination active n.
Proof.
  unfold r_check_combination, check_combination. rewrite builtin_lookup.
  destruct (operator_of n) as [o|]; auto. simpl. destruct (may_combine_with o); auto.
Qed.

Lemma builtin_combinations active todo : r_check_combinations builtin active todo = check_combinations active todo.
Proof. induction todo as [|x todo IH]; simpl; auto. now rewrite builtin_combination, IH. Qed.

Lemma builtin_verify e : r_verify_entry builtin e = verify_entry e.
Proof. unfold r_verify_entry, verify_entry. now rewrite builtin_combinations. Qed.

Lemma operator_of_name o : operator_of (op_name o) = Some o.
Proof. destruct o; reflexivity. Qed.

Lemma builtin_apply_ops os e ess : forall v set, r_apply_ops builtin (map op_name os) e ess v set = apply_ops os e ess v set.
Proof.
  induction os as [|o os IH]; intros v set; cbn [map r_apply_ops apply_ops]; auto.
  unfold get. destruct (lookup (op_name o) e) as [pv|]; auto.
  rewrite builtin_lookup, operator_of_name. cbn [option_map on_apply builtin_operator].
  destruct (apply_op o v set pv ess) as [[v' s']| |]; simpl; auto.
Qed.

Lemma builtin_apply e v set : r_apply_to builtin e v set = apply_to e v set.
Proof. unfold r_apply_to, apply_to. rewrite builtin_order. now rewrite builtin_apply_ops. Qed.

Lemma builtin_merge_loop a b : forall out, r_merge_loop builtin a b out = merge_loop a b out.
Proof.
  induction a as [|[k av] a IH]; intros out; cbn [r_merge_loop merge_loop]; auto.
  destruct (lookup k b) as [bv|]; auto. rewrite builtin_lookup.
  destruct (operator_of k) as [o|]; cbn [option_map builtin_operator on_merge]; auto.
  destruct (merge_op o av bv); simpl; auto.
Qed.

Lemma builtin_merge a b : r_merge_entries builtin a b = merge_entries a b.
Proof. unfold r_merge_entries, merge_entries. now rewrite builtin_merge_loop. Qed.

Lemma builtin_all : forall a b v set,
  r_verify_entry builtin a = verify_entry a /\ r_apply_to builtin a v set = apply_to a v set /\
  r_merge_entries builtin a b = merge_entries a b.
Proof. intros. rewrite builtin_verify, builtin_apply, builtin_merge. auto. Qed.

(** ** Exactness of Verify *)

Definition osub (x y : option (list string)) : bool :=
  match x, y with Some l, Some l' => forallb (fun z => mem z l') l | _, _ => true end.

Lemma osub_ok x y : osub x y = true <-> opt x (fun l => opt y (fun l' => incl l l')).
Proof.
  destruct x as [l|], y as [l'|]; simpl; try (split; auto; fail). apply forallb_mem_incl.
Qed.

Lemma verify_sub_val small big p x y :
  operand_is p (op_name small) x -> operand_is p (op_name big) y ->
  verify_sub small big p = if osub x y then Ok tt else Err.
Proof.
  unfold verify_sub, get. intros Hx Hy.
  destruct x as [lx|], y as [ly|]; cbn [osub]; cbn [operand_is] in Hx, Hy.
  - destruct Hx as (u & Eu & Su), Hy as (v & Ev & Sv). rewrite Eu, Ev.
    now rewrite (is_subset_of_strs _ _ _ _ Su Sv).
  - destruct Hx as (u & Eu & Su). now rewrite Eu, Hy.
  - now rewrite Hx.
  - now rewrite Hx.
Qed.

Definition one_of_alone (s : sentry) : Prop :=
  se_one_of s <> None -> se_add s = None /\ se_subset_of s = None /\ se_superset_of s = None.

Lemma operand_key e k x : operand_is e k x -> (In k (keys e) <-> x <> None).
Proof.
  destruct x as [l|]; cbn [operand_is].
  - intros (v & Ev & _). apply lookup_keys in Ev. split; auto. discriminate.
  - intros H. apply lookup_None in H. tauto.
Qed.

Lemma combinations_exact e s : denotes e s -> (check_combinations (keys e) (keys e) = Ok tt <-> one_of_alone s).
Proof.
  intros D. rewrite <- builtin_combinations, combinations_listed.
  pose proof (operand_key _ _ _ (dn_one_of _ _ D)) as Ko. pose proof (operand_key _ _ _ (dn_add _ _ D)) as Ka.
  pose proof (operand_key _ _ _ (dn_subset_of _ _ D)) as Ks. pose proof (operand_key _ _ _ (dn_superset_of _ _ D)) as Kp.
  unfold mutually_listed, one_of_alone. split.
  - intros H Ho. apply Ko in Ho.
    assert (X : forall k, In k (keys e) -> k <> "one_of" -> In k ["value"; "default"; "essential"]).
    { intros k Hk N. eapply (H "one_of" (builtin_operator OOneOf)); eauto; reflexivity. }
    repeat split.
    + destruct (se_add s) eqn:E; auto. exfalso. destruct (X "add") as [Y|[Y|[Y|[]]]]; try discriminate Y; [|discriminate].
      apply Ka. discriminate.
    + destruct (se_subset_of s) eqn:E; auto. exfalso. destruct (X "subset_of") as [Y|[Y|[Y|[]]]]; try discriminate Y; [|discriminate].
      apply Ks. discriminate.
    + destruct (se_superset_of s) eqn:E; auto. exfalso. destruct (X "superset_of") as [Y|[Y|[Y|[]]]]; try discriminate Y; [|discriminate].
      apply Kp. discriminate.
  - intros H n o mc k Hn Ho Hm Hk N. rewrite builtin_lookup in Ho.
    assert (NA : In "one_of" (keys e) -> ~ In "add" (keys e) /\ ~ In "subset_of" (keys e) /\ ~ In "superset_of" (keys e)).
    { intros Hi. apply Ko in Hi. destruct (H Hi) as (A & B & C). rewrite Ka, Ks, Kp, A, B, C. tauto. }
    pose proof (dn_known _ _ D n Hn) as Kn. pose proof (dn_known _ _ D k Hk) as Kk.
    clear - NA Hn Ho Hm Hk N Kn Kk. simpl in Kn, Kk.
    destruct Kn as [<-|[<-|[<-|[<-|[<-|[<-|[<-|[]]]]]]]]; injection Ho as <-; cbn in Hm; try discriminate Hm;
      injection Hm as <-; destruct Kk as [<-|[<-|[<-|[<-|[<-|[<-|[<-|[]]]]]]]];
      try (exfalso; apply N; reflexivity); try (simpl; tauto); exfalso; tauto.
Qed.

Lemma combinations_cases active todo : check_combinations active todo = Ok tt \/ check_combinations active todo = Err.
Proof. rewrite <- builtin_combinations. apply r_check_combinations_cases. Qed.

Lemma strs_elems v l : strs v l -> exists t n, slicify v = VSlice t n (map VStr l) /\ elems (slicify v) = Ok (map VStr l).
Proof. intros S. apply strs_slicify in S as (t & n & _ & E). exists t, n. rewrite E. auto. Qed.

(** What the verifiers answer when the operators may be combined. *)
Definition verdict (s : sentry) : res unit :=
  if osub (se_superset_of s) (se_subset_of s) then
    if osub (se_add s) (se_subset_of s) then
      if match se_value s, se_add s with
         | Some (Some l), a => osub a (Some l)
         | Some None, Some (_ :: _) => false
         | _, _ => true
         end then
        match se_one_of s with
        | Some [] => Err
        | _ =>
            match se_value s, se_subset_of s with
            | Some None, Some _ => Panic
            | Some (Some l), Some q => if osub (Some l) (Some q) then Ok tt else Err
            | Some None, None => match se_default s with Some _ => Err | None => Ok tt end
            | _, _ => Ok tt
            end
        end
      else Err
    else Err
  else Err.

Lemma verifiers_verdict e s : denotes e s -> one_of_alone s -> run_verifiers policy_verifiers e = verdict s.
Proof.
  intros D A.
  assert (V1 : verify_subset_superset_oneof e = Ok tt).
  { unfold verify_subset_superset_oneof. cbn [op_name].
    pose proof (operand_key _ _ _ (dn_one_of _ _ D)) as Ko.
    pose proof (operand_key _ _ _ (dn_subset_of _ _ D)) as Ks. pose proof (operand_key _ _ _ (dn_superset_of _ _ D)) as Kp.
    destruct (has "one_of" e) eqn:E; auto. apply has_In in E. apply Ko in E. destruct (A E) as (_ & B & C).
    rewrite B in Ks. rewrite C in Kp.
    destruct (has "subset_of" e) eqn:E1; [apply has_In in E1; tauto|].
    destruct (has "superset_of" e) eqn:E2; [apply has_In in E2; tauto|]. reflexivity. }
  assert (V4 : verify_add_in_oneof e = Ok tt).
  { unfold verify_add_in_oneof, get. cbn [op_name].
    destruct (lookup "one_of" e) as [v|] eqn:E; auto. apply lookup_keys in E.
    apply (operand_key _ _ _ (dn_one_of _ _ D)) in E. destruct (A E) as (B & _).
    pose proof (dn_add _ _ D) as Da. rewrite B in Da. cbn [operand_is] in Da. now rewrite Da. }
  assert (V2 : verify_subset_superset e = if osub (se_superset_of s) (se_subset_of s) then Ok tt else Err).
  { apply verify_sub_val; apply D. }
  assert (V3 : verify_add_in_subset e = if osub (se_add s) (se_subset_of s) then Ok tt else Err).
  { apply verify_sub_val; apply D. }
  assert (V6 : verify_oneof_has_values e = match se_one_of s with Some [] => Err | _ => Ok tt end).
  { unfold verify_oneof_has_values, get. cbn [op_name]. pose proof (dn_one_of _ _ D) as Do.
    destruct (se_one_of s) as [l|]; cbn [operand_is] in Do.
    - destruct Do as (v & Ev & Sv). rewrite Ev, (strs_not_nil _ _ Sv). destruct (strs_elems _ _ Sv) as (t & n & _ & ->).
      destruct l; reflexivity.
    - now rewrite Do. }
  assert (V5 : verify_add_in_value e = if match se_value s, se_add s with
         | Some (Some l), a => osub a (Some l)
         | Some None, Some (_ :: _) => false
         | _, _ => true
         end then Ok tt else Err).
  { pose proof (dn_value _ _ D) as Dv. pose proof (dn_add _ _ D) as Da. unfold verify_add_in_value.
    destruct (se_value s) as [[l|]|].
    - now rewrite (verify_sub_val OAdd OValue e _ _ Da Dv).
    - unfold verify_sub, get. cbn [op_name]. rewrite Dv. destruct (se_add s) as [la|]; cbn [operand_is] in Da.
      + destruct Da as (u & Eu & Su). rewrite Eu. unfold is_subset_of. destruct (strs_elems _ _ Su) as (t & n & _ & ->).
        cbn [bind]. destruct la; reflexivity.
      + now rewrite Da.
    - unfold verify_sub, get. cbn [op_name operand_is] in *. rewrite Dv. destruct (se_add s); cbn [operand_is] in Da.
      + destruct Da as (u & Eu & _). now rewrite Eu.
      + now rewrite Da. }
  assert (V7 : verify_subset_and_value e = match se_value s, se_subset_of s with
            | Some None, Some _ => Panic
            | Some (Some l), Some q => if osub (Some l) (Some q) then Ok tt else Err
            | _, _ => Ok tt end).
  { pose proof (dn_value _ _ D) as Dv. pose proof (dn_subset_of _ _ D) as Ds. unfold verify_subset_and_value.
    destruct (se_value s) as [[l|]|].
    - rewrite (verify_sub_val OValue OSubsetOf e _ _ Dv Ds). destruct (se_subset_of s); reflexivity.
    - unfold verify_sub, get. cbn [op_name]. rewrite Dv. destruct (se_subset_of s); cbn [operand_is] in Ds.
      + destruct Ds as (u & Eu & _). rewrite Eu. reflexivity.
      + now rewrite Ds.
    - unfold verify_sub, get. cbn [op_name operand_is] in *. now rewrite Dv. }
  assert (V8 : verify_default_and_value e = match se_value s, se_default s with Some None, Some _ => Err | _, _ => Ok tt end).
  { pose proof (dn_value _ _ D) as Dv. pose proof (dn_default _ _ D) as Dd. unfold verify_default_and_value, get. cbn [op_name].
    destruct (se_value s) as [[l|]|].
    - destruct Dv as (v & Ev & Sv). rewrite Ev, (strs_not_nil _ _ Sv). now destruct (lookup "default" e).
    - rewrite Dv. destruct (se_default s); cbn [operand_is] in Dd.
      + destruct Dd as (u & Eu & _). now rewrite Eu.
      + now rewrite Dd.
    - cbn [operand_is] in Dv. now rewrite Dv. }
  unfold policy_verifiers. cbn [run_verifiers]. rewrite V1, V2, V3, V4, V5, V6, V7, V8. cbn [bind]. unfold verdict.
  destruct (osub (se_superset_of s) (se_subset_of s)); cbn [bind]; auto.
  destruct (osub (se_add s) (se_subset_of s)); cbn [bind]; auto.
  destruct (match se_value s, se_add s with Some (Some l), a => osub a (Some l) | Some None, Some (_ :: _) => false | _, _ => true end);
    cbn [bind]; auto.
  destruct (se_one_of s) as [[|x q]|]; cbn [bind]; auto; destruct (se_value s) as [[l|]|]; cbn [bind]; auto;
    destruct (se_subset_of s) as [q'|]; cbn [bind]; auto; try (destruct (osub (Some l) (Some q')); reflexivity);
    destruct (se_default s); reflexivity.
Qed.

Lemma verify_exact e s : denotes e s -> (verify_entry e = Ok tt <-> consistent s).
Proof.
  intros D. unfold verify_entry. split.
  - intros H. apply bind_ok in H as ([] & HC & HV). apply (combinations_exact _ _ D) in HC.
    rewrite (verifiers_verdict _ _ D HC) in HV. unfold verdict in HV.
    destruct (osub (se_superset_of s) (se_subset_of s)) eqn:E1; [|discriminate].
    destruct (osub (se_add s) (se_subset_of s)) eqn:E2; [|discriminate].
    destruct (match se_value s, se_add s with Some (Some l), a => osub a (Some l) | Some None, Some (_ :: _) => false | _, _ => true end) eqn:E3;
      [|discriminate].
    apply osub_ok in E1, E2. constructor; auto.
    + intros E. rewrite E in HV. discriminate.
    + intros l E. rewrite E in E3. apply osub_ok in E3. destruct (se_add s); auto.
    + intros l E. rewrite E in HV. destruct (se_subset_of s) as [q|]; cbn [opt]; auto.
      destruct (osub (Some l) (Some q)) eqn:E4; [now apply osub_ok in E4|].
      destruct (se_one_of s) as [[|]|]; discriminate.
    + intros E. rewrite E in E3, HV. repeat split.
      * destruct (se_add s) as [[|]|]; auto. discriminate.
      * destruct (se_subset_of s); auto. destruct (se_one_of s) as [[|]|]; discriminate.
      * destruct (se_subset_of s); [destruct (se_one_of s) as [[|]|]; discriminate|].
        destruct (se_default s); auto. destruct (se_one_of s) as [[|]|]; discriminate.
  - intros C. assert (A : one_of_alone s) by (exact (cn_one_of_alone _ C)).
    rewrite (proj2 (combinations_exact _ _ D) A). cbn [bind]. rewrite (verifiers_verdict _ _ D A). unfold verdict.
    rewrite (proj2 (osub_ok _ _) (cn_superset_subset _ C)), (proj2 (osub_ok _ _) (cn_add_subset _ C)).
    pose proof (cn_one_of_some _ C) as Q. pose proof (cn_add_value _ C) as AV. pose proof (cn_value_subset _ C) as VS.
    pose proof (cn_null _ C) as N.
    destruct (se_value s) as [[l|]|].
    + specialize (AV l eq_refl). specialize (VS l eq_refl).
      assert (osub (se_add s) (Some l) = true) as ->. { apply osub_ok. destruct (se_add s); auto. }
      destruct (se_one_of s) as [[|]|]; [congruence| |]; (destruct (se_subset_of s) as [q'|]; [|reflexivity]);
        rewrite (proj2 (osub_ok (Some l) (Some q'))); auto.
    + destruct (N eq_refl) as (Na & -> & ->).
      destruct Na as [-> | ->]; destruct (se_one_of s) as [[|]|]; congruence.
    + destruct (se_one_of s) as [[|]|]; congruence.
Qed.

Lemma verify_panics_exact e s : denotes e s -> (verify_entry e = Panic <-> null_beside_subset s).
Proof.
  intros D. unfold verify_entry. split.
  - intros H. destruct (combinations_cases (keys e) (keys e)) as [HC|HC]; rewrite HC in H; [|discriminate].
    cbn [bind] in H. apply (combinations_exact _ _ D) in HC. rewrite (verifiers_verdict _ _ D HC) in H. unfold verdict in H.
    destruct (osub (se_superset_of s) (se_subset_of s)) eqn:E1; [|discriminate].
    destruct (osub (se_add s) (se_subset_of s)) eqn:E2; [|discriminate].
    destruct (se_value s) as [[l|]|] eqn:Ev.
    + exfalso. destruct (osub (se_add s) (Some l)); [|discriminate]. destruct (se_one_of s) as [[|]|]; try discriminate H;
        (destruct (se_subset_of s) as [q'|]; [|discriminate H]); destruct (osub (Some l) (Some q')); discriminate H.
    + destruct (se_subset_of s) as [q|] eqn:Eq.
      2:{ exfalso. destruct (se_add s) as [[|]|]; try discriminate H; destruct (se_one_of s) as [[|]|]; try discriminate H;
          destruct (se_default s); discriminate H. }
      unfold null_beside_subset. rewrite Eq, Ev. repeat split.
      * exists q. split; auto. apply osub_ok in E1. destruct (se_superset_of s); auto.
      * destruct (se_one_of s) eqn:Eo; auto. exfalso. destruct (HC ltac:(congruence)) as (_ & X & _). congruence.
      * destruct (se_add s) as [[|]|]; auto. discriminate.
    + destruct (se_one_of s) as [[|]|]; discriminate.
  - intros (Ev & (q & Eq & Ep) & Eo & Ea).
    assert (A : one_of_alone s) by (unfold one_of_alone; rewrite Eo; congruence).
    rewrite (proj2 (combinations_exact _ _ D) A). cbn [bind]. rewrite (verifiers_verdict _ _ D A). unfold verdict.
    rewrite Eq, Ev, Eo. rewrite (proj2 (osub_ok (se_superset_of s) (Some q))) by (destruct (se_superset_of s); auto).
    destruct Ea as [-> | ->]; reflexivity.
Qed.

(** ** Satisfiability *)

Lemma slice_strs l b : strs (VSlice TAny b (map VStr l)) l.
Proof. right. exists TAny, b. auto. Qed.

Lemma present_slice l : ~ absent (VSlice TAny false (map VStr l)).
Proof. intros [H|[H|(t & H)]]; discriminate. Qed.

Lemma strs_absent v l : strs v l -> absent v -> l = [] \/ l = [""].
Proof.
  intros S [-> | [-> | (t & ->)]].
  - destruct S as [(x & E & _)|(t & n & _ & E)]; discriminate.
  - destruct S as [(x & E & ->)|(t & n & _ & E)]; [injection E as <-; auto|discriminate].
  - destruct S as [(x & E & _)|(t' & n & _ & E)]; [discriminate|]. injection E as _ _ E. destruct l; [auto|discriminate].
Qed.

Lemma same_nil l : same_elements l [] -> l = [].
Proof. intros H. destruct l as [|x l]; auto. destruct (proj1 (H x)); simpl; auto. Qed.

Lemma absent_witness s l : absent_form s l ->
  exists v l', strs v l' /\ same_elements l' l /\ absent v /\ se_essential s <> Some true.
Proof.
  intros (He & [-> | Hl]).
  - exists (VSlice TAny true (map VStr [])), []. repeat split; auto; try tauto; [apply slice_strs|right; right; eauto].
  - exists (VStr ""), [""]. repeat split; auto; try apply Hl; [left; eauto|right; left; auto].
Qed.

Lemma consistent_satisfiable s : consistent s -> value_fits s -> satisfiable s.
Proof.
  intros C F. unfold satisfiable. destruct (se_value s) as [[l|]|] eqn:Ev.
  - pose proof (cn_add_value _ C l Ev) as AV. pose proof (cn_value_subset _ C l Ev) as VS.
    pose proof (fits_one_of _ F l Ev) as FO. pose proof (fits_superset _ F l Ev) as FS.
    assert (Abs : absent_form s l -> exists v, respects s v /\ respects_essential s v).
    { intros Ab. destruct (absent_witness _ _ Ab) as (v & l' & Sv & El & Av & He). exists v. split; [|intros X; contradiction].
      constructor; rewrite ?Ev; cbn [opt].
      - exists l'. auto.
      - destruct (se_add s); cbn [opt] in *; auto. exists l'. split; auto. intros y Hy. apply El. auto.
      - destruct (se_one_of s); cbn [opt]; auto.
      - destruct (se_subset_of s); cbn [opt]; auto.
      - destruct (se_superset_of s); cbn [opt]; auto. }
    destruct (se_one_of s) as [q|] eqn:Eo.
    + destruct (cn_one_of_alone _ C) as (A1 & A2 & A3); [congruence|]. cbn [opt] in FO. destruct FO as [(x & Hx & Sx)|Ab]; auto.
      exists (VSlice TAny false (map VStr [x])). split; [|intros _; apply present_slice].
      constructor; rewrite ?A1, ?A2, ?A3, ?Ev, ?Eo; cbn [opt]; auto.
      * exists [x]. split; [apply slice_strs|]. intros y. symmetry. apply Sx.
      * right. exists x. split; auto. apply slice_strs.
    + assert (FS' : absent_form s l \/ opt (se_superset_of s) (fun q => incl q l)).
      { destruct (se_superset_of s); cbn [opt] in *; tauto. }
      destruct FS' as [Ab|FS']; auto.
      exists (VSlice TAny false (map VStr l)). split; [|intros _; apply present_slice].
      constructor; rewrite ?Ev, ?Eo; cbn [opt]; auto.
      * exists l. split; [apply slice_strs|]. intros y. tauto.
      * destruct (se_add s); cbn [opt] in *; auto. exists l. split; auto. apply slice_strs.
      * destruct (se_subset_of s); cbn [opt] in *; auto. right. exists l. split; auto. apply slice_strs.
      * destruct (se_superset_of s); cbn [opt] in *; auto. right. exists l. split; auto. apply slice_strs.
  - destruct (cn_null _ C Ev) as (Na & Ns & Nd).
    assert (HA : forall b, opt (se_add s) (fun l => exists l', strs (VSlice TAny b (map VStr [])) l' /\ incl l l')).
    { intros b. destruct Na as [-> | ->]; cbn [opt]; auto. exists []. split; [apply slice_strs|intros y []]. }
    assert (Es : se_essential s = Some true \/ se_essential s <> Some true).
    { destruct (se_essential s) as [[|]|]; auto; right; discriminate. }
    destruct Es as [Es|Es].
    + destruct (fits_null _ F Ev Es) as (Fo & Fs). exists (VSlice TAny false (map VStr [])).
      split; [|intros _; apply present_slice].
      constructor; rewrite ?Ev, ?Ns, ?Fo; cbn [opt]; auto.
      * right. apply slice_strs.
      * destruct Fs as [-> | ->]; cbn [opt]; auto. right. exists []. split; [apply slice_strs|intros y []].
    + assert (Ab : absent (VSlice TAny true (map VStr []))) by (right; right; eauto).
      exists (VSlice TAny true (map VStr [])). split; [|intros He; contradiction].
      constructor; rewrite ?Ev, ?Ns; cbn [opt]; auto.
      * right. apply slice_strs.
      * destruct (se_one_of s); cbn [opt]; auto.
      * destruct (se_superset_of s); cbn [opt]; auto.
  - destruct (se_one_of s) as [[|x q]|] eqn:Eo.
    + exfalso. exact (cn_one_of_some _ C Eo).
    + destruct (cn_one_of_alone _ C) as (A1 & A2 & A3); [congruence|].
      exists (VSlice TAny false (map VStr [x])). split; [|intros _; apply present_slice].
      constructor; rewrite ?A1, ?A2, ?A3, ?Ev, ?Eo; cbn [opt]; auto.
      right. exists x. split; [apply slice_strs|simpl; auto].
    + set (oe := fun x : option (list string) => match x with Some l => l | None => [] end).
      set (l := (oe (se_add s) ++ oe (se_superset_of s))%list).
      exists (VSlice TAny false (map VStr l)). split; [|intros _; apply present_slice].
      pose proof (cn_add_subset _ C) as AS. pose proof (cn_superset_subset _ C) as SS.
      constructor; rewrite ?Ev, ?Eo; cbn [opt]; auto.
      * destruct (se_add s) as [a|]; cbn [opt]; auto. exists l. split; [apply slice_strs|].
        intros y Hy. unfold l. cbn [oe]. apply in_app_iff. auto.
      * destruct (se_subset_of s) as [q|]; cbn [opt]; auto. right. exists l. split; [apply slice_strs|].
        intros y Hy. unfold l in Hy. apply in_app_iff in Hy as [Hy|Hy].
        -- destruct (se_add s); cbn [opt oe] in *; [auto|destruct Hy].
        -- destruct (se_superset_of s); cbn [opt oe] in *; [auto|destruct Hy].
      * destruct (se_superset_of s) as [a|]; cbn [opt]; auto. right. exists l. split; [apply slice_strs|].
        intros y Hy. unfold l. cbn [oe]. apply in_app_iff. auto.
Qed.

Lemma satisfiable_fits s : satisfiable s -> value_fits s.
Proof.
  intros (v & R & E).
  assert (A : forall l l', strs v l' -> same_elements l' l -> absent v -> absent_form s l).
  { intros l l' S El Ab. split; [intros X; exact (E X Ab)|].
    destruct (strs_absent _ _ S Ab) as [-> | ->].
    - left. apply same_nil. intros y. symmetry. apply El.
    - right. intros y. symmetry. apply El. }
  constructor.
  - intros l Ev. pose proof (rs_value _ _ R) as RV. rewrite Ev in RV. cbn [opt] in RV. destruct RV as (l' & S & El).
    pose proof (rs_one_of _ _ R) as RO. destruct (se_one_of s) as [q|]; cbn [opt] in *; auto.
    destruct RO as [Ab|(x & Sx & Hx)]; [right; eauto|left].
    exists x. split; auto. rewrite (strs_fun _ _ _ S Sx) in El. intros y. symmetry. apply El.
  - intros l Ev. pose proof (rs_value _ _ R) as RV. rewrite Ev in RV. cbn [opt] in RV. destruct RV as (l' & S & El).
    pose proof (rs_superset_of _ _ R) as RO. destruct (se_superset_of s) as [q|]; cbn [opt] in *; auto.
    destruct RO as [Ab|(l2 & S2 & H2)]; [right; eauto|left].
    rewrite (strs_fun _ _ _ S S2) in El. intros y Hy. apply El. auto.
  - intros Ev Es. specialize (E Es). pose proof (rs_value _ _ R) as RV. rewrite Ev in RV. cbn [opt] in RV.
    assert (S : strs v []). { destruct RV as [-> |S]; auto. exfalso. apply E. left. reflexivity. }
    split.
    + pose proof (rs_one_of _ _ R) as RO. destruct (se_one_of s) as [q|]; auto. cbn [opt] in RO.
      destruct RO as [Ab|(x & Sx & _)]; [contradiction|]. pose proof (strs_fun _ _ _ S Sx). discriminate.
    + pose proof (rs_superset_of _ _ R) as RO. destruct (se_superset_of s) as [q|]; auto. cbn [opt] in RO. right.
      destruct RO as [Ab|(l2 & S2 & H2)]; [contradiction|]. pose proof (strs_fun _ _ _ S S2). subst l2.
      destruct q as [|x q]; auto. destruct (H2 x); simpl; auto.
Qed.

Lemma accepted_exact e s : denotes e s -> verify_entry e = Ok tt -> (satisfiable s <-> value_fits s).
Proof.
  intros D H. apply (verify_exact _ _ D) in H. split; [apply satisfiable_fits|now apply consistent_satisfiable].
Qed.

(** ** Application with registered operators *)

Lemma r_apply_ops_turn r names e ess : forall v set v' set',
  r_apply_ops r names e ess v set = Ok (v', set') <->
  in_turn r ess (flat_map (fun n => match lookup n e with Some pv => [(n, pv)] | None => [] end) names) v set v' set'.
Proof.
  induction names as [|n names IH]; intros v set v' set'; cbn [r_apply_ops flat_map].
  - cbn [in_turn]. split; [intros H; injection H; auto|intros [-> ->]; auto].
  - destruct (lookup n e) as [pv|]; cbn [app]; [|apply IH]. cbn [in_turn].
    destruct (lookup n (rg_ops r)) as [o|] eqn:Eo.
    + split.
      * intros H. apply bind_ok in H as ([v1 s1] & H1 & H2). exists o, v1, s1. repeat split; auto. now apply IH.
      * intros (o' & v1 & s1 & Ho & H1 & H2). injection Ho as <-. rewrite H1. cbn [bind]. now apply IH.
    + split; [discriminate|]. intros (o' & v1 & s1 & Ho & _). discriminate.
Qed.

Lemma r_apply_exact r e v set v' :
  r_apply_to r e v set = Ok v' <-> exists set', in_turn r (entry_essential e) (effective r e) v set v' set'.
Proof.
  unfold r_apply_to, effective. split.
  - intros H. apply bind_ok in H as ([v1 s1] & H1 & H2). injection H2 as <-. exists s1. now apply r_apply_ops_turn.
  - intros (s1 & H). apply r_apply_ops_turn in H. rewrite H. reflexivity.
Qed.

Lemma in_turn_app r ess l1 : forall l2 v set v' set',
  in_turn r ess (l1 ++ l2) v set v' set' <-> exists v1 s1, in_turn r ess l1 v set v1 s1 /\ in_turn r ess l2 v1 s1 v' set'.
Proof.
  induction l1 as [|[n pv] l1 IH]; intros l2 v set v' set'; cbn [app in_turn].
  - split; [intros H; exists v, set; auto|intros (v1 & s1 & [-> ->] & H); auto].
  - split.
    + intros (o & v1 & s1 & Ho & Ha & H). apply IH in H as (v2 & s2 & H1 & H2). exists v2, s2. split; auto. exists o, v1, s1. auto.
    + intros (v2 & s2 & (o & v1 & s1 & Ho & Ha & H1) & H2). exists o, v1, s1. repeat split; auto. apply IH. eauto.
Qed.

Lemma r_enforced r e v set v' n pv :
  In n (rg_order r) -> lookup n e = Some pv -> r_apply_to r e v set = Ok v' ->
  exists o v1 s1 v2 s2, lookup n (rg_ops r) = Some o /\ on_apply o v1 s1 pv (entry_essential e) = Ok (v2, s2).
Proof.
  intros Hn Hp H. apply r_apply_exact in H as (s' & H). apply in_split in Hn as (l1 & l2 & El).
  unfold effective in H. rewrite El, flat_map_app in H. cbn [flat_map] in H. rewrite Hp in H.
  apply in_turn_app in H as (v1 & s1 & _ & H). cbn [app in_turn] in H. destruct H as (o & v2 & s2 & Ho & Ha & _).
  exists o, v1, s1, v2, s2. auto.
Qed.

Lemma r_last_word r e v set v' n pv l :
  rg_order r = (l ++ [n])%list -> lookup n e = Some pv -> r_apply_to r e v set = Ok v' ->
  exists o v1 s1 s2, lookup n (rg_ops r) = Some o /\ on_apply o v1 s1 pv (entry_essential e) = Ok (v', s2).
Proof.
  intros El Hp H. apply r_apply_exact in H as (s' & H).
  unfold effective in H. rewrite El, flat_map_app in H. cbn [flat_map] in H. rewrite Hp in H.
  apply in_turn_app in H as (v1 & s1 & _ & H). cbn [app in_turn] in H. destruct H as (o & v2 & s2 & Ho & Ha & [-> ->]).
  exists o, v1, s1, s2. auto.
Qed.

(** Operators that are not in the order do nothing. *)
Lemma r_unordered r e v set n : ~ In n (rg_order r) -> n <> "essential" ->
  r_apply_to r (filter (fun kv => negb (String.eqb (fst kv) n)) e) v set = r_apply_to r e v set.
Proof.
  intros Hn Hne. unfold r_apply_to.
  assert (L : forall k, k <> n -> lookup k (filter (fun kv => negb (String.eqb (fst kv) n)) e) = lookup k e).
  { intros k Hk. clear - Hk. induction e as [|[k' x] e IH]; simpl; auto.
    destruct (String.eqb_spec k' n) as [-> | N]; simpl.
    - rewrite IH. destruct (String.eqb_spec k n); congruence.
    - now rewrite IH. }
  assert (entry_essential (filter (fun kv => negb (String.eqb (fst kv) n)) e) = entry_essential e) as ->.
  { unfold entry_essential, get. rewrite L; auto. }
  f_equal. revert v set. generalize (entry_essential e) as ess. intros ess. induction (rg_order r) as [|x l IH]; intros v set; cbn [r_apply_ops]; auto.
  rewrite L by (intros ->; apply Hn; simpl; auto).
  destruct (lookup x e) as [pv|]; [|apply IH; simpl in Hn; tauto].
  destruct (lookup x (rg_ops r)) as [o|]; auto. destruct (on_apply o v set pv ess) as [[v1 s1]| |]; cbn [bind]; auto.
  apply IH. simpl in Hn; tauto.
Qed.

(** ** Merging with registered operators *)

Definition r_merge_at (r : registry) (b : entry) (kv : string * gval) : res (string * gval) :=
  let '(k, av) := kv in
  match lookup k b with
  | None => Ok (k, av)
  | Some bv => match lookup k (rg_ops r) with
               | None => Err
               | Some o => c <- on_merge o av bv ;; Ok (k, c)
               end
  end.

Lemma r_merge_loop_closed r a b out :
  NoDup (keys a) -> (forall k, In k (keys a) -> lookup k out = None) -> shared_registered r a b ->
  r_merge_loop r a b out = (l <- map_res (r_merge_at r b) a ;; Ok (Some (out ++ l)%list)).
Proof.
  revert out. induction a as [|[k av] a IH]; intros out ND Hout HK; cbn [r_merge_loop map_res].
  - cbn [bind]. now rewrite app_nil_r.
  - inversion ND as [|x y Hx ND']; subst.
    assert (HK' : shared_registered r a b).
    { intros k' H1 H2. apply HK; simpl; auto. }
    assert (Hout' : forall c k', In k' (keys a) -> lookup k' (insert k c out) = None).
    { intros c k' Hk'. rewrite lookup_insert. destruct (String.eqb_spec k' k); [subst; contradiction|].
      apply Hout; simpl; auto. }
    cbn [r_merge_at]. destruct (lookup k b) as [bv|] eqn:E.
    + destruct (lookup k (rg_ops r)) as [o|] eqn:Eo.
      2:{ exfalso. apply (HK k); simpl; auto. eapply lookup_keys; eauto. }
      destruct (on_merge o av bv) as [c| |]; cbn [bind]; auto.
      rewrite IH; auto. rewrite insert_app by (apply Hout; simpl; auto).
      destruct (map_res (r_merge_at r b) a); cbn [bind]; auto. now rewrite <- app_assoc.
    + cbn [bind]. rewrite IH; auto. rewrite insert_app by (apply Hout; simpl; auto).
      destruct (map_res (r_merge_at r b) a); cbn [bind]; auto. now rewrite <- app_assoc.
Qed.

Lemma r_merge_at_keys r b l l' : map_res (r_merge_at r b) l = Ok l' -> keys l' = keys l.
Proof.
  rewrite map_res_Forall2. intros H. induction H as [|[k av] [k' c] l l' H _ IH]; simpl; auto.
  f_equal; auto. simpl in H.
  destruct (lookup k b); [destruct (lookup k (rg_ops r)) as [o|]; [|discriminate]; destruct (on_merge o _ _)|]; simpl in H; congruence.
Qed.

Lemma r_merge_closed r a b :
  NoDup (keys a) -> NoDup (keys b) -> shared_registered r a b ->
  r_merge_entries r a b = (l <- map_res (r_merge_at r b) a ;; Ok (l ++ rest a b)%list).
Proof.
  intros NDa NDb HK. unfold r_merge_entries. rewrite r_merge_loop_closed; auto.
  destruct (map_res (r_merge_at r b) a) as [l| |] eqn:E; simpl; auto.
  rewrite merge_rest_closed by auto. f_equal. f_equal.
  unfold rest. apply filter_ext_in. intros [k v] _. simpl. f_equal.
  apply r_merge_at_keys in E. unfold has.
  destruct (lookup k l) eqn:E1, (lookup k a) eqn:E2; auto.
  - apply lookup_keys in E1. apply lookup_None in E2. congruence.
  - apply lookup_keys in E2. apply lookup_None in E1. congruence.
Qed.

Lemma r_merge_at_lookup r b l l' : NoDup (keys l) -> map_res (r_merge_at r b) l = Ok l' ->
  forall k, match lookup k l with
            | None => lookup k l' = None
            | Some av => r_merge_at r b (k, av) = match lookup k l' with Some c => Ok (k, c) | None => Err end
            end.
Proof.
  intros ND H. rewrite map_res_Forall2 in H. revert ND.
  induction H as [|[k0 av] [k' c] l l' H _ IH]; intros ND; [intros k; reflexivity|].
  inversion ND; subst.
  assert (k' = k0).
  { simpl in H. destruct (lookup k0 b); [destruct (lookup k0 (rg_ops r)) as [o|]; [|discriminate]; destruct (on_merge o _ _)|]; simpl in H; congruence. }
  subst k'. intros k. cbn [lookup]. destruct (String.eqb_spec k k0).
  - subst. exact H.
  - apply IH; auto.
Qed.

Lemma r_merge_lookup r a b m :
  NoDup (keys a) -> NoDup (keys b) -> shared_registered r a b ->
  r_merge_entries r a b = Ok m -> forall k, r_merged_at r a b m k.
Proof.
  intros NDa NDb HK. rewrite r_merge_closed by auto. intros H.
  apply bind_ok in H as (l & Hl & H). injection H as <-.
  pose proof (r_merge_at_keys _ _ _ _ Hl) as Ek.
  intros k. unfold r_merged_at. rewrite lookup_app, lookup_rest. unfold has.
  pose proof (r_merge_at_lookup _ _ _ _ NDa Hl k) as Hm.
  destruct (lookup k a) as [av|] eqn:Ea.
  - simpl in Hm. destruct (lookup k b) as [bv|] eqn:Eb.
    + destruct (lookup k (rg_ops r)) as [o|] eqn:Eo.
      * destruct (on_merge o av bv) as [c| |] eqn:Em; simpl in Hm; destruct (lookup k l) as [c'|] eqn:El; try discriminate.
        -- injection Hm as <-. eauto.
        -- exfalso. apply lookup_None in El. rewrite Ek in El. apply El. eapply lookup_keys; eauto.
      * exfalso. apply (HK k); auto; eapply lookup_keys; eauto.
    + destruct (lookup k l) as [c|]; congruence.
  - rewrite Hm. destruct (lookup k b); auto.
Qed.

(** A failing Merge of a registered operator is not lost. *)
Lemma r_merge_err r a b k o x y :
  NoDup (keys a) -> NoDup (keys b) -> shared_registered r a b ->
  lookup k a = Some x -> lookup k b = Some y -> lookup k (rg_ops r) = Some o -> (forall c, on_merge o x y <> Ok c) ->
  forall m, r_merge_entries r a b <> Ok m.
Proof.
  intros NDa NDb HK Ha Hb Ho Hm m H. pose proof (r_merge_lookup _ _ _ _ NDa NDb HK H k) as L.
  unfold r_merged_at in L. rewrite Ha, Hb in L. destruct L as (o' & c & Ho' & Hc & _). rewrite Ho in Ho'. injection Ho' as <-.
  exact (Hm c Hc).
Qed.

(** ** Registering an operator the entry does not name *)

Lemma conservative r o l1 l2 e v set : rg_order r = (l1 ++ l2)%list -> ~ In (on_name o) (keys e) ->
  r_verify_entry (with_operator r o l1 l2) e = r_verify_entry r e /\
  r_apply_to (with_operator r o l1 l2) e v set = r_apply_to r e v set /\
  (forall b, r_merge_entries (with_operator r o l1 l2) e b = r_merge_entries r e b) /\
  (forall b, r_merge_entries (with_operator r o l1 l2) b e = r_merge_entries r b e).
Proof.
  intros El Hn. set (r' := with_operator r o l1 l2).
  assert (L : forall k, k <> on_name o -> lookup k (rg_ops r') = lookup k (rg_ops r)).
  { intros k Hk. unfold r'. cbn [with_operator rg_ops]. rewrite lookup_insert. destruct (String.eqb_spec k (on_name o)); congruence. }
  assert (Hno : lookup (on_name o) e = None) by (now apply lookup_None).
  repeat split.
  - unfold r_verify_entry. change (rg_verifiers r') with (rg_verifiers r). f_equal.
    assert (X : forall todo, ~ In (on_name o) todo -> r_check_combinations r' (keys e) todo = r_check_combinations r (keys e) todo).
    { induction todo as [|x todo IH]; intros N; cbn [r_check_combinations]; auto. rewrite IH by (simpl in N; tauto). f_equal.
      unfold r_check_combination. rewrite L; auto. intros ->. apply N. simpl; auto. }
    now apply X.
  - unfold r_apply_to. f_equal. change (rg_order r') with (l1 ++ on_name o :: l2)%list. rewrite El.
    generalize (entry_essential e) as ess. intros ess.
    assert (X : forall l, ~ In (on_name o) l -> forall v set, r_apply_ops r' l e ess v set = r_apply_ops r l e ess v set).
    { induction l as [|x l IH]; intros N v0 set0; cbn [r_apply_ops]; auto.
      destruct (lookup x e) as [pv|]; [|apply IH; simpl in N; tauto]. rewrite L by (intros ->; apply N; simpl; auto).
      destruct (lookup x (rg_ops r)) as [o'|]; auto. destruct (on_apply o' v0 set0 pv ess) as [[v1 s1]| |]; cbn [bind]; auto.
      apply IH. simpl in N; tauto. }
    assert (Y : forall l l3 v set, r_apply_ops r' (l ++ on_name o :: l3)%list e ess v set = r_apply_ops r' (l ++ l3)%list e ess v set).
    { induction l as [|x l IH]; intros l3 v0 set0; cbn [app r_apply_ops].
      - now rewrite Hno.
      - destruct (lookup x e) as [pv|]; auto. destruct (lookup x (rg_ops r')) as [o'|]; auto.
        destruct (on_apply o' v0 set0 pv ess) as [[v1 s1]| |]; cbn [bind]; auto. }
    rewrite Y. clear Y X El. revert v set. induction (l1 ++ l2)%list as [|x l IH]; intros v set; cbn [r_apply_ops]; auto.
    destruct (lookup x e) as [pv|] eqn:E; auto. rewrite L by (intros ->; congruence).
    destruct (lookup x (rg_ops r)) as [o'|]; auto. destruct (on_apply o' v set pv ess) as [[v1 s1]| |]; cbn [bind]; auto.
  - intros b. unfold r_merge_entries. f_equal.
    assert (X : forall a out, ~ In (on_name o) (keys a) -> r_merge_loop r' a b out = r_merge_loop r a b out).
    { induction a as [|[k av] a IH]; intros out N; cbn [r_merge_loop]; auto. simpl in N.
      destruct (lookup k b); [|apply IH; tauto]. rewrite L by (intros ->; tauto).
      destruct (lookup k (rg_ops r)) as [o'|]; auto. destruct (on_merge o' av g); cbn [bind]; auto. }
    now apply X.
  - intros b. unfold r_merge_entries. f_equal. generalize (@nil (string * gval)) as out. induction b as [|[k av] b IH]; intros out; cbn [r_merge_loop]; auto.
    destruct (lookup k e) eqn:E; [|apply IH]. rewrite L by (intros ->; congruence).
    destruct (lookup k (rg_ops r)) as [o'|]; auto. destruct (on_merge o' av g); cbn [bind]; auto.
Qed.

(** ** Verifiers *)

Lemma run_verifiers_ok vs e : run_verifiers vs e = Ok tt <-> forall v, In v vs -> v e = Ok tt.
Proof.
  induction vs as [|v vs IH]; cbn [run_verifiers].
  - split; auto. intros _ v [].
  - split.
    + intros H. apply bind_ok in H as ([] & H1 & H2). intros w [<- | Hw]; auto. now apply IH.
    + intros H. rewrite (H v) by (simpl; auto). cbn [bind]. apply IH. intros w Hw. apply H. simpl; auto.
Qed.

Lemma r_verify_exact r e : r_verify_entry r e = Ok tt <->
  mutually_listed r e /\ forall v, In v (rg_verifiers r) -> v e = Ok tt.
Proof.
  unfold r_verify_entry. rewrite <- combinations_listed, <- run_verifiers_ok. split.
  - intros H. now apply bind_ok in H as ([] & H1 & H2).
  - intros (-> & H). exact H.
Qed.

Lemma stricter r v e : r_verify_entry (register_verifier v r) e = Ok tt <-> r_verify_entry r e = Ok tt /\ v e = Ok tt.
Proof.
  rewrite !r_verify_exact. cbn [register_verifier rg_verifiers]. unfold mutually_listed. cbn [rg_ops].
  split.
  - intros (M & H). repeat split; auto; intros; apply H; apply in_app_iff; simpl; auto.
  - intros ((M & H) & Hv). split; auto. intros w Hw. apply in_app_iff in Hw as [Hw|[<- |[]]]; auto.
Qed.

(** A custom operator cannot be combined with a built-in one (other than essential), whatever
    MayCombineWith says. *)
Lemma custom_never_combines o l1 l2 e b : (l1 ++ l2)%list = rg_order builtin ->
  operator_of (on_name o) = None -> In (on_name o) (keys e) -> In (op_name b) (keys e) -> b <> OEssential ->
  r_verify_entry (with_operator builtin o l1 l2) e = Err.
Proof.
  intros _ Hn Ho Hb Nb. unfold r_verify_entry.
  destruct (r_check_combinations_cases (with_operator builtin o l1 l2) (keys e) (keys e)) as [E|E]; rewrite E; [|reflexivity].
  exfalso. apply combinations_listed in E.
  assert (Nn : op_name b <> on_name o). { intros X. rewrite <- X, operator_of_name in Hn. discriminate. }
  assert (exists mc, may_combine_with b = Some mc) as (mc & Em). { destruct b; simpl; eauto. congruence. }
  assert (In (on_name o) (map op_name mc)) as Hi.
  { eapply (E (op_name b) (builtin_operator b)); eauto.
    - cbn [with_operator rg_ops]. rewrite lookup_insert. destruct (String.eqb_spec (op_name b) (on_name o)); [contradiction|].
      now rewrite builtin_lookup, operator_of_name.
    - cbn [builtin_operator on_combine]. now rewrite Em. }
  apply in_map_iff in Hi as (x & Hx & _). rewrite <- Hx, operator_of_name in Hn. discriminate.
Qed.
