(** Algebraic laws of operand merging, in the form the property theorems use. *)
From Verif Require Import Base GoVal Policy BaseFacts SpecPolicy PolicyFacts MergeFacts RespectFacts ListFacts OpFacts CombineFacts.

Lemma merge_set_outcome o a b la lb :
  set_op o -> strs a la -> strs b lb ->
  exists c lc, merge_op o a b = Ok c /\ strs c lc /\ forall x, In x lc <-> op_elements o x la lb.
Proof. apply merge_set_op. Qed.

Theorem merge_symmetric o a b la lb :
  set_op o \/ (eq_op o /\ NoDup la /\ NoDup lb) -> strs a la -> strs b lb ->
  same_outcome (merge_op o a b) (merge_op o b a).
Proof.
  intros [H|(H & Na & Nb)] Ha Hb.
  - destruct (merge_set_op o a b la lb H Ha Hb) as (c & lc & -> & Hc & Ec).
    destruct (merge_set_op o b a lb la H Hb Ha) as (d & ld & -> & Hd & Ed).
    exists lc, ld. split; auto. split; auto. intros x. rewrite Ec, Ed.
    destruct H as [->|[->|[->| ->]]]; simpl; tauto.
  - destruct (merge_eq_op_iff o a b la lb H Na Nb Ha Hb) as [[S ->]|[S ->]];
      destruct (merge_eq_op_iff o b a lb la H Nb Na Hb Ha) as [[S' ->]|[S' ->]]; simpl; auto.
    + exists la, lb. auto.
    + apply S'. intros x. symmetry. apply S.
    + apply S. intros x. symmetry. apply S'.
Qed.

Theorem merge_associative o a b c la lb lc :
  set_op o \/ (eq_op o /\ NoDup la /\ NoDup lb /\ NoDup lc) -> strs a la -> strs b lb -> strs c lc ->
  same_outcome (ab <- merge_op o a b ;; merge_op o ab c) (bc <- merge_op o b c ;; merge_op o a bc).
Proof.
  intros [H|(H & Na & Nb & Nc)] Ha Hb Hc.
  - destruct (merge_set_op o a b la lb H Ha Hb) as (d & ld & -> & Hd & Ed). cbn [bind].
    destruct (merge_set_op o d c ld lc H Hd Hc) as (e & le & -> & He & Ee).
    destruct (merge_set_op o b c lb lc H Hb Hc) as (f & lf & -> & Hf & Ef). cbn [bind].
    destruct (merge_set_op o a f la lf H Ha Hf) as (g & lg & -> & Hg & Eg).
    exists le, lg. split; auto. split; auto. intros x. rewrite Ee, Eg.
    destruct H as [->|[->|[->| ->]]]; simpl in *; rewrite Ed, Ef; tauto.
  - destruct (merge_eq_op_iff o a b la lb H Na Nb Ha Hb) as [[S1 ->]|[S1 ->]];
    destruct (merge_eq_op_iff o b c lb lc H Nb Nc Hb Hc) as [[S2 ->]|[S2 ->]]; cbn [bind].
    + destruct (merge_eq_op_iff o a c la lc H Na Nc Ha Hc) as [[S3 ->]|[S3 ->]].
      * destruct (merge_eq_op_iff o a b la lb H Na Nb Ha Hb) as [[S4 ->]|[S4 ->]]; [|contradiction].
        exists la, la. split; auto. split; auto. intros x; tauto.
      * exfalso. apply S3. intros x. now rewrite (S1 x).
    + destruct (merge_eq_op_iff o a c la lc H Na Nc Ha Hc) as [[S3 ->]|[S3 ->]]; simpl; auto.
      exfalso. apply S2. intros x. now rewrite <- (S1 x).
    + destruct (merge_eq_op_iff o a b la lb H Na Nb Ha Hb) as [[S4 ->]|[S4 ->]]; [contradiction|exact I].
    + exact I.
Qed.

Theorem merge_self o a la :
  set_op o \/ eq_op o -> strs a la ->
  exists c lc, merge_op o a a = Ok c /\ strs c lc /\ same_elements lc la.
Proof.
  intros [H|H] Ha.
  - destruct (merge_set_op o a a la la H Ha Ha) as (c & lc & E & Hc & Ec).
    exists c, lc. split; auto. split; auto. intros x. rewrite Ec. destruct H as [->|[->|[->| ->]]]; simpl; tauto.
  - exists a, la. rewrite (merge_eq_op o a a la la H Ha Ha), Nat.eqb_refl.
    replace (forallb (fun x => mem x la) la) with true.
    + cbn. split; auto. split; auto. intros x; tauto.
    + symmetry. apply forallb_forall. intros x Hx. now apply mem_In.
Qed.

Theorem merge_essential_laws a b c :
  merge_op OEssential (VBool a) (VBool b) = Ok (VBool (a || b)) /\
  (ab <- merge_op OEssential (VBool a) (VBool b) ;; merge_op OEssential ab (VBool c)) =
  (bc <- merge_op OEssential (VBool b) (VBool c) ;; merge_op OEssential (VBool a) bc).
Proof. cbn. split; auto. now rewrite orb_assoc. Qed.

Theorem conflict_rejected o a b la lb c :
  eq_op o -> NoDup la -> NoDup lb -> strs a la -> strs b lb ->
  merge_op o a b = Ok c -> same_elements la lb /\ c = a.
Proof.
  intros H Na Nb Ha Hb E.
  destruct (merge_eq_op_iff o a b la lb H Na Nb Ha Hb) as [[S E']|[S E']]; rewrite E' in E; [|discriminate].
  injection E as <-. auto.
Qed.

Theorem list_operators e s n cur set :
  denotes e s -> list_operands e -> opt (se_add s) (@NoDup string) ->
  (se_value s = Some None -> se_add s = None /\ se_default s = None) ->
  (set = false -> n = true /\ cur = []) ->
  (se_essential s = Some true ->
     set = true \/ se_value s <> None \/ se_add s <> None \/ se_default s <> None) ->
  list_outcome (apply_to e (VSlice TStr n (map VStr cur)) set)
               (spec_apply s (if set then Some cur else None)).
Proof.
  intros D L ND NV Hs HE. apply apply_list; auto.
  intros E. destruct HE as [H|[H|[H|H]]]; auto.
  - unfold spec_ess in E. now destruct (se_essential s) as [[]|].
  - right. left. now destruct (se_value s).
  - right. right. left. now destruct (se_add s).
  - right. right. right. now destruct (se_default s).
Qed.

Theorem essential_enforced (e : entry) v set v' :
  lookup "essential" e = Some (VBool true) -> apply_to e v set = Ok v' -> there v'.
Proof. apply apply_to_essential. Qed.


(** An attribute that is there never fails because of essential. *)
Lemma apply_op_set o v pv ess ess' v' s' :
  o <> OEssential -> (o = OValue -> pv <> VNil) -> v <> VNil ->
  apply_op o v true pv ess = Ok (v', s') ->
  apply_op o v true pv ess' = Ok (v', s') /\ s' = true /\ v' <> VNil.
Proof.
  intros NE NV Hv H.
  assert (Nv : is_nil v = false) by (destruct v; auto; congruence).
  assert (CAST : forall a b r, a <> VNil -> slice_cast a b = Ok r -> r <> VNil).
  { intros a b r Ha E. destruct a; cbn [slice_cast] in E; try congruence; try (injection E as <-; discriminate).
    destruct (typeof b) as [[]|]; try discriminate. apply bind_ok in E as (l' & _ & E). injection E as <-. discriminate. }
  destruct o; try congruence; cbn [apply_op negb andb] in *; rewrite ?Nv in *.
  - destruct pv; [now specialize (NV eq_refl)|..]; cbn [is_nil] in *;
      (apply bind_ok in H as (r & E & H); injection H as <- <-;
       split; [now rewrite E|split; [auto|eapply CAST; [|exact E]; discriminate]]).
  - destruct (is_nil pv); [injection H as <- <-; auto|].
    apply bind_ok in H as (r & E & H). injection H as <- <-. rewrite E. split; [auto|split; auto].
    unfold union in E. destruct (slicify v) as [| | | | | | |ta na la]; try discriminate.
    destruct (slicify pv) as [| | | | | | |tb nb lb]; try discriminate.
    destruct lb; [injection E as <-; discriminate|]. destruct la.
    + eapply CAST; [|apply E]. discriminate.
    + apply bind_ok in E as (bs & _ & E). apply bind_ok in E as (lb' & _ & E). injection E as <-. discriminate.
  - injection H as <- <-. auto.
  - destruct (is_nil pv); [injection H as <- <-; auto|]. destruct (slice_contains _ _); [|discriminate].
    injection H as <- <-. auto.
  - destruct (is_nil pv); [injection H as <- <-; auto|].
    apply bind_ok in H as (r & E & H). injection H as <- <-. rewrite E. split; [auto|split; auto].
    unfold intersect in E. destruct (slicify (slicify v)) as [| | | | | | |ta na la]; try discriminate.
    destruct (slicify (slicify pv)) as [| | | | | | |tb nb lb]; try discriminate.
    apply bind_ok in E as (bs & _ & E). injection E as <-. discriminate.
  - destruct (is_nil pv); [injection H as <- <-; auto|].
    apply bind_ok in H as ([] & E & H); [|discriminate]. injection H as <- <-. rewrite E. auto.
Qed.

Lemma apply_ops_set os (e : entry) ess ess' : forall v v' s',
  ~ In OEssential os -> lookup "value" e <> Some VNil -> v <> VNil ->
  apply_ops os e ess v true = Ok (v', s') -> apply_ops os e ess' v true = Ok (v', s') /\ s' = true.
Proof.
  induction os as [|o os IH]; intros v v' s' NE NV Hv H; cbn [apply_ops] in *.
  - injection H as <- <-. auto.
  - assert (NE' : ~ In OEssential os) by (intros K; apply NE; now right).
    destruct (get o e) as [pv|] eqn:G; [|now apply IH].
    apply bind_ok in H as ([v1 s1] & E & H).
    destruct (apply_op_set o v pv ess ess' v1 s1) as (E' & -> & Hv1); auto.
    + intros ->. apply NE. now left.
    + intros ->. unfold get in G. simpl op_name in G. congruence.
    + rewrite E'. cbn [bind]. now apply IH.
Qed.

Theorem essential_harmless (e : entry) v v' :
  v <> VNil -> lookup "value" e <> Some VNil ->
  apply_to (remove_key "essential" e) v true = Ok v' -> there v' -> apply_to e v true = Ok v'.
Proof.
  intros Hv NV H [T1 T2]. unfold apply_to in *. apply bind_ok in H as ([v1 s1] & H & E). injection E as ->.
  change operator_order with ([OValue; OAdd; ODefault; OOneOf; OSubsetOf; OSupersetOf] ++ [OEssential]) in *.
  rewrite apply_ops_app in *. apply bind_ok in H as ([v6 s6] & H & H').
  assert (L : forall k, k <> "essential"%string -> lookup k (remove_key "essential" e) = lookup k e).
  { intros k Hk. unfold remove_key.
    rewrite (lookup_filter (fun x => negb (String.eqb "essential" x))).
    destruct (String.eqb_spec "essential" k); [congruence|reflexivity]. }
  assert (L2 : lookup "essential" (remove_key "essential" e) = None).
  { unfold remove_key. now rewrite (lookup_filter (fun x => negb (String.eqb "essential" x))). }
  rewrite (apply_ops_same _ _ e) in H.
  2:{ intros o Ho. unfold get. apply L. destruct o; simpl in *; try discriminate; intuition discriminate. }
  assert (NE : ~ In OEssential [OValue; OAdd; ODefault; OOneOf; OSubsetOf; OSupersetOf]) by (simpl; intuition discriminate).
  destruct (apply_ops_set _ e _ (entry_essential e) v v6 s6 NE NV Hv H) as [-> ->].
  clear H. cbn [bind]. cbn [apply_ops] in *. unfold get in *. simpl op_name in *. rewrite L2 in H'. injection H' as -> _.
  destruct (lookup "essential" e) as [pv|]; [|reflexivity].
  rewrite essential_accepts; auto.
Qed.

Theorem policy_no_panic (p : policy) :
  (forall k e, In (k, e) p ->
     (lookup "subset_of" e <> None ->
        lookup "add" e <> Some VNil /\ lookup "value" e <> Some VNil /\ lookup "superset_of" e <> Some VNil) /\
     (lookup "value" e <> None -> lookup "add" e <> Some VNil)) ->
  verify_policy p <> Panic.
Proof.
  intros H. apply verify_policy_no_panic. intros k e Hin. destruct (H k e Hin). now apply verify_entry_no_panic.
Qed.

Theorem combine_order ps ps' :
  Forall (fun p => all_known (pol p)) ps -> Forall2 gpolicy_variant ps ps' ->
  is_ok (combine_policies ps) = is_ok (combine_policies ps') /\
  forall o, combine_policies ps = Ok o -> exists o', combine_policies ps' = Ok o' /\ gpolicy_variant o o'.
Proof.
  intros H1 H2. split; [now apply combine_policies_variant_iff|]. intros o. now apply combine_policies_variant.
Qed.

Lemma check_all_ok active todo :
  (forall o, In o todo -> check_combination active o = Ok tt) -> check_combinations active todo = Ok tt.
Proof.
  induction todo as [|o todo IH]; intros H; [reflexivity|]. cbn [check_combinations]. rewrite H by now left.
  apply IH. intros o' I. apply H. now right.
Qed.

Lemma run_verifiers_strip e : run_verifiers policy_verifiers (strip e) = run_verifiers policy_verifiers e.
Proof.
  unfold policy_verifiers. cbn [run_verifiers].
  unfold verify_subset_superset_oneof, verify_subset_superset, verify_add_in_subset,
    verify_add_in_oneof, verify_add_in_value, verify_oneof_has_values, verify_subset_and_value, verify_default_and_value, verify_sub.
  rewrite !get_strip. rewrite ?has_strip by reflexivity. reflexivity.
Qed.

(** What Verify makes of operators it does not know. *)
Theorem verify_unknown e : verify_entry e =
  if existsb (fun k => negb (known k)) (keys e) && existsb (fun k => known k && negb (String.eqb k "essential")) (keys e)
  then Err else verify_entry (strip e).
Proof.
  destruct (existsb (fun k => negb (known k)) (keys e)) eqn:EU; cbn [andb].
  2:{ f_equal. symmetry. clear - EU. induction e as [|[k v] e IH]; [reflexivity|]. cbn [keys map fst existsb] in EU. apply orb_false_iff in EU.
      destruct EU as [K R]. rewrite strip_cons. apply negb_false_iff in K. rewrite K. f_equal. auto. }
  apply existsb_exists in EU as (u & IU & KU). apply negb_true_iff in KU.
  destruct (existsb _ (keys e)) eqn:EK.
  - apply existsb_exists in EK as (k & IK & KK). apply andb_true_iff in KK as [KK NE].
    unfold verify_entry. destruct (check_combinations (keys e) (keys e)) as [[]| |] eqn:EC; [|reflexivity|].
    2:{ now apply check_combinations_no_panic in EC. }
    exfalso. pose proof (check_combinations_In _ _ _ EC IK) as C.
    unfold check_combination in C. rewrite known_op in KK. destruct (operator_of k) as [o|] eqn:EO; [|discriminate].
    destruct (may_combine_with o) as [mc|] eqn:EM.
    + assert (I : In u (subtract (keys e) (map op_name mc ++ [op_name o]))).
      { unfold subtract. apply filter_In. split; [exact IU|]. apply negb_true_iff. apply mem_nIn. intros I.
        apply in_app_iff in I. assert (X : exists o', u = op_name o').
        { destruct I as [I|[<-|[]]]; [|eauto]. apply in_map_iff in I. destruct I as (o' & <- & _). eauto. }
        destruct X as (o' & ->). destruct o'; discriminate KU. }
      destruct (subtract _ _); [contradiction I|discriminate C].
    + destruct o; try discriminate EM. unfold operator_of in EO.
      assert (k = "essential"%string).
      { revert EO. repeat (match goal with |- context [String.eqb k ?s] => destruct (String.eqb_spec k s) end; try discriminate). }
      subst k. discriminate NE.
  - assert (CO : forall e' : entry, (forall k, In k (keys e') -> In k (keys e)) -> check_combinations (keys e') (keys e') = Ok tt).
    { intros e' S. apply check_all_ok. intros o I. apply S in I. unfold check_combination.
      destruct (operator_of o) as [x|] eqn:EO; [|reflexivity].
      assert (KO : known o = true) by (rewrite known_op; now rewrite EO).
      destruct (String.eqb_spec o "essential") as [->|N].
      - injection EO as <-. reflexivity.
      - exfalso. assert (T : existsb (fun k => known k && negb (String.eqb k "essential")) (keys e) = true); [|congruence].
        apply existsb_exists. exists o. split; [exact I|]. rewrite KO. cbn. apply negb_true_iff. now apply String.eqb_neq. }
    unfold verify_entry. rewrite (CO e) by auto. rewrite (CO (strip e)).
    + cbn [bind]. now rewrite run_verifiers_strip.
    + intros k I. unfold strip, keys in *. apply in_map_iff in I as (kv & <- & I). apply filter_In in I. apply in_map. tauto.
Qed.
