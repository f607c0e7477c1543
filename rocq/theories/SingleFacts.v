(** Policies on attributes with a single value. *)
From Verif Require Import Base GoVal Policy Schema Metadata Chain BaseFacts SpecPolicy SpecMetadata SpecChain SpecSingle
  PolicyFacts MergeFacts CombineFacts MetadataFacts ChainFacts.
Local Open Scope string_scope.

Definition sc_eqb (x y : scalar) : bool :=
  match x, y with Text a, Text b => String.eqb a b | Flag a, Flag b => Bool.eqb a b | _, _ => false end.
Lemma sc_eqb_spec x y : reflect (x = y) (sc_eqb x y).
Proof.
  destruct x, y; simpl; try (constructor; discriminate).
  - destruct (String.eqb_spec s s0); constructor; congruence.
  - destruct b, b0; simpl; constructor; congruence.
Qed.
Lemma sc_eqb_eq x y : sc_eqb x y = true <-> x = y.
Proof. destruct (sc_eqb_spec x y); split; congruence. Qed.
Lemma deep_sc x y : deep_eq (as_any x) (as_any y) = sc_eqb x y.
Proof. destruct x, y; reflexivity. Qed.
Definition sc_in (x : scalar) (l : list scalar) : bool := existsb (sc_eqb x) l.
Lemma sc_in_In x l : sc_in x l = true <-> In x l.
Proof.
  unfold sc_in. rewrite existsb_exists. split.
  - intros (y & H & E). apply sc_eqb_eq in E. now subst.
  - intros H. exists x. split; auto. now apply sc_eqb_eq.
Qed.
Lemma exists_map x l : existsb (deep_eq (as_any x)) (map as_any l) = sc_in x l.
Proof. unfold sc_in. induction l as [|y l IH]; simpl; auto. now rewrite deep_sc, IH. Qed.
Lemma as_any_not_nil x : is_nil (as_any x) = false.
Proof. now destruct x. Qed.
Lemma slicify_any x : exists t, slicify (as_any x) = VSlice t false [as_any x].
Proof. destruct x; simpl; eauto. Qed.

(** ** Merging *)

Definition opick {A} (f : A -> A -> A) (x y : option A) : option A :=
  match x, y with Some a, Some b => Some (f a b) | Some a, None => Some a | None, y => y end.
Definition inter (l l' : list scalar) : list scalar := filter (fun x => sc_in x l') l.
Definition join (a b : single) : single :=
  Single (opick (fun x _ => x) (sg_value a) (sg_value b)) (opick (fun x _ => x) (sg_default a) (sg_default b))
         (opick inter (sg_one_of a) (sg_one_of b)) (opick orb (sg_essential a) (sg_essential b)).
Definition compatible (a b : single) : Prop :=
  (forall v w, sg_value a = Some v -> sg_value b = Some w -> v = w) /\
  (forall v w, sg_default a = Some v -> sg_default b = Some w -> v = w).

Definition any_value (v : option scalar) : gval := match v with Some x => as_any x | None => VNil end.

Lemma slice_equal_any v w : exists b, slice_equal (any_value v) (any_value w) = Ok b /\ (b = true <-> v = w).
Proof.
  unfold slice_equal. destruct v as [x|], w as [y|]; simpl any_value.
  - rewrite !as_any_not_nil. simpl orb. destruct (slicify_any x) as (t & ->), (slicify_any y) as (t' & ->).
    simpl. rewrite deep_sc, orb_false_r, andb_true_r. eexists. split; [reflexivity|]. rewrite sc_eqb_eq. split; congruence.
  - rewrite as_any_not_nil. simpl. eexists. split; [reflexivity|]. split; discriminate.
  - rewrite as_any_not_nil. simpl. eexists. split; [reflexivity|]. split; discriminate.
  - simpl. eexists. split; [reflexivity|]. tauto.
Qed.

Lemma slice_equal_sc v w : exists b, slice_equal (as_any v) (as_any w) = Ok b /\ (b = true <-> v = w).
Proof.
  destruct (slice_equal_any (Some v) (Some w)) as (b & E & H). exists b. split; auto. rewrite H. split; congruence.
Qed.

Lemma merge_value v w : merge_op OValue (any_value v) (any_value w) <> Panic /\
  (forall c, merge_op OValue (any_value v) (any_value w) = Ok c <-> v = w /\ c = any_value v).
Proof.
  unfold merge_op. destruct (slice_equal_any v w) as ([] & -> & H); simpl; split; try discriminate.
  - intros c. split; [intros E; injection E as <-; split; auto; now apply H|intros [_ ->]; auto].
  - intros c. split; [discriminate|]. intros [E _]. apply H in E. discriminate.
Qed.

Lemma merge_default v w : merge_op ODefault (as_any v) (as_any w) <> Panic /\
  (forall c, merge_op ODefault (as_any v) (as_any w) = Ok c <-> v = w /\ c = as_any v).
Proof.
  unfold merge_op. rewrite !as_any_not_nil. destruct (slice_equal_sc v w) as ([] & -> & H); simpl; split; try discriminate.
  - intros c. split; [intros E; injection E as <-; split; auto; now apply H|intros [_ ->]; auto].
  - intros c. split; [discriminate|]. intros [E _]. apply H in E. discriminate.
Qed.

Lemma filter_any l l' : filter (fun v => existsb (deep_eq v) (map as_any l')) (map as_any l) = map as_any (inter l l').
Proof.
  unfold inter. induction l as [|x l IH]; simpl; auto. rewrite exists_map, IH. now destruct (sc_in x l').
Qed.

Lemma merge_one_of n l n' l' : exists n'',
  merge_op OOneOf (VSlice TAny n (map as_any l)) (VSlice TAny n' (map as_any l')) = Ok (VSlice TAny n'' (map as_any (inter l l'))).
Proof. eexists. unfold merge_op, intersect. simpl. rewrite filter_any. reflexivity. Qed.

Lemma merge_essential x y : merge_op OEssential (VBool x) (VBool y) = Ok (VBool (x || y)).
Proof. reflexivity. Qed.

Lemma states_known a b x : states a x -> shared_known a b.
Proof.
  intros S k Hk _. apply (ss_known _ _ S) in Hk. simpl in Hk. destruct Hk as [<-|[<-|[<-|[<-|[]]]]]; reflexivity.
Qed.

Lemma merge_states a b x y m : states a x -> states b y -> merge_entries a b = Ok m -> compatible x y /\ states m (join x y).
Proof.
  intros SA SB H.
  destruct (merge_entries_lookup _ _ _ (ss_nodup _ _ SA) (ss_nodup _ _ SB) (states_known _ b _ SA) H) as [ND F].
  pose proof (F "value") as FV. pose proof (F "default") as FD. pose proof (F "one_of") as FO. pose proof (F "essential") as FE.
  unfold merged_at in FV, FD, FO, FE.
  pose proof (ss_value _ _ SA) as VA. pose proof (ss_value _ _ SB) as VB. rewrite VA, VB in FV.
  rewrite (ss_default _ _ SA), (ss_default _ _ SB) in FD. rewrite (ss_essential _ _ SA), (ss_essential _ _ SB) in FE.
  assert (CV : (forall v w, sg_value x = Some v -> sg_value y = Some w -> v = w) /\
               lookup "value" m = option_map any_value (opick (fun x _ => x) (sg_value x) (sg_value y))).
  { destruct (sg_value x) as [v|], (sg_value y) as [w|]; simpl in *; try (split; [discriminate || congruence|auto]).
    destruct FV as (o & c & Eo & Ec & El). injection Eo as <-.
    apply (proj2 (merge_value v w)) in Ec as [-> ->]. split; [congruence|auto]. }
  assert (CD : (forall v w, sg_default x = Some v -> sg_default y = Some w -> v = w) /\
               lookup "default" m = option_map as_any (opick (fun x _ => x) (sg_default x) (sg_default y))).
  { destruct (sg_default x) as [v|], (sg_default y) as [w|]; simpl in *; try (split; [discriminate || congruence|auto]).
    destruct FD as (o & c & Eo & Ec & El). injection Eo as <-.
    apply (proj2 (merge_default v w)) in Ec as [-> ->]. split; [congruence|auto]. }
  split; [split; [apply CV|apply CD]|]. constructor; auto.
  - intros k Hk. apply keys_lookup in Hk as (v & Hk). specialize (F k). unfold merged_at in F.
    destruct (lookup k a) as [av|] eqn:Ea; [apply (ss_known _ _ SA); eapply lookup_keys; eauto|].
    destruct (lookup k b) as [bv|] eqn:Eb; [apply (ss_known _ _ SB); eapply lookup_keys; eauto|]. congruence.
  - apply CV.
  - apply CD.
  - pose proof (ss_one_of _ _ SA) as OA. pose proof (ss_one_of _ _ SB) as OB. unfold join. cbn [sg_one_of].
    destruct (sg_one_of x) as [l|], (sg_one_of y) as [l'|]; simpl opick.
    + destruct OA as (n & OA), OB as (n' & OB). rewrite OA, OB in FO. destruct FO as (o & c & Eo & Ec & El).
      injection Eo as <-. destruct (merge_one_of n l n' l') as (n'' & E). rewrite E in Ec. injection Ec as <-. eauto.
    + destruct OA as (n & OA). rewrite OA, OB in FO. eauto.
    + destruct OB as (n & OB). rewrite OA, OB in FO. eauto.
    + now rewrite OA, OB in FO.
  - unfold join. cbn [sg_essential]. destruct (sg_essential x), (sg_essential y); simpl in *; auto.
    destruct FE as (o & c & Eo & Ec & El). injection Eo as <-. simpl in Ec. injection Ec as <-. auto.
Qed.

Lemma map_res_total {A B} (f : A -> res B) l : (forall x, In x l -> exists y, f x = Ok y) -> exists l', map_res f l = Ok l'.
Proof.
  induction l as [|x l IH]; intros H; simpl; [eauto|].
  destruct (H x) as (y & ->); [now left|]. simpl. destruct IH as (l' & ->); [intros; apply H; now right|]. simpl. eauto.
Qed.
Lemma map_res_safe {A B} (f : A -> res B) l : (forall x, In x l -> f x <> Panic) -> map_res f l <> Panic.
Proof.
  induction l as [|x l IH]; intros H; simpl; [discriminate|].
  destruct (f x) eqn:E; simpl; try discriminate; [|elim (H x); [now left|auto]].
  destruct (map_res f l) eqn:E'; simpl; try discriminate. elim IH; auto. intros; apply H; now right.
Qed.

Lemma merge_at_single a b x y k av : states a x -> states b y -> In (k, av) a ->
  merge_at b (k, av) <> Panic /\ (compatible x y -> exists c, merge_at b (k, av) = Ok c).
Proof.
  intros SA SB Hin. assert (La : lookup k a = Some av) by (apply In_lookup; [apply SA|auto]).
  assert (Hk : In k ["value"; "default"; "one_of"; "essential"]) by (eapply ss_known; [exact SA|eapply lookup_keys; eauto]).
  unfold merge_at. destruct (lookup k b) as [bv|] eqn:Lb; [|split; [discriminate|eauto]].
  simpl in Hk. destruct Hk as [<-|[<-|[<-|[<-|[]]]]].
  - change (operator_of "value") with (Some OValue).
    rewrite (ss_value _ _ SA) in La. rewrite (ss_value _ _ SB) in Lb.
    destruct (sg_value x) as [v|] eqn:Ex, (sg_value y) as [w|] eqn:Ey; simpl in La, Lb; try discriminate.
    injection La as <-. injection Lb as <-. destruct (merge_value v w) as [P Q]. fold (any_value v). fold (any_value w).
    destruct (merge_op OValue (any_value v) (any_value w)) as [c| |] eqn:E; simpl; try contradiction; (split; [discriminate|]); [eauto|].
    intros [C _]. assert (K : @Err gval = Ok (any_value v)) by (apply Q; auto). discriminate.
  - change (operator_of "default") with (Some ODefault).
    rewrite (ss_default _ _ SA) in La. rewrite (ss_default _ _ SB) in Lb.
    destruct (sg_default x) as [v|] eqn:Ex, (sg_default y) as [w|] eqn:Ey; simpl in La, Lb; try discriminate.
    injection La as <-. injection Lb as <-. destruct (merge_default v w) as [P Q].
    destruct (merge_op ODefault (as_any v) (as_any w)) as [c| |] eqn:E; simpl; try contradiction; (split; [discriminate|]); [eauto|].
    intros [_ C]. assert (K : @Err gval = Ok (as_any v)) by (apply Q; auto). discriminate.
  - change (operator_of "one_of") with (Some OOneOf).
    pose proof (ss_one_of _ _ SA) as OA. pose proof (ss_one_of _ _ SB) as OB.
    destruct (sg_one_of x) as [l|]; [destruct OA as (n & OA)|congruence]. destruct (sg_one_of y) as [l'|]; [destruct OB as (n' & OB)|congruence].
    assert (E1 : av = VSlice TAny n (map as_any l)) by congruence. assert (E2 : bv = VSlice TAny n' (map as_any l')) by congruence.
    subst av bv. destruct (merge_one_of n l n' l') as (n'' & E). rewrite E. simpl. split; [discriminate|eauto].
  - change (operator_of "essential") with (Some OEssential).
    rewrite (ss_essential _ _ SA) in La. rewrite (ss_essential _ _ SB) in Lb.
    destruct (sg_essential x) as [v|], (sg_essential y) as [w|]; simpl in La, Lb; try discriminate.
    injection La as <-. injection Lb as <-. rewrite merge_essential. simpl. split; [discriminate|eauto].
Qed.

Lemma merge_single a b x y : states a x -> states b y ->
  merge_entries a b <> Panic /\ (compatible x y -> exists m, merge_entries a b = Ok m).
Proof.
  intros SA SB. rewrite (merge_entries_closed _ _ (ss_nodup _ _ SA) (ss_nodup _ _ SB) (states_known _ b _ SA)).
  assert (P : map_res (merge_at b) a <> Panic).
  { apply map_res_safe. intros [k v] Hin. exact (proj1 (merge_at_single _ _ _ _ _ _ SA SB Hin)). }
  split.
  - destruct (map_res (merge_at b) a); simpl; congruence.
  - intros C. destruct (map_res_total (merge_at b) a) as (l & ->); [|simpl; eauto].
    intros [k v] Hin. exact (proj2 (merge_at_single _ _ _ _ _ _ SA SB Hin) C).
Qed.

(** ** Verification *)

Definition proper (s : single) : Prop := (sg_value s = Some None -> sg_default s = None) /\ sg_one_of s <> Some [].

Lemma combinations_single e x todo : states e x -> (forall k, In k todo -> In k ["value"; "default"; "one_of"; "essential"]) ->
  check_combinations (keys e) todo = Ok tt.
Proof.
  intros S. induction todo as [|o todo IH]; intros H; cbn [check_combinations]; auto.
  assert (E : check_combination (keys e) o = Ok tt).
  { assert (Ho : In o ["value"; "default"; "one_of"; "essential"]) by (apply H; now left).
    assert (SUB : forall l, (forall k, In k ["value"; "default"; "one_of"; "essential"] -> In k l) -> subtract (keys e) l = []).
    { intros l Hl. unfold subtract. pose proof (ss_known _ _ S) as K. clear -K Hl. induction (keys e) as [|k ks IH']; auto.
      simpl. assert (M : mem k l = true) by (apply mem_In, Hl, K; now left). rewrite M. simpl. apply IH'. intros; apply K; now right. }
    unfold check_combination. simpl in Ho. destruct Ho as [<-|[<-|[<-|[<-|[]]]]].
    - change (operator_of "value") with (Some OValue). cbn [may_combine_with]. rewrite SUB; auto.
      intros k Hk. simpl in Hk. destruct Hk as [<-|[<-|[<-|[<-|[]]]]]; simpl; auto 10.
    - change (operator_of "default") with (Some ODefault). cbn [may_combine_with]. rewrite SUB; auto.
      intros k Hk. simpl in Hk. destruct Hk as [<-|[<-|[<-|[<-|[]]]]]; simpl; auto 10.
    - change (operator_of "one_of") with (Some OOneOf). cbn [may_combine_with]. rewrite SUB; auto.
      intros k Hk. simpl in Hk. destruct Hk as [<-|[<-|[<-|[<-|[]]]]]; simpl; auto 10.
    - reflexivity. }
  rewrite E. cbn [bind]. apply IH. intros; apply H; now right.
Qed.

Lemma states_no e x k : states e x -> In k ["add"; "subset_of"; "superset_of"] -> lookup k e = None.
Proof.
  intros S Hk. apply lookup_None. intros H. apply (ss_known _ _ S) in H. simpl in *.
  destruct Hk as [<-|[<-|[<-|[]]]]; destruct H as [H|[H|[H|[H|[]]]]]; discriminate H.
Qed.

Lemma verify_single e x : states e x -> verify_entry e <> Panic /\ (verify_entry e = Ok tt <-> proper x).
Proof.
  intros S. unfold verify_entry. rewrite (combinations_single e x _ S (ss_known _ _ S)). cbn [bind].
  assert (NA : get OAdd e = None) by (apply (states_no e x); simpl; auto).
  assert (NB : get OSubsetOf e = None) by (apply (states_no e x); simpl; auto).
  assert (NC : get OSupersetOf e = None) by (apply (states_no e x); simpl; auto).
  unfold policy_verifiers. cbn [run_verifiers].
  assert (V1 : verify_subset_superset_oneof e = Ok tt).
  { unfold verify_subset_superset_oneof, has. unfold get in NB, NC. rewrite NB, NC. now rewrite andb_false_r. }
  assert (V2 : verify_subset_superset e = Ok tt) by (unfold verify_subset_superset, verify_sub; now rewrite NC).
  assert (V3 : verify_add_in_subset e = Ok tt) by (unfold verify_add_in_subset, verify_sub; now rewrite NA).
  assert (V4 : verify_add_in_oneof e = Ok tt) by (unfold verify_add_in_oneof; rewrite NA; now destruct (get OOneOf e)).
  assert (V5 : verify_add_in_value e = Ok tt) by (unfold verify_add_in_value, verify_sub; now rewrite NA).
  assert (V7 : verify_subset_and_value e = Ok tt) by (unfold verify_subset_and_value, verify_sub; rewrite NB; now destruct (get OValue e)).
  rewrite V1, V2, V3, V4, V5. cbn [bind]. rewrite V7.
  assert (V6 : verify_oneof_has_values e <> Panic /\ (verify_oneof_has_values e = Ok tt <-> sg_one_of x <> Some [])).
  { unfold verify_oneof_has_values, get, op_name. pose proof (ss_one_of _ _ S) as O. destruct (sg_one_of x) as [l|].
    - destruct O as (n & ->). destruct l; simpl; (split; [discriminate|]; split; congruence).
    - rewrite O. split; [discriminate|]. split; congruence. }
  assert (V8 : verify_default_and_value e <> Panic /\ (verify_default_and_value e = Ok tt <-> (sg_value x = Some None -> sg_default x = None))).
  { unfold verify_default_and_value, get, op_name. rewrite (ss_value _ _ S), (ss_default _ _ S).
    destruct (sg_value x) as [[v|]|], (sg_default x) as [d|]; simpl; try rewrite as_any_not_nil;
      (split; [discriminate|]; split; try congruence; auto; intros H; discriminate (H eq_refl)). }
  destruct V6 as [P6 Q6], V8 as [P8 Q8]. unfold proper.
  destruct (verify_oneof_has_values e) as [[]| |]; cbn [bind]; try contradiction.
  - destruct (verify_default_and_value e) as [[]| |]; cbn [bind]; try contradiction.
    + split; [discriminate|]. tauto.
    + split; [discriminate|]. split; [discriminate|]. intros [H _]. apply Q8 in H. discriminate.
  - split; [discriminate|]. split; [discriminate|]. intros [_ H]. apply Q6 in H. discriminate.
Qed.

(** ** Many policies: the meaning of their combination *)

Record alike (ss ss' : list (option single)) : Prop := {
  al_fixes : forall v, fixes ss v <-> fixes ss' v;
  al_offers : forall d, offers ss d <-> offers ss' d;
  al_some : (exists l, restricts ss l) <-> (exists l, restricts ss' l);
  al_all : forall x, (forall l, restricts ss l -> In x l) <-> (forall l, restricts ss' l -> In x l);
  al_req : requires ss <-> requires ss' }.

Lemma alike_refl ss : alike ss ss.
Proof. constructor; intros; tauto. Qed.
Lemma alike_trans a b c : alike a b -> alike b c -> alike a c.
Proof.
  intros [A1 A2 A3 A4 A5] [B1 B2 B3 B4 B5]. constructor; intros.
  - rewrite A1. apply B1.
  - rewrite A2. apply B2.
  - rewrite A3. apply B3.
  - rewrite A4. apply B4.
  - rewrite A5. apply B5.
Qed.

Lemma alike_agreed a b : alike a b -> agreed a -> agreed b.
Proof.
  intros [F O S A R] [V D N I]. constructor.
  - intros v w Hv Hw. apply V; now apply F.
  - intros v w Hv Hw. apply D; now apply O.
  - intros d Hn Ho. apply (N d); [now apply F|now apply O].
  - intros H. apply S in H. destruct (I H) as (x & Hx). exists x. now apply A.
Qed.

Lemma alike_outcome a b cur out : alike a b -> outcome a cur out -> outcome b cur out.
Proof.
  intros [F O S A R] [V K D N I E]. constructor.
  - intros x Hx. apply V. now apply F.
  - intros x Hn. apply K. intros v Hv. apply (Hn v). now apply F.
  - intros d H Ho. apply D; [|now apply O]. destruct H as [H|[-> H]]; [left; now apply F|right; split; auto].
    intros v Hv. apply (H v). now apply F.
  - intros H Hn. apply N; [|intros d Hd; apply (Hn d); now apply O].
    destruct H as [H|[-> H]]; [left; now apply F|right; split; auto]. intros v Hv. apply (H v). now apply F.
  - intros l x Hl Ho. revert l Hl. apply A. intros l Hl. now apply (I l).
  - intros H. apply E. now apply R.
Qed.

Lemma fixes_cons s ss v : fixes (s :: ss) v <-> (exists x, s = Some x /\ sg_value x = Some v) \/ fixes ss v.
Proof.
  unfold fixes. split.
  - intros (x & [-> | H] & E); [left|right]; eauto.
  - intros [(x & -> & E)|(x & H & E)]; exists x; (split; [(now left) || (now right)|auto]).
Qed.
Lemma offers_cons s ss v : offers (s :: ss) v <-> (exists x, s = Some x /\ sg_default x = Some v) \/ offers ss v.
Proof.
  unfold offers. split.
  - intros (x & [-> | H] & E); [left|right]; eauto.
  - intros [(x & -> & E)|(x & H & E)]; exists x; (split; [(now left) || (now right)|auto]).
Qed.
Lemma restricts_cons s ss v : restricts (s :: ss) v <-> (exists x, s = Some x /\ sg_one_of x = Some v) \/ restricts ss v.
Proof.
  unfold restricts. split.
  - intros (x & [-> | H] & E); [left|right]; eauto.
  - intros [(x & -> & E)|(x & H & E)]; exists x; (split; [(now left) || (now right)|auto]).
Qed.
Lemma requires_cons s ss : requires (s :: ss) <-> (exists x, s = Some x /\ sg_essential x = Some true) \/ requires ss.
Proof.
  unfold requires. split.
  - intros (x & [-> | H] & E); [left|right]; eauto.
  - intros [(x & -> & E)|(x & H & E)]; exists x; (split; [(now left) || (now right)|auto]).
Qed.

Definition compatible_opt (a b : option single) : Prop :=
  match a, b with Some x, Some y => compatible x y | _, _ => True end.

Lemma alike_drop ss s : alike (s :: ss) (None :: s :: ss).
Proof.
  constructor; intros.
  - rewrite (fixes_cons None). split; [auto|intros [(x & E & _)|H]; [discriminate|auto]].
  - rewrite (offers_cons None). split; [auto|intros [(x & E & _)|H]; [discriminate|auto]].
  - split; intros (l & H); exists l; [apply restricts_cons; auto|apply restricts_cons in H as [(x & E & _)|H]; [discriminate|auto]].
  - split; intros H l Hl; apply H; [apply restricts_cons in Hl as [(y & E & _)|Hl]; [discriminate|auto]|apply restricts_cons; auto].
  - rewrite (requires_cons None). split; [auto|intros [(x & E & _)|H]; [discriminate|auto]].
Qed.

Lemma alike_swap a b ss : alike (a :: b :: ss) (b :: a :: ss).
Proof.
  constructor; intros.
  - rewrite !fixes_cons. tauto.
  - rewrite !offers_cons. tauto.
  - split; intros (l & H); exists l; rewrite !restricts_cons in *; tauto.
  - split; intros H l Hl; apply H; rewrite !restricts_cons in *; tauto.
  - rewrite !requires_cons. tauto.
Qed.

Ltac inv_some := repeat match goal with
  | H : exists _, _ |- _ => destruct H
  | H : _ /\ _ |- _ => destruct H
  | H : Some _ = Some _ |- _ => injection H as H; subst
  | H : None = Some _ |- _ => discriminate H
  end.

Lemma alike_join a b ss : compatible_opt a b -> alike (opick join a b :: ss) (a :: b :: ss).
Proof.
  destruct a as [x|], b as [y|]; simpl opick; intros C.
  2:{ apply alike_trans with (None :: Some x :: ss); [apply alike_drop|apply alike_swap]. }
  2:{ apply alike_drop. }
  2:{ apply alike_drop. }
  simpl in C. destruct C as [CV CD]. constructor; intros.
  - rewrite !fixes_cons. unfold join. split.
    + intros [(z & E & H)|H]; [|auto]. injection E as <-. cbn [sg_value] in H.
      destruct (sg_value x) as [v1|] eqn:E1, (sg_value y) as [v2|] eqn:E2; simpl in H; try discriminate; injection H as <-; eauto 6.
    + intros [(z & E & H)|[(z & E & H)|H]]; [| |auto]; injection E as <-; left; eexists; (split; [reflexivity|]); cbn [sg_value]; rewrite H.
      * now destruct (sg_value y).
      * destruct (sg_value x) as [v1|] eqn:E1; simpl; auto. f_equal. now apply CV.
  - rewrite !offers_cons. unfold join. split.
    + intros [(z & E & H)|H]; [|auto]. injection E as <-. cbn [sg_default] in H.
      destruct (sg_default x) as [v1|] eqn:E1, (sg_default y) as [v2|] eqn:E2; simpl in H; try discriminate; injection H as <-; eauto 6.
    + intros [(z & E & H)|[(z & E & H)|H]]; [| |auto]; injection E as <-; left; eexists; (split; [reflexivity|]); cbn [sg_default]; rewrite H.
      * now destruct (sg_default y).
      * destruct (sg_default x) as [v1|] eqn:E1; simpl; auto. f_equal. now apply CD.
  - split.
    + intros (l & H). apply restricts_cons in H as [(z & E & H)|H].
      * injection E as <-. cbn [join sg_one_of] in H.
        destruct (sg_one_of x) as [l1|] eqn:E1; [exists l1; rewrite !restricts_cons; eauto|].
        destruct (sg_one_of y) as [l2|] eqn:E2; [exists l2; rewrite !restricts_cons; eauto|]. discriminate.
      * exists l. rewrite !restricts_cons. auto.
    + intros (l & H). rewrite !restricts_cons in H. destruct H as [(z & E & H)|[(z & E & H)|H]].
      * injection E as <-. destruct (sg_one_of y) as [l2|] eqn:E2.
        -- exists (inter l l2). apply restricts_cons. left. eexists. split; [reflexivity|]. cbn [join sg_one_of]. now rewrite H, E2.
        -- exists l. apply restricts_cons. left. eexists. split; [reflexivity|]. cbn [join sg_one_of]. now rewrite H, E2.
      * injection E as <-. destruct (sg_one_of x) as [l1|] eqn:E1.
        -- exists (inter l1 l). apply restricts_cons. left. eexists. split; [reflexivity|]. cbn [join sg_one_of]. now rewrite H, E1.
        -- exists l. apply restricts_cons. left. eexists. split; [reflexivity|]. cbn [join sg_one_of]. now rewrite H, E1.
      * exists l. apply restricts_cons. auto.
  - rename x0 into u. assert (IN : forall l1 l2, In u (inter l1 l2) <-> In u l1 /\ In u l2).
    { intros. unfold inter. rewrite filter_In, sc_in_In. tauto. }
    split.
    + intros H l Hl. rewrite !restricts_cons in Hl. destruct Hl as [(z & E & Hl)|[(z & E & Hl)|Hl]].
      * injection E as <-. destruct (sg_one_of y) as [l2|] eqn:E2.
        -- apply (proj1 (IN l l2)), H, restricts_cons. left. eexists. split; [reflexivity|]. cbn [join sg_one_of]. now rewrite Hl, E2.
        -- apply H, restricts_cons. left. eexists. split; [reflexivity|]. cbn [join sg_one_of]. now rewrite Hl, E2.
      * injection E as <-. destruct (sg_one_of x) as [l1|] eqn:E1.
        -- apply (proj1 (IN l1 l)), H, restricts_cons. left. eexists. split; [reflexivity|]. cbn [join sg_one_of]. now rewrite Hl, E1.
        -- apply H, restricts_cons. left. eexists. split; [reflexivity|]. cbn [join sg_one_of]. now rewrite Hl, E1.
      * apply H, restricts_cons. auto.
    + intros H l Hl. apply restricts_cons in Hl as [(z & E & Hl)|Hl].
      * injection E as <-. cbn [join sg_one_of] in Hl.
        destruct (sg_one_of x) as [l1|] eqn:E1, (sg_one_of y) as [l2|] eqn:E2; simpl in Hl; try discriminate; injection Hl as <-.
        -- apply IN. split; apply H; rewrite !restricts_cons; eauto 6.
        -- apply H; rewrite !restricts_cons; eauto 6.
        -- apply H; rewrite !restricts_cons; eauto 6.
      * apply H. rewrite !restricts_cons. auto.
  - rewrite !requires_cons. split.
    + intros [(z & E & H)|H]; [|auto]. injection E as <-. cbn [join sg_essential] in H.
      destruct (sg_essential x) as [[]|] eqn:E1, (sg_essential y) as [[]|] eqn:E2; simpl in H; try discriminate; eauto 6.
    + intros [(z & E & H)|[(z & E & H)|H]]; [| |auto]; injection E as <-; left; eexists; (split; [reflexivity|]); cbn [join sg_essential]; rewrite H.
      * now destruct (sg_essential y).
      * destruct (sg_essential x) as [[]|]; reflexivity.
Qed.

Lemma agreed_compatible a b ss : agreed (a :: b :: ss) -> compatible_opt a b.
Proof.
  destruct a as [x|], b as [y|]; simpl; auto. intros [V D _ _]. split.
  - intros v w E1 E2. apply V; rewrite !fixes_cons; eauto 6.
  - intros v w E1 E2. apply D; rewrite !offers_cons; eauto 6.
Qed.

Definition proper_opt (s : option single) : Prop := match s with Some x => proper x | None => True end.

Lemma coherent_proper s : coherent s <-> proper_opt s.
Proof.
  unfold coherent. destruct s as [x|]; simpl.
  - split.
    + intros [V D N I]. split.
      * intros E. destruct (sg_default x) as [d|] eqn:Ed; auto. exfalso. apply (N d).
        -- exists x. split; [now left|auto].
        -- exists x. split; [now left|auto].
      * intros E. destruct I as (u & Hu); [exists [], x; split; [now left|auto]|].
        apply (Hu []). exists x. split; [now left|auto].
    + intros [P1 P2]. constructor.
      * intros v w (s & [E|[]] & H) (s' & [E'|[]] & H'). congruence.
      * intros v w (s & [E|[]] & H) (s' & [E'|[]] & H'). congruence.
      * intros d (s & [E|[]] & H) (s' & [E'|[]] & H'). injection E as <-. injection E' as <-. apply P1 in H. congruence.
      * intros (l & s & [E|[]] & H). injection E as <-. destruct l as [|u l]; [contradiction|].
        exists u. intros l' (s' & [E'|[]] & H'). injection E' as <-. rewrite H in H'. injection H' as <-. now left.
  - split; auto. intros _.
    assert (NO : forall s : single, ~ In (Some s) [None]) by (intros s [E|[]]; discriminate).
    constructor.
    + intros v w (s & K & _). elim (NO _ K).
    + intros v w (s & K & _). elim (NO _ K).
    + intros d (s & K & _). elim (NO _ K).
    + intros (l & s & K & _). elim (NO _ K).
Qed.

Lemma agreed_head s ss : agreed (s :: ss) -> proper_opt s.
Proof.
  intros [V D N I]. destruct s as [x|]; simpl; auto. split.
  - intros E. destruct (sg_default x) as [d|] eqn:Ed; auto. exfalso. apply (N d).
    + rewrite fixes_cons. eauto.
    + rewrite offers_cons. eauto.
  - intros E. destruct I as (u & Hu); [exists []; rewrite restricts_cons; eauto|]. apply (Hu []). rewrite restricts_cons. eauto.
Qed.

(** ** Combining *)

Lemma verify_policy_lookup p k e : verify_policy p = Ok tt -> lookup k p = Some e -> verify_entry e = Ok tt.
Proof.
  induction p as [|[k' e'] p IH]; simpl; [discriminate|]. intros H. apply bind_ok in H as ([] & H1 & H2).
  destruct (String.eqb k k'); [intros E; injection E as <-; auto|auto].
Qed.

Lemma combine2_says k p q o sp sq : says k p sp -> says k q sq -> combine2 p q = Ok o ->
  compatible_opt sp sq /\ says k o (opick join sp sq) /\ (proper_opt sp -> proper_opt sq -> proper_opt (opick join sp sq)).
Proof.
  intros [NP DP] [NQ DQ] H. destruct (combine2_lookup _ _ _ NP NQ H) as [NO L]. specialize (L k). unfold combined_at in L.
  unfold says.
  destruct (lookup k (pol p)) as [e|] eqn:Ee, sp as [a|]; try contradiction;
  destruct (lookup k (pol q)) as [e'|] eqn:Ee', sq as [b|]; try contradiction; simpl opick; simpl compatible_opt; auto;
  try (rewrite L; auto 6; fail).
  destruct L as (c & Hc & Ec). destruct (merge_states _ _ _ _ _ DP DQ Hc) as [C S]. split; auto. split; [rewrite Ec; auto|].
  intros _ _. simpl. apply (verify_single c _ S).
  destruct (combine2_cases _ _ _ NP NQ H) as [[E ->]|[(_ & E & ->)|(_ & _ & r & -> & Hr & V)]].
  - rewrite E in Ee'. discriminate.
  - rewrite E in Ee. discriminate.
  - eapply verify_policy_lookup; eauto.
Qed.

Lemma fold_says k ps : forall out so ss o, says k out so -> Forall2 (says k) ps ss -> combine_fold out ps = Ok o ->
  exists f, says k o f /\ alike [f] (so :: ss) /\ (proper_opt so -> Forall proper_opt ss -> proper_opt f).
Proof.
  induction ps as [|p ps IH]; intros out so ss o D F H; inversion F as [|? sp ? ss' Dp F']; subst; cbn [combine_fold] in H.
  - injection H as <-. exists so. split; auto. split; [apply alike_refl|auto].
  - apply bind_ok in H as (out' & H1 & H2). destruct (combine2_says _ _ _ _ _ _ D Dp H1) as (C & D' & P').
    destruct (IH _ _ _ _ D' F' H2) as (f & Sf & Af & Pf). exists f. split; auto. split.
    + eapply alike_trans; [exact Af|]. now apply alike_join.
    + intros P FP. inversion FP; subst. apply Pf; auto.
Qed.

Lemma combine_says k ps ss o : Forall2 (says k) ps ss -> combine_policies ps = Ok o ->
  exists f, says k o f /\ alike [f] ss /\ (Forall proper_opt ss -> proper_opt f).
Proof.
  intros F H. destruct ps as [|p ps]; inversion F as [|? sp ? ss' Dp F']; subst; cbn [combine_policies] in H.
  - injection H as <-. exists None. split; [split; simpl; auto; constructor|]. split; [|simpl; auto].
    constructor; intros.
    + split; [intros (s & [E|[]] & _); discriminate|intros (s & [] & _)].
    + split; [intros (s & [E|[]] & _); discriminate|intros (s & [] & _)].
    + split; [intros (l & s & [E|[]] & _); discriminate|intros (l & s & [] & _)].
    + split; intros _; [intros l (s & [] & _)|intros l (s & [E|[]] & _); discriminate].
    + split; [intros (s & [E|[]] & _); discriminate|intros (s & [] & _)].
  - apply bind_ok in H as ([] & _ & H). destruct (fold_says _ _ _ _ _ _ Dp F' H) as (f & S & A & P).
    exists f. split; auto. split; auto. intros FP. inversion FP; auto.
Qed.

Lemma alike_agreed_of f ss : alike [f] ss -> proper_opt f -> agreed ss.
Proof. intros A P. eapply alike_agreed; [exact A|]. now apply coherent_proper. Qed.

Definition shape (k : string) (p : gpolicy) (s : option single) : Prop :=
  (pol p = [] /\ s = None) \/ exists e x, pol p = [(k, e)] /\ s = Some x /\ states e x.

Lemma says_shape k p s : says k p s -> (forall k', In k' (keys (pol p)) -> k' = k) -> shape k p s.
Proof.
  intros [ND H] O. unfold shape. destruct (pol p) as [|[k1 e1] [|[k2 e2] r]].
  - left. split; auto. simpl in H. destruct s; [contradiction|auto].
  - right. assert (k1 = k) by (apply O; now left). subst. simpl in H. rewrite String.eqb_refl in H.
    destruct s as [x|]; [|contradiction]. eauto.
  - exfalso. assert (k1 = k) by (apply O; now left). assert (k2 = k) by (apply O; right; now left). subst.
    inversion ND as [|? ? N _]; subst. apply N. now left.
Qed.

Lemma combine2_one k p q e e' : pol p = [(k, e)] -> pol q = [(k, e')] ->
  combine2 p q = (c <- merge_entries e e' ;; _ <- verify_entry c ;; Ok (Some [(k, c)])).
Proof.
  intros Ep Eq. unfold combine2. rewrite Ep, Eq. cbn [combine_loop lookup]. rewrite String.eqb_refl.
  destruct (merge_entries e e') as [c| |]; cbn [bind combine_loop insert]; auto.
  cbn [merge_rest]. unfold has. cbn [lookup]. rewrite String.eqb_refl. cbn [merge_rest verify_policy].
  destruct (verify_entry c) as [[]| |]; reflexivity.
Qed.

Lemma combine2_shape k p q sp sq : shape k p sp -> shape k q sq ->
  combine2 p q <> Panic /\ (agreed [sp; sq] -> exists o, combine2 p q = Ok o).
Proof.
  intros [[Ep ->]|(e & x & Ep & -> & Sx)] [[Eq ->]|(e' & y & Eq & -> & Sy)].
  - unfold combine2. rewrite Ep, Eq. split; [discriminate|eauto].
  - unfold combine2. rewrite Ep, Eq. split; [discriminate|eauto].
  - unfold combine2. rewrite Ep, Eq. split; [discriminate|eauto].
  - rewrite (combine2_one _ _ _ _ _ Ep Eq). destruct (merge_single _ _ _ _ Sx Sy) as [NP OK].
    split.
    + destruct (merge_entries e e') as [c| |] eqn:E; cbn [bind]; try contradiction; try discriminate.
      destruct (merge_states _ _ _ _ _ Sx Sy E) as [_ S]. destruct (verify_single _ _ S) as [VP _].
      destruct (verify_entry c) as [[]| |]; cbn [bind]; try contradiction; discriminate.
    + intros A. destruct (OK (agreed_compatible _ _ _ A)) as (c & E). rewrite E. cbn [bind].
      destruct (merge_states _ _ _ _ _ Sx Sy E) as [C S].
      assert (P : proper (join x y)).
      { apply (agreed_head (Some (join x y)) []). eapply alike_agreed; [|exact A].
        pose proof (alike_join (Some x) (Some y) [] C) as J. simpl in J.
        destruct J as [J1 J2 J3 J4 J5]. constructor; intros; symmetry; auto. }
      apply (verify_single _ _ S) in P. rewrite P. cbn [bind]. eauto.
Qed.

Lemma alike_sym a b : alike a b -> alike b a.
Proof. intros [J1 J2 J3 J4 J5]. constructor; intros; symmetry; auto. Qed.

Lemma says_of_shape k p s : shape k p s -> says k p s.
Proof.
  intros [[E ->]|(e & x & E & -> & S)]; unfold says; rewrite E; simpl.
  - split; auto. constructor.
  - rewrite String.eqb_refl. split; auto. repeat constructor; auto.
Qed.

Lemma combine2_keeps k p q o sp sq : shape k p sp -> shape k q sq -> combine2 p q = Ok o -> shape k o (opick join sp sq).
Proof.
  intros [[Ep ->]|(e & x & Ep & -> & Sx)] [[Eq ->]|(e' & y & Eq & -> & Sy)].
  - unfold combine2. rewrite Ep, Eq. intros E. injection E as <-. left; auto.
  - unfold combine2. rewrite Ep, Eq. intros E. injection E as <-. right; simpl; eauto 8.
  - unfold combine2. rewrite Ep, Eq. intros E. injection E as <-. right; simpl; eauto 8.
  - rewrite (combine2_one _ _ _ _ _ Ep Eq). intros H. apply bind_ok in H as (c & Hc & H). apply bind_ok in H as ([] & _ & H).
    injection H as <-. destruct (merge_states _ _ _ _ _ Sx Sy Hc) as [_ S]. right. simpl. eauto 8.
Qed.

Lemma agreed_tail a ss : agreed (a :: ss) -> agreed ss.
Proof.
  intros [V D N I]. constructor.
  - intros v w H H'. apply V; rewrite fixes_cons; auto.
  - intros v w H H'. apply D; rewrite offers_cons; auto.
  - intros d H H'. apply (N d); [rewrite fixes_cons|rewrite offers_cons]; auto.
  - intros (l & H). destruct I as (x & Hx); [exists l; rewrite restricts_cons; auto|].
    exists x. intros l' H'. apply Hx. rewrite restricts_cons. auto.
Qed.

Lemma agreed_two a b ss : agreed (a :: b :: ss) -> agreed [a; b].
Proof.
  intros [V D N I].
  assert (IN : forall s : single, In (Some s) [a; b] -> In (Some s) (a :: b :: ss)) by (intros s [H|[H|[]]]; [left|right; left]; auto).
  constructor.
  - intros v w (s & Hs & E) (s' & Hs' & E'). apply V; [exists s|exists s']; auto.
  - intros v w (s & Hs & E) (s' & Hs' & E'). apply D; [exists s|exists s']; auto.
  - intros d (s & Hs & E) (s' & Hs' & E'). apply (N d); [exists s|exists s']; auto.
  - intros (l & s & Hs & E). destruct I as (x & Hx); [exists l, s; auto|].
    exists x. intros l' (s' & Hs' & E'). apply Hx. exists s'. auto.
Qed.

Lemma fold_shape k ps : forall out so ss, shape k out so -> Forall2 (shape k) ps ss ->
  combine_fold out ps <> Panic /\ (agreed (so :: ss) -> exists o, combine_fold out ps = Ok o).
Proof.
  induction ps as [|p ps IH]; intros out so ss D F; inversion F as [|? sp ? ss' Dp F']; subst; cbn [combine_fold].
  - split; [discriminate|eauto].
  - destruct (combine2_shape _ _ _ _ _ D Dp) as [NP OK]. split.
    + destruct (combine2 out p) as [o'| |] eqn:E; cbn [bind]; try contradiction; try discriminate.
      exact (proj1 (IH _ _ _ (combine2_keeps _ _ _ _ _ _ D Dp E) F')).
    + intros A. destruct OK as (o' & E); [eapply agreed_two; eauto|]. rewrite E. cbn [bind].
      apply (proj2 (IH _ _ _ (combine2_keeps _ _ _ _ _ _ D Dp E) F')).
      eapply alike_agreed; [|exact A]. apply alike_sym, alike_join. eapply agreed_compatible; eauto.
Qed.

Lemma says_shapes k ps ss : Forall2 (says k) ps ss -> only k ps -> Forall2 (shape k) ps ss.
Proof.
  intros F. induction F as [|p s ps ss H F IH]; intros O; constructor.
  - apply says_shape; auto. apply O. now left.
  - apply IH. intros q Hq. apply O. now right.
Qed.

Lemma verify_shape k p s : shape k p s -> verify_policy (pol p) <> Panic /\ (proper_opt s -> verify_policy (pol p) = Ok tt).
Proof.
  intros [[E ->]|(e & x & E & -> & S)]; rewrite E; simpl.
  - split; [discriminate|auto].
  - destruct (verify_single _ _ S) as [NP V]. split.
    + destruct (verify_entry e) as [[]| |]; simpl; congruence.
    + intros P. apply V in P. now rewrite P.
Qed.

Lemma combine_total k ps ss : Forall2 (says k) ps ss -> only k ps ->
  combine_policies ps <> Panic /\ (agreed ss -> exists q, combine_policies ps = Ok q).
Proof.
  intros F O. apply says_shapes in F; auto. destruct F as [|p sp ps ss Dp F]; cbn [combine_policies].
  - split; [discriminate|eauto].
  - destruct (verify_shape _ _ _ Dp) as [NP V]. destruct (fold_shape k ps p sp ss Dp F) as [NF OK]. split.
    + destruct (verify_policy (pol p)) as [[]| |]; cbn [bind]; congruence.
    + intros A. rewrite (V (agreed_head _ _ A)). cbn [bind]. now apply OK.
Qed.

(** ** Application *)

Definition is_blank (x : scalar) : bool := match x with Text s => String.eqb s "" | Flag b => negb b end.
Lemma is_blank_spec x : is_blank x = true <-> blank x.
Proof.
  unfold blank. destruct x as [s|b]; simpl.
  - rewrite String.eqb_eq. split; [intros ->; auto|intros [E|E]; congruence].
  - destruct b; simpl; split; try discriminate; auto. intros [E|E]; discriminate.
Qed.

Definition base (s : single) (cur : option scalar) : option scalar := match sg_value s with Some v => v | None => cur end.
Definition filled (s : single) (cur : option scalar) : option scalar :=
  match base s cur with Some x => Some x | None => sg_default s end.
Definition run (s : single) (cur : option scalar) : res (option scalar) :=
  let ess := match sg_essential s with Some true => true | _ => false end in
  match filled s cur with
  | None => if ess then Err else Ok None
  | Some x =>
      if match sg_one_of s with Some l => sc_in x l | None => true end
      then if (ess && is_blank x)%bool then Err else Ok (Some x)
      else Err
  end.

Definition single_type (t : gty) : Prop := t = TStr \/ t = TBool.
Definition is_some {A} (x : option A) : bool := match x with Some _ => true | None => false end.

(** A field that holds nothing: the zero value, or nil. *)
Definition holds (t : gty) (o : option scalar) (v : gval) : Prop :=
  match o with Some x => v = as_any x | None => v = VNil \/ v = zero_of t end.

Lemma is_zero_any x : is_zero (as_any x) = Ok (is_blank x).
Proof. destruct x; reflexivity. Qed.
Lemma cast_any x t : slice_cast (as_any x) t = Ok (as_any x).
Proof. destruct x; reflexivity. Qed.
Lemma slice_any x : is_slice (as_any x) = false.
Proof. destruct x; reflexivity. Qed.

Lemma apply_one_of t o v ess n l : holds t o v -> single_type t ->
  apply_op OOneOf v (is_some o) (VSlice TAny n (map as_any l)) ess =
  match o with
  | None => if ess then Err else Ok (v, false)
  | Some x => if sc_in x l then Ok (v, true) else Err
  end.
Proof.
  intros H T. unfold apply_op. destruct o as [x|]; simpl in H.
  - subst v. simpl. now rewrite exists_map.
  - now destruct ess.
Qed.

Lemma apply_essential t o v ess : holds t o v -> single_type t ->
  apply_op OEssential v (is_some o) (VBool ess) ess =
  (if ess then match o with
               | None => Err
               | Some x => if is_blank x then Err else Ok (v, true)
               end
   else Ok (v, is_some o)).
Proof.
  intros H T. unfold apply_op. destruct ess; auto. destruct o as [x|]; simpl in H.
  - subst v. rewrite as_any_not_nil, slice_any, is_zero_any. simpl. now destruct (is_blank x).
  - destruct H as [-> | ->]; auto. destruct T as [-> | ->]; reflexivity.
Qed.

Lemma apply_default t o v d ess : holds t o v -> single_type t ->
  apply_op ODefault v (is_some o) (as_any d) ess = Ok (match o with Some x => (v, true) | None => (as_any d, true) end).
Proof.
  intros H T. unfold apply_op. destruct o as [x|]; simpl in *; auto.
  destruct H as [-> | ->]; [simpl; now rewrite cast_any|]. destruct T as [-> | ->]; simpl; now rewrite cast_any.
Qed.

Lemma apply_value (o : option scalar) w ess v : apply_op OValue v (is_some o) (any_value w) ess =
  Ok (match w with Some x => (as_any x, true) | None => (VNil, false) end).
Proof. unfold apply_op. destruct w as [x|]; simpl any_value; [rewrite as_any_not_nil, cast_any|]; reflexivity. Qed.

Lemma apply_single e s t cur : states e s -> single_type t ->
  match run s cur with
  | Ok o => exists v, apply_to e (field_value t cur) (is_some cur) = Ok v /\ holds t o v
  | _ => apply_to e (field_value t cur) (is_some cur) = Err
  end.
Proof.
  intros S T. unfold apply_to.
  assert (NA : get OAdd e = None) by (apply (states_no e s); simpl; auto).
  assert (NB : get OSubsetOf e = None) by (apply (states_no e s); simpl; auto).
  assert (NC : get OSupersetOf e = None) by (apply (states_no e s); simpl; auto).
  assert (GE : get OEssential e = option_map VBool (sg_essential s)) by apply (ss_essential _ _ S).
  assert (GV : get OValue e = option_map any_value (sg_value s)) by apply (ss_value _ _ S).
  assert (GD : get ODefault e = option_map as_any (sg_default s)) by apply (ss_default _ _ S).
  assert (EE : entry_essential e = match sg_essential s with Some true => true | _ => false end).
  { unfold entry_essential. rewrite GE. destruct (sg_essential s) as [[]|]; reflexivity. }
  set (ess := entry_essential e) in *. unfold operator_order. cbn [apply_ops]. rewrite NA, NB, NC, GV, GD, GE.
  assert (STEP : forall os, exists v, holds t (base s cur) v /\
     match option_map any_value (sg_value s) with
     | Some pv => '(v', s') <- apply_op OValue (field_value t cur) (is_some cur) pv ess ;; apply_ops os e ess v' s'
     | None => apply_ops os e ess (field_value t cur) (is_some cur)
     end = apply_ops os e ess v (is_some (base s cur))).
  { intros os. unfold base. destruct (sg_value s) as [w|]; cbn [option_map].
    - rewrite apply_value. destruct w as [x|]; cbn [bind]; eexists; (split; [|reflexivity]); simpl; auto.
    - exists (field_value t cur). split; auto. destruct cur; simpl; auto. }
  pose proof (STEP [ODefault; OOneOf; OEssential]) as (v1 & H1 & E1). cbn [apply_ops] in E1. rewrite GD, GE in E1.
  clear STEP. rewrite E1. clear E1.
  assert (STEP : forall os, exists v, holds t (filled s cur) v /\
     match option_map as_any (sg_default s) with
     | Some pv => '(v', s') <- apply_op ODefault v1 (is_some (base s cur)) pv ess ;; apply_ops os e ess v' s'
     | None => apply_ops os e ess v1 (is_some (base s cur))
     end = apply_ops os e ess v (is_some (filled s cur))).
  { intros os. unfold filled. destruct (sg_default s) as [d|]; cbn [option_map].
    - rewrite (apply_default t _ _ _ _ H1 T). destruct (base s cur) as [x|]; cbn [bind]; eexists; (split; [|reflexivity]); simpl; auto.
    - exists v1. destruct (base s cur); auto. }
  pose proof (STEP [OOneOf; OEssential]) as (v2 & H2 & E2). cbn [apply_ops] in E2. rewrite GE in E2. clear STEP.
  rewrite E2. clear E2.
  unfold run. set (o := filled s cur) in *. clearbody o. clear v1 H1.
  pose proof (ss_one_of _ _ S) as O. unfold get. cbn [op_name].
  destruct o as [x|]; cbn [is_some] in *.
  - destruct (sg_one_of s) as [l|].
    + destruct O as (n & ->). pose proof (apply_one_of t (Some x) v2 ess n l H2 T) as A. cbn [is_some] in A. rewrite A. clear A.
      destruct (sc_in x l); cbn [bind]; auto.
      destruct (sg_essential s) as [b|]; cbn [option_map] in *.
      * assert (Eb : b = ess) by (rewrite EE; now destruct b). subst b.
        pose proof (apply_essential t (Some x) v2 ess H2 T) as A. cbn [is_some] in A. rewrite A. clear A.
        rewrite <- EE. destruct ess; simpl; [destruct (is_blank x); simpl; eauto|eauto].
      * simpl. eauto.
    + rewrite O.
      destruct (sg_essential s) as [b|]; cbn [option_map] in *.
      * assert (Eb : b = ess) by (rewrite EE; now destruct b). subst b.
        pose proof (apply_essential t (Some x) v2 ess H2 T) as A. cbn [is_some] in A. rewrite A. clear A.
        rewrite <- EE. destruct ess; simpl; [destruct (is_blank x); simpl; eauto|eauto].
      * simpl. eauto.
  - rewrite <- EE. 
    assert (LAST : match (match option_map VBool (sg_essential s) with
                    | Some pv => '(v', s') <- apply_op OEssential v2 false pv ess ;; Ok (v', s')
                    | None => Ok (v2, false) end) with
                   | Ok (v', _) => ess = false /\ holds t None v' | Err => ess = true | Panic => False end).
    { destruct (sg_essential s) as [b|]; cbn [option_map] in *.
      - assert (Eb : b = ess) by (rewrite EE; now destruct b). subst b.
        pose proof (apply_essential t None v2 ess H2 T) as A. cbn [is_some] in A. rewrite A. destruct ess; simpl; auto.
      - auto. }
    assert (GOAL : match (if ess then Err else Ok None : res (option scalar)) with
      | Ok o => exists v, ('(v, _) <- (match option_map VBool (sg_essential s) with
                    | Some pv => '(v', s') <- apply_op OEssential v2 false pv ess ;; Ok (v', s')
                    | None => Ok (v2, false) end) ;; Ok v) = Ok v /\ holds t o v
      | _ => ('(v, _) <- (match option_map VBool (sg_essential s) with
                    | Some pv => '(v', s') <- apply_op OEssential v2 false pv ess ;; Ok (v', s')
                    | None => Ok (v2, false) end) ;; Ok v) = Err
      end).
    { destruct (match option_map VBool (sg_essential s) with Some _ => _ | None => _ end) as [[v' s']| |]; cbn [bind].
      - destruct LAST as [-> Hh]. eauto.
      - now rewrite LAST.
      - contradiction. }
    destruct (sg_one_of s) as [l|].
    + destruct O as (n & ->). pose proof (apply_one_of t None v2 ess n l H2 T) as A. cbn [is_some] in A. rewrite A. clear A.
      destruct ess; cbn [bind]; auto.
    + rewrite O. exact GOAL.
Qed.

Lemma run_outcome s cur o : run s cur = Ok o <->
  outcome [Some s] cur o /\ (sg_essential s = Some true -> forall x, o = Some x -> ~ blank x).
Proof.
  assert (FX : forall v, fixes [Some s] v <-> sg_value s = Some v).
  { intros v. split; [intros (s' & [E|[]] & H); congruence|intros E; exists s; split; [now left|auto]]. }
  assert (OF : forall v, offers [Some s] v <-> sg_default s = Some v).
  { intros v. split; [intros (s' & [E|[]] & H); congruence|intros E; exists s; split; [now left|auto]]. }
  assert (RS : forall v, restricts [Some s] v <-> sg_one_of s = Some v).
  { intros v. split; [intros (s' & [E|[]] & H); congruence|intros E; exists s; split; [now left|auto]]. }
  assert (RQ : requires [Some s] <-> sg_essential s = Some true).
  { split; [intros (s' & [E|[]] & H); congruence|intros E; exists s; split; [now left|auto]]. }
  assert (FILL : forall o, o = filled s cur <->
     (forall x, fixes [Some s] (Some x) -> o = Some x) /\
     (forall x, (forall v, ~ fixes [Some s] v) -> cur = Some x -> o = Some x) /\
     (forall d, fixes [Some s] None \/ (cur = None /\ forall v, ~ fixes [Some s] v) -> offers [Some s] d -> o = Some d) /\
     (fixes [Some s] None \/ (cur = None /\ forall v, ~ fixes [Some s] v) -> (forall d, ~ offers [Some s] d) -> o = None)).
  { intros o'. unfold filled, base. split.
    - intros ->. repeat split.
      + intros x H. apply FX in H. now rewrite H.
      + intros x H ->. destruct (sg_value s) as [v|]; auto. elim (H v). now apply FX.
      + intros d H Hd. apply OF in Hd. rewrite Hd. destruct H as [H|[-> H]]; [apply FX in H; now rewrite H|].
        destruct (sg_value s) as [v|]; auto. elim (H v). now apply FX.
      + intros H Hd. assert (E : sg_default s = None). { destruct (sg_default s) as [d|]; auto. elim (Hd d). now apply OF. }
        rewrite E. destruct H as [H|[-> H]]; [apply FX in H; now rewrite H|].
        destruct (sg_value s) as [v|]; auto. elim (H v). now apply FX.
    - intros (A & B & C & D).
      assert (NOV : sg_value s = None -> forall v, ~ fixes [Some s] v) by (intros E v H; apply FX in H; congruence).
      assert (ABS : fixes [Some s] None \/ (cur = None /\ forall v, ~ fixes [Some s] v) -> o' = sg_default s).
      { intros H. destruct (sg_default s) as [d|] eqn:Ed; [apply C; auto; now apply OF|apply D; auto].
        intros d H'. apply OF in H'. congruence. }
      destruct (sg_value s) as [[x|]|] eqn:Ev.
      + apply A. now apply FX.
      + apply ABS. left. now apply FX.
      + destruct cur as [x|]; [apply B; auto|apply ABS; auto]. }
  unfold run. set (ess := match sg_essential s with Some true => true | _ => false end).
  assert (EE : ess = true <-> sg_essential s = Some true).
  { unfold ess. destruct (sg_essential s) as [[]|]; split; congruence. }
  split.
  - intros H.
    assert (K : o = filled s cur /\ (forall l x, sg_one_of s = Some l -> o = Some x -> In x l) /\
                (ess = true -> exists x, o = Some x /\ ~ blank x)).
    { destruct (filled s cur) as [x|].
      - destruct (sg_one_of s) as [l|].
        + destruct (sc_in x l) eqn:Ei; [|discriminate]. apply sc_in_In in Ei.
          destruct ess eqn:Es; simpl in H; [destruct (is_blank x) eqn:Eb; [discriminate|]|]; injection H as <-.
          * split; auto. split; [intros l' x' E1 E2; congruence|]. intros _. exists x. split; auto. intros B. apply is_blank_spec in B. congruence.
          * split; auto. split; [intros l' x' E1 E2; congruence|discriminate].
        + destruct ess eqn:Es; simpl in H; [destruct (is_blank x) eqn:Eb; [discriminate|]|]; injection H as <-.
          * split; auto. split; [intros l' x' E1; discriminate|]. intros _. exists x. split; auto. intros B. apply is_blank_spec in B. congruence.
          * split; auto. split; [intros l' x' E1; discriminate|discriminate].
      - destruct ess; [discriminate|]. injection H as <-. split; auto. split; [intros l x _ E; discriminate|discriminate]. }
    destruct K as (K1 & K2 & K3). apply FILL in K1 as (A & B & C & D). split.
    + constructor; auto.
      * intros l x Hl. apply K2. now apply RS.
      * intros Hr. apply RQ, EE in Hr. destruct (K3 Hr) as (x & -> & _). discriminate.
    + intros Hr x Ho. apply EE in Hr. destruct (K3 Hr) as (x' & Ho' & Hb). congruence.
  - intros [[A B C D I E] NB]. assert (F : o = filled s cur) by (apply FILL; auto). rewrite <- F.
    destruct o as [x|].
    + assert (Ei : match sg_one_of s with Some l => sc_in x l | None => true end = true).
      { destruct (sg_one_of s) as [l|] eqn:El; auto. apply sc_in_In. apply (I l); auto. now apply RS. }
      rewrite Ei. destruct ess eqn:Es; auto. simpl. destruct (is_blank x) eqn:Eb; auto.
      apply is_blank_spec in Eb. elim (NB (proj1 EE eq_refl) x eq_refl Eb).
    + destruct ess eqn:Es; auto. elim E; auto. now apply RQ, EE.
Qed.

Lemma assign_held t o v nm : holds t o v -> single_type t ->
  assign t (scope_fix nm v) <> Err /\
  (forall w, assign t (scope_fix nm v) = Ok w <-> (forall x, o = Some x -> has_type t x) /\ w = field_value t o) /\
  (assign t (scope_fix nm v) = Panic -> exists x, o = Some x /\ ~ has_type t x).
Proof.
  intros H T. assert (SF : scope_fix nm v = v).
  { unfold scope_fix. destruct (String.eqb nm "Scope"); auto. destruct o as [[s|b]|]; simpl in H; subst; auto.
    destruct H as [-> | ->]; auto. destruct T as [-> | ->]; reflexivity. }
  rewrite SF. destruct o as [[s|b]|]; simpl in H.
  - subst v. unfold assign. simpl. destruct T as [-> | ->]; simpl; (split; [discriminate|]; split).
    + intros w. split; [intros E; injection E as <-; split; auto; intros x E; injection E as <-; reflexivity|intros [_ ->]; auto].
    + discriminate.
    + intros w. split; [discriminate|]. intros [K _]. specialize (K _ eq_refl). discriminate K.
    + intros _. exists (Text s). split; auto. discriminate.
  - subst v. unfold assign. simpl. destruct T as [-> | ->]; simpl; (split; [discriminate|]; split).
    + intros w. split; [discriminate|]. intros [K _]. specialize (K _ eq_refl). discriminate K.
    + intros _. exists (Flag b). split; auto. discriminate.
    + intros w. split; [intros E; injection E as <-; split; auto; intros x E; injection E as <-; reflexivity|intros [_ ->]; auto].
    + discriminate.
  - assert (E : assign t v = Ok (zero_of t)).
    { destruct H as [-> | ->]; auto. destruct T as [-> | ->]; reflexivity. }
    rewrite E. split; [discriminate|]. split; [|discriminate].
    intros w. split; [intros K; injection K as <-; split; [discriminate|auto]|intros [_ ->]; auto].
Qed.
