(** Policies with arbitrary JSON operands: proofs. *)
From Coq Require Import Lia.
From Verif Require Import Base BaseFacts GoVal Policy SpecPolicy PolicyFacts MergeFacts CombineFacts Schema Metadata SpecMetadata MetadataFacts Chain SpecChain ChainFacts SpecEncode SpecGeneral.
From Verif Require Import GoVal.
Local Open Scope nat_scope.
Local Open Scope string_scope.

(** ** reflect.DeepEqual *)
Lemma gty_eqb_true a : forall b, gty_eqb a b = true <-> a = b.
Proof.
  induction a; intros []; cbn [gty_eqb]; split; intros H; try discriminate; try reflexivity; try (f_equal; now apply IHa); injection H as ->; now apply IHa.
Qed.

Fixpoint members_eq (eq : gval -> gval -> bool) (kv' l : list (string * gval)) : bool :=
  match l with
  | [] => true
  | (k, v) :: l' => match lookup k kv' with Some v' => eq v v' | None => false end && members_eq eq kv' l'
  end.
Fixpoint lists_eq (eq : gval -> gval -> bool) (l1 l2 : list gval) : bool :=
  match l1, l2 with
  | [], [] => true
  | x :: r1, y :: r2 => eq x y && lists_eq eq r1 r2
  | _, _ => false
  end.
Lemma deep_eq_map t n kv t' n' kv' : deep_eq (VMap t n kv) (VMap t' n' kv') =
  (gty_eqb t t' && Bool.eqb n n' && Nat.eqb (List.length kv) (List.length kv') && members_eq deep_eq kv' kv)%bool.
Proof. cbn [deep_eq]. f_equal. induction kv as [|[k v] l IH]; [reflexivity|]. cbn [members_eq]. now rewrite <- IH. Qed.
Lemma deep_eq_list t n l t' n' l' : deep_eq (VSlice t n l) (VSlice t' n' l') = (gty_eqb t t' && Bool.eqb n n' && lists_eq deep_eq l l')%bool.
Proof. cbn [deep_eq]. f_equal. revert l'. induction l as [|x l IH]; intros [|y l']; try reflexivity. cbn [lists_eq]. now rewrite <- IH. Qed.

Lemma members_eq_true eq kv' l : members_eq eq kv' l = true <-> forall k v, In (k, v) l -> exists v', lookup k kv' = Some v' /\ eq v v' = true.
Proof.
  induction l as [|[k v] l IH]; cbn [members_eq]; [split; [intros _ ? ? []|reflexivity]|]. rewrite andb_true_iff, IH. split.
  - intros [H1 H2] k' v1 [[= <- <-]|I]; [|now apply H2]. destruct (lookup k kv') as [w|]; [eauto|discriminate].
  - intros H. split; [|intros k' v1 I; apply H; now right]. destruct (H k v (or_introl eq_refl)) as (w & -> & E). exact E.
Qed.

Lemma incl_keys_back {V W} (a : smap V) (b : smap W) : NoDup (keys a) -> List.length a = List.length b ->
  (forall k, In k (keys a) -> In k (keys b)) -> forall k, In k (keys b) -> In k (keys a).
Proof.
  intros N L I k K. refine (NoDup_length_incl N _ I k K). unfold keys. rewrite !map_length. lia.
Qed.
Lemma same_keys_length {V W} (a : smap V) (b : smap W) : NoDup (keys a) -> NoDup (keys b) -> (forall k, In k (keys a) <-> In k (keys b)) -> List.length a = List.length b.
Proof.
  intros Na Nb E. pose proof (NoDup_incl_length Na (fun k H => proj1 (E k) H)) as A. pose proof (NoDup_incl_length Nb (fun k H => proj2 (E k) H)) as B.
  unfold keys in *. rewrite !map_length in *. lia.
Qed.

Lemma deep_alike : forall a b, proper a -> proper b -> (deep_eq a b = true <-> alike a b).
Proof.
  fix IH 1. intros a b Pa Pb. destruct a as [|x|x|x|x|[w|]|t n kv|t n l]; destruct b as [|y|y|y|y|[w'|]|t' n' kv'|t' n' l'];
    try (split; [discriminate|intros H; inversion H]).
  - split; [constructor|reflexivity].
  - cbn [deep_eq]. rewrite Bool.eqb_true_iff. split; [intros ->; constructor|intros H; now inversion H].
  - cbn [deep_eq]. rewrite Z.eqb_eq. split; [intros ->; constructor|intros H; now inversion H].
  - cbn [deep_eq]. rewrite Z.eqb_eq. split; [intros ->; constructor|intros H; now inversion H].
  - cbn [deep_eq]. rewrite String.eqb_eq. split; [intros ->; constructor|intros H; now inversion H].
  - cbn [deep_eq]. inversion Pa; subst. inversion Pb; subst. rewrite (IH w w') by assumption. split; [now constructor|intros H; now inversion H].
  - split; [constructor|reflexivity].
  - inversion Pa as [| | | | | | |? ? ? Na Fa|]; subst. inversion Pb as [| | | | | | |? ? ? Nb Fb|]; subst.
    rewrite deep_eq_map, !andb_true_iff, gty_eqb_true, Bool.eqb_true_iff, Nat.eqb_eq, members_eq_true.
    assert (M : forall k v v', In (k, v) kv -> lookup k kv' = Some v' -> (deep_eq v v' = true <-> alike v v')).
    { intros k v v' I L. apply lookup_In in L. rewrite Forall_forall in Fb. specialize (Fb _ L). cbn [snd] in Fb. clear - IH Fa I Fb.
      induction kv as [|[k0 v0] r IHr]; [destruct I|]. inversion Fa as [|? ? F1 F2]; subst. cbn [snd] in F1.
      destruct I as [E|I]; [|exact (IHr F2 I)]. injection E as _ <-. exact (IH v0 v' F1 Fb). }
    split.
    + intros (((-> & ->) & L) & H).
      assert (K : forall k, In k (keys kv) -> In k (keys kv')).
      { intros k I. apply in_map_iff in I as ([k0 v0] & <- & I). destruct (H _ _ I) as (v' & E & _). eapply lookup_keys; exact E. }
      constructor.
      * intros k. split; [apply K|apply (incl_keys_back kv kv' Na L K)].
      * intros k v v' E E'. apply lookup_In in E. destruct (H k v E) as (v1 & E1 & D). rewrite E' in E1. injection E1 as <-. now apply (M k v v').
    + intros H. inversion H as [| | | | | | | |? ? ? ? K A]; subst. split; [split; [now split|now apply same_keys_length]|].
      intros k v I. assert (In k (keys kv')) as Ik by (apply K; apply in_map_iff; exists (k, v); now split).
      destruct (lookup k kv') as [v'|] eqn:E; [|apply lookup_None in E; contradiction]. exists v'. split; [reflexivity|].
      apply (M k v v' I E). apply (A k v v'); [|exact E]. now apply In_lookup.
  - inversion Pa as [| | | | | | | |? ? ? Fa]; subst. inversion Pb as [| | | | | | | |? ? ? Fb]; subst.
    rewrite deep_eq_list, !andb_true_iff, gty_eqb_true, Bool.eqb_true_iff.
    assert (M : lists_eq deep_eq l l' = true <-> Forall2 alike l l').
    { clear Pa Pb. revert l' Fb. induction l as [|x l IHl]; intros [|y l'] Fb; cbn [lists_eq]; try (split; [discriminate|intros H; inversion H]).
      - split; [constructor|reflexivity].
      - inversion Fa as [|? ? F1 F2]; subst. inversion Fb as [|? ? G1 G2]; subst. rewrite andb_true_iff.
        pose proof (IH x y F1 G1) as E1. pose proof (IHl F2 l' G2) as E2. split.
        + intros [H1 H2]. constructor; [now apply E1|now apply E2].
        + intros H. inversion H; subst. split; [now apply E1|now apply E2]. }
    rewrite M. split.
    + intros ((-> & ->) & H). now constructor.
    + intros H. inversion H; subst. split; [now split|assumption].
Qed.

Lemma alike_self : forall v, proper v -> alike v v.
Proof.
  fix IH 1. intros [|x|x|x|x|[w|]|t n kv|t n l] P; try constructor.
  - inversion P; subst. now apply IH.
  - intros k. tauto.
  - intros k v v' E E'. rewrite E in E'. injection E' as <-. inversion P as [| | | | | | |? ? ? N F|]; subst. apply lookup_In in E. clear - IH F E.
    induction kv as [|[k0 v0] r IHr]; [destruct E|]. inversion F as [|? ? F1 F2]; subst. cbn [snd] in F1. destruct E as [E|E]; [|exact (IHr E F2)].
    injection E as _ <-. exact (IH v0 F1).
  - inversion P as [| | | | | | | |? ? ? F]; subst. clear P. induction l as [|x l IHl]; constructor; inversion F as [|? ? F1 F2]; subst; [exact (IH x F1)|exact (IHl F2)].
Qed.

Lemma alike_back : forall v w, alike v w -> alike w v.
Proof.
  fix IH 3. intros v w H. destruct H; try constructor.
  - now apply IH.
  - induction H as [|x y l l' H1 H2 IHl]; constructor; [now apply IH|exact IHl].
  - intros k. symmetry. apply H.
  - intros k v v' E E'. apply (IH _ _ (H0 k v' v E' E)).
Qed.

Lemma alike_trans : forall u v w, alike u v -> alike v w -> alike u w.
Proof.
  fix IH 4. intros u v w H K. destruct H; try exact K.
  - inversion K; subst. constructor. eapply IH; eassumption.
  - inversion K as [| | | | | | |? ? ? l2 F|]; subst. constructor. clear K. revert l2 F. induction H as [|x y l l' H1 H2 IHl]; intros l2 F.
    + inversion F. constructor.
    + inversion F as [|? z ? l3 F1 F2]; subst. constructor; [exact (IH _ _ _ H1 F1)|exact (IHl l3 F2)].
  - inversion K as [| | | | | | | |? ? ? kv2 K2 A2]; subst. constructor.
    + intros k. rewrite (H k). apply K2.
    + intros k v v2 E E2. destruct (lookup k kv') as [v1|] eqn:E1.
      * exact (IH _ _ _ (H0 k v v1 E E1) (A2 k v1 v2 E1 E2)).
      * exfalso. apply lookup_None in E1. apply E1. apply H. eapply lookup_keys; exact E.
Qed.

(** ** The reflection helpers on elements *)
Definition all_proper (l : list gval) : Prop := Forall proper l.
Lemma proper_elements v : proper v -> all_proper (elements v).
Proof. intros P. destruct P; cbn [elements]; unfold all_proper; try assumption; repeat constructor; assumption. Qed.
Lemma proper_list t n l : all_proper l -> proper (VSlice t n l).
Proof. intros H. now constructor. Qed.

Lemma slicify_list v : v <> VNil -> exists t n, slicify v = VSlice t n (elements v).
Proof. intros N. destruct v; try contradiction; cbn [slicify typeof elements]; eauto. Qed.
Lemma slicify_twice v : slicify (slicify v) = slicify v.
Proof. destruct v; reflexivity. Qed.
Lemma elements_slicify v : elements (slicify v) = elements v.
Proof. destruct v; reflexivity. Qed.

Lemma contains_among x l : proper x -> all_proper l -> (existsb (deep_eq x) l = true <-> among x l).
Proof.
  intros P F. rewrite existsb_exists. unfold among. unfold all_proper in F. rewrite Forall_forall in F. split; intros (y & I & E); exists y; (split; [exact I|]); now apply deep_alike; auto.
Qed.
Lemma slice_contains_among x s : proper x -> all_proper (elements s) -> (slice_contains x (slicify s) = true <-> among x (elements s)).
Proof.
  intros P F. destruct s; cbn [slicify typeof elements slice_contains] in *; try (now apply contains_among).
  split; [discriminate|intros (y & [] & _)].
Qed.
Lemma among_alike x y l : alike x y -> among y l -> among x l.
Proof. intros E (z & I & F). exists z. split; [exact I|]. eapply alike_trans; eassumption. Qed.
Lemma within_trans a b c : within a b -> within b c -> within a c.
Proof. intros H K x I. destruct (H x I) as (y & J & E). eapply among_alike; [exact E|now apply K]. Qed.
Lemma within_incl l l' : all_proper l -> incl l l' -> within l l'.
Proof. intros P H x I. exists x. split; [now apply H|]. apply alike_self. unfold all_proper in P. rewrite Forall_forall in P. now apply P. Qed.

Lemma cast_same s d l : forall l', map_res (cast_elem s d) l = Ok l' -> l' = l.
Proof.
  induction l as [|x l IH]; intros l' H; cbn [map_res] in H; [now injection H as <-|].
  apply bind_ok in H as (y & Hy & H). apply bind_ok in H as (ys & Hys & H). injection H as <-. rewrite (IH _ Hys). f_equal.
  unfold cast_elem in Hy. destruct d; try (injection Hy as ->; reflexivity); try (destruct x; try discriminate Hy; injection Hy as <-; reflexivity);
    destruct (gty_eqb s _); try discriminate Hy; injection Hy as <-; reflexivity.
Qed.
Lemma slice_cast_elements s nt r : slice_cast s nt = Ok r -> elements r = elements s /\ (s <> VNil -> r <> VNil) /\ (proper s -> proper r) /\ (r = s \/ exists t, r = VSlice t false (elements s)).
Proof.
  destruct s; cbn [slice_cast]; try (intros [= <-]; repeat split; auto; fail).
  destruct (typeof nt) as [[]|]; try discriminate. intros H. apply bind_ok in H as (l' & Hl & H). injection H as <-. apply cast_same in Hl. subst l'.
  cbn [elements]. repeat split; try discriminate; eauto. intros P. inversion P; subst. now constructor.
Qed.

Definition joined (la lb : list gval) : list gval :=
  match lb with [] => la | _ :: _ => match la with [] => lb | _ :: _ => union_loop la lb end end.
Lemma union_elements a b c : union a b = Ok c -> a <> VNil /\ b <> VNil /\ exists t n, c = VSlice t n (joined (elements a) (elements b)).
Proof.
  unfold union. destruct (slicify a) as [| | | | | | |ta na la] eqn:Ea; try discriminate. destruct (slicify b) as [| | | | | | |tb nb lb] eqn:Eb; try discriminate.
  assert (Na : a <> VNil) by (intros ->; discriminate). assert (Nb : b <> VNil) by (intros ->; discriminate).
  rewrite <- (elements_slicify a), <- (elements_slicify b), Ea, Eb. cbn [elements]. intros H. split; [exact Na|]. split; [exact Nb|]. unfold joined.
  destruct lb as [|y lb]; [injection H as <-; eauto|]. destruct la as [|x la].
  - apply slice_cast_elements in H as (E & _ & _ & [-> | (t & ->)]); eauto.
  - apply bind_ok in H as (bs & Hb & H). apply bind_ok in H as (l & Hl & H). injection H as <-. exists ta, false. f_equal. f_equal.
    destruct (gty_eqb ta tb); [injection Hb as <-; cbn [elems] in Hl; now injection Hl as <-|].
    apply slice_cast_elements in Hb as (E & _ & _ & _). destruct bs; try discriminate Hl. cbn [elems] in Hl. injection Hl as <-. cbn [elements] in E. now rewrite E.
Qed.
Lemma union_loop_incl bs : forall out, incl out (union_loop out bs).
Proof.
  induction bs as [|v bs IH]; intros out x I; cbn [union_loop]; [exact I|]. destruct (existsb (deep_eq v) out); apply IH; [exact I|]. apply in_or_app. now left.
Qed.
Lemma union_loop_from bs : forall out x, In x (union_loop out bs) -> In x out \/ In x bs.
Proof.
  induction bs as [|v bs IH]; intros out x I; cbn [union_loop] in I; [now left|]. destruct (existsb (deep_eq v) out); apply IH in I as [I|I]; auto.
  - right. now right.
  - apply in_app_or in I as [I|[<-|[]]]; auto. right. now left.
  - right. now right.
Qed.
Lemma union_loop_within bs : forall out, all_proper out -> all_proper bs -> within bs (union_loop out bs).
Proof.
  induction bs as [|v bs IH]; intros out Po Pb x I; [destruct I|]. inversion Pb as [|? ? Pv Pb']; subst. cbn [union_loop]. destruct I as [<-|I].
  - destruct (existsb (deep_eq v) out) eqn:E.
    + apply contains_among in E as (y & J & A); auto. exists y. split; [now apply union_loop_incl|exact A].
    + exists v. split; [apply union_loop_incl; apply in_or_app; right; now left|now apply alike_self].
  - destruct (existsb (deep_eq v) out); apply IH; auto. apply Forall_app. split; [exact Po|]. now constructor.
Qed.
Lemma joined_left la lb : incl la (joined la lb).
Proof. unfold joined. destruct lb; [apply incl_refl|]. destruct la; [intros x []|apply union_loop_incl]. Qed.
Lemma joined_from la lb x : In x (joined la lb) -> In x la \/ In x lb.
Proof. unfold joined. destruct lb; [auto|]. destruct la; [auto|]. apply union_loop_from. Qed.
Lemma joined_right la lb : all_proper la -> all_proper lb -> within lb (joined la lb).
Proof. intros Pa Pb. unfold joined. destruct lb; [intros x []|]. destruct la; [apply within_incl; [exact Pb|apply incl_refl]|]. now apply union_loop_within. Qed.
Lemma joined_proper la lb : all_proper la -> all_proper lb -> all_proper (joined la lb).
Proof. unfold all_proper. rewrite !Forall_forall. intros Pa Pb x I. apply joined_from in I as [I|I]; auto. Qed.

Lemma intersect_elements a b c : intersect a b = Ok c -> a <> VNil /\ b <> VNil /\ exists t n, c = VSlice t n (filter (fun x => existsb (deep_eq x) (elements b)) (elements a)).
Proof.
  unfold intersect. destruct (slicify a) as [| | | | | | |ta na la] eqn:Ea; try discriminate. destruct (slicify b) as [| | | | | | |tb nb lb] eqn:Eb; try discriminate.
  assert (Na : a <> VNil) by (intros ->; discriminate). assert (Nb : b <> VNil) by (intros ->; discriminate).
  rewrite <- (elements_slicify a), <- (elements_slicify b), Ea, Eb. cbn [elements]. intros H. split; [exact Na|]. split; [exact Nb|].
  apply bind_ok in H as (bs & Hb & H). injection H as <-. eexists ta, _. f_equal.
  assert (E : exists t n, bs = VSlice t n lb).
  { destruct (gty_eqb ta tb); [injection Hb as <-; eauto|]. apply slice_cast_elements in Hb as (E & _ & _ & [-> | (t & ->)]); eauto. }
  destruct E as (t & n & ->). reflexivity.
Qed.
Lemma filter_from {A} (f : A -> bool) l : incl (filter f l) l.
Proof. intros x I. now apply filter_In in I. Qed.
Lemma filter_proper f l : all_proper l -> all_proper (filter f l).
Proof. unfold all_proper. rewrite !Forall_forall. intros P x I. apply P. now apply filter_In in I. Qed.
Lemma common_within la lb : all_proper la -> all_proper lb -> within (filter (fun x => existsb (deep_eq x) lb) la) lb.
Proof. intros Pa Pb x I. apply filter_In in I as [I E]. apply contains_among in E; auto. unfold all_proper in Pa. rewrite Forall_forall in Pa. now apply Pa. Qed.

Lemma subset_within a b : is_subset_of a b = Ok true -> proper a -> proper b -> a <> VNil /\ within (elements a) (elements b).
Proof.
  unfold is_subset_of. intros H Pa Pb. apply bind_ok in H as (l & Hl & H). injection H as H. rewrite forallb_forall in H.
  destruct (slicify a) as [| | | | | | |t n la] eqn:Ea; try discriminate. cbn [elems] in Hl. injection Hl as <-. split; [intros ->; discriminate|].
  assert (E : elements a = la) by (rewrite <- elements_slicify, Ea; reflexivity). rewrite E. intros x I. apply slice_contains_among; [|now apply proper_elements|now apply H].
  apply proper_elements in Pa. rewrite E in Pa. unfold all_proper in Pa. rewrite Forall_forall in Pa. now apply Pa.
Qed.

(** ** Applying a verified entry *)
Lemma verify_sub_ok a b e x y :
  verify_sub a b e = Ok tt -> get a e = Some x -> get b e = Some y -> proper x -> proper y -> x <> VNil /\ within (elements x) (elements y).
Proof.
  intros H Hx Hy Px Py. unfold verify_sub in H. rewrite Hx, Hy in H. apply bind_ok in H as ([] & S & H); [|discriminate]. now apply subset_within.
Qed.
Record verified (e : entry) : Prop := Verified {
  vd_one_of : forall x, get OOneOf e = Some x -> get OSubsetOf e = None /\ get OSupersetOf e = None;
  vd_super : verify_sub OSupersetOf OSubsetOf e = Ok tt;
  vd_add_sub : verify_sub OAdd OSubsetOf e = Ok tt;
  vd_add_value : verify_sub OAdd OValue e = Ok tt;
  vd_value_sub : verify_sub OValue OSubsetOf e = Ok tt;
  vd_default : get OValue e = Some VNil -> get ODefault e = None }.
Lemma verify_verified e : verify_entry e = Ok tt -> verified e.
Proof.
  intros H. unfold verify_entry in H. apply bind_ok in H as ([] & _ & H). unfold policy_verifiers in H. cbn [run_verifiers] in H.
  apply bind_ok in H as ([] & H1 & H). apply bind_ok in H as ([] & H2 & H). apply bind_ok in H as ([] & H3 & H). apply bind_ok in H as ([] & _ & H).
  apply bind_ok in H as ([] & H4 & H). apply bind_ok in H as ([] & _ & H). apply bind_ok in H as ([] & H5 & H). apply bind_ok in H as ([] & H6 & _).
  constructor; try assumption.
  - intros x Hx. unfold verify_subset_superset_oneof in H1. unfold get in *. unfold has in H1. rewrite Hx in H1. cbn [andb] in H1.
    destruct (lookup (op_name OSubsetOf) e); [discriminate H1|]. destruct (lookup (op_name OSupersetOf) e); [discriminate H1|]. auto.
  - intros Hv. unfold verify_default_and_value in H6. rewrite Hv in H6. destruct (get ODefault e); [discriminate H6|reflexivity].
Qed.

Definition stage (o : op) (e : entry) (ess : bool) (v : gval) (s : bool) : res (gval * bool) :=
  match get o e with None => Ok (v, s) | Some pv => apply_op o v s pv ess end.
Lemma apply_stage o os e ess v s r :
  apply_ops (o :: os) e ess v s = Ok r -> exists v1 s1, stage o e ess v s = Ok (v1, s1) /\ apply_ops os e ess v1 s1 = Ok r.
Proof.
  unfold stage. cbn [apply_ops]. destruct (get o e); intros H; [|eauto]. apply bind_ok in H as ((v1 & s1) & H1 & H). eauto.
Qed.

Definition operands_proper (e : entry) : Prop := forall o x, get o e = Some x -> proper x.

Lemma stage_value e ess v s v1 s1 : operands_proper e -> proper v -> stage OValue e ess v s = Ok (v1, s1) ->
  proper v1 /\
  match get OValue e with
  | None => v1 = v /\ s1 = s
  | Some x => (x = VNil /\ v1 = VNil /\ s1 = false) \/ (x <> VNil /\ v1 <> VNil /\ s1 = true /\ elements v1 = elements x)
  end.
Proof.
  intros O P H. unfold stage in H. destruct (get OValue e) as [x|] eqn:E; [|injection H as <- <-; auto]. pose proof (O _ _ E) as Px.
  cbn [apply_op] in H. destruct (is_nil x) eqn:N.
  - destruct x; try discriminate N. injection H as <- <-. split; [constructor|]. now left.
  - assert (Nx : x <> VNil) by (intros ->; discriminate N). apply bind_ok in H as (r & Hr & H). injection H as <- <-. apply slice_cast_elements in Hr as (A & B & C & _). split; [auto|]. right. auto.
Qed.
Lemma stage_add e ess v s v1 s1 : operands_proper e -> proper v -> stage OAdd e ess v s = Ok (v1, s1) ->
  proper v1 /\
  match get OAdd e with
  | None | Some VNil => (v1 = v /\ s1 = s) \/ (v1 = VNil /\ v = VNil /\ s1 = false)
  | Some x => s1 = true /\ v1 <> VNil /\ incl (elements v) (elements v1) /\ within (elements x) (elements v1) /\ forall y, In y (elements v1) -> In y (elements v) \/ In y (elements x)
  end.
Proof.
  intros O P H. unfold stage in H. destruct (get OAdd e) as [x|] eqn:E; [|injection H as <- <-; auto]. pose proof (O _ _ E) as Px.
  assert (Fx := proper_elements _ Px). assert (Fv := proper_elements _ P). cbn [apply_op] in H.
  assert (G : x = VNil \/ x <> VNil) by (destruct x; try (right; discriminate); now left). destruct G as [-> | Nx].
  { destruct v; cbn [is_nil negb] in H; injection H as <- <-; auto. }
  assert (N : is_nil x = false) by (destruct x; try reflexivity; contradiction). rewrite N in H. cbn [negb] in H.
  enough (G : proper v1 /\ s1 = true /\ v1 <> VNil /\ incl (elements v) (elements v1) /\ within (elements x) (elements v1) /\ forall y, In y (elements v1) -> In y (elements v) \/ In y (elements x)) by (destruct x; (contradiction || exact G)).
  destruct (is_nil v) eqn:Nv.
  - destruct v; try discriminate Nv. injection H as <- <-. cbn [elements]. repeat split; auto; [intros y []|apply within_incl; [exact Fx|apply incl_refl]].
  - apply bind_ok in H as (r & Hr & H). injection H as <- <-. apply union_elements in Hr as (_ & _ & t & n & ->). cbn [elements].
    split; [now apply proper_list, joined_proper|]. split; [reflexivity|]. split; [discriminate|]. split; [apply joined_left|]. split; [now apply joined_right|]. intros y. apply joined_from.
Qed.
Lemma stage_default e ess v s v1 s1 : operands_proper e -> proper v -> stage ODefault e ess v s = Ok (v1, s1) ->
  proper v1 /\ (s = true -> v1 = v /\ s1 = true) /\ (s1 = false -> v1 = v /\ s = false) /\ (get ODefault e = None -> v1 = v /\ s1 = s).
Proof.
  intros O P H. unfold stage in H. destruct (get ODefault e) as [x|] eqn:E; [|injection H as <- <-; repeat split; auto]. pose proof (O _ _ E) as Px.
  cbn [apply_op] in H. destruct s; cbn [negb] in H; [injection H as <- <-; repeat split; auto; discriminate|].
  apply bind_ok in H as (z & _ & H). destruct z.
  - apply bind_ok in H as (r & Hr & H). injection H as <- <-. apply slice_cast_elements in Hr as (_ & _ & C & _). repeat split; auto; discriminate.
  - injection H as <- <-. repeat split; auto; discriminate.
Qed.
Lemma stage_one_of e ess v s v1 s1 : operands_proper e -> proper v -> stage OOneOf e ess v s = Ok (v1, s1) ->
  v1 = v /\ s1 = s /\ forall x, get OOneOf e = Some x -> x <> VNil -> s = true -> among v (elements x).
Proof.
  intros O P H. unfold stage in H. destruct (get OOneOf e) as [x|] eqn:E; [|injection H as <- <-; repeat split; auto; discriminate]. pose proof (O _ _ E) as Px.
  cbn [apply_op] in H. destruct (negb s && negb ess)%bool eqn:C; [injection H as <- <-; repeat split; auto; intros y [= <-] _ ->; discriminate|].
  destruct (is_nil x) eqn:N; [destruct x; try discriminate N; injection H as <- <-; repeat split; auto; intros y [= <-] []; reflexivity|].
  destruct s; cbn [negb] in H; [|discriminate]. destruct (slice_contains v (slicify x)) eqn:D; [|discriminate]. injection H as <- <-. repeat split; auto.
  intros y [= <-] _ _. apply slice_contains_among in D; auto. now apply proper_elements.
Qed.
Lemma stage_subset e ess v s v1 s1 : operands_proper e -> proper v -> stage OSubsetOf e ess v s = Ok (v1, s1) ->
  proper v1 /\ s1 = s /\ (s = false -> v1 = v) /\ (get OSubsetOf e = None -> v1 = v) /\
  (s = true -> incl (elements v1) (elements v) /\
    (forall x, get OSubsetOf e = Some x -> x <> VNil -> within (elements v1) (elements x)) /\
    (forall y, In y (elements v) -> (forall x, get OSubsetOf e = Some x -> among y (elements x)) -> In y (elements v1))).
Proof.
  intros O P H. unfold stage in H. destruct (get OSubsetOf e) as [x|] eqn:E.
  2:{ injection H as <- <-. repeat apply conj; auto. intros _. repeat apply conj; [apply incl_refl|discriminate|auto]. }
  pose proof (O _ _ E) as Px.
  cbn [apply_op] in H. destruct (negb s && negb ess)%bool eqn:C.
  { injection H as <- <-. repeat apply conj; auto. intros ->. discriminate. }
  destruct (is_nil x) eqn:N.
  { destruct x; try discriminate N; injection H as <- <-. repeat apply conj; auto. intros _. repeat apply conj; [apply incl_refl| |auto]. intros y [= <-] []. reflexivity. }
  destruct s; cbn [negb] in H; [|discriminate]. apply bind_ok in H as (r & Hr & H). injection H as <- <-.
  apply intersect_elements in Hr as (_ & _ & t & n & ->). rewrite !elements_slicify. cbn [elements].
  assert (Fx := proper_elements _ Px). assert (Fv := proper_elements _ P).
  split; [now apply proper_list, filter_proper|]. split; [reflexivity|]. split; [discriminate|]. split; [discriminate|]. intros _. split; [apply filter_from|]. split.
  - intros y [= <-] _. now apply common_within.
  - intros y I A. apply filter_In. split; [exact I|]. apply contains_among; auto. unfold all_proper in Fv. rewrite Forall_forall in Fv. now apply Fv.
Qed.
Lemma stage_superset e ess v s v1 s1 : operands_proper e -> proper v -> stage OSupersetOf e ess v s = Ok (v1, s1) ->
  v1 = v /\ s1 = s /\ forall x, get OSupersetOf e = Some x -> s = true -> within (elements x) (elements v).
Proof.
  intros O P H. unfold stage in H. destruct (get OSupersetOf e) as [x|] eqn:E; [|injection H as <- <-; repeat split; auto; discriminate]. pose proof (O _ _ E) as Px.
  cbn [apply_op] in H. destruct (negb s && negb ess)%bool eqn:C; [injection H as <- <-; repeat split; auto; intros y [= <-] ->; discriminate|].
  destruct (is_nil x) eqn:N; [destruct x; try discriminate N; injection H as <- <-; repeat split; auto; intros y [= <-] _ z []|].
  destruct s; cbn [negb] in H; [|discriminate]. apply bind_ok in H as (b & Hb & H). destruct b; [|discriminate]. injection H as <- <-. repeat split; auto.
  intros y [= <-] _. unfold is_superset_of in Hb. apply subset_within in Hb as [_ W].
  - now rewrite !elements_slicify in W.
  - destruct x; try exact Px; cbn; constructor; constructor; (exact Px || constructor).
  - destruct v; try exact P; cbn; constructor; constructor; (exact P || constructor).
Qed.
Lemma stage_essential e ess v s v1 s1 : stage OEssential e ess v s = Ok (v1, s1) ->
  v1 = v /\ (get OEssential e = Some (VBool true) -> is_slice v = false -> v <> VNil /\ is_zero v = Ok false).
Proof.
  unfold stage. destruct (get OEssential e) as [x|]; [|intros [= <- <-]; split; [reflexivity|discriminate]]. cbn [apply_op].
  destruct x as [|[] | | | | | |]; try (intros [= <- <-]; split; [reflexivity|discriminate]).
  destruct (is_nil v) eqn:N; [discriminate|]. destruct (is_slice v) eqn:S; [intros [= <- <-]; split; [reflexivity|discriminate]|].
  intros H. apply bind_ok in H as (z & Hz & H). destruct z; [discriminate|]. injection H as <- <-. repeat split; auto. intros ->. discriminate.
Qed.

Lemma apply_obeys e set v v' : operands_proper e -> verify_entry e = Ok tt -> proper v -> apply_to e v set = Ok v' -> obeys e set v v' /\ proper v'.
Proof.
  intros O V P H. apply verify_verified in V. unfold apply_to in H. apply bind_ok in H as ((w & sw) & H & E). injection E as <-.
  unfold operator_order in H. remember (entry_essential e) as ess eqn:Eess. clear Eess.
  apply apply_stage in H as (v1 & s1 & S1 & H). apply apply_stage in H as (v2 & s2 & S2 & H). apply apply_stage in H as (v3 & s3 & S3 & H).
  apply apply_stage in H as (v4 & s4 & S4 & H). apply apply_stage in H as (v5 & s5 & S5 & H). apply apply_stage in H as (v6 & s6 & S6 & H).
  apply apply_stage in H as (v7 & s7 & S7 & H). cbn [apply_ops] in H. injection H as -> ->.
  apply stage_value in S1 as [P1 S1]; auto. apply stage_add in S2 as [P2 S2]; auto. apply stage_default in S3 as (P3 & D1 & D2 & D3); auto.
  apply stage_one_of in S4 as (-> & -> & S4); auto. apply stage_subset in S5 as (P5 & -> & B1 & B2 & B3); auto.
  apply stage_superset in S6 as (-> & -> & S6); auto. apply stage_essential in S7 as (-> & S7).
  (* absent *)
  assert (Ab : s3 = false -> still_absent set v v3).
  { intros F. destruct (D2 F) as [-> F2]. assert (G : v2 = v1 /\ s1 = false \/ v2 = VNil).
    { destruct (get OAdd e) as [[]|]; try (destruct S2 as [K _]; congruence); destruct S2 as [[-> ->] | (-> & _ & _)]; auto. }
    destruct G as [[-> F1] | ->]; [|now left]. destruct (get OValue e) as [x|]; [|destruct S1 as [-> ->]; now right].
    destruct S1 as [(_ & -> & _) | (_ & _ & K & _)]; [now left|congruence]. }
  assert (Ab' : s3 = false -> still_absent set v v5) by (intros F; rewrite (B1 F); auto).
  split; [|exact P5]. constructor; intros.
  - (* value *)
    assert (E : get OValue e = Some x) by exact H. rewrite E in S1. pose proof (O _ _ E) as Px.
    destruct S1 as [(-> & -> & ->) | (Nx & Nv1 & -> & E1)].
    + cbn [elements]. enough (G : elements v5 = []) by (rewrite G; split; intros y []).
      destruct (D3 (vd_default _ V E)) as [-> ->].
      assert (G : elements v2 = []).
      { destruct (get OAdd e) as [y|] eqn:Ey; [|destruct S2 as [[-> _] | (-> & _)]; reflexivity].
        destruct (verify_sub_ok _ _ _ _ _ (vd_add_value _ V) Ey E (O _ _ Ey) Px) as [Ny W]. assert (E0 : elements y = []) by (destruct (elements y) as [|u l] eqn:U; [reflexivity|destruct (W u (or_introl eq_refl)) as (? & [] & _)]).
        assert (S2' : forall z, In z (elements v2) -> In z (elements VNil) \/ In z (elements y)) by (destruct y; try contradiction; apply S2).
        destruct (elements v2) as [|u l]; [reflexivity|]. destruct (S2' u (or_introl eq_refl)) as [[]|I]. rewrite E0 in I. destruct I. }
      destruct s2; [|rewrite (B1 eq_refl); exact G]. destruct (B3 eq_refl) as (B & _). destruct (elements v5) as [|u l]; [reflexivity|]. specialize (B u (or_introl eq_refl)). rewrite G in B. destruct B.
    + assert (G : s2 = true /\ incl (elements x) (elements v2) /\ within (elements v2) (elements x) /\ forall y, In y (elements v2) -> In y (elements x) \/ exists z, get OAdd e = Some z /\ In y (elements z)).
      { assert (same : v2 = v1 -> incl (elements x) (elements v2) /\ within (elements v2) (elements x) /\ forall y, In y (elements v2) -> In y (elements x) \/ exists z, get OAdd e = Some z /\ In y (elements z)).
        { intros ->. rewrite E1. split; [apply incl_refl|]. split; [apply within_incl; [now apply proper_elements|apply incl_refl]|auto]. }
        destruct (get OAdd e) as [y|] eqn:Ey; [|destruct S2 as [[-> ->] | (_ & K & _)]; [split; [reflexivity|now apply same]|contradiction]].
        destruct (verify_sub_ok _ _ _ _ _ (vd_add_value _ V) Ey E (O _ _ Ey) Px) as [Ny W].
        assert (S2' : s2 = true /\ v2 <> VNil /\ incl (elements v1) (elements v2) /\ within (elements y) (elements v2) /\ forall z, In z (elements v2) -> In z (elements v1) \/ In z (elements y)) by (destruct y; (contradiction || exact S2)).
        destruct S2' as (-> & _ & A & _ & B). rewrite E1 in A, B. split; [reflexivity|]. split; [exact A|]. split.
        - intros u I. destruct (B u I) as [J|J]; [|now apply W]. apply (within_incl (elements x) (elements x)); [now apply proper_elements|apply incl_refl|exact J].
        - intros u I. destruct (B u I) as [J|J]; [now left|]. right. exists y. auto. }
      destruct G as (-> & A & B & C). destruct (D1 eq_refl) as [-> ->]. destruct (B3 eq_refl) as (B4 & _ & B5). split.
      * intros u I. apply B. now apply B4.
      * intros u I. exists u. split; [|apply alike_self; apply proper_elements in Px; unfold all_proper in Px; rewrite Forall_forall in Px; now apply Px].
        apply B5; [now apply A|]. intros z Ez. destruct (verify_sub_ok _ _ _ _ _ (vd_value_sub _ V) E Ez Px (O _ _ Ez)) as [_ W]. now apply W.
  - (* add *)
    assert (E : get OAdd e = Some x) by exact H. rewrite E in S2. pose proof (O _ _ E) as Px.
    assert (G : x = VNil \/ x <> VNil) by (destruct x; try (right; discriminate); now left). destruct G as [-> | Nx]; [intros y []|].
    assert (S2' : s2 = true /\ v2 <> VNil /\ incl (elements v1) (elements v2) /\ within (elements x) (elements v2) /\ forall z, In z (elements v2) -> In z (elements v1) \/ In z (elements x)) by (destruct x; (contradiction || exact S2)).
    destruct S2' as (-> & _ & _ & A & _). destruct (D1 eq_refl) as [-> ->]. destruct (B3 eq_refl) as (_ & _ & B5). intros u I. destruct (A u I) as (w & J & K). exists w. split; [|exact K].
    apply B5; [exact J|]. intros z Ez. destruct (verify_sub_ok _ _ _ _ _ (vd_add_sub _ V) E Ez Px (O _ _ Ez)) as [_ W]. eapply among_alike; [apply alike_back, K|now apply W].
  - (* one_of *)
    assert (E : get OOneOf e = Some x) by exact H. destruct (vd_one_of _ V x E) as [N _]. rewrite (B2 N) in *. destruct s3; [right; now apply S4|left; auto].
  - (* subset_of *)
    destruct s3; [right|left; auto]. destruct (B3 eq_refl) as (_ & B4 & _). now apply B4.
  - (* superset_of *)
    destruct s3; [right|left; auto]. now apply S6.
  - now apply S7.
Qed.

(** ** Merging and combining *)
Lemma pigeon la : forall lb, distinct la -> within la lb -> List.length lb <= List.length la -> (forall x y, In x la -> In y lb -> alike x y -> alike y x) -> within lb la.
Proof.
  induction la as [|x r IH]; intros lb D W L _; [destruct lb; [intros ? []|cbn in L; lia]|].
  destruct D as [N D]. destruct (W x (or_introl eq_refl)) as (y & I & E). apply in_split in I as (l1 & l2 & ->).
  assert (W' : within r (l1 ++ l2)%list).
  { intros z Iz. destruct (W z (or_intror Iz)) as (w & Iw & Ew). apply in_app_or in Iw as [Iw|[<-|Iw]].
    - exists w. split; [apply in_or_app; now left|exact Ew].
    - exfalso. apply N. exists z. split; [exact Iz|]. eapply alike_trans; [exact E|]. now apply alike_back.
    - exists w. split; [apply in_or_app; now right|exact Ew]. }
  assert (K : within (l1 ++ l2)%list r).
  { apply IH; auto; [|intros; now apply alike_back]. rewrite app_length in *. cbn [List.length] in L. lia. }
  intros u Iu. apply in_app_or in Iu as [Iu|[<-|Iu]].
  - destruct (K u) as (z & Iz & Ez); [apply in_or_app; now left|]. exists z. split; [now right|exact Ez].
  - exists x. split; [now left|now apply alike_back].
  - destruct (K u) as (z & Iz & Ez); [apply in_or_app; now right|]. exists z. split; [now right|exact Ez].
Qed.

Lemma slice_equal_within a b : slice_equal a b = Ok true -> proper a -> proper b -> distinct (elements a) ->
  within (elements a) (elements b) /\ within (elements b) (elements a).
Proof.
  intros H Pa Pb D. unfold slice_equal in H. destruct (is_nil a || is_nil b)%bool eqn:N.
  { injection H as H. destruct a; try discriminate H; destruct b; try discriminate H. split; intros x []. }
  apply Bool.orb_false_iff in N as [Na Nb]. assert (Na' : a <> VNil) by (intros ->; discriminate). assert (Nb' : b <> VNil) by (intros ->; discriminate).
  destruct (slicify_list a Na') as (ta & na & Ea). destruct (slicify_list b Nb') as (tb & nb & Eb). rewrite Ea, Eb in H. cbn [elems bind] in H. injection H as H.
  apply andb_prop in H as [L H]. apply Nat.eqb_eq in L. rewrite forallb_forall in H.
  assert (W : within (elements a) (elements b)).
  { intros x I. apply contains_among; [|now apply proper_elements|now apply H]. apply proper_elements in Pa. unfold all_proper in Pa. rewrite Forall_forall in Pa. now apply Pa. }
  split; [exact W|]. apply pigeon; auto; [lia|]. intros; now apply alike_back.
Qed.

Lemma merge_op_proper o a b c : merge_op o a b = Ok c -> proper a -> proper b -> proper c.
Proof.
  intros H Pa Pb. assert (Fa := proper_elements _ Pa). assert (Fb := proper_elements _ Pb).
  destruct o; cbn [merge_op] in H;
    repeat match type of H with (if is_nil ?x then _ else _) = _ => destruct (is_nil x); [injection H as <-; assumption|] end;
    try (apply union_elements in H as (_ & _ & t & n & ->); apply proper_list; now apply joined_proper);
    try (apply intersect_elements in H as (_ & _ & t & n & ->); apply proper_list; now apply filter_proper);
    try (apply bind_ok in H as ([] & _ & H); [injection H as <-; assumption|discriminate]).
  destruct a; destruct b; injection H as <-; constructor.
Qed.

Definition stricter (m a : entry) : Prop := forall set v v', obeys m set v v' -> obeys a set v v'.

Lemma op_at k o : operator_of k = Some o -> op_name o = k.
Proof.
  unfold operator_of. repeat match goal with |- context [String.eqb k ?x] => destruct (String.eqb_spec k x) as [-> | _]; [intros [= <-]; reflexivity|] end. discriminate.
Qed.

Lemma merged_stricter a b m : json_entry a -> json_entry b -> (forall k, merged_at a b m k) -> stricter m a /\ stricter m b.
Proof.
  intros Ja Jb M.
  assert (lone_a : forall k x, lookup k a = Some x -> lookup k b = None -> lookup k m = Some x) by (intros k x H K; specialize (M k); unfold merged_at in M; now rewrite H, K in M).
  assert (lone_b : forall k x, lookup k b = Some x -> lookup k a = None -> lookup k m = Some x) by (intros k x H K; specialize (M k); unfold merged_at in M; now rewrite K, H in M).
  assert (both : forall o x y, lookup (op_name o) a = Some x -> lookup (op_name o) b = Some y -> exists c, merge_op o x y = Ok c /\ lookup (op_name o) m = Some c).
  { intros o x y H K. specialize (M (op_name o)). unfold merged_at in M. rewrite H, K in M. destruct M as (o' & c & E & F & G).
    assert (o' = o) as -> by (destruct o; injection E as <-; reflexivity). eauto. }
  assert (nil_or : forall x, x = VNil \/ x <> VNil) by (intros []; try (right; discriminate); now left).
  assert (nil_no : forall x, x <> VNil -> is_nil x = false) by (intros [] H; try reflexivity; contradiction).
  (* one statement for both sides *)
  assert (add_case : forall o x y, (o = OAdd \/ o = OSupersetOf) -> lookup (op_name o) a = Some x -> lookup (op_name o) b = Some y ->
            exists c, lookup (op_name o) m = Some c /\ within (elements x) (elements c) /\ within (elements y) (elements c)).
  { intros o x y Ho H K. destruct (both _ _ _ H K) as (c & Ec & Em). exists c. split; [exact Em|].
    pose proof (je_proper _ Ja _ _ H) as Px. pose proof (je_proper _ Jb _ _ K) as Py. apply proper_elements in Px, Py.
    assert (Ec' : (if is_nil x then Ok y else if is_nil y then Ok x else union x y) = Ok c) by (destruct Ho; subst o; exact Ec). clear Ec.
    destruct (nil_or x) as [-> | Nx]; [injection Ec' as <-; split; [intros z []|apply within_incl; [exact Py|apply incl_refl]]|]. rewrite (nil_no _ Nx) in Ec'.
    destruct (nil_or y) as [-> | Ny]; [injection Ec' as <-; split; [apply within_incl; [exact Px|apply incl_refl]|intros z []]|]. rewrite (nil_no _ Ny) in Ec'.
    apply union_elements in Ec' as (_ & _ & t & n & ->). cbn [elements]. split; [apply within_incl; [exact Px|apply joined_left]|now apply joined_right]. }
  assert (sub_case : forall o x y, (o = OSubsetOf \/ o = OOneOf) -> lookup (op_name o) a = Some x -> lookup (op_name o) b = Some y ->
            exists c, lookup (op_name o) m = Some c /\
              (x <> VNil -> c <> VNil /\ within (elements c) (elements x)) /\
              (y <> VNil -> c <> VNil /\ within (elements c) (elements y))).
  { intros o x y Ho H K. destruct (both _ _ _ H K) as (c & Ec & Em). exists c. split; [exact Em|].
    pose proof (je_proper _ Ja _ _ H) as Px. pose proof (je_proper _ Jb _ _ K) as Py. apply proper_elements in Px, Py.
    assert (Ec' : (if is_nil x then Ok y else if is_nil y then Ok x else intersect x y) = Ok c) by (destruct Ho; subst o; exact Ec). clear Ec.
    destruct (nil_or x) as [-> | Nx]; [injection Ec' as <-; split; [contradiction|intros N; split; [exact N|apply within_incl; [exact Py|apply incl_refl]]]|]. rewrite (nil_no _ Nx) in Ec'.
    destruct (nil_or y) as [-> | Ny]; [injection Ec' as <-; split; [intros N; split; [exact N|apply within_incl; [exact Px|apply incl_refl]]|contradiction]|]. rewrite (nil_no _ Ny) in Ec'.
    apply intersect_elements in Ec' as (_ & _ & t & n & ->). cbn [elements]. split; (split; [discriminate|]); [apply within_incl; [now apply filter_proper|apply filter_from]|now apply common_within]. }
  assert (among_within : forall x l l', among x l -> within l l' -> among x l') by (intros x l l' (y & I & E) W; eapply among_alike; [exact E|now apply W]).
  split; intros set v v' Ob; constructor.
  - intros x H. destruct (lookup "value" b) as [y|] eqn:K; [|apply (ob_value _ _ _ _ Ob), lone_a; assumption].
    destruct (both OValue x y H K) as (c & Ec & Em). cbn [merge_op] in Ec. apply bind_ok in Ec as ([] & S & Ec); [|discriminate]. injection Ec as <-. exact (ob_value _ _ _ _ Ob _ Em).
  - intros x H. destruct (lookup "add" b) as [y|] eqn:K; [|apply (ob_add _ _ _ _ Ob), lone_a; assumption].
    destruct (add_case OAdd x y (or_introl eq_refl) H K) as (c & Em & W & _). eapply within_trans; [exact W|exact (ob_add _ _ _ _ Ob _ Em)].
  - intros x H N. destruct (lookup "one_of" b) as [y|] eqn:K; [|apply (ob_one_of _ _ _ _ Ob); [apply lone_a; assumption|exact N]].
    destruct (sub_case OOneOf x y (or_intror eq_refl) H K) as (c & Em & W & _). destruct (W N) as [Nc Wc]. destruct (ob_one_of _ _ _ _ Ob _ Em Nc) as [A|A]; [now left|right; eauto].
  - intros x H N. destruct (lookup "subset_of" b) as [y|] eqn:K; [|apply (ob_subset_of _ _ _ _ Ob); [apply lone_a; assumption|exact N]].
    destruct (sub_case OSubsetOf x y (or_introl eq_refl) H K) as (c & Em & W & _). destruct (W N) as [Nc Wc]. destruct (ob_subset_of _ _ _ _ Ob _ Em Nc) as [A|A]; [now left|right; eapply within_trans; eauto].
  - intros x H. destruct (lookup "superset_of" b) as [y|] eqn:K; [|apply (ob_superset_of _ _ _ _ Ob), lone_a; assumption].
    destruct (add_case OSupersetOf x y (or_intror eq_refl) H K) as (c & Em & W & _). destruct (ob_superset_of _ _ _ _ Ob _ Em) as [A|A]; [now left|right; eapply within_trans; eauto].
  - intros H. apply (ob_essential _ _ _ _ Ob). destruct (lookup "essential" b) as [y|] eqn:K; [|now apply lone_a].
    destruct (both OEssential _ y H K) as (c & Ec & Em). change (op_name OEssential) with "essential" in Em. rewrite Em. cbn [merge_op] in Ec. destruct y; injection Ec as <-; reflexivity.
  - intros x H. destruct (lookup "value" a) as [y|] eqn:K; [|apply (ob_value _ _ _ _ Ob), lone_b; assumption].
    destruct (both OValue y x K H) as (c & Ec & Em). cbn [merge_op] in Ec. apply bind_ok in Ec as ([] & S & Ec); [|discriminate]. injection Ec as <-.
    apply slice_equal_within in S as [W1 W2]; [|exact (je_proper _ Ja _ _ K)|exact (je_proper _ Jb _ _ H)|exact (je_distinct _ Ja _ K)].
    destruct (ob_value _ _ _ _ Ob _ Em) as [V1 V2]. split; eapply within_trans; eauto.
  - intros x H. destruct (lookup "add" a) as [y|] eqn:K; [|apply (ob_add _ _ _ _ Ob), lone_b; assumption].
    destruct (add_case OAdd y x (or_introl eq_refl) K H) as (c & Em & _ & W). eapply within_trans; [exact W|exact (ob_add _ _ _ _ Ob _ Em)].
  - intros x H N. destruct (lookup "one_of" a) as [y|] eqn:K; [|apply (ob_one_of _ _ _ _ Ob); [apply lone_b; assumption|exact N]].
    destruct (sub_case OOneOf y x (or_intror eq_refl) K H) as (c & Em & _ & W). destruct (W N) as [Nc Wc]. destruct (ob_one_of _ _ _ _ Ob _ Em Nc) as [A|A]; [now left|right; eauto].
  - intros x H N. destruct (lookup "subset_of" a) as [y|] eqn:K; [|apply (ob_subset_of _ _ _ _ Ob); [apply lone_b; assumption|exact N]].
    destruct (sub_case OSubsetOf y x (or_introl eq_refl) K H) as (c & Em & _ & W). destruct (W N) as [Nc Wc]. destruct (ob_subset_of _ _ _ _ Ob _ Em Nc) as [A|A]; [now left|right; eapply within_trans; eauto].
  - intros x H. destruct (lookup "superset_of" a) as [y|] eqn:K; [|apply (ob_superset_of _ _ _ _ Ob), lone_b; assumption].
    destruct (add_case OSupersetOf y x (or_intror eq_refl) K H) as (c & Em & _ & W). destruct (ob_superset_of _ _ _ _ Ob _ Em) as [A|A]; [now left|right; eapply within_trans; eauto].
  - intros H. apply (ob_essential _ _ _ _ Ob). destruct (lookup "essential" a) as [y|] eqn:K; [|now apply lone_b].
    destruct (both OEssential y _ K H) as (c & Ec & Em). change (op_name OEssential) with "essential" in Em. rewrite Em. cbn [merge_op] in Ec. destruct y; try (injection Ec as <-; reflexivity). destruct b0; injection Ec as <-; reflexivity.
Qed.

Lemma json_shared a b : json_entry a -> shared_known a b.
Proof. intros J k H _. now apply (je_known _ J). Qed.

Lemma merged_json a b m : json_entry a -> json_entry b -> NoDup (keys m) -> (forall k, merged_at a b m k) -> json_entry m.
Proof.
  intros Ja Jb ND M. constructor; [exact ND| | |].
  - intros k I. destruct (keys_lookup k m I) as [x E]. specialize (M k). unfold merged_at in M.
    destruct (lookup k a) eqn:A; [apply (je_known _ Ja); eapply lookup_keys; eauto|]. destruct (lookup k b) eqn:B; [apply (je_known _ Jb); eapply lookup_keys; eauto|congruence].
  - intros k x E. specialize (M k). unfold merged_at in M. destruct (lookup k a) eqn:A; destruct (lookup k b) eqn:B; try (rewrite M in E; injection E as <-); try congruence;
      try (now apply (je_proper _ Ja) in A); try (now apply (je_proper _ Jb) in B).
    destruct M as (o & c & _ & Mc & Em). rewrite Em in E. injection E as <-. eapply merge_op_proper; [exact Mc|exact (je_proper _ Ja _ _ A)|exact (je_proper _ Jb _ _ B)].
  - intros x E. specialize (M "value"). unfold merged_at in M. destruct (lookup "value" a) eqn:A; destruct (lookup "value" b) eqn:B; try (rewrite M in E; injection E as <-); try congruence;
      try (now apply (je_distinct _ Ja) in A); try (now apply (je_distinct _ Jb) in B).
    destruct M as (o & c & Eo & Mc & Em). injection Eo as <-. rewrite Em in E. injection E as <-. cbn [merge_op] in Mc. apply bind_ok in Mc as ([] & _ & Mc); [|discriminate]. injection Mc as <-. exact (je_distinct _ Ja _ A).
Qed.

Theorem any_merge a b m v set v' :
  json_entry a -> json_entry b -> merge_entries a b = Ok m -> verify_entry m = Ok tt -> proper v -> apply_to m v set = Ok v' ->
  obeys a set v v' /\ obeys b set v v'.
Proof.
  intros Ja Jb M V P A. destruct (merge_entries_lookup a b m (je_nodup _ Ja) (je_nodup _ Jb) (json_shared _ _ Ja) M) as [ND L].
  pose proof (merged_json _ _ _ Ja Jb ND L) as Jm. destruct (merged_stricter _ _ _ Ja Jb L) as [Sa Sb].
  destruct (apply_obeys m set v v') as [Ob _]; auto. intros o x E. exact (je_proper _ Jm _ _ E).
Qed.

Lemma combine2_strict k p s o : json_policy p -> json_policy s -> combine2 p s = Ok o ->
  json_policy o /\ (forall e, lookup k (pol p) = Some e \/ lookup k (pol s) = Some e -> exists m, lookup k (pol o) = Some m /\ stricter m e).
Proof.
  intros [NDp Jp] [NDs Js] H. destruct (combine2_lookup _ _ _ NDp NDs H) as [ND L]. split.
  - split; [exact ND|]. intros k' e E. specialize (L k'). unfold combined_at in L. destruct (lookup k' (pol p)) as [ep|] eqn:A; destruct (lookup k' (pol s)) as [es|] eqn:B.
    + destruct L as (c & M & Ec). rewrite Ec in E. injection E as <-. pose proof (Jp _ _ A) as Ja. pose proof (Js _ _ B) as Jb.
      destruct (merge_entries_lookup _ _ _ (je_nodup _ Ja) (je_nodup _ Jb) (json_shared _ _ Ja) M) as [NDm Lm]. exact (merged_json _ _ _ Ja Jb NDm Lm).
    + rewrite L in E. injection E as <-. eauto.
    + rewrite L in E. injection E as <-. eauto.
    + congruence.
  - intros e E. specialize (L k). unfold combined_at in L. destruct (lookup k (pol p)) as [ep|] eqn:A; destruct (lookup k (pol s)) as [es|] eqn:B.
    + destruct L as (c & M & Ec). exists c. split; [exact Ec|]. pose proof (Jp _ _ A) as Ja. pose proof (Js _ _ B) as Jb.
      destruct (merge_entries_lookup _ _ _ (je_nodup _ Ja) (je_nodup _ Jb) (json_shared _ _ Ja) M) as [NDm Lm]. destruct (merged_stricter _ _ _ Ja Jb Lm). destruct E as [[= ->] | [= ->]]; assumption.
    + destruct E as [[= ->] | ]; [|discriminate]. exists e. split; [exact L|]. intros set v v' Ob. exact Ob.
    + destruct E as [|[= ->]]; [discriminate|]. exists e. split; [exact L|]. intros set v v' Ob. exact Ob.
    + destruct E; discriminate.
Qed.
Lemma combine_fold_strict k ps : forall out o, json_policy out -> Forall json_policy ps -> combine_fold out ps = Ok o ->
  json_policy o /\ (forall e, lookup k (pol out) = Some e \/ (exists p, In p ps /\ lookup k (pol p) = Some e) -> exists m, lookup k (pol o) = Some m /\ stricter m e).
Proof.
  induction ps as [|p ps IH]; intros out o J F H; cbn [combine_fold] in H.
  - injection H as <-. split; [exact J|]. intros e [E|(p & [] & _)]. exists e. split; [exact E|]. intros set v v' Ob. exact Ob.
  - apply bind_ok in H as (out' & H1 & H2). inversion F as [|? ? Jp F']; subst. destruct (combine2_strict k _ _ _ J Jp H1) as [J' S]. destruct (IH _ _ J' F' H2) as [Jo S']. split; [exact Jo|].
    assert (via : forall e, lookup k (pol out) = Some e \/ lookup k (pol p) = Some e -> exists m, lookup k (pol o) = Some m /\ stricter m e).
    { intros e E. destruct (S e E) as (m & Em & Sm). destruct (S' m (or_introl Em)) as (m' & Em' & Sm'). exists m'. split; [exact Em'|]. intros set v v' Ob. now apply Sm, Sm'. }
    intros e [E|(q & [<-|I] & E)]; [apply via; now left|apply via; now right|]. apply S'. right. eauto.
Qed.
Lemma combine_policies_strict k ps o : Forall json_policy ps -> combine_policies ps = Ok o ->
  json_policy o /\ (forall p e, In p ps -> lookup k (pol p) = Some e -> exists m, lookup k (pol o) = Some m /\ stricter m e).
Proof.
  intros F H. destruct ps as [|p ps]; cbn [combine_policies] in H.
  - injection H as <-. split; [split; [constructor|discriminate]|intros p e []].
  - apply bind_ok in H as ([] & _ & H). inversion F as [|? ? Jp F']; subst. destruct (combine_fold_strict k _ _ _ Jp F' H) as [J S]. split; [exact J|].
    intros q e [<-|I] E; apply S; [now left|right; eauto].
Qed.

Theorem any_combination k ps o m v set v' :
  Forall json_policy ps -> combine_policies ps = Ok o -> verify_policy (pol o) = Ok tt -> lookup k (pol o) = Some m ->
  proper v -> apply_to m v set = Ok v' ->
  forall p e, In p ps -> lookup k (pol p) = Some e -> obeys e set v v'.
Proof.
  intros F H V Em P A p e I E. destruct (combine_policies_strict k ps o F H) as [[_ J] S]. destruct (S p e I E) as (m' & Em' & Sm). rewrite Em in Em'. injection Em' as <-.
  apply Sm. apply (apply_obeys m set v v'); auto.
  - intros o' x Ex. exact (je_proper _ (J _ _ Em) _ _ Ex).
  - rewrite verify_policy_Forall, Forall_forall in V. apply (V (k, m)). now apply lookup_In.
Qed.

Theorem any_chain c md t k :
  2 <= List.length c -> chain_metadata c = Ok (Some md) -> In t entity_types ->
  Forall json_policy (policies_of (snd t) c) ->
  Forall (fun p => verify_policy (pol p) = Ok tt) (policies_of (snd t) c) ->
  (exists p e, In p (policies_of (snd t) c) /\ lookup k (pol p) = Some e) ->
  forall em r v, fst t (leaf_metadata c) = Some em ->
    find (fun fv : frow * gval => String.eqb k (fr_tag (fst fv))) (em_fields em) = Some (r, v) ->
    fr_name r <> "Scope"%string -> proper v ->
  exists em' v', fst t md = Some em' /\
    (em_tag k em' = Some v' \/ (v' = VNil /\ em_tag k em' = Some (zero_of (fr_ty r)))) /\
    forall p e, In p (policies_of (snd t) c) -> lookup k (pol p) = Some e -> obeys e (mem (fr_name r) (em_set em)) v v'.
Proof.
  intros HL HM Ht HF HV (p0 & e0 & I0 & E0) em r v He Hf Hn Hv.
  destruct (chain_metadata_types c _ HL HM) as (m & E & T & _). injection E as <-.
  destruct (T t Ht) as (p & Hp & R).
  assert (ND : Forall (fun p => NoDup (keys (pol p))) (policies_of (snd t) c)) by (eapply Forall_impl; [|exact HF]; intros ? []; assumption).
  assert (Vp : verify_policy (pol p) = Ok tt).
  { destruct (combine_policies_verified _ _ ND Hp) as [V|(first & pre & post & E & _)]; auto.
    rewrite Forall_forall in HV. apply HV. rewrite E. right. apply in_or_app. right. now left. }
  assert (LK : lookup k (pol p) <> None) by (eapply combine_policies_keep; eauto; exists p0; split; [exact I0|congruence]).
  destruct p as [q|]; [|simpl in LK; congruence]. cbn [pol] in *. rewrite He in R.
  destruct R as (em' & Ha & Hmd).
  destruct (lookup k q) as [e|] eqn:Ek; [|congruence].
  pose proof Ha as Ha'. apply apply_policy_fields in Ha' as [_ FF].
  pose proof (find_parallel _ _ k _ _ FF) as P. unfold by_tag in P. rewrite Hf in P.
  destruct (find _ (em_fields em')) as [[r' v0]|] eqn:Ef; [|contradiction].
  assert (Etag : fr_tag r = k). { apply List.find_some in Hf as [_ B]. symmetry. now apply String.eqb_eq. }
  unfold apply_field in P. rewrite Etag, Ek in P.
  apply bind_ok in P as (v' & Hv' & P). apply bind_ok in P as (v'' & Hv'' & P). injection P as <- <-.
  assert (SF : scope_fix (fr_name r) v' = v').
  { unfold scope_fix. destruct (String.eqb_spec (fr_name r) "Scope"); [contradiction|reflexivity]. }
  rewrite SF in Hv''.
  exists em', v'. split; auto. split.
  - unfold em_tag. rewrite Ef. unfold assign in Hv''. destruct v'; cbn [typeof] in Hv''; try (destruct (gty_eqb _ _); [|discriminate Hv'']; injection Hv'' as <-; now left).
    injection Hv'' as <-. now right.
  - intros p e1 I E1. eapply (any_combination k _ (Some q) e v); eauto.
Qed.

(** ** Single operators *)
Lemma among_in l l' x : among x l -> incl l l' -> among x l'.
Proof. intros (y & I & E) H. exists y. auto. Qed.
Lemma among_joined la lb x : all_proper la -> all_proper lb -> (among x (joined la lb) <-> among x la \/ among x lb).
Proof.
  intros Pa Pb. split.
  - intros (y & I & E). apply joined_from in I as [I|I]; [left|right]; exists y; auto.
  - intros [H|H]; [eapply among_in; [exact H|apply joined_left]|]. destruct H as (y & I & E). eapply among_alike; [exact E|]. now apply joined_right.
Qed.
Lemma among_common la lb x : all_proper la -> all_proper lb -> (among x (filter (fun y => existsb (deep_eq y) lb) la) <-> among x la /\ among x lb).
Proof.
  intros Pa Pb. unfold all_proper in *. rewrite Forall_forall in Pa. split.
  - intros (y & I & E). apply filter_In in I as [I C]. split; [exists y; auto|]. apply contains_among in C; auto. eapply among_alike; eauto.
  - intros [(y & I & E) H]. exists y. split; [|exact E]. apply filter_In. split; [exact I|]. apply contains_among; auto. eapply among_alike; [apply alike_back, E|exact H].
Qed.
Theorem any_elements o a b c : set_op o -> proper a -> proper b -> a <> VNil -> b <> VNil -> merge_op o a b = Ok c ->
  forall x, among x (elements c) <-> merged_contains o x a b.
Proof.
  intros S Pa Pb Na Nb H x. apply proper_elements in Pa, Pb.
  assert (Na' : is_nil a = false) by (destruct a; try reflexivity; contradiction). assert (Nb' : is_nil b = false) by (destruct b; try reflexivity; contradiction).
  destruct S as [-> | [-> | [-> | ->]]]; cbn [merge_op merged_contains] in *; rewrite Na', Nb' in H;
    try (apply union_elements in H as (_ & _ & t & n & ->); cbn [elements]; now apply among_joined);
    apply intersect_elements in H as (_ & _ & t & n & ->); cbn [elements]; now apply among_common.
Qed.
Lemma array_union n1 l1 n2 l2 : exists n, union (VSlice TAny n1 l1) (VSlice TAny n2 l2) = Ok (VSlice TAny n (joined l1 l2)).
Proof.
  unfold union, joined. cbn [slicify]. destruct l2 as [|y l2]; [eauto|]. destruct l1 as [|x l1].
  - cbn [slice_cast typeof]. assert (E : forall l, map_res (cast_elem TAny TAny) l = Ok l) by (induction l as [|z l IH]; cbn [map_res]; [reflexivity|]; cbn [cast_elem bind]; now rewrite IH). rewrite E. cbn [bind]. eauto.
  - cbn [gty_eqb bind elems]. eauto.
Qed.
Lemma array_intersect n1 l1 n2 l2 : exists n, intersect (VSlice TAny n1 l1) (VSlice TAny n2 l2) = Ok (VSlice TAny n (filter (fun y => existsb (deep_eq y) l2) l1)).
Proof. unfold intersect. cbn [slicify gty_eqb bind slice_contains]. eauto. Qed.
Theorem any_arrays o a b : set_op o -> an_array a -> an_array b -> exists c, merge_op o a b = Ok c /\ an_array c.
Proof.
  intros S (n1 & l1 & ->) (n2 & l2 & ->). destruct (array_union n1 l1 n2 l2) as (n & U). destruct (array_intersect n1 l1 n2 l2) as (n' & J).
  destruct S as [-> | [-> | [-> | ->]]]; cbn [merge_op is_nil]; eexists; (split; [eassumption|unfold an_array; eauto]).
Qed.

Lemma array_proper_sym o a b : set_op o -> an_array a -> an_array b -> proper a -> proper b -> same_merge (merge_op o a b) (merge_op o b a).
Proof.
  intros S Aa Ab Pa Pb. destruct (any_arrays o a b S Aa Ab) as (c & Hc & _). destruct (any_arrays o b a S Ab Aa) as (d & Hd & _). rewrite Hc, Hd. cbn [same_merge].
  assert (Na : a <> VNil) by (destruct Aa as (? & ? & ->); discriminate). assert (Nb : b <> VNil) by (destruct Ab as (? & ? & ->); discriminate).
  pose proof (any_elements _ _ _ _ S Pa Pb Na Nb Hc) as E1. pose proof (any_elements _ _ _ _ S Pb Pa Nb Na Hd) as E2.
  assert (X : forall x, merged_contains o x a b <-> merged_contains o x b a) by (intros x; destruct o; cbn [merged_contains]; tauto).
  pose proof (proper_elements _ (merge_op_proper _ _ _ _ Hc Pa Pb)) as Pc. pose proof (proper_elements _ (merge_op_proper _ _ _ _ Hd Pb Pa)) as Pd.
  split; intros x I.
  - apply E2, X, E1. apply (within_incl _ _ Pc (incl_refl _)). exact I.
  - apply E1, X, E2. apply (within_incl _ _ Pd (incl_refl _)). exact I.
Qed.

Lemma distinct_proper_length la : forall lb, distinct la -> within la lb -> List.length la <= List.length lb.
Proof.
  induction la as [|x r IH]; intros lb D W; [cbn; lia|]. destruct D as [N D]. destruct (W x (or_introl eq_refl)) as (y & I & E). apply in_split in I as (l1 & l2 & ->).
  assert (W' : within r (l1 ++ l2)%list).
  { intros z Iz. destruct (W z (or_intror Iz)) as (w & Iw & Ew). apply in_app_or in Iw as [Iw|[<-|Iw]].
    - exists w. split; [apply in_or_app; now left|exact Ew].
    - exfalso. apply N. exists z. split; [exact Iz|]. eapply alike_trans; [exact E|]. now apply alike_back.
    - exists w. split; [apply in_or_app; now right|exact Ew]. }
  specialize (IH _ D W'). rewrite app_length in *. cbn [List.length]. lia.
Qed.
Lemma slice_equal_iff a b : a <> VNil -> b <> VNil -> proper a -> proper b -> distinct (elements a) -> distinct (elements b) ->
  slice_equal a b = Ok true /\ same_content a b \/ slice_equal a b = Ok false /\ ~ same_content a b.
Proof.
  intros Na Nb Pa Pb Da Db. destruct (slice_equal a b) as [[]| |] eqn:E.
  - left. split; [reflexivity|]. now apply slice_equal_within.
  - right. split; [reflexivity|]. intros [W1 W2]. unfold slice_equal in E. replace (is_nil a || is_nil b)%bool with false in E by (destruct a; try contradiction; destruct b; try contradiction; reflexivity).
    destruct (slicify_list a Na) as (ta & na & Ea). destruct (slicify_list b Nb) as (tb & nb & Eb). rewrite Ea, Eb in E. cbn [elems bind] in E. injection E as E.
    assert (L : Nat.eqb (List.length (elements a)) (List.length (elements b)) = true).
    { apply Nat.eqb_eq. pose proof (distinct_proper_length _ _ Da W1). pose proof (distinct_proper_length _ _ Db W2). lia. }
    rewrite L in E. cbn [andb] in E. assert (F : forallb (fun v : gval => slice_contains v (VSlice tb nb (elements b))) (elements a) = true).
    { apply forallb_forall. intros x I. cbn [slice_contains]. apply proper_elements in Pa, Pb. unfold all_proper in Pa. rewrite Forall_forall in Pa. apply contains_among; auto. }
    cbn [slice_contains] in F. rewrite F in E. discriminate E.
  - exfalso. unfold slice_equal in E. destruct (is_nil a || is_nil b)%bool; [discriminate|]. destruct (slicify_list a Na) as (ta & na & Ea). destruct (slicify_list b Nb) as (tb & nb & Eb). rewrite Ea, Eb in E. discriminate E.
  - exfalso. unfold slice_equal in E. destruct (is_nil a || is_nil b)%bool; [discriminate|]. destruct (slicify_list a Na) as (ta & na & Ea). destruct (slicify_list b Nb) as (tb & nb & Eb). rewrite Ea, Eb in E. discriminate E.
Qed.
Theorem any_fixed o a b : eq_op o -> a <> VNil -> b <> VNil -> proper a -> proper b -> distinct (elements a) -> distinct (elements b) ->
  (same_content a b -> merge_op o a b = Ok a) /\ (~ same_content a b -> merge_op o a b = Err).
Proof.
  intros S Na Nb Pa Pb Da Db. assert (Na' : is_nil a = false) by (destruct a; try reflexivity; contradiction). assert (Nb' : is_nil b = false) by (destruct b; try reflexivity; contradiction).
  destruct (slice_equal_iff a b Na Nb Pa Pb Da Db) as [[E C] | [E C]]; destruct S as [-> | ->]; cbn [merge_op]; rewrite ?Na', ?Nb', E; cbn [bind]; split; intros; auto; contradiction.
Qed.
Lemma same_content_back a b : same_content a b -> same_content b a.
Proof. unfold same_content. tauto. Qed.
Lemma same_content_self a : proper a -> same_content a a.
Proof. intros P. apply proper_elements in P. split; apply within_incl; auto; apply incl_refl. Qed.

Theorem any_symmetric o a b : (set_op o /\ an_array a /\ an_array b) \/ (eq_op o /\ a <> VNil /\ b <> VNil /\ distinct (elements a) /\ distinct (elements b)) ->
  proper a -> proper b -> same_merge (merge_op o a b) (merge_op o b a).
Proof.
  intros [(S & Aa & Ab) | (S & Na & Nb & Da & Db)] Pa Pb; [now apply array_proper_sym|].
  destruct (any_fixed o a b S Na Nb Pa Pb Da Db) as [F1 F2]. destruct (any_fixed o b a S Nb Na Pb Pa Db Da) as [F3 F4].
  destruct (slice_equal_iff a b Na Nb Pa Pb Da Db) as [[_ C] | [_ C]].
  - rewrite (F1 C), (F3 (same_content_back _ _ C)). exact C.
  - rewrite (F2 C), F4 by (intros K; apply C; now apply same_content_back). exact I.
Qed.
