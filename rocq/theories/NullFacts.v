(** Proofs about null operands of policies. *)
From Verif Require Import Base GoVal Policy Schema Metadata BaseFacts SpecPolicy SpecMetadata PolicyFacts
  MergeFacts RespectFacts ListFacts OpFacts MetadataFacts CombineFacts PolicyLaws ChainFacts Chain SpecChain SpecResolver Resolver SpecExact SpecExactList
  ListResultFacts ExactListFacts SpecNull.
Local Open Scope string_scope.

(** ** What the verifiers say *)

Lemma verified_by e f : verify_entry e = Ok tt -> In f policy_verifiers -> f e = Ok tt.
Proof. intros V I. apply bind_ok in V as (_ & _ & V). eapply run_verifiers_in; eauto. Qed.

Lemma verified_default e v d : verify_entry e = Ok tt -> lookup "value" e = Some v -> lookup "default" e = Some d -> is_nil v = false.
Proof.
  intros V Hv Hd. pose proof (verified_by e verify_default_and_value V) as K.
  assert (K' : verify_default_and_value e = Ok tt) by (apply K; unfold policy_verifiers; simpl; tauto).
  unfold verify_default_and_value, get in K'. cbn [op_name] in K'. rewrite Hv, Hd in K'. destruct (is_nil v); congruence.
Qed.

Lemma verified_add_null e v : verify_entry e = Ok tt -> lookup "value" e = Some VNil -> lookup "add" e = Some v ->
  exists t n, slicify v = VSlice t n [].
Proof.
  intros V Hv Ha. pose proof (verified_by e verify_add_in_value V) as K.
  assert (K' : verify_add_in_value e = Ok tt) by (apply K; unfold policy_verifiers; simpl; tauto).
  unfold verify_add_in_value, verify_sub, get in K'. cbn [op_name] in K'. rewrite Hv, Ha in K'.
  unfold is_subset_of in K'. apply bind_ok in K' as (b & K1 & K2). apply bind_ok in K1 as (l & K1 & K3).
  destruct (slicify v) eqn:Es; try discriminate. injection K1 as <-. rename l0 into l'. destruct l' as [|x l']; [eauto|].
  simpl in K3. injection K3 as <-. discriminate.
Qed.

Lemma verified_oneof_add e v n t : verify_entry e = Ok tt -> lookup "add" e = Some v -> slicify v = VSlice t n [] ->
  lookup "one_of" e = None.
Proof.
  intros V Ha Es. pose proof (verified_by e verify_add_in_oneof V) as K.
  assert (K' : verify_add_in_oneof e = Ok tt) by (apply K; unfold policy_verifiers; simpl; tauto).
  unfold verify_add_in_oneof, get in K'. cbn [op_name] in K'. rewrite Ha in K'.
  destruct (lookup "one_of" e); auto. rewrite Es in K'. discriminate.
Qed.

Lemma verified_oneof_subset e v : verify_entry e = Ok tt -> lookup "subset_of" e = Some v -> lookup "one_of" e = None.
Proof.
  intros V Ha. pose proof (verified_by e verify_subset_superset_oneof V) as K.
  assert (K' : verify_subset_superset_oneof e = Ok tt) by (apply K; unfold policy_verifiers; simpl; tauto).
  unfold verify_subset_superset_oneof, has in K'. cbn [op_name] in K'. rewrite Ha in K'.
  destruct (lookup "one_of" e); auto. discriminate.
Qed.

(** ** Null values *)

Lemma null_start e v set : lookup "value" e = Some VNil ->
  apply_to e v set = '(v', _) <- apply_ops [OAdd; ODefault; OOneOf; OSubsetOf; OSupersetOf; OEssential] e (entry_essential e) VNil false ;; Ok v'.
Proof. intros H. unfold apply_to, operator_order. rewrite (step_some OValue _ e _ v set VNil VNil false); auto. Qed.

Lemma null_add_step e v pv : lookup "add" e = Some pv -> is_nil pv = false ->
  apply_ops [OAdd; ODefault; OOneOf; OSubsetOf; OSupersetOf; OEssential] e v VNil false =
  apply_ops [OOneOf; OSubsetOf; OSupersetOf; OEssential] e v pv true.
Proof.
  intros Ha N. rewrite (step_some OAdd _ e _ VNil false pv pv true); auto.
  2:{ cbn [apply_op is_nil]. now rewrite N. }
  cbn [apply_ops]. destruct (get ODefault e); reflexivity.
Qed.

(** A []any keeps its type. *)
Lemma any_rest e ess n l v' s' :
  apply_ops [OOneOf; OSubsetOf; OSupersetOf; OEssential] e ess (VSlice TAny n l) true = Ok (v', s') ->
  exists n' l', v' = VSlice TAny n' l'.
Proof.
  assert (P : forall o pv n l v' s', In o [OOneOf; OSubsetOf; OSupersetOf; OEssential] ->
      apply_op o (VSlice TAny n l) true pv ess = Ok (v', s') -> s' = true /\ exists n' l', v' = VSlice TAny n' l').
  { clear. intros o pv n l v' s' Ho H. destruct Ho as [<- | [<- | [<- | [<- | []]]]]; cbn [apply_op negb andb] in H.
    - destruct (is_nil pv); [injection H as <- <-; eauto|]. destruct (slice_contains _ _); [injection H as <- <-; eauto|discriminate].
    - destruct (is_nil pv); [injection H as <- <-; eauto|]. apply bind_ok in H as (x & Hx & H). injection H as <- <-.
      unfold intersect in Hx. cbn [slicify is_slice] in Hx. destruct (slicify (slicify pv)); try discriminate.
      apply bind_ok in Hx as (bs & _ & Hx). injection Hx as <-. eauto.
    - destruct (is_nil pv); [injection H as <- <-; eauto|]. apply bind_ok in H as (b & _ & H).
      destruct b; [injection H as <- <-; eauto|discriminate].
    - destruct pv as [|[]| | | | | |]; cbn [is_nil is_slice] in H; try (injection H as <- <-; eauto). }
  intros H.
  assert (Q : forall os n l v' s', incl os [OOneOf; OSubsetOf; OSupersetOf; OEssential] ->
      apply_ops os e ess (VSlice TAny n l) true = Ok (v', s') -> exists n' l', v' = VSlice TAny n' l').
  { clear -P. induction os as [|o os IH]; intros n l v' s' I H; cbn [apply_ops] in H.
    - injection H as <- <-. eauto.
    - destruct (get o e) as [pv|].
      + apply bind_ok in H as ([v1 s1] & H1 & H). apply P in H1 as (-> & n1 & l1 & ->); [|apply I; now left].
        eapply IH; [|exact H]. intros x Hx. apply I. now right.
      + eapply IH; [|exact H]. intros x Hx. apply I. now right. }
  eapply Q; [apply incl_refl|exact H].
Qed.

Lemma str_rest e ess w v' s' :
  apply_ops [OSupersetOf; OEssential] e ess (VStr w) true = Ok (v', s') -> v' = VStr w.
Proof.
  intros H. cbn [apply_ops] in H. destruct (get OSupersetOf e) as [pv|].
  - apply bind_ok in H as ([v1 s1] & H1 & H). cbn [apply_op negb andb] in H1.
    assert (v1 = VStr w).
    { destruct (is_nil pv); [congruence|]. apply bind_ok in H1 as (b & _ & H1). destruct b; congruence. }
    subst v1. destruct (get OEssential e) as [pe|]; [|congruence]. apply bind_ok in H as ([v2 s2] & H2 & H). injection H as <- <-.
    cbn [apply_op is_nil is_slice] in H2. destruct pe as [|[]| | | | | |]; try congruence. apply bind_ok in H2 as (z & _ & H2). destruct z; congruence.
  - destruct (get OEssential e) as [pe|]; [|congruence]. apply bind_ok in H as ([v2 s2] & H2 & H). injection H as <- <-.
    cbn [apply_op is_nil is_slice] in H2. destruct pe as [|[]| | | | | |]; try congruence. apply bind_ok in H2 as (z & _ & H2). destruct z; congruence.
Qed.

(** Beside a null value, what can be assigned to a []string is what the table gives. *)
Lemma null_list e s v set v' v'' x :
  denotes e s -> list_operands e -> se_value s = Some None -> (se_add s = None \/ se_one_of s = None) ->
  apply_to e v set = Ok v' -> assign (TSlice TStr) v' = Ok v'' ->
  exists out n', spec_apply s x = Ok out /\ v'' = VSlice TStr n' (map VStr (match out with Some l => l | None => [] end)).
Proof.
  intros D L N AO H A.
  assert (Fin : forall o r, list_outcome (Ok v') (spec_rest s o) -> spec_apply s x = spec_rest s o -> r = v' ->
      exists out n', spec_apply s x = Ok out /\ v'' = VSlice TStr n' (map VStr (match out with Some l => l | None => [] end))).
  { intros o r O E _. rewrite E. destruct (spec_rest s o) as [out| |]; simpl in O; try contradiction. exists out. destruct out as [l|].
    - destruct O as (n' & ->). simpl in A. injection A as <-. eauto.
    - exists true. split; auto. destruct O as [-> | ->]; simpl in A; now injection A as <-. }
  pose proof (dn_value _ _ D) as Dv. rewrite N in Dv. rewrite (null_start e v set Dv) in H.
  pose proof (dn_add _ _ D) as Da. pose proof (dn_default _ _ D) as Dd.
  rewrite spec_apply_unfold in Fin |- *. unfold spec_value in Fin |- *. rewrite N in Fin |- *.
  destruct (se_add s) as [la|] eqn:Ea; simpl in Da.
  - (* add *)
    destruct AO as [AO|O1]; [discriminate|]. destruct Da as (pv & Ep & Sp).
    rewrite (null_add_step e (entry_essential e) pv Ep (strs_not_nil _ _ Sp)) in H.
    assert (E : spec_rest s (spec_default s (spec_add s None)) = spec_rest s (Some la)).
    { unfold spec_add. rewrite Ea. unfold spec_default. now destruct (se_default s). }
    destruct Sp as [(w & -> & ->)|(t & n & [-> | ->] & ->)].
    + (* a single string *)
      pose proof (rest_list e s D (VSlice TStr false (map VStr [w])) true (Some [w])) as R.
      assert (R' : list_outcome ('(v', _) <- apply_ops [OOneOf; OSubsetOf; OSupersetOf; OEssential] e (entry_essential e) (VSlice TStr false [VStr w]) true ;; Ok v')
                 (spec_rest s (Some [w]))).
      { apply R; [split; eauto|discriminate]. }
      clear R. pose proof (dn_one_of _ _ D) as Do. rewrite O1 in Do. simpl in Do.
      rewrite (step_none OOneOf) in H by exact Do. rewrite (step_none OOneOf) in R' by exact Do.
      pose proof (dn_subset_of _ _ D) as Ds. destruct (se_subset_of s) as [ls|]; simpl in Ds.
      * destruct Ds as (ps & Es & Ss). cbn [apply_ops] in H, R'. unfold get in H, R'. cbn [op_name] in H, R'. rewrite Es in H, R'.
        cbn [apply_op negb andb] in H, R'. change (slicify (VStr w)) with (VSlice TStr false [VStr w]) in H.
        change (slicify (VSlice TStr false [VStr w])) with (VSlice TStr false [VStr w]) in R'.
        rewrite (strs_not_nil _ _ Ss) in H, R'.
        eapply (Fin (Some [w]) v'); auto. rewrite <- H. exact R'.
      * exfalso. rewrite (step_none OSubsetOf) in H by exact Ds. clear R' Fin. apply bind_ok in H as ([v1 s1] & H & H'). injection H' as ->.
        assert (K : v' = VStr w) by (eapply str_rest; exact H). subst v'. discriminate A.
    + (* a []any *)
      exfalso. apply bind_ok in H as ([v1 s1] & H & H'). injection H' as ->. destruct (any_rest _ _ _ _ _ _ H) as (n' & l' & ->). discriminate A.
    + pose proof (rest_list e s D (VSlice TStr n (map VStr la)) true (Some la)) as R. rewrite H in R.
      eapply (Fin (Some la) v'); auto. apply R; [split; eauto|discriminate].
  - rewrite (step_none OAdd) in H by exact Da. destruct (se_default s) as [ld|] eqn:Ed; simpl in Dd.
    + exfalso. destruct Dd as (pv & Ep & Sp). cbn [apply_ops] in H. unfold get in H. cbn [op_name] in H. rewrite Ep in H.
      destruct (L "default" pv (or_intror eq_refl) Ep) as [-> | Hs]; [destruct Sp as [(? & ? & _)|(? & ? & ? & ?)]; discriminate|].
      destruct pv; try discriminate Hs. discriminate H.
    + rewrite (step_none ODefault) in H by exact Dd.
      pose proof (rest_list e s D VNil false None) as R. rewrite H in R.
      eapply (Fin None v'); auto.
      * apply R; auto. simpl. auto.
      * unfold spec_add. rewrite Ea. unfold spec_default. now rewrite Ed.
Qed.

(** The empty []any beside a null value. *)
Lemma any_empty e v set n :
  lookup "value" e = Some VNil -> lookup "add" e = Some (VSlice TAny n []) -> lookup "one_of" e = None ->
  (absent_or_null "subset_of" e \/ exists ps ls, lookup "subset_of" e = Some ps /\ strs ps ls) ->
  (null_and_nothing e /\ exists n', apply_to e v set = Ok (VSlice TAny n' [])) \/
  (~ null_and_nothing e /\ apply_to e v set = Err).
Proof.
  intros Hv Ha Ho Hs. rewrite (null_start e v set Hv), (null_add_step e _ _ Ha eq_refl), (step_none OOneOf) by exact Ho.
  assert (S : exists n1, apply_ops [OSubsetOf; OSupersetOf; OEssential] e (entry_essential e) (VSlice TAny n []) true =
      apply_ops [OSupersetOf; OEssential] e (entry_essential e) (VSlice TAny n1 []) true).
  { destruct Hs as [[Hs|Hs]|(ps & ls & Hs & Ss)].
    - exists n. now apply step_none.
    - exists n. now apply step_some with VNil.
    - exists true. apply step_some with ps; auto. cbn [apply_op negb andb]. rewrite (strs_not_nil _ _ Ss).
      destruct (strs_slicify _ _ Ss) as (t & n2 & Ht & ->). cbn [slicify is_slice]. unfold intersect. cbn [slicify is_slice].
      assert (exists bs, (if gty_eqb TAny t then Ok (VSlice t n2 (map VStr ls)) else slice_cast (VSlice t n2 (map VStr ls)) (VSlice TAny n [])) = Ok bs) as (bs & ->).
      { destruct Ht as [-> | ->]; simpl; eauto.
        assert (exists l', map_res (cast_elem TStr TAny) (map VStr ls) = Ok l') as (l' & ->); [|simpl; eauto].
        clear. induction ls as [|x ls [l' IH]]; simpl; eauto. rewrite IH. simpl. eauto. }
      reflexivity. }
  destruct S as (n1 & ->).
  assert (E : forall n', apply_ops [OEssential] e (entry_essential e) (VSlice TAny n' []) true = Ok (VSlice TAny n' [], true)).
  { intros n'. cbn [apply_ops]. destruct (get OEssential e) as [[|[]| | | | | |]|]; reflexivity. }
  destruct (lookup "superset_of" e) as [ps|] eqn:Ep.
  - destruct (is_nil ps) eqn:Np.
    + left. split.
      * split; auto. split; eauto. left. right. destruct ps; try discriminate Np. exact Ep.
      * exists n1. rewrite (step_some OSupersetOf _ e _ _ true ps (VSlice TAny n1 []) true), E; auto.
        cbn [apply_op negb andb]. now rewrite Np.
    + destruct (slicify_elems ps) as (l & El); [intros ->; discriminate|].
      assert (El' : elems (slicify (slicify ps)) = Ok l) by (rewrite <- El; destruct ps; reflexivity).
      assert (Ea : apply_op OSupersetOf (VSlice TAny n1 []) true ps (entry_essential e) =
                   if match l with [] => true | _ => false end then Ok (VSlice TAny n1 [], true) else Err).
      { cbn [apply_op negb andb]. rewrite Np. unfold is_superset_of, is_subset_of. rewrite El'. cbn [bind]. destruct l; reflexivity. }
      destruct l as [|a l].
      * left. split.
        -- split; auto. split; eauto. right. destruct ps; try discriminate El. injection El as ->. eauto.
        -- exists n1. rewrite (step_some OSupersetOf _ e _ _ true ps (VSlice TAny n1 []) true), E; auto.
      * right. split.
        -- intros (_ & _ & [[K|K]|(t & n' & K)]); rewrite Ep in K; try discriminate; injection K as ->; discriminate.
        -- cbn [apply_ops]. unfold get. cbn [op_name]. rewrite Ep, Ea. reflexivity.
  - left. split; [split; auto; split; eauto; left; now left|]. exists n1. rewrite step_none by exact Ep. now rewrite E.
Qed.

Lemma nothing_denotes e s : denotes e s -> null_and_nothing e ->
  se_value s = Some None /\ se_add s = Some [] /\ (se_superset_of s = None \/ se_superset_of s = Some []).
Proof.
  intros D (Hv & (n & Ha) & Hp).
  pose proof (dn_value _ _ D) as Dv. pose proof (dn_add _ _ D) as Da. pose proof (dn_superset_of _ _ D) as Dp.
  split; [|split].
  - destruct (se_value s) as [[l|]|]; auto; simpl in Dv; [|congruence]. destruct Dv as (pv & E & S). rewrite Hv in E. injection E as <-.
    apply strs_not_nil in S. discriminate.
  - destruct (se_add s) as [l|]; simpl in Da; [|congruence]. destruct Da as (pv & E & S). rewrite Ha in E. injection E as <-.
    destruct S as [(w & K & _)|(t & n' & _ & K)]; [discriminate|]. injection K as _ _ K. destruct l; [reflexivity|discriminate].
  - destruct (se_superset_of s) as [l|]; auto; simpl in Dp. right. destruct Dp as (pv & E & S).
    destruct Hp as [[K|K]|(t & n' & K)]; rewrite K in E; try discriminate; injection E as <-.
    + apply strs_not_nil in S. discriminate.
    + destruct S as [(w & Q & _)|(t' & n2 & _ & Q)]; [discriminate|]. injection Q as _ _ Q. destruct l; [reflexivity|discriminate].
Qed.

Lemma null_exact e s v set x (O : res gval -> res (option (list string)) -> Prop) :
  (forall r o, list_outcome r o -> O r o) -> (forall n o, ~ O (Ok (VSlice TAny n [])) (Ok (Some o))) ->
  denotes e s -> list_operands e -> verify_entry e = Ok tt -> se_value s = Some None -> se_add s = Some [] ->
  (O (apply_to e v set) (spec_apply s x) <-> ~ null_and_nothing e).
Proof.
  intros O1 O2 D L V N A.
  pose proof (dn_value _ _ D) as Dv. rewrite N in Dv. pose proof (dn_add _ _ D) as Da. rewrite A in Da. simpl in Da.
  destruct Da as (pv & Ep & Sp).
  assert (SA : spec_apply s x = spec_rest s (Some [])).
  { rewrite spec_apply_unfold. unfold spec_value, spec_add, spec_default. rewrite N, A. now destruct (se_default s). }
  destruct Sp as [(w & _ & K)|(t & n & Ht & ->)]; [discriminate|]. cbn [map] in Ep.
  pose proof (verified_oneof_add e _ n t V Ep eq_refl) as Ho.
  destruct Ht as [-> | ->].
  - destruct (any_empty e v set n Dv Ep Ho) as [(B & n' & E)|(B & E)].
    + pose proof (dn_subset_of _ _ D) as Ds. destruct (se_subset_of s) as [ls|]; simpl in Ds; [right|left; now left].
      destruct Ds as (ps & E & S). eauto.
    + split; [|contradiction]. intros K. exfalso. rewrite E, SA in K.
      destruct (nothing_denotes e s D B) as (_ & _ & P).
      pose proof (dn_one_of _ _ D) as Do. unfold spec_rest in K.
      destruct (se_one_of s); [simpl in Do; destruct Do as (? & Do & _); congruence|].
      assert (KA : match se_subset_of s with Some l => keep_allowed [] l | None => [] end = []) by (now destruct (se_subset_of s)).
      rewrite KA in K. destruct P as [P|P]; rewrite P in K; simpl in K; now apply O2 in K.
    + split; [auto|]. intros _. apply O1. rewrite E, SA.
      pose proof (dn_one_of _ _ D) as Do. unfold spec_rest.
      destruct (se_one_of s); [exact I|].
      pose proof (dn_superset_of _ _ D) as Dp.
      destruct (se_superset_of s) as [[|a l]|]; simpl in Dp.
      * exfalso. apply B. split; auto. split; eauto. right. destruct Dp as (ps & E' & [(w & _ & Q)|(t & n' & _ & ->)]); [discriminate|eauto].
      * assert (KA : match se_subset_of s with Some l => keep_allowed [] l | None => [] end = []) by (now destruct (se_subset_of s)).
        rewrite KA. exact I.
      * exfalso. apply B. split; auto. split; eauto. left. now left.
  - split.
    + intros _ (_ & (n' & K) & _). rewrite Ep in K. discriminate.
    + intros _. apply O1. rewrite SA, (null_start e v set Dv), (null_add_step e _ _ Ep eq_refl).
      apply (rest_list e s D (VSlice TStr n []) true (Some [])); [|discriminate]. split; auto. exists n. reflexivity.
Qed.

Lemma not_nothing e s : denotes e s -> ~ (se_value s = Some None /\ se_add s = Some []) -> ~ null_and_nothing e.
Proof. intros D H B. destruct (nothing_denotes e s D B) as (? & ? & _). auto. Qed.

Lemma null_cases (s : sentry) : (se_value s = Some None /\ se_add s = Some []) \/ ~ (se_value s = Some None /\ se_add s = Some []).
Proof.
  destruct (se_value s) as [[l|]|]; try (right; intros [? _]; discriminate).
  destruct (se_add s) as [[|a l]|]; try (right; intros [_ ?]; discriminate). now left.
Qed.

Lemma verified_null' e s : denotes e s -> verify_entry e = Ok tt -> ~ (se_value s = Some None /\ se_add s = Some []) ->
  se_value s = Some None -> se_add s = None /\ se_default s = None.
Proof. intros D V H N. apply (verified_null e); auto. Qed.

Theorem list_exact_all e s n cur set :
  denotes e s -> list_operands e -> opt (se_add s) (@NoDup string) ->
  verify_entry e = Ok tt -> (set = false -> n = true /\ cur = []) ->
  (list_outcome (apply_to e (VSlice TStr n (map VStr cur)) set) (spec_apply s (if set then Some cur else None)) <->
   ~ (set = false /\ only_essential s) /\ ~ null_and_nothing e).
Proof.
  intros D L ND V Hs. destruct (null_cases s) as [[N A]|H].
  - rewrite (null_exact e s _ set (if set then Some cur else None) list_outcome); auto.
    + split; [intros K; split; auto|tauto]. intros [_ O]. destruct O as [_ O _ _ _ _ _]. congruence.
    + intros m o (k & K). discriminate.
  - rewrite (list_exact e s n cur set); auto.
    + split; [intros K; split; auto; eapply not_nothing; eauto|tauto].
    + eapply verified_null'; eauto.
Qed.

Theorem set_exact_all e s n cur set :
  denotes e s -> list_operands e -> verify_entry e = Ok tt -> (set = false -> n = true /\ cur = []) ->
  (set_outcome (apply_to e (VSlice TStr n (map VStr cur)) set) (spec_apply s (if set then Some cur else None)) <->
   ~ (set = false /\ only_essential s) /\ ~ null_and_nothing e).
Proof.
  intros D L V Hs. destruct (null_cases s) as [[N A]|H].
  - rewrite (null_exact e s _ set (if set then Some cur else None) set_outcome); auto.
    + split; [intros K; split; auto|tauto]. intros [_ O]. destruct O as [_ O _ _ _ _ _]. congruence.
    + intros r o. unfold list_outcome, set_outcome. destruct r as [v| |], o as [[l|]| |]; auto.
      intros (k & ->). exists k, l. split; auto. intros y. tauto.
    + intros m o (k & l' & K & _). discriminate.
  - rewrite (set_exact e s n cur set); auto.
    + split; [intros K; split; auto; eapply not_nothing; eauto|tauto].
    + eapply verified_null'; eauto.
Qed.

(** ** When applying a verified policy with typed operands crashes (C03) *)

Lemma lookup_drop {V} k k' (m : smap V) : lookup k (remove_key k' m) = if String.eqb k k' then None else lookup k m.
Proof.
  unfold remove_key. induction m as [|[a v] m IH]; simpl; [now destruct (String.eqb k k')|].
  destruct (String.eqb_spec k' a) as [<-|Na]; simpl.
  - rewrite IH. destruct (String.eqb_spec k k') as [->|]; auto.
  - rewrite IH. destruct (String.eqb_spec k a) as [->|]; auto. destruct (String.eqb_spec a k'); congruence.
Qed.

Lemma cast_not_nil x y z : slice_cast x y = Ok z -> is_nil x = false -> is_nil z = false.
Proof.
  intros H N. unfold slice_cast in H. destruct x; try (injection H as <-; exact N).
  destruct (typeof y) as [[]|]; try discriminate. apply bind_ok in H as (l' & _ & H). injection H as <-. reflexivity.
Qed.

(** A default is not looked at once there is a value. *)
Lemma apply_drop e v set : is_nil v = false -> lookup "value" e <> Some VNil ->
  (set = true \/ lookup "value" e <> None \/ ~ absent_or_null "add" e) ->
  apply_to e v set = apply_to (remove_key "default" e) v set.
Proof.
  intros Nv NV H.
  assert (G : forall o, o <> ODefault -> get o (remove_key "default" e) = get o e).
  { intros o Ho. unfold get. rewrite lookup_drop. destruct o; try congruence; reflexivity. }
  assert (GD : get ODefault (remove_key "default" e) = None) by (unfold get; now rewrite lookup_drop).
  assert (Ess : entry_essential (remove_key "default" e) = entry_essential e) by (unfold entry_essential; now rewrite G by discriminate).
  unfold apply_to. rewrite Ess. set (ess := entry_essential e).
  assert (Rest : forall os v set, ~ In ODefault os -> apply_ops os (remove_key "default" e) ess v set = apply_ops os e ess v set).
  { induction os as [|o os IH]; intros v0 set0 NI; cbn [apply_ops]; auto. simpl in NI.
    rewrite G by (intros ->; tauto). destruct (get o e) as [pv|]; auto.
    destruct (apply_op o v0 set0 pv ess) as [[v1 s1]| |]; cbn [bind]; auto. }
  set (os := [OOneOf; OSubsetOf; OSupersetOf; OEssential]) in *.
  assert (Def : forall v1, apply_ops (ODefault :: os) e ess v1 true = apply_ops (ODefault :: os) (remove_key "default" e) ess v1 true).
  { intros v1. rewrite (step_none ODefault _ (remove_key "default" e)) by exact GD.
    rewrite Rest by (simpl; intuition discriminate). cbn [apply_ops]. destruct (get ODefault e); reflexivity. }
  assert (Add : forall v1, is_nil v1 = false ->
     apply_ops (OAdd :: ODefault :: os) e ess v1 true = apply_ops (OAdd :: ODefault :: os) (remove_key "default" e) ess v1 true).
  { intros v1 N1. remember (ODefault :: os) as os'. cbn [apply_ops]. rewrite (G OAdd) by discriminate.
    destruct (get OAdd e) as [pv|]; [|apply Def].
    cbn [apply_op]. rewrite N1. destruct (is_nil pv); cbn [bind]; [apply Def|].
    destruct (union v1 pv); cbn [bind]; auto. }
  assert (All : apply_ops operator_order e ess v set = apply_ops operator_order (remove_key "default" e) ess v set); [|now rewrite All].
  change operator_order with (OValue :: OAdd :: ODefault :: os). remember (OAdd :: ODefault :: os) as os1. cbn [apply_ops].
  rewrite (G OValue) by discriminate. destruct (get OValue e) as [pv|] eqn:Ev; unfold get in Ev; cbn [op_name] in Ev.
  - cbn [apply_op]. destruct (is_nil pv) eqn:Np; [exfalso; destruct pv; try discriminate; congruence|].
    destruct (slice_cast pv (slicify v)) as [z| |] eqn:Ec; cbn [bind]; auto. apply Add. eapply cast_not_nil; eauto.
  - destruct set; [now apply Add|]. subst os1. destruct H as [H|[H|H]]; [discriminate|congruence|].
    remember (ODefault :: os) as os'. cbn [apply_ops]. rewrite (G OAdd) by discriminate.
    destruct (get OAdd e) as [pv|] eqn:Ea; unfold get in Ea; cbn [op_name] in Ea.
    + cbn [apply_op]. rewrite Nv. destruct (is_nil pv) eqn:Np.
      * exfalso. apply H. right. destruct pv; try discriminate. exact Ea.
      * destruct (union v pv); cbn [bind]; auto.
    + exfalso. apply H. now left.
Qed.

Lemma null_dec (x : option gval) : x = None \/ x = Some VNil \/ exists v, x = Some v /\ v <> VNil.
Proof. destruct x as [[]|]; auto; right; right; eexists; split; eauto; discriminate. Qed.

(** What comes out can be assigned, or the crash is one of the two. *)
Lemma typed_apply r e v set :
  typed r e -> verify_entry e = Ok tt -> good r v -> (set = false -> is_zero v = Ok true) ->
  (crashes e set /\ (apply_to e v set = Panic \/ exists n, apply_to e v set = Ok (VSlice TAny n []))) \/
  (~ crashes e set /\ apply_to e v set <> Panic /\ forall v', apply_to e v set = Ok v' -> v' = VNil \/ good r v').
Proof.
  intros T V G Z.
  assert (Plain : forall e0, fits r e0 -> apply_to e0 v set <> Panic /\ forall v', apply_to e0 v set = Ok v' -> v' = VNil \/ good r v').
  { intros e0 F. destruct (apply_ops_np r e0 (entry_essential e0) F v set G) as [NP OK]. unfold apply_to.
    destruct (apply_ops _ _ _ _ _) as [[v1 s1]| |]; cbn [bind]; split; try congruence. intros v' E. injection E as <-. eapply OK. reflexivity. }
  destruct (null_dec (lookup "value" e)) as [Hv|[Hv|(w & Hv & Nw)]].
  2:{ (* a null value *)
    assert (Hd : lookup "default" e = None).
    { destruct (lookup "default" e) as [d|] eqn:Ed; auto. pose proof (verified_default e _ _ V Hv Ed). discriminate. }
    assert (ND : ~ null_default_subset e) by (intros (K & _); congruence).
    destruct (ty_add _ _ T) as [A|(Ll & pv & l & Ha & S)].
    - right. split; [|apply Plain].
      + intros [(_ & (n & K) & _)|(K & _)]; [|contradiction]. destruct A as [A|A]; congruence.
      + destruct T as [T1 T2 T3 T4]. constructor; auto; [intros _; split; auto; now left|]. intros K. congruence.
    - destruct (verified_add_null e pv V Hv Ha) as (t & n & Es).
      pose proof (verified_oneof_add e pv n t V Ha Es) as Ho.
      destruct S as [(x & -> & _)|(t' & n' & Ht & ->)]; [discriminate|]. cbn [slicify is_slice] in Es. injection Es as -> -> El.
      rewrite El in Ha. destruct Ht as [-> | ->].
      + destruct (any_empty e v set n Hv Ha Ho) as [(B & n1 & E)|(B & E)].
        * destruct (ty_subset _ _ T) as [A|(_ & ps & ls & Q & S)]; eauto.
        * left. split; [now left|]. right. eauto.
        * right. split; [intros [K|[K _]]; contradiction|]. rewrite E. split; [discriminate|]. intros v' K. discriminate.
      + right. split; [intros [(_ & (n1 & K) & _)|[K _]]; [congruence|contradiction]|].
        rewrite (null_start e v set Hv), (null_add_step e _ _ Ha eq_refl).
        assert (G1 : good r (VSlice TStr n [])) by (right; split; auto; exists n, []; reflexivity).
        (* the remaining operators, as for an entry without value and add *)
        set (e0 := remove_key "add" (remove_key "value" e)).
        assert (Ge : forall o, o <> OValue -> o <> OAdd -> get o e0 = get o e).
        { intros o H1 H2. unfold get, e0. rewrite !lookup_drop. destruct o; try congruence; reflexivity. }
        assert (F0 : fits r e0).
        { unfold e0. destruct T as [T1 T2 T3 T4]. constructor; unfold absent_or_null in *; rewrite !lookup_drop; simpl; auto; intros; congruence. }
        destruct (apply_ops_np r e0 (entry_essential e) F0 (VSlice TStr n []) true G1) as [NP OK].
        assert (Eo : apply_ops operator_order e0 (entry_essential e) (VSlice TStr n []) true =
                     apply_ops [OOneOf; OSubsetOf; OSupersetOf; OEssential] e (entry_essential e) (VSlice TStr n []) true).
        { unfold operator_order. rewrite step_none by (unfold get, e0; rewrite !lookup_drop; reflexivity).
          rewrite step_none by (unfold get, e0; rewrite !lookup_drop; reflexivity).
          rewrite step_none by (rewrite Ge by discriminate; exact Hd).
          assert (Rest : forall os x b, ~ In OValue os -> ~ In OAdd os -> apply_ops os e0 (entry_essential e) x b = apply_ops os e (entry_essential e) x b).
          { induction os as [|o os IH]; intros x b N1 N2; cbn [apply_ops]; auto. simpl in N1, N2.
            rewrite Ge by (intros ->; tauto). destruct (get o e) as [pv|]; auto.
            destruct (apply_op o x b pv (entry_essential e)) as [[x1 b1]| |]; cbn [bind]; auto. }
          apply Rest; simpl; intuition discriminate. }
        rewrite Eo in NP, OK. destruct (apply_ops [OOneOf; OSubsetOf; OSupersetOf; OEssential] e _ _ _) as [[v1 s1]| |]; cbn [bind]; split; try congruence.
        intros v' E. injection E as <-. eapply OK. reflexivity. }
  all: assert (NN : ~ null_and_nothing e) by (intros (K & _); congruence).
  all: assert (NV : lookup "value" e <> Some VNil) by congruence.
  all: destruct (null_dec (lookup "default" e)) as [Hd|[Hd|(d & Hd & Nd)]].
  all: try (right; split; [intros [K|((_ & _ & K & _) & _)]; [contradiction|congruence]|apply Plain;
    destruct T as [T1 T2 T3 T4]; constructor; auto; congruence]).
  all: destruct (null_dec (lookup "subset_of" e)) as [Hs|[Hs|(ps & Hs & Ns)]].
  all: try (right; split; [intros [K|((_ & _ & _ & w0 & K & K') & _)]; [contradiction|congruence]|apply Plain;
    destruct T as [T1 T2 T3 T4]; constructor; auto; try congruence; intros _; unfold absent_or_null; auto]).
  all: assert (Drop : set = true \/ lookup "value" e <> None \/ ~ absent_or_null "add" e ->
     apply_to e v set <> Panic /\ forall v', apply_to e v set = Ok v' -> v' = VNil \/ good r v').
  1,3: (intros H; rewrite apply_drop by (auto; eapply good_not_nil; eauto); apply Plain;
     destruct T as [T1 T2 T3 T4]; constructor; unfold absent_or_null in *; rewrite !lookup_drop; simpl; auto; intros; congruence).
  - (* no value *)
    assert (A : absent_or_null "add" e \/ ~ absent_or_null "add" e).
    { unfold absent_or_null. destruct (null_dec (lookup "add" e)) as [A|[A|(x & A & Nx)]]; auto. right. intros [K|K]; congruence. }
    destruct A as [A|A].
    2:{ right. split; [intros [K|((_ & K & _) & _)]; contradiction|]. apply Drop. auto. }
    destruct set.
    { right. split; [intros [K|(_ & K)]; [contradiction|discriminate]|]. apply Drop. auto. }
    left. split; [right; split; auto; repeat split; eauto|]. left.
    pose proof (verified_oneof_subset e ps V Hs) as Ho.
    unfold apply_to, operator_order. rewrite step_none by exact Hv.
    assert (apply_ops [OAdd; ODefault; OOneOf; OSubsetOf; OSupersetOf; OEssential] e (entry_essential e) v false =
            apply_ops [ODefault; OOneOf; OSubsetOf; OSupersetOf; OEssential] e (entry_essential e) v false) as ->.
    { destruct A as [A|A]; [now apply step_none|]. apply step_some with VNil; auto. cbn [apply_op is_nil].
      now rewrite (good_not_nil _ _ G). }
    rewrite (step_some ODefault _ e _ v false VNil VNil true); auto.
    2:{ cbn [apply_op negb]. rewrite (good_not_nil _ _ G), (Z eq_refl). reflexivity. }
    rewrite step_none by exact Ho. cbn [apply_ops]. unfold get. cbn [op_name]. rewrite Hs. cbn [apply_op negb andb].
    destruct (is_nil ps) eqn:Np; [exfalso; destruct ps; try discriminate; congruence|]. reflexivity.
  - right. split; [intros [K|((K & _) & _)]; congruence|]. apply Drop. right. left. congruence.
Qed.

(** ** Struct fields *)

Lemma typed_field ws p r v : row_ok r -> well_typed_value (fr_ty r) v ->
  (mem (fr_name r) ws = false -> is_zero v = Ok true) ->
  (forall e, lookup (fr_tag r) p = Some e -> typed r e /\ verify_entry e = Ok tt) ->
  (apply_field ws p (r, v) = Panic <-> exists e, lookup (fr_tag r) p = Some e /\ crashes e (mem (fr_name r) ws)).
Proof.
  intros RO W Z F. unfold apply_field. destruct (lookup (fr_tag r) p) as [e|] eqn:E.
  2:{ split; [discriminate|]. intros (e & K & _). discriminate. }
  destruct (F e eq_refl) as [T V].
  destruct (typed_apply r e v _ T V (or_introl W) Z) as [[C H]|(NC & NP & OK)].
  - split; [eauto|]. intros _. destruct H as [-> | (n & ->)]; [reflexivity|]. cbn [bind].
    assert (SF : scope_fix (fr_name r) (VSlice TAny n []) = VSlice TAny n []) by (unfold scope_fix; now destruct (String.eqb _ _)).
    rewrite SF. unfold assign. cbn [typeof].
    assert (LL : list_like r).
    { destruct C as [(_ & (n0 & A) & _)|((_ & _ & _ & pv & A & N) & _)].
      - destruct (ty_add _ _ T) as [[K|K]|[K _]]; auto; congruence.
      - destruct (ty_subset _ _ T) as [[K|K]|[K _]]; auto; congruence. }
    destruct LL as [-> | [_ ->]]; reflexivity.
  - split; [|intros (e0 & K & C); injection K as <-; contradiction].
    destruct (apply_to e v _) as [v'| |] eqn:Ea; cbn [bind]; try congruence.
    destruct (assign_good r v' RO (OK _ eq_refl)) as (v'' & -> & _). discriminate.
Qed.

Lemma map_res_panic {A B} (f : A -> res B) l : map_res f l = Panic -> exists x, In x l /\ f x = Panic.
Proof.
  induction l as [|a l IH]; cbn [map_res]; [discriminate|]. destruct (f a) eqn:E; cbn [bind]; try discriminate.
  - destruct (map_res f l); cbn [bind]; try discriminate. destruct IH as (x & H1 & H2); auto. exists x. simpl. auto.
  - intros _. exists a. simpl. auto.
Qed.

Lemma map_res_not_ok {A B} (f : A -> res B) l ys x : map_res f l = Ok ys -> In x l -> f x <> Panic.
Proof.
  intros H. apply map_res_Forall2 in H. induction H as [|a b l' ys' E _ IH]; simpl; [tauto|]. intros [<-|K]; [congruence|auto].
Qed.

(** Decoded metadata: what is not set is zero. *)
Lemma decoded_zero sch obj m r v : In sch entity_schemas -> decode_meta sch obj = Ok m -> In (r, v) (em_fields m) ->
  mem (fr_name r) (em_set m) = false -> is_zero v = Ok true.
Proof.
  intros Hs Hm Hi Hset. pose proof (decode_well_typed _ _ _ Hs Hm) as [KE WT].
  apply decode_meta_shape in Hm as (vs & Hd & ->). cbn [em_fields em_set] in *.
  apply in_map_iff in Hi as ([r0 [v0 s0]] & E & Hc). 
  assert (Hc' := Hc). apply in_combine_r in Hc'.
  assert (Hd0 : decode_field obj r0 = Ok (v0, s0)).
  { clear -Hd Hc. induction Hd as [|a b l l' H _ IH]; simpl in Hc; [tauto|]. destruct Hc as [K|K]; [injection K as <- <-; exact H|auto]. }
  assert (NC : c_cond sch obj (r0, (v0, s0)) = false).
  { destruct (c_cond sch obj (r0, (v0, s0))) eqn:C; auto. exfalso.
    assert (Er : r0 = r) by (unfold c_field in E; now injection E). subst r0.
    enough (mem (fr_name r) (flat_map (fun rv : frow * (gval * bool) => if c_cond sch obj rv then [fr_name (fst rv)] else []) (combine sch vs) ++ keys (c_ex sch obj)) = true) by congruence.
    apply mem_In, in_or_app. left. apply in_flat_map. exists (r, (v0, s0)). split; auto. rewrite C. simpl. auto. }
  apply schemas_ok in Hs. rewrite Forall_forall in Hs.
  assert (RO : row_ok r0) by (apply Hs; eapply in_combine_l; eauto). destruct RO as [_ NA].
  unfold c_field in E. unfold c_cond, c_ex in NC. cbn [fst snd] in *. injection E as -> <-.
  unfold decode_field in Hd0. destruct (String.eqb (fr_tag r) "-").
  - unfold c_exv, c_ex. destruct (extra_of sch obj); [reflexivity|discriminate].
  - subst s0. destruct (lookup (fr_tag r) obj) as [j|].
    + apply bind_ok in Hd0 as (w & Hw & Hd0). injection Hd0 as -> Hj. destruct j; try discriminate.
      destruct (fr_ty r); cbn in Hw; try congruence; injection Hw as <-; reflexivity.
    + injection Hd0 as <-. destruct (fr_ty r); try congruence; reflexivity.
Qed.

Fixpoint distinctb (l : list string) : bool :=
  match l with [] => true | x :: l => (negb (mem x l) && distinctb l)%bool end.

Lemma distinctb_ok l : distinctb l = true -> NoDup l.
Proof.
  induction l as [|x l IH]; simpl; intros H; constructor; apply andb_prop in H as [H1 H2]; auto.
  intros K. apply mem_In in K. rewrite K in H1. discriminate.
Qed.

Lemma tags_nodup sch : In sch entity_schemas -> NoDup (map fr_tag sch).
Proof.
  assert (B : forallb (fun sch => distinctb (map fr_tag sch)) entity_schemas = true) by (vm_compute; reflexivity).
  intros H. rewrite forallb_forall in B. now apply distinctb_ok, B.
Qed.

Lemma find_in_tags (fs : list (frow * gval)) r v : NoDup (map fr_tag (map fst fs)) -> In (r, v) fs ->
  find (fun fv : frow * gval => String.eqb (fr_tag r) (fr_tag (fst fv))) fs = Some (r, v).
Proof.
  induction fs as [|[r1 v1] fs IH]; simpl; [tauto|]. intros ND [E|H]; inversion ND as [|? ? NI ND']; subst.
  - injection E as -> ->. now rewrite String.eqb_refl.
  - destruct (String.eqb_spec (fr_tag r) (fr_tag r1)) as [E|_]; auto. exfalso. apply NI. rewrite <- E.
    apply in_map. now apply (in_map fst) in H.
Qed.

(** Metadata as decoding makes it: the right types, and what is not set is zero. *)
Definition sound (m : emeta) : Prop := known_entity m /\ well_typed m /\
  forall r v, In (r, v) (em_fields m) -> mem (fr_name r) (em_set m) = false -> is_zero v = Ok true.

Lemma decoded_sound sch obj m : In sch entity_schemas -> decode_meta sch obj = Ok m -> sound m /\ map fst (em_fields m) = sch.
Proof.
  intros Hs Hm. destruct (decode_well_typed _ _ _ Hs Hm) as [KE WT]. split.
  - split; [exact KE|]. split; [exact WT|]. intros r v Hi. exact (decoded_zero sch obj m r v Hs Hm Hi).
  - apply decode_meta_shape in Hm as (vs & Hd & ->). cbn [em_fields]. rewrite map_map.
    rewrite <- (rows_fst sch obj vs Hd) at 2. apply map_ext. now intros [r' [v s]].
Qed.

Lemma attr_set_row m r v : known_entity m -> In (r, v) (em_fields m) -> attr_set (fr_tag r) m = mem (fr_name r) (em_set m).
Proof.
  intros KE Hi. unfold attr_set. rewrite (find_in_tags _ _ v); auto. now apply tags_nodup.
Qed.

Section Policy.
  Context (m : emeta) (p : policy) (S : sound m).
  Context (F : forall r e, In r (map fst (em_fields m)) -> lookup (fr_tag r) p = Some e -> typed r e /\ verify_entry e = Ok tt).

  Lemma field_crash r v : In (r, v) (em_fields m) ->
    (apply_field (em_set m) p (r, v) = Panic <-> exists e, lookup (fr_tag r) p = Some e /\ crashes e (attr_set (fr_tag r) m)).
  Proof.
    intros Hi. destruct S as (KE & WT & Z). rewrite (attr_set_row m r v KE Hi). apply typed_field.
    - apply schemas_ok in KE. rewrite Forall_forall in KE. apply KE. now apply (in_map fst) in Hi.
    - unfold well_typed in WT. rewrite Forall_forall in WT. apply (WT _ Hi).
    - now apply Z.
    - intros e. apply F. now apply (in_map fst) in Hi.
  Qed.

  Lemma policy_crash : apply_policy m p = Panic ->
    exists r e, In r (map fst (em_fields m)) /\ lookup (fr_tag r) p = Some e /\ crashes e (attr_set (fr_tag r) m).
  Proof.
    unfold apply_policy. intros H. destruct (map_res _ _) eqn:E; try discriminate.
    apply map_res_panic in E as ([r v] & Hi & E). apply field_crash in E as (e & L & C); auto.
    exists r, e. apply (in_map fst) in Hi. auto.
  Qed.

  Lemma policy_crash_no_result r e m' : In r (map fst (em_fields m)) -> lookup (fr_tag r) p = Some e ->
    crashes e (attr_set (fr_tag r) m) -> apply_policy m p <> Ok m'.
  Proof.
    intros Hr L C H. unfold apply_policy in H. apply bind_ok in H as (fs & H & _).
    apply in_map_iff in Hr as ([r' v] & E & Hi). simpl in E. subst r'.
    apply (map_res_not_ok _ _ _ _ H Hi). apply field_crash; eauto.
  Qed.
End Policy.

Theorem decode_crash sch obj m p :
  In sch entity_schemas -> decode_meta sch obj = Ok m ->
  (forall r e, In r sch -> lookup (fr_tag r) p = Some e -> typed r e /\ verify_entry e = Ok tt) ->
  (apply_policy m p = Panic ->
     exists r e, In r sch /\ lookup (fr_tag r) p = Some e /\ crashes e (attr_set (fr_tag r) m)) /\
  (forall r e m', In r sch -> lookup (fr_tag r) p = Some e -> crashes e (attr_set (fr_tag r) m) -> apply_policy m p <> Ok m').
Proof.
  intros Hs Hm F. destruct (decoded_sound _ _ _ Hs Hm) as [S <-]. split.
  - now apply policy_crash.
  - intros r e m' Hr L C. eapply policy_crash_no_result; eauto.
Qed.

Theorem decode_crash_one sch obj m r e :
  In sch entity_schemas -> decode_meta sch obj = Ok m -> In r sch -> typed r e -> verify_entry e = Ok tt ->
  (apply_policy m [(fr_tag r, e)] = Panic <-> crashes e (attr_set (fr_tag r) m)).
Proof.
  intros Hs Hm Hr T V. destruct (decoded_sound _ _ _ Hs Hm) as [S E]. pose proof S as S'. destruct S' as (KE & WT & Z).
  assert (Uniq : forall r', In r' sch -> fr_tag r' = fr_tag r -> r' = r).
  { pose proof (tags_nodup _ Hs) as ND. clear -ND Hr. induction sch as [|a l IH]; simpl in *; [tauto|].
    inversion ND as [|? ? NI ND']; subst. intros r' [<-|H'] E; destruct Hr as [<-|Hr]; auto.
    - exfalso. apply NI. rewrite E. now apply in_map.
    - exfalso. apply NI. rewrite <- E. now apply in_map. }
  assert (F : forall r0 e0, In r0 (map fst (em_fields m)) -> lookup (fr_tag r0) [(fr_tag r, e)] = Some e0 -> typed r0 e0 /\ verify_entry e0 = Ok tt).
  { intros r0 e0 H0 L. rewrite E in H0. simpl in L. destruct (String.eqb_spec (fr_tag r0) (fr_tag r)) as [K|]; [|discriminate].
    injection L as <-. rewrite (Uniq _ H0 K). auto. }
  assert (Lr : lookup (fr_tag r) [(fr_tag r, e)] = Some e) by (simpl; now rewrite String.eqb_refl).
  split.
  - intros H. apply policy_crash in H as (r0 & e0 & H0 & L & C); auto. rewrite E in H0. simpl in L.
    destruct (String.eqb_spec (fr_tag r0) (fr_tag r)) as [K|]; [|discriminate]. injection L as <-. now rewrite (Uniq _ H0 K) in C.
  - intros C. unfold apply_policy.
    assert (P : exists x, In x (em_fields m) /\ apply_field (em_set m) [(fr_tag r, e)] x = Panic).
    { rewrite <- E in Hr. apply in_map_iff in Hr as ([r0 v] & K & Hi). simpl in K. subst r0. exists (r, v). split; auto.
      apply field_crash; eauto. }
    assert (NE : forall x, In x (em_fields m) -> apply_field (em_set m) [(fr_tag r, e)] x <> Err).
    { intros [r0 v] Hi. destruct (String.eqb_spec (fr_tag r0) (fr_tag r)) as [K|K].
      - assert (r0 = r) as ->. { apply Uniq; auto. rewrite <- E. now apply (in_map fst) in Hi. }
        assert (apply_field (em_set m) [(fr_tag r, e)] (r, v) = Panic) as -> by (apply field_crash; eauto). discriminate.
      - unfold apply_field. simpl. destruct (String.eqb_spec (fr_tag r0) (fr_tag r)); [contradiction|discriminate]. }
    assert (M : map_res (apply_field (em_set m) [(fr_tag r, e)]) (em_fields m) = Panic).
    { clear -P NE. induction (em_fields m) as [|x l IH]; [destruct P as (x & [] & _)|]. cbn [map_res].
      destruct (apply_field (em_set m) [(fr_tag r, e)] x) eqn:Ex; cbn [bind]; [| exfalso; eapply NE; simpl; eauto |reflexivity].
      rewrite IH; [reflexivity| |intros; apply NE; simpl; auto].
      destruct P as (y & [<-|H] & Py); [congruence|eauto]. }
    now rewrite M.
Qed.

(** ** Over a chain *)

Theorem chain_list_all c md t k ss em r n cur :
  2 <= List.length c -> chain_metadata c = Ok (Some md) -> In t entity_types ->
  Forall2 (list_entry k) (policies_of (snd t) c) ss ->
  fst t (leaf_metadata c) = Some em ->
  find (fun fv : frow * gval => String.eqb k (fr_tag (fst fv))) (em_fields em) = Some (r, VSlice TStr n (map VStr cur)) ->
  fr_ty r = TSlice TStr -> fr_name r <> "Scope"%string ->
  let set := mem (fr_name r) (em_set em) in
  (set = false -> n = true /\ cur = []) ->
  (forall s, all_merged ss = Some s -> se_value s = Some None -> se_add s = None \/ se_one_of s = None) ->
  exists out em' n',
    (table_result (all_merged ss) (if set then Some cur else None) = Ok out \/
     out = None /\ set = false /\ exists s, all_merged ss = Some s /\ only_essential s) /\
    fst t md = Some em' /\
    em_tag k em' = Some (VSlice TStr n' (map VStr (match out with Some l => l | None => [] end))).
Proof.
  intros HL HM Ht HF He Hf Hty Hn set Hset HT.
  assert (Cases : (exists s, all_merged ss = Some s /\ se_value s = Some None) \/
    forall s, all_merged ss = Some s -> se_value s <> Some None).
  { destruct (all_merged ss) as [s|]; [|right; discriminate]. destruct (se_value s) as [[l|]|] eqn:E.
    - right. intros s' K. injection K as <-. congruence.
    - left. eauto.
    - right. intros s' K. injection K as <-. congruence. }
  destruct Cases as [(s & Es & N)|H].
  2:{ eapply chain_list_exact; eauto. intros s K1 K2. now destruct (H s K1). }
  specialize (HT s Es N).
  destruct (chain_metadata_types c _ HL HM) as (m & E & T & _). injection E as <-.
  destruct (T t Ht) as (p & Hp & R). rewrite He in R.
  destruct (combine_list_entry _ _ _ _ HF Hp) as ([ND D] & LO & CL). rewrite Es in *.
  assert (Etag : fr_tag r = k). { apply List.find_some in Hf as [_ B]. symmetry. now apply String.eqb_eq. }
  destruct p as [q|]; [|cbn [pol lookup] in D; contradiction].
  destruct R as (em' & Ha & Hmd). cbn [pol] in *.
  pose proof Ha as Ha'. apply apply_policy_fields in Ha' as [_ FF].
  pose proof (find_parallel _ _ k _ _ FF) as P. unfold by_tag in P. rewrite Hf in P.
  destruct (find _ (em_fields em')) as [[r' v0]|] eqn:Ef; [|contradiction].
  unfold apply_field in P. rewrite Etag in P.
  destruct (lookup k q) as [e|] eqn:Ek; [|contradiction]. destruct D as [De _].
  apply bind_ok in P as (v' & Hv' & P). apply bind_ok in P as (v'' & Hv'' & P). injection P as <- <-.
  assert (SF : scope_fix (fr_name r) v' = v').
  { unfold scope_fix. destruct (String.eqb_spec (fr_name r) "Scope"); [contradiction|reflexivity]. }
  rewrite SF, Hty in Hv''.
  destruct (null_list e s _ _ _ _ (if set then Some cur else None) De (LO _ eq_refl) N HT Hv' Hv'') as (out & n' & Ho & ->).
  exists out, em', n'. split; [left; exact Ho|]. split; auto. unfold em_tag. now rewrite Ef.
Qed.
