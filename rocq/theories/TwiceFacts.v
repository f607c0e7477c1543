(** Proofs about applying a policy twice. *)
From Verif Require Import Base GoVal Policy Schema Metadata BaseFacts SpecPolicy SpecMetadata ListFacts PolicyFacts MetadataFacts SpecTwice.
From Verif Require Import SpecSingle.
From Verif Require SingleFacts SingleLaws.
Import SpecSingle.
Local Open Scope string_scope.

Definition tail : list op := [OOneOf; OSubsetOf; OSupersetOf; OEssential].

(** Restrictions do not change an attribute that is not set. *)
Lemma step_unset o e ess v pv v' s' : In o tail -> get o e = Some pv ->
  apply_op o v false pv ess = Ok (v', s') -> v' = v /\ s' = false.
Proof.
  intros Ho _ H. unfold apply_op in H. simpl in Ho.
  destruct Ho as [<-|[<-|[<-|[<-|[]]]]].
  - destruct ess; cbn [negb andb] in H; [|injection H as <- <-; auto]. destruct (is_nil pv); [injection H as <- <-; auto|discriminate].
  - destruct ess; cbn [negb andb] in H; [|injection H as <- <-; auto]. destruct (is_nil pv); [injection H as <- <-; auto|discriminate].
  - destruct ess; cbn [negb andb] in H; [|injection H as <- <-; auto]. destruct (is_nil pv); [injection H as <- <-; auto|discriminate].
  - assert (K : forall r : res (gval * bool), r = Ok (v', s') -> (r = Ok (v, false) \/ r = Err) -> v' = v /\ s' = false).
    { intros r -> [E|E]; [injection E as -> ->; auto|discriminate]. }
    destruct pv as [|b| | | | | | ]; try (injection H as <- <-; auto).
    destruct b; [|injection H as <- <-; auto]. destruct (is_nil v); [discriminate|]. destruct (is_slice v); [injection H as <- <-; auto|].
    apply bind_ok in H as (z & _ & H). destruct z; [discriminate|injection H as <- <-; auto].
Qed.

Lemma ops_unset os e ess v v' s' : (forall o, In o os -> In o tail) ->
  apply_ops os e ess v false = Ok (v', s') -> v' = v.
Proof.
  intros Hin. induction os as [|o os IH]; intros H; cbn [apply_ops] in H; [injection H as <- <-; auto|].
  destruct (get o e) as [pv|] eqn:G.
  - apply bind_ok in H as ([v1 s1] & H1 & H). apply (step_unset o e ess v pv v1 s1) in H1 as [-> ->]; auto.
    + apply IH; auto. intros o' K. apply Hin. now right.
    + apply Hin. now left.
  - apply IH; auto. intros o' K. apply Hin. now right.
Qed.

(** ... and do not fail either, unless the attribute is demanded. *)
Lemma tail_lenient e v : entry_essential e = false -> apply_ops tail e false v false = Ok (v, false).
Proof.
  intros E. unfold tail. cbn [apply_ops].
  assert (L : forall pv, get OEssential e = Some pv -> apply_op OEssential v false pv false = Ok (v, false)).
  { intros pv G. unfold entry_essential in E. rewrite G in E. unfold apply_op. destruct pv as [|b| | | | | | ]; auto. now rewrite E. }
  destruct (get OOneOf e) as [pv|]; [change (apply_op OOneOf v false pv false) with (@Ok (gval * bool) (v, false)); cbn [bind]|];
  (destruct (get OSubsetOf e) as [pv'|]; [change (apply_op OSubsetOf v false pv' false) with (@Ok (gval * bool) (v, false)); cbn [bind]|]);
  (destruct (get OSupersetOf e) as [pv''|]; [change (apply_op OSupersetOf v false pv'' false) with (@Ok (gval * bool) (v, false)); cbn [bind]|]);
  (destruct (get OEssential e) as [q|] eqn:G; [rewrite (L q eq_refl)|]; reflexivity).
Qed.

Lemma tail_demanded e v : get OOneOf e = None -> get OSubsetOf e = None -> get OSupersetOf e = None ->
  is_nil v = false -> (is_slice v = true \/ is_zero v = Ok false) ->
  apply_ops tail e (entry_essential e) v false = Ok (v, false).
Proof.
  intros A B C N Z. unfold tail. cbn [apply_ops]. rewrite A, B, C. destruct (get OEssential e) as [pv|]; auto.
  unfold apply_op. destruct pv as [|b| | | | | | ]; try reflexivity. destruct b; [|reflexivity]. rewrite N.
  destruct (is_slice v); [reflexivity|]. destruct Z as [Z|Z]; [discriminate|]. now rewrite Z.
Qed.

(** After a default, the attribute passes the same restrictions again. *)
Lemma tail_again e v : (entry_essential e = true -> get OOneOf e = None /\ get OSubsetOf e = None /\ get OSupersetOf e = None) ->
  is_nil v = false -> (is_slice v = true \/ is_zero v = Ok false) ->
  apply_ops tail e (entry_essential e) v false = Ok (v, false).
Proof.
  intros H N Z. destruct (entry_essential e) eqn:E; [|now apply tail_lenient].
  destruct (H eq_refl) as (A & B & C). rewrite <- E. now apply tail_demanded.
Qed.

(** The application without value and add, where the attribute is not set. *)
Lemma apply_unset e v : get OValue e = None -> get OAdd e = None ->
  apply_to e v false =
  match get ODefault e with
  | None => '(w, _) <- apply_ops tail e (entry_essential e) v false ;; Ok w
  | Some d => '(x, s) <- apply_op ODefault v false d (entry_essential e) ;;
              '(w, _) <- apply_ops tail e (entry_essential e) x s ;; Ok w
  end.
Proof.
  intros V A. unfold apply_to, operator_order. cbn [apply_ops]. rewrite V, A. destruct (get ODefault e) as [d|]; [|reflexivity].
  destruct (apply_op ODefault v false d (entry_essential e)) as [[x s]| |]; reflexivity.
Qed.

(** A list keeps its type, and is nil only if it is empty. *)
Definition sane (v : gval) : Prop := exists n l, v = VSlice TStr n l /\ (n = true -> l = []).

Lemma step_sane o e ess v s pv v' s' : In o tail -> get o e = Some pv -> sane v ->
  apply_op o v s pv ess = Ok (v', s') -> sane v'.
Proof.
  intros Ho _ Hv H. simpl in Ho. unfold apply_op in H.
  destruct Ho as [<-|[<-|[<-|[<-|[]]]]].
  - destruct (negb s && negb ess)%bool; [injection H as <- <-; auto|]. destruct (is_nil pv); [injection H as <- <-; auto|].
    destruct s; cbn [negb] in H; [|discriminate]. destruct (slice_contains _ _); [injection H as <- <-; auto|discriminate].
  - destruct (negb s && negb ess)%bool; [injection H as <- <-; auto|]. destruct (is_nil pv); [injection H as <- <-; auto|].
    destruct s; cbn [negb] in H; [|discriminate]. apply bind_ok in H as (r & H & E). injection E as <- <-.
    destruct Hv as (n & l & -> & _). unfold intersect in H. cbn [slicify] in H.
    destruct (slicify (slicify pv)) as [| | | | | | |tb nb lb]; try discriminate.
    apply bind_ok in H as (bs & _ & H). injection H as <-. eexists _, _. split; [reflexivity|]. destruct (filter _ _); auto; discriminate.
  - destruct (negb s && negb ess)%bool; [injection H as <- <-; auto|]. destruct (is_nil pv); [injection H as <- <-; auto|].
    destruct s; cbn [negb] in H; [|discriminate]. apply bind_ok in H as (b & _ & H). destruct b; [injection H as <- <-; auto|discriminate].
  - destruct pv as [|b| | | | | | ]; try (injection H as <- <-; auto). destruct b; [|injection H as <- <-; auto].
    destruct (is_nil v); [discriminate|]. destruct (is_slice v); [injection H as <- <-; auto|].
    apply bind_ok in H as (z & _ & H). destruct z; [discriminate|injection H as <- <-; auto].
Qed.

Lemma ops_sane os e ess : (forall o, In o os -> In o tail) -> forall v s v' s', sane v ->
  apply_ops os e ess v s = Ok (v', s') -> sane v'.
Proof.
  intros Hin. induction os as [|o os IH]; intros v s v' s' Hv H; cbn [apply_ops] in H; [injection H as <- <-; auto|].
  assert (T : forall o', In o' os -> In o' tail) by (intros o' K; apply Hin; now right).
  destruct (get o e) as [pv|] eqn:G; [|eapply (IH T); eauto].
  apply bind_ok in H as ([v1 s1] & H1 & H). eapply (IH T); [|exact H]. eapply step_sane; [apply Hin; now left|exact G|exact Hv|exact H1].
Qed.

(** A fixed value does not depend on what was there. *)
Lemma apply_fixed e pv v s v' s' : get OValue e = Some pv ->
  (is_slice pv = true -> exists n l n' l', v = VSlice TStr n l /\ v' = VSlice TStr n' l') ->
  apply_to e v s = apply_to e v' s'.
Proof.
  intros G T. unfold apply_to, operator_order. cbn [apply_ops]. rewrite G.
  replace (apply_op OValue v s pv (entry_essential e)) with (apply_op OValue v' s' pv (entry_essential e)); [reflexivity|].
  unfold apply_op. destruct (is_nil pv); [reflexivity|].
  replace (slice_cast pv (slicify v')) with (slice_cast pv (slicify v)); [reflexivity|].
  destruct pv; try reflexivity. destruct (T eq_refl) as (n1 & l1 & n2 & l2 & -> & ->). reflexivity.
Qed.

(** With add, it does not matter whether the attribute counts as set. *)
Lemma apply_added e pv v s s' : get OValue e = None -> get OAdd e = Some pv -> is_nil pv = false -> is_nil v = false ->
  apply_to e v s = apply_to e v s'.
Proof.
  intros V A N N'. unfold apply_to, operator_order. cbn [apply_ops]. rewrite V, A.
  replace (apply_op OAdd v s pv (entry_essential e)) with (apply_op OAdd v s' pv (entry_essential e)); [reflexivity|].
  unfold apply_op. now rewrite N, N'.
Qed.

(** ** One attribute *)

Lemma demanding_not e d : ~ demanding e -> get OValue e = None -> get OAdd e = None -> get ODefault e = Some d ->
  entry_essential e = true -> get OOneOf e = None /\ get OSubsetOf e = None /\ get OSupersetOf e = None.
Proof.
  intros N V A D E.
  assert (G : lookup "essential" e = Some (VBool true)).
  { unfold entry_essential, get in E. cbn [op_name] in E. destruct (lookup "essential" e) as [[|b| | | | | | ]|]; try discriminate. now rewrite E. }
  assert (K : forall o, In o ["one_of"; "subset_of"; "superset_of"] -> lookup o e = None).
  { intros o Ho. destruct (lookup o e) as [v|] eqn:L; auto. elim N. unfold demanding.
    split; [exact G|]. split; [exact V|]. split; [exact A|]. split; [exists d; exact D|]. eauto. }
  repeat split; apply K; simpl; auto.
Qed.

Lemma strs_not_nil v l : strs v l -> is_nil v = false.
Proof. intros [(s & -> & _)|(t & n & _ & ->)]; reflexivity. Qed.

Lemma list_again e s n cur set v1 a1 :
  denotes e s -> list_operands e -> opt (se_add s) (@NoDup string) ->
  (se_value s = Some None -> se_add s = None /\ se_default s = None) ->
  (set = false -> n = true /\ cur = []) -> (set = false -> ~ demanding e) ->
  apply_to e (VSlice TStr n (map VStr cur)) set = Ok v1 -> assign (TSlice TStr) v1 = Ok a1 ->
  exists v2 a2, apply_to e a1 set = Ok v2 /\ assign (TSlice TStr) v2 = Ok a2 /\ same_list a1 a2.
Proof.
  intros D L ND NV Hset Hdem H1 Ha1.
  assert (A1 : exists n1 l1, a1 = VSlice TStr n1 l1).
  { unfold assign in Ha1. destruct v1 as [| | | | | | |t n1 l1]; cbn [typeof] in Ha1; try discriminate.
    - injection Ha1 as <-. simpl. eauto.
    - destruct t; simpl in Ha1; try discriminate. injection Ha1 as <-. eauto. }
  destruct A1 as (n1 & l1 & ->).
  destruct (get OValue e) as [pv|] eqn:GV.
  { exists v1, (VSlice TStr n1 l1). split; [|split; [exact Ha1|now left]].
    rewrite <- H1. eapply apply_fixed; [exact GV|]. intros _. repeat eexists. }
  assert (V0 : se_value s = None).
  { pose proof (dn_value _ _ D) as Dv. destruct (se_value s) as [[l|]|]; auto.
    - destruct Dv as (v & E & _). unfold get in GV. cbn [op_name] in GV. congruence.
    - unfold get in GV. cbn [op_name] in GV. congruence. }
  destruct (se_add s) as [al|] eqn:Sa.
  { (* add *)
    pose proof (dn_add _ _ D) as Da. rewrite Sa in Da. destruct Da as (av & Ga & Gs).
    assert (GA : get OAdd e = Some av) by exact Ga.
    assert (ND' : opt (se_add s) (@NoDup string)) by now rewrite Sa.
    assert (NV' : se_value s = Some None -> se_add s = None /\ se_default s = None) by (intros E; congruence).
    destruct (apply_idempotent e s n cur set v1 D L ND' NV' Hset) as (m1 & l & set1 & E1 & _ & v2 & n2 & E2 & E3); auto.
    { intros _. right. right. left. congruence. }
    rewrite Ha1 in E1. injection E1 as -> ->.
    exists v2, (VSlice TStr n2 (map VStr l)). split; [|split; [exact E3|right; eauto 6]].
    rewrite <- E2. eapply apply_added; [exact GV|exact GA|eapply strs_not_nil; eauto|reflexivity]. }
  assert (GA : get OAdd e = None) by (pose proof (dn_add _ _ D) as Da; rewrite Sa in Da; exact Da).
  destruct set.
  { (* stated by the subject *)
    destruct (apply_idempotent e s n cur true v1 D L) as (m1 & l & set1 & E1 & Hs & v2 & n2 & E2 & E3); auto.
    { now rewrite Sa. } { intros E; congruence. }
    rewrite Ha1 in E1. injection E1 as -> ->.
    assert (T : set1 = true).
    { destruct set1; auto. destruct Hs as [Hs _]. specialize (Hs eq_refl). exfalso.
      rewrite spec_apply_unfold in Hs. unfold spec_value, spec_add, spec_default, spec_rest in Hs. rewrite V0, Sa in Hs.
      destruct (se_default s); cbv zeta in Hs;
        (repeat match type of Hs with (match ?x with _ => _ end) = _ => destruct x; try discriminate end). }
    subst set1. exists v2, (VSlice TStr n2 (map VStr l)). split; [exact E2|]. split; [exact E3|right; eauto 6]. }
  (* not stated *)
  destruct (Hset eq_refl) as [-> ->]. specialize (Hdem eq_refl). change (map VStr []) with (@nil gval) in *.
  assert (SAME : VSlice TStr n1 l1 = VSlice TStr true [] ->
     exists v2 a2, apply_to e (VSlice TStr n1 l1) false = Ok v2 /\ assign (TSlice TStr) v2 = Ok a2 /\ same_list (VSlice TStr n1 l1) a2).
  { intros E. rewrite E. exists v1, (VSlice TStr n1 l1). rewrite E in *. split; [exact H1|]. split; [exact Ha1|now left]. }
  pose proof H1 as H1'. rewrite (apply_unset e _ GV GA) in H1'.
  destruct (get ODefault e) as [d|] eqn:GD.
  - apply bind_ok in H1' as ([x sx] & Hd & H1'). apply bind_ok in H1' as ([w sw] & Ht & E). injection E as ->.
    assert (X : sane x).
    { unfold apply_op in Hd. cbn [negb is_nil is_zero bind] in Hd.
      apply bind_ok in Hd as (r & Hc & Hd). injection Hd as <- _.
      pose proof (dn_default _ _ D) as Dd. unfold get in GD. cbn [op_name] in GD. destruct (se_default s) as [dl|]; cbn [operand_is] in Dd; [|congruence].
      destruct Dd as (dv & Ed & Sd). rewrite GD in Ed. injection Ed as <-.
      destruct (L "default" d (or_intror eq_refl) GD) as [-> |Sl]; [apply strs_not_nil in Sd; discriminate|].
      destruct d as [| | | | | | |t m dd]; try discriminate. cbn [slice_cast typeof slicify] in Hc.
      apply bind_ok in Hc as (dd' & _ & E). injection E as <-. eexists _, _. split; [reflexivity|discriminate]. }
    assert (W : sane v1) by (eapply ops_sane; [|exact X|exact Ht]; auto).
    destruct W as (m & lw & -> & Hn). cbn in Ha1. injection Ha1 as -> ->.
    destruct n1; [rewrite (Hn eq_refl) in *; apply SAME; reflexivity|].
    exists (VSlice TStr false l1), (VSlice TStr false l1). split; [|split; [reflexivity|now left]].
    rewrite (apply_unset e _ GV GA), GD. unfold apply_op. cbn [negb is_nil is_zero bind].
    rewrite tail_again; [reflexivity| |reflexivity|now left]. intros E. eapply demanding_not; eauto.
  - apply bind_ok in H1' as ([w sw] & Ht & E). injection E as ->. apply ops_unset in Ht; [|auto]. subst v1.
    cbn in Ha1. injection Ha1 as <- <-. apply SAME. reflexivity.
Qed.

Lemma assign_any t x a : assign t (as_any x) = Ok a -> a = as_any x /\ typeof (as_any x) = Some t.
Proof.
  unfold assign. destruct x; cbn [as_any typeof]; destruct t; cbn; intros E; try discriminate; injection E as <-; auto.
Qed.

Lemma single_again e s t v set nm v1 a1 :
  states e s -> t = TStr \/ t = TBool -> typeof v = Some t ->
  (set = false -> v = zero_of t) -> (set = false -> ~ demanding e) ->
  apply_to e v set = Ok v1 -> assign t (scope_fix nm v1) = Ok a1 ->
  exists v2, apply_to e a1 set = Ok v2 /\ assign t (scope_fix nm v2) = Ok a1.
Proof.
  intros S T Tv Hset Hdem H1 Ha1.
  destruct (get OValue e) as [pv|] eqn:GV.
  { exists v1. split; [|exact Ha1]. rewrite <- H1. eapply apply_fixed; [exact GV|]. intros K. exfalso.
    pose proof (ss_value _ _ S) as Sv. unfold get in GV. cbn [op_name] in GV. rewrite GV in Sv.
    destruct (sg_value s) as [[x|]|]; cbn [option_map] in Sv; try discriminate; injection Sv as ->; [destruct x|]; discriminate. }
  assert (GA : get OAdd e = None) by (apply (SingleFacts.states_no e s); simpl; auto).
  assert (C : exists cur, v = field_value t cur /\ set = SingleFacts.is_some cur).
  { destruct set; [|exists None; split; [now apply Hset|reflexivity]].
    destruct T as [-> | ->]; destruct v as [|b| | |w| | | ]; try discriminate; [exists (Some (Text w))|exists (Some (Flag b))]; auto. }
  destruct C as (cur & -> & ->).
  assert (V0 : sg_value s = None).
  { pose proof (ss_value _ _ S) as Sv. unfold get in GV. cbn [op_name] in GV. rewrite GV in Sv. destruct (sg_value s); [discriminate|auto]. }
  assert (FR : (v' <- apply_to e (field_value t cur) (SingleFacts.is_some cur) ;; assign t (scope_fix nm v')) = Ok a1)
    by (rewrite H1; exact Ha1).
  destruct (SingleLaws.field_result e s t cur nm a1 S T FR) as (out & R & ->).
  assert (SAME : out = cur -> exists v2, apply_to e (field_value t out) (SingleFacts.is_some cur) = Ok v2 /\ assign t (scope_fix nm v2) = Ok (field_value t out)).
  { intros ->. eauto. }
  assert (F : out = match cur with Some x => Some x | None => sg_default s end).
  { revert R. unfold SingleFacts.run, SingleFacts.filled, SingleFacts.base. rewrite V0.
    destruct cur as [x|]; [|destruct (sg_default s) as [x|]];
      repeat match goal with |- (if ?b then _ else _) = _ -> _ => destruct b; try discriminate end; congruence. }
  destruct cur as [x|]; [now apply SAME|]. destruct (sg_default s) as [d|] eqn:Sd; [|now apply SAME]. subst out.
  cbn [SingleFacts.is_some] in *. specialize (Hdem eq_refl).
  assert (GD : get ODefault e = Some (as_any d)) by (pose proof (ss_default _ _ S) as K; rewrite Sd in K; exact K).
  destruct (SingleFacts.is_blank d) eqn:B.
  - (* the default is the zero value *)
    apply SingleFacts.is_blank_spec in B.
    assert (Z : field_value t (Some d) = field_value t None).
    { assert (Td : typeof (as_any d) = Some t).
      { pose proof (SingleFacts.apply_single e s t None S T) as A. rewrite R in A. destruct A as (w & Ew & Hh). cbn in Hh. subst w.
        cbn [SingleFacts.is_some] in Ew. rewrite H1 in Ew. injection Ew as ->.
        destruct (SingleFacts.assign_held t (Some d) (as_any d) nm eq_refl T) as (_ & K & _). destruct (proj1 (K _) Ha1) as [K' _].
        specialize (K' d eq_refl). destruct d; cbn in K'; subst t; reflexivity. }
      destruct T as [-> | ->]; destruct B as [-> | ->]; try discriminate; reflexivity. }
    rewrite Z in *. eauto.
  - exists (as_any d). split.
    + cbn [field_value]. rewrite (apply_unset e _ GV GA), GD. unfold apply_op. rewrite SingleFacts.as_any_not_nil, SingleFacts.is_zero_any, B.
      cbn [negb bind].
      rewrite tail_again; [reflexivity| |apply SingleFacts.as_any_not_nil|right; rewrite SingleFacts.is_zero_any, B; reflexivity].
      intros E. eapply demanding_not; eauto.
    + pose proof (SingleFacts.apply_single e s t None S T) as A. rewrite R in A. destruct A as (w & Ew & Hh). cbn in Hh. subst w.
      cbn [SingleFacts.is_some] in Ew. rewrite H1 in Ew. injection Ew as ->. exact Ha1.
Qed.

(** ** The whole metadata *)

Lemma field_again ws p r v y :
  (forall e, lookup (fr_tag r) p = Some e -> shaped r e /\ well_typed_value (fr_ty r) v /\
     (mem (fr_name r) ws = false -> v = zero_of (fr_ty r)) /\ (mem (fr_name r) ws = false -> ~ demanding e)) ->
  apply_field ws p (r, v) = Ok y ->
  exists z, apply_field ws p y = Ok z /\ fst y = fst z /\ same_list (snd y) (snd z).
Proof.
  intros P H. unfold apply_field in H. destruct (lookup (fr_tag r) p) as [e|] eqn:L.
  - destruct (P e eq_refl) as (Sh & W & Z & N). clear P.
    apply bind_ok in H as (v1 & H1 & H). apply bind_ok in H as (a1 & Ha & H). injection H as <-.
    unfold apply_field. rewrite L. destruct Sh as [(T & Nm & s & D & LO & ND & NV)|(T & s & S)].
    + rewrite T in *. destruct W as (n & cur & ->).
      assert (FX : forall x, scope_fix (fr_name r) x = x).
      { intros x. unfold scope_fix. destruct (String.eqb_spec (fr_name r) "Scope"); [contradiction|reflexivity]. }
      rewrite FX in Ha.
      destruct (list_again e s n cur (mem (fr_name r) ws) v1 a1 D LO ND NV) as (v2 & a2 & E2 & E3 & SL); auto.
      { intros K. specialize (Z K). cbn [zero_of] in Z. injection Z as -> Z. destruct cur; [auto|discriminate]. }
      rewrite E2. cbn [bind]. rewrite FX, E3. cbn [bind]. eexists. split; [reflexivity|]. auto.
    + assert (W' : typeof v = Some (fr_ty r)) by (destruct T as [T|T]; rewrite T in *; exact W).
      destruct (single_again e s (fr_ty r) v (mem (fr_name r) ws) (fr_name r) v1 a1 S T W' Z N H1 Ha) as (v2 & E2 & E3).
      rewrite E2. cbn [bind]. rewrite E3. cbn [bind]. eexists. split; [reflexivity|]. split; auto. now left.
  - injection H as <-. exists (r, v). unfold apply_field. rewrite L. split; auto. split; auto. now left.
Qed.

Theorem apply_again m p m1 : apply_policy m p = Ok m1 -> plain m p ->
  (forall r v e, In (r, v) (em_fields m) -> mem (fr_name r) (em_set m) = false -> lookup (fr_tag r) p = Some e -> ~ demanding e) ->
  exists m2, apply_policy m1 p = Ok m2 /\ same_metadata m1 m2.
Proof.
  unfold apply_policy, plain. destruct m as [fs ws]. cbn [em_set em_fields]. intros H P N.
  apply bind_ok in H as (fs1 & H & E). injection E as <-. cbn [em_set em_fields].
  assert (G : exists fs2, map_res (apply_field ws p) fs1 = Ok fs2 /\
     Forall2 (fun x y : frow * gval => fst x = fst y /\ same_list (snd x) (snd y)) fs1 fs2).
  { revert fs1 H P N. induction fs as [|[r v] fs IH]; intros fs1 H P N; cbn [map_res] in H.
    - injection H as <-. exists []. split; [reflexivity|constructor].
    - apply bind_ok in H as (y & Hy & H). apply bind_ok in H as (ys & Hys & H). injection H as <-.
      destruct (IH ys Hys) as (zs & Ez & F).
      { intros r' v' e Hin. apply P. now right. }
      { intros r' v' e Hin. apply (N r' v'). now right. }
      destruct (field_again ws p r v y) as (z & Ey & E1 & E2); auto.
      { intros e Le. destruct (P r v e (or_introl eq_refl) Le) as (A & B & C). repeat split; auto.
        intros K. apply (N r v e); auto. now left. }
      exists (z :: zs). cbn [map_res]. rewrite Ey. cbn [bind]. rewrite Ez. cbn [bind]. split; [reflexivity|]. constructor; auto. }
  destruct G as (fs2 & -> & F). cbn [bind]. eexists. split; [reflexivity|]. split; [reflexivity|exact F].
Qed.

(** ** The exception always fails *)

Lemma ops_fails e v o pv os : In o [OOneOf; OSubsetOf; OSupersetOf] -> get o e = Some pv -> is_nil pv = false ->
  (forall x, In x os -> In x tail) -> In o os -> forall v' s', apply_ops os e true v false <> Ok (v', s').
Proof.
  intros Ho G Np. revert v. induction os as [|x os IH]; intros v Hin Hos v' s' H; [destruct Hos|].
  cbn [apply_ops] in H. destruct Hos as [-> |Hos].
  - rewrite G in H. apply bind_ok in H as ([v1 s1] & H & _). unfold apply_op in H. rewrite Np in H.
    simpl in Ho. destruct Ho as [<-|[<-|[<-|[]]]]; discriminate H.
  - assert (T : forall x, In x os -> In x tail) by (intros z Hz; apply Hin; now right).
    destruct (get x e) as [q|] eqn:Gx; [|exact (IH v T Hos v' s' H)].
    apply bind_ok in H as ([v1 s1] & H1 & H). apply (step_unset x e true v q v1 s1) in H1 as [-> ->]; auto; [|apply Hin; now left].
    exact (IH v T Hos v' s' H).
Qed.

Theorem again_fails m p m1 r a e o pv : apply_policy m p = Ok m1 ->
  In (r, a) (em_fields m1) -> is_zero a = Ok false -> mem (fr_name r) (em_set m) = false ->
  lookup (fr_tag r) p = Some e -> demanding e ->
  In o ["one_of"; "subset_of"; "superset_of"] -> lookup o e = Some pv -> pv <> VNil ->
  forall m2, apply_policy m1 p <> Ok m2.
Proof.
  intros H1 Hin Z Un L (E & V & A & (d & D) & _) Ho G Np m2 H.
  assert (ES : em_set m1 = em_set m).
  { unfold apply_policy in H1. apply bind_ok in H1 as (fs & _ & E1). now injection E1 as <-. }
  unfold apply_policy in H. apply bind_ok in H as (fs & H & _). apply map_res_Forall2 in H.
  assert (K : exists z, apply_field (em_set m1) p (r, a) = Ok z).
  { clear -H Hin. induction H as [|x y l l' Hxy _ IH]; [destruct Hin|]. destruct Hin as [-> |Hin]; eauto. }
  destruct K as (z & K). unfold apply_field in K. rewrite L, ES, Un in K. apply bind_ok in K as (v2 & K & _).
  rewrite (apply_unset e a) in K; [|exact V|exact A]. change (get ODefault e) with (lookup "default" e) in K. rewrite D in K.
  assert (EE : entry_essential e = true) by (unfold entry_essential, get; cbn [op_name]; now rewrite E).
  assert (Ia : is_nil a = false) by (destruct a; try reflexivity; discriminate Z).
  unfold apply_op in K. rewrite Ia, Z in K. cbn [negb bind] in K. apply bind_ok in K as ([w s] & K & _). rewrite EE in K.
  assert (O : exists o', In o' [OOneOf; OSubsetOf; OSupersetOf] /\ get o' e = Some pv).
  { simpl in Ho. destruct Ho as [<-|[<-|[<-|[]]]]; [exists OOneOf|exists OSubsetOf|exists OSupersetOf]; (split; [simpl; auto|exact G]). }
  destruct O as (o' & Ho' & G').
  eapply ops_fails; [exact Ho'|exact G'| | | |exact K]; unfold tail; simpl; auto.
  - destruct pv; auto; congruence.
  - simpl in Ho'. tauto.
Qed.
