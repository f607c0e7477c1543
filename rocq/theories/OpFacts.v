(** Algebra of the operand mergers, panics of verification, essential. *)
From Verif Require Import Base GoVal Policy BaseFacts SpecPolicy PolicyFacts MergeFacts RespectFacts.

(** ** Mergers on string operands *)



Lemma merge_set_op o a b la lb :
  set_op o -> strs a la -> strs b lb ->
  exists c lc, merge_op o a b = Ok c /\ strs c lc /\ forall x, In x lc <-> op_elements o x la lb.
Proof.
  intros Ho Sa Sb. pose proof (strs_not_nil _ _ Sa) as Na. pose proof (strs_not_nil _ _ Sb) as Nb.
  destruct (union_strs _ _ _ _ Sa Sb) as (t & n & Ht & Eu & _).
  destruct (intersect_strs _ _ _ _ Sa Sb) as (t' & Ht' & Ei & _).
  destruct Ho as [->|[->|[->| ->]]]; simpl; rewrite Na, Nb; rewrite ?Eu, ?Ei;
    eexists; eexists; (split; [reflexivity|]); (split; [apply strs_slice; auto|]);
    intros x; apply s_union_In || apply s_inter_In.
Qed.

Lemma merge_eq_op o a b la lb :
  eq_op o -> strs a la -> strs b lb ->
  merge_op o a b = if Nat.eqb (List.length la) (List.length lb) && forallb (fun x => mem x lb) la then Ok a else Err.
Proof.
  intros Ho Sa Sb. pose proof (strs_not_nil _ _ Sa) as Na. pose proof (strs_not_nil _ _ Sb) as Nb.
  destruct Ho as [->| ->]; simpl; rewrite ?Na, ?Nb, (slice_equal_strs _ _ _ _ Sa Sb); simpl; reflexivity.
Qed.

Lemma merge_eq_op_iff o a b la lb :
  eq_op o -> NoDup la -> NoDup lb -> strs a la -> strs b lb ->
  (same_elements la lb /\ merge_op o a b = Ok a) \/ (~ same_elements la lb /\ merge_op o a b = Err).
Proof.
  intros Ho NDa NDb Sa Sb. rewrite (merge_eq_op o a b la lb Ho Sa Sb).
  destruct (_ && _) eqn:E.
  - left. split; auto. apply andb_true_iff in E as [E1 E2].
    apply Nat.eqb_eq in E1. apply forallb_mem_incl in E2. now apply incl_len_same.
  - right. split; auto. intros S. apply andb_false_iff in E as [E|E].
    + apply Nat.eqb_neq in E. apply E. apply Nat.le_antisymm; apply NoDup_incl_length; auto; intros x; apply S.
    + assert (forallb (fun x => mem x lb) la = true); [|congruence].
      apply forallb_mem_incl. intros x. apply S.
Qed.

(** ** Panics of Verify *)

Lemma slicify_elems v : v <> VNil -> exists l, elems (slicify v) = Ok l.
Proof. destruct v; simpl; intros; try congruence; eauto. Qed.

Lemma verify_sub_no_panic small big e :
  (lookup (op_name big) e <> None -> lookup (op_name small) e <> Some VNil) ->
  verify_sub small big e <> Panic.
Proof.
  unfold verify_sub, get. intros H.
  destruct (lookup (op_name small) e) as [sv|]; [|discriminate].
  destruct (lookup (op_name big) e) as [bv|]; [|discriminate].
  destruct (slicify_elems sv) as (l & E).
  { intros ->. apply H; congruence. }
  unfold is_subset_of. rewrite E. cbn [bind]. destruct (forallb _ l); discriminate.
Qed.

Lemma check_combination_no_panic active o : check_combination active o <> Panic.
Proof.
  unfold check_combination. destruct (operator_of o) as [x|]; [|discriminate].
  destruct (may_combine_with x); [|discriminate]. destruct (subtract _ _); discriminate.
Qed.

Lemma check_combinations_no_panic active todo : check_combinations active todo <> Panic.
Proof.
  induction todo as [|o todo IH]; simpl; [discriminate|].
  pose proof (check_combination_no_panic active o). destruct (check_combination active o); simpl; congruence.
Qed.

Lemma bind_no_panic {A B} (x : res A) (f : A -> res B) :
  x <> Panic -> (forall a, x = Ok a -> f a <> Panic) -> bind x f <> Panic.
Proof. destruct x; simpl; auto. congruence. Qed.

Lemma combination_oneof_add (e : entry) :
  check_combinations (keys e) (keys e) = Ok tt ->
  lookup "one_of" e <> None -> lookup "add" e = None.
Proof.
  intros HC Ho. destruct (lookup "one_of" e) as [v|] eqn:E; [|congruence].
  pose proof (check_combinations_In _ _ _ HC (lookup_keys _ _ _ E)) as C.
  destruct (lookup "add" e) as [av|] eqn:Ea; auto. exfalso.
  unfold check_combination in C. change (operator_of "one_of") with (Some OOneOf) in C. cbn [may_combine_with] in C.
  destruct (subtract _ _) as [|z zs] eqn:Es; [|discriminate].
  assert (In "add"%string (subtract (keys e) (map op_name [OValue; ODefault; OEssential] ++ [op_name OOneOf]))).
  { unfold subtract. apply filter_In. split; auto. eapply lookup_keys; eauto. }
  rewrite Es in H. destruct H.
Qed.

Lemma verify_entry_no_panic (e : entry) :
  (lookup "subset_of" e <> None ->
     lookup "add" e <> Some VNil /\ lookup "value" e <> Some VNil /\ lookup "superset_of" e <> Some VNil) ->
  (lookup "value" e <> None -> lookup "add" e <> Some VNil) ->
  verify_entry e <> Panic.
Proof.
  intros H1 H2. unfold verify_entry. apply bind_no_panic; [apply check_combinations_no_panic|].
  intros [] HC. unfold policy_verifiers. cbn [run_verifiers].
  repeat (apply bind_no_panic; [|intros _ _]); try discriminate.
  - unfold verify_subset_superset_oneof. destruct (_ && _); discriminate.
  - apply verify_sub_no_panic. intros H. apply H1 in H. tauto.
  - apply verify_sub_no_panic. intros H. apply H1 in H. tauto.
  - unfold verify_add_in_oneof, get. simpl op_name. pose proof (combination_oneof_add _ HC) as C.
    destruct (lookup "one_of" e); [|discriminate]. rewrite C by discriminate. discriminate.
  - apply verify_sub_no_panic. auto.
  - unfold verify_oneof_has_values, get. destruct (lookup (op_name OOneOf) e) as [v|]; [|discriminate].
    destruct (is_nil v) eqn:En; [discriminate|]. destruct (slicify_elems v) as (l & ->); [destruct v; discriminate|].
    simpl. destruct l; discriminate.
  - apply verify_sub_no_panic. intros H. apply H1 in H. tauto.
  - unfold verify_default_and_value, get. destruct (lookup (op_name OValue) e) as [v|]; [|discriminate].
    destruct (lookup (op_name ODefault) e); [|discriminate]. destruct (is_nil v); discriminate.
Qed.

Lemma verify_policy_no_panic p :
  (forall k e, In (k, e) p -> verify_entry e <> Panic) -> verify_policy p <> Panic.
Proof.
  induction p as [|[k e] p IH]; simpl; intros H; [discriminate|].
  apply bind_no_panic; eauto.
Qed.

(** ** essential *)

Lemma apply_ops_app os1 os2 e ess v set :
  apply_ops (os1 ++ os2) e ess v set = ('(v', s') <- apply_ops os1 e ess v set ;; apply_ops os2 e ess v' s').
Proof.
  revert v set. induction os1 as [|o os IH]; intros v set; simpl; auto.
  destruct (get o e) as [pv|]; auto. destruct (apply_op o v set pv ess) as [[v' s']| |]; simpl; auto.
Qed.

Lemma apply_to_essential (e : entry) v set v' :
  lookup "essential" e = Some (VBool true) -> apply_to e v set = Ok v' ->
  v' <> VNil /\ (is_slice v' = true \/ is_zero v' = Ok false).
Proof.
  intros He H. unfold apply_to in H. apply bind_ok in H as ([vf sf] & H & E). injection E as ->.
  change operator_order with ([OValue; OAdd; ODefault; OOneOf; OSubsetOf; OSupersetOf] ++ [OEssential]) in H.
  rewrite apply_ops_app in H. apply bind_ok in H as ([v6 s6] & _ & H).
  cbn [apply_ops] in H. unfold get in H. simpl op_name in H. rewrite He in H. cbn [apply_op] in H.
  destruct (is_nil v6) eqn:En; [discriminate|].
  destruct (is_slice v6) eqn:Es.
  - simpl in H. injection H as <- <-. split; auto. destruct v6; discriminate.
  - destruct (is_zero v6) as [[]| |] eqn:Ez; try discriminate. injection H as <- <-.
    split; auto. destruct v6; discriminate.
Qed.

Lemma essential_accepts v set ess pv :
  (is_slice v = true \/ is_zero v = Ok false) -> apply_op OEssential v set pv ess = Ok (v, set).
Proof.
  intros H. simpl. destruct pv as [|[]| | | | | |]; auto.
  destruct v; simpl in *; destruct H as [H|H]; try discriminate; try reflexivity;
    injection H as ->; reflexivity.
Qed.

(** ** ApplyTo only looks operators up by name *)
Lemma apply_ops_same os e e' ess v set :
  (forall o, In o os -> get o e = get o e') -> apply_ops os e ess v set = apply_ops os e' ess v set.
Proof.
  revert v set. induction os as [|o os IH]; intros v set H; simpl; auto.
  rewrite <- (H o) by (simpl; auto). destruct (get o e); [|apply IH; intros; apply H; simpl; auto].
  destruct (apply_op _ _ _ _ _) as [[v' s']| |]; simpl; auto. apply IH; intros; apply H; simpl; auto.
Qed.

Lemma apply_to_same e e' v set : (forall o, get o e = get o e') -> apply_to e v set = apply_to e' v set.
Proof.
  intros H. unfold apply_to, entry_essential. rewrite (H OEssential), (apply_ops_same _ e e'); auto.
Qed.


Lemma lookup_filter {V} (f : string -> bool) k (m : smap V) :
  lookup k (filter (fun kv => f (fst kv)) m) = if f k then lookup k m else None.
Proof.
  induction m as [|[k' v] m IH]; simpl.
  - now destruct (f k).
  - destruct (f k') eqn:E; simpl; rewrite IH; destruct (String.eqb_spec k k'); subst; auto.
    + now rewrite E.
    + now rewrite E.
Qed.

Lemma get_strip o e : get o (strip e) = get o e.
Proof. unfold get, strip. rewrite lookup_filter. destruct o; reflexivity. Qed.

Lemma apply_to_strip e v set : apply_to (strip e) v set = apply_to e v set.
Proof. apply apply_to_same. intros. apply get_strip. Qed.

Lemma strip_cons k v e : strip ((k, v) :: e) = if known k then (k, v) :: strip e else strip e.
Proof. reflexivity. Qed.

Lemma strip_merge_at b l l' : 
  (forall k, In k (keys l) -> In k (keys b) -> known k = true) ->
  map_res (merge_at b) l = Ok l' -> map_res (merge_at (strip b)) (strip l) = Ok (strip l').
Proof.
  rewrite map_res_Forall2. intros HK H. induction H as [|[k av] [k' c] l l' H _ IH]; [reflexivity|].
  assert (HK' : forall k, In k (keys l) -> In k (keys b) -> known k = true) by (intros; apply HK; simpl; auto).
  specialize (IH HK').
  rewrite !strip_cons. cbn [merge_at] in H.
  rewrite !known_op. destruct (operator_of k) as [o|] eqn:Eo.
  - assert (k' = k).
    { destruct (lookup k b); [destruct (merge_op _ _ _)|]; simpl in H; congruence. }
    subst k'. rewrite Eo. cbn [map_res merge_at].
    unfold strip at 1. rewrite lookup_filter, known_op. rewrite Eo, H. cbn [bind]. rewrite IH. reflexivity.
  - assert (lookup k b = None) as E0.
    { destruct (lookup k b) eqn:E; auto. exfalso. apply (proj1 (known_operator_of k)); auto. apply (HK k); simpl; auto. eapply lookup_keys; eauto. }
    rewrite E0 in H. injection H as <- <-. rewrite Eo. exact IH.
Qed.

Lemma has_strip k (a : entry) : known k = true -> has k (strip a) = has k a.
Proof. intros H. unfold has, strip. now rewrite lookup_filter, H. Qed.

Lemma filter_filter {A} (f g : A -> bool) l : filter f (filter g l) = filter (fun x => g x && f x) l.
Proof.
  induction l as [|x l IH]; simpl; auto. destruct (g x); simpl; rewrite IH; auto.
Qed.

Lemma strip_rest a b : strip (rest a b) = rest (strip a) (strip b).
Proof.
  unfold strip at 1 3, rest. rewrite !filter_filter. apply filter_ext. intros [k v]. simpl.
  destruct (known k) eqn:E; simpl.
  - rewrite has_strip by auto. now rewrite andb_true_r.
  - now rewrite andb_false_r.
Qed.

Lemma merge_strip a b m :
  NoDup (keys a) -> NoDup (keys b) ->
  shared_known a b -> merge_entries a b = Ok m ->
  merge_entries (strip a) (strip b) = Ok (strip m).
Proof.
  intros NDa NDb HK. rewrite merge_entries_closed by auto. intros H.
  apply bind_ok in H as (l & Hl & H). injection H as <-.
  rewrite merge_entries_closed.
  - rewrite (strip_merge_at b a l HK Hl). cbn [bind]. rewrite <- strip_rest. unfold strip. now rewrite filter_app.
  - now apply keys_filter_NoDup.
  - now apply keys_filter_NoDup.
  - intros k Ha Hb. unfold strip, keys in Ha. apply in_map_iff in Ha as ([k' v] & <- & Ha).
    apply filter_In in Ha as [_ Ha]. simpl in *. exact Ha.
Qed.
