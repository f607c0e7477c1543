(** Closed forms of the merge loops, and order independence. *)
From Verif Require Import Base GoVal Policy BaseFacts SpecPolicy PolicyFacts.

(** ** Closed forms *)

Definition merge_at (b : entry) (kv : string * gval) : res (string * gval) :=
  let '(k, av) := kv in
  match lookup k b with
  | None => Ok (k, av)
  | Some bv => match operator_of k with
               | None => Err
               | Some o => c <- merge_op o av bv ;; Ok (k, c)
               end
  end.


Definition rest {V} (a b : smap V) : smap V := filter (fun kv => negb (has (fst kv) a)) b.

Lemma merge_loop_closed a b out :
  NoDup (keys a) -> (forall k, In k (keys a) -> lookup k out = None) -> shared_known a b ->
  merge_loop a b out = (l <- map_res (merge_at b) a ;; Ok (Some (out ++ l))).
Proof.
  revert out. induction a as [|[k av] a IH]; intros out ND Hout HK; simpl.
  - now rewrite app_nil_r.
  - inversion ND as [|x y Hx ND']; subst.
    assert (HK' : shared_known a b).
    { intros k' H1 H2. apply HK; simpl; auto. }
    destruct (lookup k b) as [bv|] eqn:E.
    + destruct (operator_of k) as [o|] eqn:Eo.
      2:{ exfalso. apply (proj1 (known_operator_of k)); auto. apply (HK k); simpl; auto. eapply lookup_keys; eauto. }
      destruct (merge_op o av bv) as [c| |]; simpl; auto.
      rewrite insert_app by (apply Hout; simpl; auto).
      rewrite IH; auto.
      * destruct (map_res (merge_at b) a); simpl; auto. now rewrite <- app_assoc.
      * intros k' Hk'. rewrite <- insert_app by (apply Hout; simpl; auto).
        rewrite lookup_insert. destruct (String.eqb_spec k' k); [subst; contradiction|].
        apply Hout; simpl; auto.
    + simpl. rewrite insert_app by (apply Hout; simpl; auto).
      rewrite IH; auto.
      * destruct (map_res (merge_at b) a); simpl; auto. now rewrite <- app_assoc.
      * intros k' Hk'. rewrite <- insert_app by (apply Hout; simpl; auto).
        rewrite lookup_insert. destruct (String.eqb_spec k' k); [subst; contradiction|].
        apply Hout; simpl; auto.
Qed.

Lemma filter_ext_In' {A} (f g : A -> bool) l : (forall x, In x l -> f x = g x) -> filter f l = filter g l.
Proof. apply filter_ext_in. Qed.

Lemma merge_rest_closed {V} (b out : smap V) :
  NoDup (keys b) -> merge_rest b out = out ++ rest out b.
Proof.
  revert out. induction b as [|[k v] b IH]; intros out ND; simpl.
  - now rewrite app_nil_r.
  - inversion ND as [|x y Hx ND']; subst.
    destruct (has k out) eqn:E; simpl.
    + now apply IH.
    + rewrite IH by auto. apply has_false in E. rewrite insert_app by auto.
      rewrite <- app_assoc. simpl. f_equal. f_equal.
      unfold rest. apply filter_ext_in. intros [k' v'] Hin. simpl.
      rewrite <- insert_app by auto. unfold has at 1. rewrite lookup_insert.
      destruct (String.eqb_spec k' k); auto.
      subst. exfalso. apply Hx. apply (in_map fst) in Hin. exact Hin.
Qed.

Lemma merge_at_keys b l l' : map_res (merge_at b) l = Ok l' -> keys l' = keys l.
Proof.
  rewrite map_res_Forall2. intros H. induction H as [|[k av] [k' c] l l' H _ IH]; simpl; auto.
  f_equal; auto. simpl in H.
  destruct (lookup k b); [destruct (operator_of k); [|discriminate]; destruct (merge_op _ _ _)|]; simpl in H; congruence.
Qed.

Lemma merge_entries_closed a b :
  NoDup (keys a) -> NoDup (keys b) -> shared_known a b ->
  merge_entries a b = (l <- map_res (merge_at b) a ;; Ok (l ++ rest a b)).
Proof.
  intros NDa NDb HK. unfold merge_entries. rewrite merge_loop_closed; auto.
  destruct (map_res (merge_at b) a) as [l| |] eqn:E; simpl; auto.
  rewrite merge_rest_closed by auto. f_equal. f_equal.
  unfold rest. apply filter_ext_in. intros [k v] _. simpl. f_equal.
  apply merge_at_keys in E. unfold has.
  destruct (lookup k l) eqn:E1, (lookup k a) eqn:E2; auto.
  - apply lookup_keys in E1. apply lookup_None in E2. congruence.
  - apply lookup_keys in E2. apply lookup_None in E1. congruence.
Qed.

Lemma rest_keys {V} (a b : smap V) k : In k (keys (rest a b)) <-> In k (keys b) /\ ~ In k (keys a).
Proof.
  unfold rest, keys. rewrite in_map_iff. split.
  - intros ([k' v] & <- & H). apply filter_In in H as [H H']. simpl in *.
    split; [apply (in_map fst) in H; exact H|].
    intros Hk. apply has_In in Hk. rewrite Hk in H'. discriminate.
  - intros [H1 H2]. apply in_map_iff in H1 as ([k' v] & <- & H). simpl in *.
    exists (k', v). split; auto. apply filter_In. split; auto. simpl.
    destruct (has k' a) eqn:E; auto. apply has_In in E. contradiction.
Qed.

Lemma keys_filter_NoDup {V} (f : string * V -> bool) (b : smap V) : NoDup (keys b) -> NoDup (keys (filter f b)).
Proof.
  induction b as [|[k v] b IH]; simpl; intros ND; auto.
  inversion ND as [|x y Hx ND']; subst.
  destruct (f (k, v)); simpl; auto. constructor; auto.
  intros H. apply Hx. unfold keys in *. apply in_map_iff in H as (p & E & H).
  apply filter_In in H as [H _]. apply in_map_iff. eauto.
Qed.

Lemma lookup_app {V} k (a b : smap V) :
  lookup k (a ++ b) = match lookup k a with Some v => Some v | None => lookup k b end.
Proof.
  induction a as [|[k' v] a IH]; simpl; auto. destruct (String.eqb k k'); auto.
Qed.

Lemma lookup_rest {V} k (a b : smap V) :
  lookup k (rest a b) = if has k a then None else lookup k b.
Proof.
  unfold rest. induction b as [|[k' v] b IH]; simpl.
  - now destruct (has k a).
  - destruct (has k' a) eqn:E; simpl.
    + rewrite IH. destruct (String.eqb_spec k k'); auto. subst. now rewrite E.
    + destruct (String.eqb_spec k k'); auto. subst. now rewrite E.
Qed.

(** What a successful merge contains under each operator name. *)
Definition merged_at (a b m : entry) (k : string) : Prop :=
  match lookup k a, lookup k b with
  | Some av, Some bv => exists o c, operator_of k = Some o /\ merge_op o av bv = Ok c /\ lookup k m = Some c
  | Some av, None => lookup k m = Some av
  | None, Some bv => lookup k m = Some bv
  | None, None => lookup k m = None
  end.

Lemma merge_at_lookup b l l' : NoDup (keys l) -> map_res (merge_at b) l = Ok l' ->
  forall k, match lookup k l with
            | None => lookup k l' = None
            | Some av => merge_at b (k, av) = match lookup k l' with Some c => Ok (k, c) | None => Err end
            end.
Proof.
  rewrite map_res_Forall2. intros ND H. induction H as [|[k0 av] [k' c] l l' H HF IH]; simpl; auto.
  inversion ND as [|x y Hx ND']; subst.
  assert (k' = k0).
  { simpl in H. destruct (lookup k0 b); [destruct (operator_of k0); [|discriminate]; destruct (merge_op _ _ _)|]; simpl in H; congruence. }
  subst k'. intros k. destruct (String.eqb_spec k k0).
  - subst. simpl. simpl in H. rewrite H. reflexivity.
  - apply IH; auto.
Qed.

Lemma merge_entries_lookup a b m :
  NoDup (keys a) -> NoDup (keys b) -> shared_known a b ->
  merge_entries a b = Ok m -> NoDup (keys m) /\ forall k, merged_at a b m k.
Proof.
  intros NDa NDb HK. rewrite merge_entries_closed by auto. intros H.
  apply bind_ok in H as (l & Hl & H). injection H as <-.
  pose proof (merge_at_keys _ _ _ Hl) as Ek. split.
  - unfold keys in *. rewrite map_app. rewrite Ek.
    assert (NDr : NoDup (keys (rest a b))) by (now apply keys_filter_NoDup).
    assert (Hd : forall k, In k (keys a) -> ~ In k (keys (rest a b))).
    { intros k H1 H2. apply rest_keys in H2. tauto. }
    clear -NDa NDr Hd. unfold keys in *. induction (map fst a) as [|x xs IH]; simpl; auto.
    inversion NDa; subst. constructor.
    + rewrite in_app_iff. intros [H|H]; [contradiction|]. apply (Hd x); simpl; auto.
    + apply IH; auto. intros k Hk. apply Hd. simpl; auto.
  - intros k. unfold merged_at. rewrite lookup_app, lookup_rest. unfold has.
    pose proof (merge_at_lookup _ _ _ NDa Hl k) as Hm.
    destruct (lookup k a) as [av|] eqn:Ea.
    + simpl in Hm. destruct (lookup k b) as [bv|] eqn:Eb.
      * destruct (operator_of k) as [o|] eqn:Eo.
        -- destruct (merge_op o av bv) as [c| |] eqn:Em; simpl in Hm; destruct (lookup k l) as [c'|] eqn:El; try discriminate.
           ++ injection Hm as <-. eauto.
           ++ exfalso. apply lookup_None in El. rewrite Ek in El. apply El. eapply lookup_keys; eauto.
        -- exfalso. apply (proj1 (known_operator_of k)); auto; apply (HK k); auto; eapply lookup_keys; eauto.
      * destruct (lookup k l) as [c|]; congruence.
    + rewrite Hm. destruct (lookup k b); auto.
Qed.

(** ** Permutations *)

Lemma map_res_perm {A B} (f : A -> res B) l l' r :
  Permutation l l' -> map_res f l = Ok r -> exists r', map_res f l' = Ok r' /\ Permutation r r'.
Proof.
  intros P. revert r. induction P as [|x l l' P IH|x y l|l l' l'' P IH P' IH']; intros r H.
  - exists r. auto.
  - simpl in H. apply bind_ok in H as (y & Hy & H). apply bind_ok in H as (ys & Hys & H).
    injection H as <-. destruct (IH _ Hys) as (r' & Hr' & Pr). simpl. rewrite Hy. simpl. rewrite Hr'. simpl. eauto.
  - simpl in H. apply bind_ok in H as (b & Hb & H). apply bind_ok in H as (xs & Hxs & H).
    apply bind_ok in Hxs as (a & Ha & Hxs). apply bind_ok in Hxs as (ys & Hys & Hxs).
    injection Hxs as <-. injection H as <-. simpl. rewrite Ha. simpl. rewrite Hb. simpl. rewrite Hys. simpl.
    eexists; split; [reflexivity|]. constructor.
  - destruct (IH _ H) as (r1 & H1 & P1). destruct (IH' _ H1) as (r2 & H2 & P2). eauto using Permutation_trans.
Qed.

Lemma merge_at_same b b' kv : same_map b b' -> merge_at b kv = merge_at b' kv.
Proof. intros H. destruct kv as [k v]. simpl. now rewrite (H k). Qed.

Lemma map_res_ext {A B} (f g : A -> res B) l : (forall x, In x l -> f x = g x) -> map_res f l = map_res g l.
Proof.
  induction l as [|x l IH]; simpl; intros H; auto. rewrite H by auto. rewrite IH; auto.
Qed.

Lemma filter_perm {A} (f : A -> bool) l l' : Permutation l l' -> Permutation (filter f l) (filter f l').
Proof.
  induction 1; simpl; auto.
  - destruct (f x); auto.
  - destruct (f x), (f y); auto. constructor.
  - eauto using Permutation_trans.
Qed.

Lemma rest_perm {V} (a a' b b' : smap V) :
  NoDup (keys a) -> Permutation a a' -> Permutation b b' -> Permutation (rest a b) (rest a' b').
Proof.
  intros ND Pa Pb. unfold rest.
  eapply Permutation_trans; [apply filter_perm; exact Pb|].
  rewrite (filter_ext (fun kv => negb (has (fst kv) a)) (fun kv => negb (has (fst kv) a'))); auto.
  intros [k v]. simpl. unfold has. now rewrite (perm_same_map _ _ ND Pa k).
Qed.

Lemma shared_known_perm a a' b b' :
  Permutation a a' -> Permutation b b' -> shared_known a b -> shared_known a' b'.
Proof.
  intros Pa Pb H k Ha Hb. apply H.
  - eapply Permutation_in; [|exact Ha]. apply Permutation_map. now apply Permutation_sym.
  - eapply Permutation_in; [|exact Hb]. apply Permutation_map. now apply Permutation_sym.
Qed.

Lemma merge_entries_perm a a' b b' m :
  NoDup (keys a) -> NoDup (keys b) -> shared_known a b ->
  Permutation a a' -> Permutation b b' ->
  merge_entries a b = Ok m -> exists m', merge_entries a' b' = Ok m' /\ Permutation m m'.
Proof.
  intros NDa NDb HK Pa Pb. rewrite merge_entries_closed by auto. intros H.
  apply bind_ok in H as (l & Hl & H). injection H as <-.
  rewrite merge_entries_closed; eauto using perm_keys_NoDup, shared_known_perm.
  rewrite (map_res_ext (merge_at b') (merge_at b)).
  2:{ intros. apply merge_at_same. intros k. symmetry. now apply perm_same_map. }
  destruct (map_res_perm _ _ _ _ Pa Hl) as (l' & Hl' & Pl). rewrite Hl'. simpl.
  eexists; split; [reflexivity|]. apply Permutation_app; auto using rest_perm.
Qed.
