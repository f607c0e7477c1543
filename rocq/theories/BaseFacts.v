(** Lemmas about the shared basics. *)
From Verif Require Import Base GoVal.

Lemma bind_ok {A B} (x : res A) (f : A -> res B) b :
  bind x f = Ok b -> exists a, x = Ok a /\ f a = Ok b.
Proof. destruct x; simpl; intros H; try discriminate. eauto. Qed.

Lemma mem_In s l : mem s l = true <-> In s l.
Proof.
  unfold mem. rewrite existsb_exists. split.
  - intros (x & Hx & E). apply String.eqb_eq in E. now subst.
  - intros H. exists s. split; auto. apply String.eqb_refl.
Qed.

Lemma mem_nIn s l : mem s l = false <-> ~ In s l.
Proof. rewrite <- mem_In. destruct (mem s l); split; congruence. Qed.

Lemma lookup_In {V} k (m : smap V) v : lookup k m = Some v -> In (k, v) m.
Proof.
  induction m as [|[k' v'] m IH]; simpl; intros H; [discriminate|].
  destruct (String.eqb_spec k k'); [injection H as ->; subst; now left | right; auto].
Qed.

Lemma lookup_None {V} k (m : smap V) : lookup k m = None <-> ~ In k (keys m).
Proof.
  induction m as [|[k' v'] m IH]; simpl; [tauto|].
  destruct (String.eqb_spec k k') as [->|Hn].
  - split; [discriminate | tauto].
  - rewrite IH. split; intros H; [intros [E|E]; [congruence|auto] | tauto].
Qed.

Lemma lookup_keys {V} k (m : smap V) v : lookup k m = Some v -> In k (keys m).
Proof. intros H. apply lookup_In in H. apply (in_map fst) in H. exact H. Qed.

Lemma In_lookup {V} k (m : smap V) v : NoDup (keys m) -> In (k, v) m -> lookup k m = Some v.
Proof.
  induction m as [|[k' v'] m IH]; simpl; intros ND H; [tauto|].
  inversion ND as [|x y Hx ND']; subst.
  destruct H as [E|E].
  - injection E as -> ->. now rewrite String.eqb_refl.
  - destruct (String.eqb_spec k k') as [->|Hn]; auto.
    exfalso. apply Hx. apply (in_map fst) in E. exact E.
Qed.

Lemma keys_lookup {V} k (m : smap V) : In k (keys m) -> exists v, lookup k m = Some v.
Proof.
  intros H. destruct (lookup k m) eqn:E; eauto.
  apply lookup_None in E. contradiction.
Qed.

Lemma has_In {V} k (m : smap V) : has k m = true <-> In k (keys m).
Proof.
  unfold has. destruct (lookup k m) eqn:E.
  - split; auto. intros _. eapply lookup_keys; eauto.
  - apply lookup_None in E. split; [discriminate|contradiction].
Qed.

Lemma has_false {V} k (m : smap V) : has k m = false <-> lookup k m = None.
Proof. unfold has. destruct (lookup k m); split; congruence. Qed.

Lemma lookup_insert {V} k k' v (m : smap V) :
  lookup k (insert k' v m) = if String.eqb k k' then Some v else lookup k m.
Proof.
  induction m as [|[k2 v2] m IH]; simpl.
  - destruct (String.eqb_spec k k'); reflexivity.
  - destruct (String.eqb_spec k' k2) as [->|Hn]; simpl.
    + destruct (String.eqb k k2); reflexivity.
    + rewrite IH. destruct (String.eqb_spec k k2) as [->|Hn2]; auto.
      destruct (String.eqb_spec k2 k'); congruence.
Qed.

Lemma keys_insert_In {V} k k' v (m : smap V) :
  In k (keys (insert k' v m)) <-> k = k' \/ In k (keys m).
Proof.
  induction m as [|[k2 v2] m IH]; simpl.
  - intuition.
  - destruct (String.eqb_spec k' k2) as [->|Hn]; simpl; [intuition | rewrite IH; intuition].
Qed.

Lemma keys_insert_NoDup {V} k v (m : smap V) : NoDup (keys m) -> NoDup (keys (insert k v m)).
Proof.
  induction m as [|[k2 v2] m IH]; simpl; intros ND.
  - constructor; [intros []|constructor].
  - inversion ND as [|x y Hx ND']; subst.
    destruct (String.eqb_spec k k2) as [->|Hn]; simpl; constructor; auto.
    rewrite keys_insert_In. intros [E|E]; [congruence|contradiction].
Qed.

Lemma insert_app {V} k v (m : smap V) : lookup k m = None -> insert k v m = m ++ [(k, v)].
Proof.
  induction m as [|[k2 v2] m IH]; simpl; intros H; auto.
  destruct (String.eqb_spec k k2); [discriminate|]. now rewrite IH.
Qed.

(** Two Go maps with the same content, whatever their iteration order. *)
Definition same_map {V} (m m' : smap V) : Prop := forall k, lookup k m = lookup k m'.

Lemma perm_same_map {V} (m m' : smap V) :
  NoDup (keys m) -> Permutation m m' -> same_map m m'.
Proof.
  intros ND P k.
  assert (ND' : NoDup (keys m')).
  { eapply Permutation_NoDup; [|exact ND]. apply Permutation_map. exact P. }
  destruct (lookup k m) as [v|] eqn:E.
  - symmetry. apply In_lookup; auto. eapply Permutation_in; eauto using lookup_In.
  - symmetry. apply lookup_None. apply lookup_None in E. intros H; apply E.
    eapply Permutation_in; [|exact H]. apply Permutation_sym. apply Permutation_map. exact P.
Qed.

Lemma perm_keys_NoDup {V} (m m' : smap V) :
  NoDup (keys m) -> Permutation m m' -> NoDup (keys m').
Proof. intros ND P. eapply Permutation_NoDup; [|exact ND]. apply Permutation_map. exact P. Qed.

Lemma map_res_ok_map {A B} (f : A -> res B) (g : A -> B) l :
  (forall x, In x l -> f x = Ok (g x)) -> map_res f l = Ok (map g l).
Proof.
  induction l as [|x l IH]; simpl; intros H; auto.
  rewrite H by (now left). simpl. rewrite IH; auto.
Qed.

Lemma map_res_Forall2 {A B} (f : A -> res B) l l' :
  map_res f l = Ok l' <-> Forall2 (fun x y => f x = Ok y) l l'.
Proof.
  revert l'. induction l as [|x l IH]; simpl; intros l'.
  - split; intros H; [injection H as <-; constructor | inversion H; auto].
  - split; intros H.
    + apply bind_ok in H as (y & Hy & H). apply bind_ok in H as (ys & Hys & H).
      injection H as <-. constructor; auto. now apply IH.
    + inversion H as [|? y ? ys Hy Hys]; subst. rewrite Hy. simpl.
      apply IH in Hys. now rewrite Hys.
Qed.

