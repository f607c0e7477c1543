(** Proofs about policy operators over strings. *)
From Verif Require Import Base GoVal Policy BaseFacts SpecPolicy.

Arguments deep_eq !a !b.

Lemma known_op k : known k = match operator_of k with Some _ => true | None => false end.
Proof.
  unfold known, operator_of. cbn [mem existsb].
  repeat match goal with |- context [String.eqb k ?x] => destruct (String.eqb k x) eqn:? end; reflexivity.
Qed.

Lemma known_operator_of k : known k = true <-> operator_of k <> None.
Proof. rewrite known_op. destruct (operator_of k); split; congruence. Qed.

Lemma existsb_str s l : existsb (deep_eq (VStr s)) (map VStr l) = mem s l.
Proof. unfold mem. induction l as [|a l IH]; [reflexivity|]. cbn [map existsb]. rewrite IH. reflexivity. Qed.

Lemma strs_slicify v l : strs v l -> exists t n, (t = TAny \/ t = TStr) /\ slicify v = VSlice t n (map VStr l).
Proof.
  intros [(s & -> & ->)|(t & n & Ht & ->)]; simpl; eauto.
Qed.

Lemma strs_fun v l l' : strs v l -> strs v l' -> l = l'.
Proof.
  intros H H'. apply strs_slicify in H as (t & n & _ & E). apply strs_slicify in H' as (t' & n' & _ & E').
  rewrite E in E'. injection E' as _ _ E'.
  clear E. revert l' E'. induction l as [|x l IH]; destruct l'; simpl; try discriminate; auto.
  intros E'. injection E' as -> E'. f_equal; auto.
Qed.

Lemma strs_not_nil v l : strs v l -> is_nil v = false.
Proof. intros [(s & -> & _)|(t & n & _ & ->)]; reflexivity. Qed.

Lemma strs_slice t n l : (t = TAny \/ t = TStr) -> strs (VSlice t n (map VStr l)) l.
Proof. intros H. right. eauto. Qed.

Lemma cast_strs src dst l :
  (dst = TAny \/ dst = TStr) -> map_res (cast_elem src dst) (map VStr l) = Ok (map VStr l).
Proof.
  intros H. rewrite (map_res_ok_map _ (fun x => x)), map_id; auto.
  intros x Hx. apply in_map_iff in Hx as (s & <- & _). destruct H as [-> | ->]; reflexivity.
Qed.

Fixpoint s_union_loop (out l : list string) : list string :=
  match l with
  | [] => out
  | x :: l' => if mem x out then s_union_loop out l' else s_union_loop (out ++ [x]) l'
  end.

Definition s_union (a b : list string) : list string :=
  match b, a with
  | [], _ => a
  | _, [] => b
  | _, _ => s_union_loop a b
  end.

Lemma union_loop_strs out l : union_loop (map VStr out) (map VStr l) = map VStr (s_union_loop out l).
Proof.
  revert out. induction l as [|x l IH]; simpl; intros out; auto.
  rewrite existsb_str. destruct (mem x out); auto.
  rewrite <- IH, map_app. reflexivity.
Qed.

Lemma union_strs a b la lb :
  strs a la -> strs b lb -> exists t n, (t = TAny \/ t = TStr) /\ union a b = Ok (VSlice t n (map VStr (s_union la lb)))
    /\ (exists n', slicify a = VSlice t n' (map VStr la) /\ (n = true -> s_union la lb = [] \/ n' = true)).
Proof.
  intros Ha Hb.
  apply strs_slicify in Ha as (ta & na & Hta & Ea). apply strs_slicify in Hb as (tb & nb & Htb & Eb).
  unfold union. rewrite Ea, Eb.
  destruct lb as [|xb lb].
  - simpl. exists ta, na. repeat split; auto. exists na. auto.
  - destruct la as [|xa la].
    + cbv beta iota delta [map]. fold (map VStr). change (VStr xb :: map VStr lb) with (map VStr (xb :: lb)).
      unfold slice_cast. simpl typeof. cbv iota beta.
      rewrite cast_strs by auto. cbn [bind]. exists ta, false. repeat split; auto.
      exists na. split; auto. discriminate.
    + exists ta, false. split; [auto|]. split; [|exists na; split; auto; discriminate].
      cbn [map].
      change (VStr xb :: map VStr lb) with (map VStr (xb :: lb)).
      change (VStr xa :: map VStr la) with (map VStr (xa :: la)).
      destruct (gty_eqb ta tb).
      * cbn [bind elems]. rewrite union_loop_strs. reflexivity.
      * unfold slice_cast. cbn [typeof]. rewrite cast_strs by auto. cbn [bind elems].
        rewrite union_loop_strs. reflexivity.
Qed.

Lemma s_union_loop_In out l x : In x (s_union_loop out l) <-> In x out \/ In x l.
Proof.
  revert out. induction l as [|y l IH]; simpl; intros out; [tauto|].
  destruct (mem y out) eqn:E; rewrite IH.
  - apply mem_In in E. intuition. subst; auto.
  - rewrite in_app_iff. simpl. intuition.
Qed.

Lemma s_union_In la lb x : In x (s_union la lb) <-> In x la \/ In x lb.
Proof.
  destruct lb as [|b lb]; [simpl; tauto|].
  destruct la as [|a la]; [simpl; tauto|].
  unfold s_union. rewrite s_union_loop_In. tauto.
Qed.

Definition s_inter (la lb : list string) : list string := filter (fun x => mem x lb) la.

Lemma s_inter_In la lb x : In x (s_inter la lb) <-> In x la /\ In x lb.
Proof. unfold s_inter. rewrite filter_In, mem_In. tauto. Qed.

Lemma filter_map_str (f : gval -> bool) g l :
  (forall s, f (VStr s) = g s) -> filter f (map VStr l) = map VStr (filter g l).
Proof. intros H. induction l; simpl; auto. rewrite H. destruct (g a); simpl; now rewrite IHl. Qed.

Definition nilb {A} (l : list A) : bool := match l with [] => true | _ => false end.

Lemma intersect_strs a b la lb :
  strs a la -> strs b lb ->
  exists t, (t = TAny \/ t = TStr) /\
    intersect a b = Ok (VSlice t (nilb (s_inter la lb)) (map VStr (s_inter la lb))) /\
    exists n, slicify a = VSlice t n (map VStr la).
Proof.
  intros Ha Hb.
  apply strs_slicify in Ha as (ta & na & Hta & Ea). apply strs_slicify in Hb as (tb & nb & Htb & Eb).
  unfold intersect. rewrite Ea, Eb. exists ta. split; auto.
  assert (Hf : forall t n, filter (fun v => slice_contains v (VSlice t n (map VStr lb))) (map VStr la)
                      = map VStr (s_inter la lb)).
  { intros. apply filter_map_str. intros s. simpl. apply existsb_str. }
  split; [|eauto].
  destruct (gty_eqb ta tb).
  - cbn [bind]. rewrite Hf. f_equal. f_equal. destruct (s_inter la lb); reflexivity.
  - unfold slice_cast. cbn [typeof]. rewrite cast_strs by auto. cbn [bind]. rewrite Hf.
    f_equal. f_equal. destruct (s_inter la lb); reflexivity.
Qed.

Lemma slice_contains_strs s v l : strs v l -> slice_contains (VStr s) (slicify v) = mem s l.
Proof.
  intros H. apply strs_slicify in H as (t & n & _ & ->). simpl. apply existsb_str.
Qed.

Lemma is_subset_of_strs a b la lb :
  strs a la -> strs b lb -> is_subset_of a b = Ok (forallb (fun x => mem x lb) la).
Proof.
  intros Ha Hb. unfold is_subset_of.
  apply strs_slicify in Ha as (ta & na & Hta & ->). cbn [elems bind]. f_equal.
  induction la; simpl; auto. f_equal; auto. eapply slice_contains_strs; eauto.
Qed.

Lemma forallb_mem_incl la lb : forallb (fun x => mem x lb) la = true <-> incl la lb.
Proof.
  rewrite forallb_forall. split; intros H x Hx; apply H in Hx; now apply mem_In in Hx || apply mem_In.
Qed.

Lemma slice_equal_strs a b la lb :
  strs a la -> strs b lb ->
  slice_equal a b = Ok (Nat.eqb (List.length la) (List.length lb) && forallb (fun x => mem x lb) la).
Proof.
  intros Ha Hb. unfold slice_equal.
  rewrite (strs_not_nil _ _ Ha), (strs_not_nil _ _ Hb). cbn [orb].
  pose proof (is_subset_of_strs _ _ _ _ Ha Hb) as Hs. unfold is_subset_of in Hs.
  apply strs_slicify in Ha as (ta & na & Hta & Ea). apply strs_slicify in Hb as (tb & nb & Htb & Eb).
  rewrite Ea, Eb in *. cbn [elems bind] in *.
  rewrite !map_length. do 2 f_equal. congruence.
Qed.

Lemma slice_cast_strs v l nt :
  strs v l ->
  slice_cast v nt = Ok v /\ is_slice v = false \/
  is_slice v = true /\
  match typeof nt with
  | Some (TSlice dst) => (dst = TAny \/ dst = TStr) -> slice_cast v nt = Ok (VSlice dst false (map VStr l))
  | _ => slice_cast v nt = Panic
  end.
Proof.
  intros [(s & -> & ->)|(t & n & Ht & ->)].
  - left. split; reflexivity.
  - right. split; auto. unfold slice_cast. destruct (typeof nt) as [[]|]; auto.
    intros H. rewrite cast_strs; auto.
Qed.

Lemma slicify_type v l : strs v l -> exists t, typeof (slicify v) = Some (TSlice t) /\ (t = TAny \/ t = TStr).
Proof. intros H. apply strs_slicify in H as (t & n & Ht & ->). eexists; split; eauto. reflexivity. Qed.

Lemma slice_cast_strs_ok v l nt lnt :
  strs v l -> strs nt lnt -> exists r, slice_cast v (slicify nt) = Ok r /\ strs r l.
Proof.
  intros Hv Hn. destruct (slicify_type _ _ Hn) as (t & Et & Ht).
  destruct (slice_cast_strs v l (slicify nt) Hv) as [[-> _]|[_ H]]; [eauto|].
  rewrite Et in H. rewrite (H Ht). eexists; split; eauto. right; eauto.
Qed.
