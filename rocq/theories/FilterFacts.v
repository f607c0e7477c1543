(** Proofs about the order of filters of trust chains. *)
From Coq Require Import Permutation.
From Verif Require Import Base Chain SpecChain ChainFacts SpecFilter.

Lemma exactly_fun P a b cs : exactly P a cs -> exactly P b cs -> a = b.
Proof.
  intros H. revert b. induction H; intros b K; inversion K; subst; try contradiction; auto. f_equal; auto.
Qed.

Lemma exactly_In P a cs c : exactly P a cs -> In c a <-> In c cs /\ P c.
Proof.
  intros H. induction H as [|d out cs Pd H IH|d out cs Pd H IH]; simpl; [tauto| |]; rewrite IH.
  - split; [intros [-> | [? ?]]; auto|intros [[-> | ?] ?]; auto].
  - split; [intros [? ?]; auto|intros [[-> | ?] ?]; [contradiction|auto]].
Qed.

Lemma exactly_ext P Q a cs : (forall c, In c cs -> P c <-> Q c) -> exactly P a cs -> exactly Q a cs.
Proof.
  intros E H. induction H as [|d out cs Pd H IH|d out cs Pd H IH]; constructor;
    try (apply IH; intros c Hc; apply E; now right); rewrite <- ?E; auto; now left.
Qed.

Lemma exactly_comp P Q a b cs : exactly P a cs -> exactly Q b a -> exactly (fun c => P c /\ Q c) b cs.
Proof.
  intros H. revert b. induction H as [|d out cs Pd H IH|d out cs Pd H IH]; intros b K.
  - inversion K; constructor.
  - inversion K; subst; [apply exactly_keep|apply exactly_drop]; auto. tauto.
  - apply exactly_drop; auto. tauto.
Qed.

Lemma alone_nil f : alone f -> f [] = [].
Proof. intros [P H]. specialize (H []). now inversion H. Qed.

Lemma alone_swap f g cs : alone f -> alone g -> g (f cs) = f (g cs).
Proof.
  intros [P F] [Q G]. eapply exactly_fun.
  - eapply exactly_comp; [apply F|apply G].
  - eapply exactly_ext; [|eapply exactly_comp; [apply G|apply F]]. intros c _. simpl. tauto.
Qed.

Theorem filters_order fs fs' cs : Permutation fs fs' -> (forall f, In f fs -> alone f) ->
  run_filters fs cs = run_filters fs' cs.
Proof.
  intros P A. assert (A' : forall f, In f fs' -> alone f).
  { intros f Hf. apply A. eapply Permutation_in; [symmetry; exact P|auto]. }
  rewrite !run_filters_compose by (intros; apply alone_nil; auto). revert cs A A'.
  induction P; intros cs A A'; cbn [fold_left]; auto.
  - apply IHP; intros; [apply A|apply A']; now right.
  - rewrite (alone_swap y x); auto; apply A; simpl; auto.
  - rewrite IHP1; [apply IHP2|..]; auto; intros f Hf; apply A; eapply Permutation_in; try exact Hf; now symmetry.
Qed.

Theorem provided_alone : (forall id, alone (filter_anchor id)) /\ alone filter_valid_metadata /\
  (forall n, (0 <= n)%Z -> alone (filter_max_path_len n)) /\ (forall check, alone (filter_checker check)).
Proof.
  repeat split.
  - intros id. exists (ends_at id). apply filter_anchor_exact.
  - eexists. apply filter_valid_exact.
  - intros n Hn. eexists. intros cs. now apply filter_max_exact.
  - intros check. exists (fun c => check c = true). intros cs. apply filter_exactly. tauto.
Qed.

Lemma exactly_again P a cs : exactly P a cs -> exactly P a a.
Proof. intros H. induction H; auto; constructor; auto. Qed.

Theorem filter_again f cs : alone f \/ f = filter_min_path_len -> f (f cs) = f cs.
Proof.
  intros [[P F] | ->].
  - eapply exactly_fun; [apply F|]. eapply exactly_again, F.
  - eapply exactly_fun; [apply filter_min_exact|]. set (b := filter_min_path_len cs).
    pose proof (filter_min_exact cs) as M. fold b in M. apply exactly_again in M as K.
    eapply exactly_ext; [|exact K]. intros c Hc. split; intros S d Hd.
    + apply S. apply (exactly_In _ _ _ d M) in Hd as [? _]. auto.
    + apply (exactly_In _ _ _ c M) in Hc as [_ Hc]. auto.
Qed.

Lemma run_two f g cs : f [] = [] -> g [] = [] -> run_filters [f; g] cs = g (f cs).
Proof. intros Hf Hg. rewrite run_filters_compose; auto. intros h [<- | [<- | []]]; auto. Qed.

Theorem min_last P f cs : (forall ds, exactly P (f ds) ds) ->
  exactly (shortest_with P cs) (run_filters [f; filter_min_path_len] cs) cs.
Proof.
  intros F. rewrite run_two; [|apply alone_nil; now exists P|reflexivity].
  eapply exactly_ext; [|eapply exactly_comp; [apply F|apply filter_min_exact]].
  intros c Hc. unfold shortest_with. split; intros [Pc S]; split; auto; intros d Hd.
  - intros Pd. apply S. apply (exactly_In _ _ _ d (F cs)). auto.
  - apply (exactly_In _ _ _ d (F cs)) in Hd as [? ?]. auto.
Qed.

Theorem min_first f cs : alone f -> run_filters [filter_min_path_len; f] cs <> [] ->
  run_filters [filter_min_path_len; f] cs = run_filters [f; filter_min_path_len] cs.
Proof.
  intros [P F]. assert (N : f [] = []) by (apply alone_nil; now exists P).
  pose proof (min_last P f cs F) as L. rewrite (run_two filter_min_path_len f) by auto. intros NE.
  pose proof (exactly_comp _ _ _ _ _ (filter_min_exact cs) (F _)) as K. eapply exactly_fun; [exact K|].
  destruct (f (filter_min_path_len cs)) as [|c0 r] eqn:E; [congruence|].
  assert (I : In c0 (c0 :: r)) by now left. apply (exactly_In _ _ _ c0 K) in I as (I0 & M0 & P0).
  eapply exactly_ext; [|exact L]. intros c Hc. unfold shortest_with. split.
  - intros [Pc S]. split; auto. intros d Hd. specialize (S c0 I0 P0). specialize (M0 d Hd). lia.
  - intros [S Pc]. auto.
Qed.

Theorem negative_max n : (n < 0)%Z -> forall cs, filter_max_path_len n cs = filter_min_path_len cs.
Proof.
  intros Hn cs. unfold filter_max_path_len, filter_min_path_len, filter_path_len. destruct cs as [|c r]; auto.
  destruct (Z.ltb_spec n 0); [|lia]. reflexivity.
Qed.
