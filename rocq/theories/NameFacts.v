(** Proofs about name queries. *)
From Coq Require Import NArith Lia.
From Verif Require Import Base GoVal Policy Schema Metadata Chain Resolver FloatTime Json TrustMark Discovery SpecMetadata SpecDiscovery
  EvalFacts DiscoveryFacts DiscoveryLaws SpecSteady SteadyFacts NameQuery SpecNames.
Local Open Scope nat_scope.
Local Open Scope string_scope.

Lemma in_order_refl {A} (l : list A) : in_order l l.
Proof. induction l; constructor; auto. Qed.
Lemma in_order_tail {A} x (l l' : list A) : in_order (x :: l) l' -> in_order l l'.
Proof.
  intros H. remember (x :: l) as k eqn:E. revert x l E. induction H as [l0|y l0 l1 H IH|y l0 l1 H IH]; intros x l E; [discriminate| |].
  - injection E as -> ->. now constructor.
  - constructor. eauto.
Qed.
Lemma in_order_trans {A} (a b c : list A) : in_order a b -> in_order b c -> in_order a c.
Proof.
  intros H1 H2. revert a H1. induction H2 as [l|x l l' H IH|x l l' H IH]; intros a H1.
  - inversion H1; subst; constructor.
  - inversion H1 as [|? ? ? K|? ? ? K]; subst; [constructor|constructor; auto|constructor; auto].
  - constructor. auto.
Qed.
Lemma in_order_part {A} (a pre post : list A) : in_order a (pre ++ a ++ post).
Proof.
  induction pre as [|x pre IH]; cbn [app]; [|now constructor].
  induction a as [|x a IH]; cbn [app]; constructor; auto.
Qed.

Lemma after_first_sound r : forall t t', after_first r t = Some t' -> forall s, in_order s t' -> in_order (r :: s) t.
Proof.
  induction t as [|x t IH]; intros t' H s S; [discriminate|]. cbn [after_first] in H.
  destruct (N.eqb_spec r x) as [->|]; [injection H as <-; now constructor|]. constructor. eauto.
Qed.
Lemma after_first_complete r s : forall t, in_order (r :: s) t -> exists t', after_first r t = Some t' /\ in_order s t'.
Proof.
  induction t as [|x t IH]; intros H; [inversion H|]. cbn [after_first].
  destruct (N.eqb_spec r x) as [->|NE].
  - exists t. split; auto. inversion H as [|? ? ? K|? ? ? K]; subst; auto. now apply in_order_tail in K.
  - inversion H as [|? ? ? K|? ? ? K]; subst; [congruence|auto].
Qed.
Lemma match_loop_spec : forall s t, match_loop s t = true <-> in_order s t.
Proof.
  induction s as [|r s IH]; intros t; cbn [match_loop]; [split; auto; constructor|].
  split.
  - destruct (after_first r t) as [t'|] eqn:E; [|discriminate]. intros H. apply (after_first_sound r t t' E). now apply IH.
  - intros H. apply after_first_complete in H. destruct H as (t' & -> & H). now apply IH.
Qed.
Lemma text_len_order s t : in_order s t -> text_len s <= text_len t.
Proof. induction 1; cbn [text_len fold_right] in *; unfold text_len in *; cbn [fold_right] in *; lia. Qed.
Lemma same_text_eq : forall s t, same_text s t = true -> s = t.
Proof.
  induction s as [|x s IH]; intros [|y t]; cbn [same_text]; try discriminate; auto.
  intros H. apply andb_prop in H. destruct H as [E H]. apply N.eqb_eq in E. f_equal; auto.
Qed.

Theorem fuzzy_spec norm q name : fuzzy_match norm q name = true <-> in_order (norm q) (norm name).
Proof.
  unfold fuzzy_match. destruct (Nat.ltb_spec (text_len (norm name)) (text_len (norm q))) as [L|L].
  - split; [discriminate|]. intros H. apply text_len_order in H. lia.
  - destruct (Nat.eqb _ _ && same_text _ _)%bool eqn:E; [|apply match_loop_spec].
    split; auto. intros _. apply andb_prop in E. destruct E as [_ E]. apply same_text_eq in E. rewrite E. apply in_order_refl.
Qed.

Theorem part_found q name pre q' post : name = pre ++ q' ++ post -> in_lower_case q = in_lower_case q' ->
  fuzzy_match ascii_fold q name = true.
Proof.
  intros -> E. apply fuzzy_spec. unfold ascii_fold.
  assert (A : forall a b, list_ascii_of_string (a ++ b) = (list_ascii_of_string a ++ list_ascii_of_string b)%list).
  { induction a as [|c a IH]; intros b; cbn; auto. now rewrite IH. }
  rewrite !A, !map_app.
  assert (F : forall s, map (fun c => N_of_ascii (Json.lower c)) (list_ascii_of_string s) = map N_of_ascii (in_lower_case s)).
  { intros s. unfold in_lower_case. now rewrite map_map. }
  rewrite !F, E. apply in_order_part.
Qed.

Lemma passes_name fuel ce rq q p cfg m : q <> "" ->
  passes fuel ce (with_name rq q) p cfg m <->
  passes fuel ce (with_name rq "") p cfg m /\ exists ty name, shown_name m ty name /\ ce_fuzzy ce q name = true.
Proof.
  intros NE. unfold passes. unfold with_name; cbn [cr_types cr_name cr_marks cr_anchor]. split.
  - intros (T & N & M). split; [split; [auto|split; [now intros []|auto]]|]. now apply N.
  - intros ((T & _ & M) & N). split; auto.
Qed.

Theorem query_exact norm fuel ce rq q w w' l l' : q <> "" -> ce_fuzzy ce = fuzzy_match norm ->
  network fuel ce (with_name rq q) w -> steady fuel ce (with_name rq q) -> returns w (cr_anchor rq) l ->
  network fuel ce (with_name rq "") w' -> steady fuel ce (with_name rq "") -> returns w' (cr_anchor rq) l' ->
  forall b, In b (map ce_id l) <-> In b (map ce_id l') /\ called_like norm ce q b.
Proof.
  intros NE EF N S R N' S' R' b. split.
  - intros I. apply in_map_iff in I. destruct I as [e [<- I]].
    destruct (network_sound _ _ _ _ _ _ N R I) as [B [p P]]. cbn [cr_anchor with_name] in B.
    assert (P0 : forall p', net_passes fuel ce (with_name rq "") p' (ce_id e)).
    { intros p'. destruct (steady_passes _ _ _ _ _ p' _ N S P) as (cfg & m & C & M & PP).
      exists cfg, m. split; auto. split; auto. now apply passes_name in PP. }
    split.
    + apply (network_complete _ _ _ _ _ _ N' R'); [|exact P0].
      apply (proj2 (steady_below _ _ _ _ _ _ N' S')). now apply (proj1 (steady_below _ _ _ _ _ _ N S)).
    + destruct (steady_passes _ _ _ _ _ [] _ N S P) as (cfg & m & C & M & PP).
      apply passes_name in PP; auto. destruct PP as (_ & ty & name & SN & FN).
      exists cfg, m, ty, name. split; auto. split; auto. split; auto. apply fuzzy_spec. now rewrite <- EF.
  - intros [I (cfg & m & ty & name & C & M & SN & O)]. apply in_map_iff in I. destruct I as [e [<- I]].
    destruct (network_sound _ _ _ _ _ _ N' R' I) as [B [p P]]. cbn [cr_anchor with_name] in B.
    apply (network_complete _ _ _ _ _ _ N R).
    + apply (proj2 (steady_below _ _ _ _ _ _ N S)). now apply (proj1 (steady_below _ _ _ _ _ _ N' S')).
    + assert (P1 : net_passes fuel ce (with_name rq q) [] (ce_id e)).
      { destruct (steady_passes _ _ _ _ _ [] _ N' S' P) as (cfg' & m' & C' & M' & PP).
        exists cfg', m'. split; auto. split; auto. apply passes_name; auto. split; auto.
        exists ty, name. rewrite C in C'. injection C' as <-. rewrite M in M'. injection M' as <-.
        split; auto. rewrite EF. now apply fuzzy_spec. }
      intros p'. exact (steady_passes _ _ _ _ _ p' _ N S P1).
Qed.

Theorem longer_query norm fuel ce rq q q' w w' l l' : q <> "" -> q' <> "" -> ce_fuzzy ce = fuzzy_match norm ->
  in_order (norm q) (norm q') ->
  network fuel ce (with_name rq q) w -> steady fuel ce (with_name rq q) -> returns w (cr_anchor rq) l ->
  network fuel ce (with_name rq q') w' -> steady fuel ce (with_name rq q') -> returns w' (cr_anchor rq) l' ->
  incl (map ce_id l') (map ce_id l).
Proof.
  intros NE NE' EF O N S R N' S' R' b I. apply in_map_iff in I. destruct I as [e [<- I]].
  destruct (network_sound _ _ _ _ _ _ N' R' I) as [B [p P]]. cbn [cr_anchor with_name] in B.
  apply (network_complete _ _ _ _ _ _ N R).
  - apply (proj2 (steady_below _ _ _ _ _ _ N S)). now apply (proj1 (steady_below _ _ _ _ _ _ N' S')).
  - intros p'. destruct (steady_passes _ _ _ _ _ p' _ N' S' P) as (cfg & m & C & M & PP).
    exists cfg, m. split; auto. split; auto. apply passes_name; auto. apply passes_name in PP; auto.
    destruct PP as (PP & ty & name & SN & FN). split; auto. exists ty, name. split; auto.
    rewrite EF in *. apply fuzzy_spec. apply fuzzy_spec in FN. eapply in_order_trans; eauto.
Qed.
