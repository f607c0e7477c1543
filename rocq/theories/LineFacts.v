(** Proofs: collecting in federations in which no authority has two subordinate authorities. *)
From Coq Require Import Lia Permutation.
From Verif Require Import Base GoVal Policy Schema Metadata Chain Resolver FloatTime Json TrustMark Discovery SpecDiscovery BaseFacts
  DiscoveryFacts EvalFacts DiscoveryLaws SpecAsked AskedFacts SpecLine.
Local Open Scope nat_scope.
Local Open Scope string_scope.
Local Open Scope list_scope.

Section Line.
  Variables (w : dworld) (authority : string -> bool).
  Hypothesis line : one_authority w authority.

  (** How many authorities a goroutine may still bring to the set of visited entities. *)
  Definition tok (t : task) : nat :=
    match t with
    | Check _ _ | Add _ _ | Fetch _ _ | Nest _ _ => 1
    | Spawn _ _ l => List.length (filter authority l)
    | Sub _ b => if authority b then 1 else 0
    | Send _ true _ _ => 1
    | _ => 0
    end.
  Definition toks (l : list task) : nat := list_sum (map tok l).
  Lemma toks_app a b : toks (a ++ b) = toks a + toks b.
  Proof. unfold toks. now rewrite map_app, list_sum_app. Qed.
  Lemma toks_cons t l : toks (t :: l) = tok t + toks l.
  Proof. reflexivity. Qed.
  Lemma toks_nil : toks [] = 0.
  Proof. reflexivity. Qed.

  Ltac sums := rewrite ?cores_eq, ?flat_map_app; cbn [flat_map core app]; rewrite ?flat_map_app, ?toks_app, ?toks_cons, ?toks_nil; cbn [flat_map core app tok];
    rewrite ?toks_app, ?toks_cons, ?toks_nil; cbn [tok].

  Lemma step_toks c : forall V f V' f', wf f -> step w c V f = Some (V', f') -> toks (cores f') <= toks (cores f).
  Proof.
    induction c as [|i c IH]; intros V [sem wg got out ts] V' f' W H; cbn [step] in *.
    - destruct got as [e|]; [|discriminate]. injection H as <- <-. rewrite !cores_eq. lia.
    - destruct (nth_error ts i) as [t|] eqn:N; [|discriminate].
      assert (Sp : forall y, exists l1 l2, ts = l1 ++ t :: l2 /\ set_nth i y ts = l1 ++ y :: l2 /\ del_nth i ts = l1 ++ l2)
        by (intros y; exact (set_nth_split ts i t y N)).
      destruct t.
      + injection H as <- <-. destruct (Sp (if mem a V then Release else Add p a)) as (l1 & l2 & -> & -> & _).
        destruct (mem a V); sums; lia.
      + injection H as <- <-. destruct (Sp (Fetch p a)) as (l1 & l2 & -> & -> & _). sums; lia.
      + injection H as <- <-.
        destruct (Sp (match dw_listing w p a with Some l => Spawn p 1 l | None => Release end)) as (l1 & l2 & -> & -> & _).
        destruct (dw_listing w p a) as [l|] eqn:L; sums; [pose proof (proj2 line p a l L)|]; lia.
      + destruct l as [|b l].
        * injection H as <- <-. destruct (Sp Release) as (l1 & l2 & -> & -> & _). sums; lia.
        * destruct (Nat.ltb sem max_workers) eqn:L; [|discriminate]. injection H as <- <-.
          destruct (Sp (Spawn p (S n) l)) as (l1 & l2 & -> & -> & _). sums. cbn [filter].
          destruct (authority b); cbn [List.length]; lia.
      + injection H as <- <-. destruct (Sp (after_eval (dw_entity w p b) p b)) as (l1 & l2 & -> & -> & _).
        destruct (dw_entity w p b) as [[e|] [|]] eqn:D; cbn [after_eval]; sums;
          try (rewrite (proj1 line b) by (exists p; now rewrite D)); lia.
      + destruct got; [discriminate|]. injection H as <- <-.
        destruct (Sp (if nest then Nest p b else Release)) as (l1 & l2 & -> & -> & _). destruct nest; sums; lia.
      + injection H as <- <-. destruct (Sp (Wait (fresh (0 :: p) b))) as (l1 & l2 & -> & -> & _).
        rewrite !cores_eq, !flat_map_app. cbn [flat_map]. rewrite core_wait. cbn. rewrite !toks_app, !toks_cons. cbn [tok]. lia.
      + apply wf_eq in W. destruct W as (_ & _ & _ & _ & WF).
        assert (Wf : wf f) by (rewrite Forall_forall in WF; exact (WF (Wait f) (nth_error_In _ _ N))).
        destruct (finished f) eqn:F.
        * injection H as <- <-. destruct (Sp (Forward (f_out f))) as (l1 & l2 & E & -> & _).
          destruct (finished_empty f Wf F) as (sem' & out' & ->). subst ts. sums. lia.
        * destruct (step w c V f) as [[V1 g']|] eqn:G; [|discriminate]. injection H as <- <-.
          destruct (Sp (Wait g')) as (l1 & l2 & -> & -> & _). specialize (IH V f V1 g' Wf G).
          rewrite !cores_eq, !flat_map_app. cbn [flat_map]. rewrite !core_wait, !toks_app. lia.
      + destruct l as [|e l].
        * injection H as <- <-. destruct (Sp Release) as (l1 & l2 & -> & -> & _). sums; lia.
        * destruct got; [discriminate|]. injection H as <- <-.
          destruct (Sp (Forward l)) as (l1 & l2 & -> & -> & _). sums; lia.
      + injection H as <- <-. destruct (Sp Finish) as (l1 & l2 & -> & -> & _). sums; lia.
      + injection H as <- <-. destruct (Sp Finish) as (l1 & l2 & -> & _ & ->). sums; lia.
  Qed.

  Lemma exec_toks cs : forall s s', wf (snd s) -> exec w cs s = Some s' -> wf (snd s') /\ toks (cores (snd s')) <= toks (cores (snd s)).
  Proof.
    induction cs as [|c cs IH]; intros [V f] s' W X; cbn [exec fst snd] in *.
    - injection X as <-. auto.
    - destruct (step w c V f) as [[V1 f1]|] eqn:S1; [|discriminate].
      assert (W1 : wf f1) by (apply (steps_wf w V f V1 f1); [now apply step_steps with c|exact W]).
      destruct (IH (V1, f1) s' W1 X) as [W2 T]. split; [exact W2|]. cbn [snd] in T. pose proof (step_toks c V f V1 f1 W S1). lia.
  Qed.

  (** ** No races *)
  Lemma touches_core (ts : list task) : filter touches (flat_map task_all ts) = filter touches (flat_map core ts).
  Proof.
    enough (G : forall f : frame, filter touches (goroutines f) = filter touches (cores f)) by exact (G (Frame 0 0 None [] ts)).
    clear ts. apply frame_rect1. intros sem wg got out ts IH. rewrite cores_eq. cbn [goroutines].
    induction ts as [|t ts IHts]; [reflexivity|]. cbn [flat_map]. rewrite !filter_app. f_equal.
    - destruct t; try reflexivity. cbn [task_all]. destruct f as [sem' wg' got' out' ts']. cbn [filter touches core].
      apply (IH (Frame sem' wg' got' out' ts')). now left.
    - apply IHts. intros g I. apply IH. now right.
  Qed.
  Lemma touches_toks l : List.length (filter touches l) <= toks l.
  Proof.
    induction l as [|t l IH]; [auto|]. rewrite toks_cons. cbn [filter]. destruct t; cbn [touches tok List.length]; lia.
  Qed.
  Theorem line_no_race ta s : reached w ta s -> ~ races (snd s).
  Proof.
    intros [cs X] (l1 & x & l2 & y & l3 & E & T1 & T2 & _).
    destruct (exec_toks cs (start ta) s (start_wf ta) X) as [_ T].
    change (toks (cores (snd (start ta)))) with 1 in T.
    destruct s as [V [sem wg got out ts]]. cbn [snd goroutines] in *. rewrite cores_eq in T.
    pose proof (touches_toks (flat_map core ts)) as L. rewrite <- touches_core, E, !filter_app in L. cbn [filter] in L.
    rewrite T1, filter_app in L. cbn [filter] in L. rewrite T2, !app_length in L. cbn [List.length] in L. rewrite app_length in L. cbn [List.length] in L. lia.
  Qed.

  (** ** Every authority is asked once *)
  Lemma add_toks l : List.length (flat_map add_of l) <= toks l.
  Proof. induction l as [|t l IH]; [auto|]. rewrite toks_cons. cbn [flat_map]. rewrite app_length. destruct t; cbn [add_of tok List.length]; lia. Qed.
  Lemma check_toks p a l : In (Check p a) l -> S (List.length (flat_map add_of l)) <= toks l.
  Proof.
    induction l as [|t l IH]; intros I; [contradiction|]. rewrite toks_cons. cbn [flat_map]. rewrite app_length. destruct I as [->|I].
    - cbn [add_of tok List.length]. pose proof (add_toks l). lia.
    - specialize (IH I). destruct t; cbn [add_of tok List.length]; lia.
  Qed.
  Lemma acting_in c : forall f p a, acting c f = Some (Check p a) -> In (Check p a) (cores f).
  Proof.
    induction c as [|i c IH]; intros [sem wg got out ts] p a A; cbn [acting] in A; [discriminate|]. rewrite cores_eq.
    destruct (nth_error ts i) as [t|] eqn:N; [|discriminate]. apply nth_error_In in N. apply in_flat_map.
    destruct t; try discriminate.
    - exists (Check p0 a0). split; [exact N|]. injection A as -> ->. now left.
    - destruct (finished f); [discriminate|]. exists (Wait f). split; [exact N|]. now apply IH.
  Qed.

  Lemma line_once cs : forall s s' l, wf (snd s) -> toks (cores (snd s)) <= 1 ->
    NoDup (fst s ++ adding (snd s)) -> Permutation (l ++ fetching (snd s)) (fst s) ->
    exec w cs s = Some s' -> NoDup (l ++ asked_for_lists w cs s).
  Proof.
    induction cs as [|c cs IH]; intros [V f] s' l W T N P X; cbn [exec asked_for_lists fst snd] in *.
    - rewrite app_nil_r. apply NoDup_app_remove_r in N. apply (Permutation_NoDup (Permutation_sym P)) in N. now apply NoDup_app_remove_r in N.
    - destruct (step w c V f) as [[V1 f1]|] eqn:S1; [|discriminate].
      assert (W1 : wf f1) by (apply (steps_wf w V f V1 f1); [now apply step_steps with c|exact W]).
      pose proof (step_asks w c V f V1 f1 W S1) as A. unfold asks_effect in A.
      pose proof (step_toks c V f V1 f1 W S1) as T1.
      assert (Go : forall l', NoDup (V1 ++ adding f1) -> Permutation (l' ++ fetching f1) V1 -> NoDup (l' ++ asked_for_lists w cs (V1, f1))).
      { intros l' N' P'. apply (IH (V1, f1) s' l'); cbn [fst snd]; auto. lia. }
      destruct (acting c f) as [[p a|p a|p a|p n l0|p b|e nest p b|p b|g|l0| |]|] eqn:AC; destruct A as (-> & PA & PF);
        try (apply Go; [now rewrite PA|rewrite PF; exact P]).
      + apply Go; [|rewrite PF; exact P]. destruct (mem a V) eqn:M; [now rewrite PA|].
        pose proof (check_toks p a (cores f) (acting_in c f p a AC)) as K. fold (adding f) in K.
        assert (E : adding f = []) by (destruct (adding f); [reflexivity|cbn [List.length] in K; lia]).
        rewrite PA, E in *. rewrite app_nil_r in N. apply mem_nIn in M.
        rewrite <- Permutation_cons_append. now constructor.
      + apply Go; [|rewrite PF, <- Permutation_middle; now constructor].
        cbn [app]. rewrite Permutation_middle, PA. exact N.
      + rewrite app_assoc. apply Go; [now rewrite PA|]. rewrite <- app_assoc. cbn [app]. rewrite PF. exact P.
  Qed.
  Theorem line_asked_once ta cs s : exec w cs (start ta) = Some s -> NoDup (asked_for_lists w cs (start ta)).
  Proof.
    intros X. apply (line_once cs (start ta) s [] (start_wf ta)); [apply le_n|constructor|reflexivity|exact X].
  Qed.
End Line.
