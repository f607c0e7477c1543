(** Proofs: which authorities a collection asks for their subordinates. *)
From Coq Require Import Lia Permutation.
From Verif Require Import Base GoVal Policy Schema Metadata Chain Resolver FloatTime Json TrustMark Discovery SpecDiscovery BaseFacts
  DiscoveryFacts EvalFacts DiscoveryLaws SpecAsked.
Local Open Scope nat_scope.
Local Open Scope string_scope.
Local Open Scope list_scope.

Definition add_of (t : task) : list string := match t with Add _ a => [a] | _ => [] end.
Definition fetch_of (t : task) : list string := match t with Fetch _ a => [a] | _ => [] end.
Definition adding (f : frame) : list string := flat_map add_of (cores f).
Definition fetching (f : frame) : list string := flat_map fetch_of (cores f).

Lemma adding_eq sem wg got out ts : adding (Frame sem wg got out ts) = flat_map add_of (flat_map core ts).
Proof. reflexivity. Qed.
Lemma fetching_eq sem wg got out ts : fetching (Frame sem wg got out ts) = flat_map fetch_of (flat_map core ts).
Proof. reflexivity. Qed.
Lemma core_wait g : core (Wait g) = cores g.
Proof. reflexivity. Qed.

Definition asks_effect (V : list string) (f : frame) (t : option task) (V' : list string) (f' : frame) : Prop :=
  match t with
  | Some (Check _ a) => V' = V /\ Permutation (adding f') (if mem a V then adding f else a :: adding f) /\
                        Permutation (fetching f') (fetching f)
  | Some (Add _ a) => V' = a :: V /\ Permutation (a :: adding f') (adding f) /\ Permutation (fetching f') (a :: fetching f)
  | Some (Fetch _ a) => V' = V /\ Permutation (adding f') (adding f) /\ Permutation (a :: fetching f') (fetching f)
  | _ => V' = V /\ Permutation (adding f') (adding f) /\ Permutation (fetching f') (fetching f)
  end.

Ltac flat := rewrite ?adding_eq, ?fetching_eq, ?flat_map_app; cbn [flat_map core add_of fetch_of app]; rewrite ?flat_map_app, ?app_nil_r; cbn [flat_map app].

Lemma perm_in {A} (x y l l' : list A) : Permutation l l' -> Permutation (x ++ l ++ y) (x ++ l' ++ y).
Proof. intros P. apply Permutation_app_head. now apply Permutation_app_tail. Qed.
Lemma perm_out {A} (a : A) x l y : Permutation (a :: x ++ l ++ y) (x ++ (a :: l) ++ y).
Proof. cbn [app]. apply Permutation_middle. Qed.

Lemma asks_context V V' g g' t sem wg got out l1 l2 :
  asks_effect V g t V' g' ->
  asks_effect V (Frame sem wg got out (l1 ++ Wait g :: l2)) t V' (Frame sem wg got out (l1 ++ Wait g' :: l2)).
Proof.
  assert (AE : forall h, adding (Frame sem wg got out (l1 ++ Wait h :: l2)) =
    flat_map add_of (flat_map core l1) ++ adding h ++ flat_map add_of (flat_map core l2)).
  { intros h. rewrite adding_eq, flat_map_app. cbn [flat_map]. rewrite core_wait, !flat_map_app. reflexivity. }
  assert (FE : forall h, fetching (Frame sem wg got out (l1 ++ Wait h :: l2)) =
    flat_map fetch_of (flat_map core l1) ++ fetching h ++ flat_map fetch_of (flat_map core l2)).
  { intros h. rewrite fetching_eq, flat_map_app. cbn [flat_map]. rewrite core_wait, !flat_map_app. reflexivity. }
  unfold asks_effect. rewrite !AE, !FE.
  destruct t as [[p a|p a|p a|p n l|p b|e nest p b|p b|f|l| |]|]; intros (-> & P1 & P2); (split; [reflexivity|]);
    try (split; now apply perm_in).
  - split; [|now apply perm_in]. destruct (mem a V); [now apply perm_in|].
    rewrite perm_out. now apply perm_in.
  - rewrite !perm_out. split; now apply perm_in.
  - rewrite !perm_out. split; now apply perm_in.
Qed.

Lemma step_asks w c : forall V f V' f', wf f -> step w c V f = Some (V', f') -> asks_effect V f (acting c f) V' f'.
Proof.
  induction c as [|i c IH]; intros V [sem wg got out ts] V' f' W H; cbn [step acting] in *.
  - destruct got as [e|]; [|discriminate]. injection H as <- <-. now split.
  - destruct (nth_error ts i) as [t|] eqn:N; [|discriminate].
    assert (Sp : forall y, exists l1 l2, ts = l1 ++ t :: l2 /\ set_nth i y ts = l1 ++ y :: l2 /\ del_nth i ts = l1 ++ l2)
      by (intros y; exact (set_nth_split ts i t y N)).
    destruct t; cbn [asks_effect].
    + injection H as <- <-. destruct (Sp (if mem a V then Release else Add p a)) as (l1 & l2 & -> & -> & _).
      split; [reflexivity|]. destruct (mem a V); flat; split; auto. symmetry. apply Permutation_middle.
    + injection H as <- <-. destruct (Sp (Fetch p a)) as (l1 & l2 & -> & -> & _).
      split; [reflexivity|]. flat. split; [apply Permutation_middle|symmetry; apply Permutation_middle].
    + injection H as <- <-.
      destruct (Sp (match dw_listing w p a with Some l => Spawn p 1 l | None => Release end)) as (l1 & l2 & -> & -> & _).
      split; [reflexivity|]. destruct (dw_listing w p a); flat; split; auto; apply Permutation_middle.
    + destruct l as [|b l].
      * injection H as <- <-. destruct (Sp Release) as (l1 & l2 & -> & -> & _). split; [reflexivity|]. flat. auto.
      * destruct (Nat.ltb sem max_workers) eqn:L; [|discriminate]. injection H as <- <-.
        destruct (Sp (Spawn p (S n) l)) as (l1 & l2 & -> & -> & _). split; [reflexivity|]. flat. auto.
    + injection H as <- <-. destruct (Sp (after_eval (dw_entity w p b) p b)) as (l1 & l2 & -> & -> & _).
      split; [reflexivity|]. destruct (dw_entity w p b) as [[e|] [|]]; cbn [after_eval]; flat; auto.
    + destruct got; [discriminate|]. injection H as <- <-.
      destruct (Sp (if nest then Nest p b else Release)) as (l1 & l2 & -> & -> & _). split; [reflexivity|].
      destruct nest; flat; auto.
    + injection H as <- <-. destruct (Sp (Wait (fresh (0 :: p) b))) as (l1 & l2 & -> & -> & _). split; [reflexivity|].
      flat. auto.
    + apply wf_eq in W. destruct W as (_ & _ & _ & _ & WF).
      destruct (finished f) eqn:F.
      * injection H as <- <-. destruct (Sp (Forward (f_out f))) as (l1 & l2 & E & -> & _). split; [reflexivity|].
        assert (Wf : wf f) by (rewrite Forall_forall in WF; exact (WF (Wait f) (nth_error_In _ _ N))).
        destruct (finished_empty f Wf F) as (sem' & out' & ->). subst ts. flat. auto.
      * destruct (step w c V f) as [[V1 g']|] eqn:G; [|discriminate]. injection H as <- <-.
        assert (Wf : wf f) by (rewrite Forall_forall in WF; exact (WF (Wait f) (nth_error_In _ _ N))).
        destruct (Sp (Wait g')) as (l1 & l2 & -> & -> & _).
        apply asks_context. now apply IH.
    + destruct l as [|e l].
      * injection H as <- <-. destruct (Sp Release) as (l1 & l2 & -> & -> & _). split; [reflexivity|]. flat. auto.
      * destruct got; [discriminate|]. injection H as <- <-.
        destruct (Sp (Forward l)) as (l1 & l2 & -> & -> & _). split; [reflexivity|]. flat. auto.
    + injection H as <- <-. destruct (Sp Finish) as (l1 & l2 & -> & -> & _). split; [reflexivity|]. flat. auto.
    + injection H as <- <-. destruct (Sp Finish) as (l1 & l2 & -> & _ & ->). split; [reflexivity|]. flat. auto.
Qed.

(** The visited entities are those being asked or already asked. *)
Lemma asked_visited w cs : forall s s' l, wf (snd s) ->
  Permutation (l ++ fetching (snd s)) (fst s) ->
  exec w cs s = Some s' -> wf (snd s') /\ Permutation ((l ++ asked_for_lists w cs s) ++ fetching (snd s')) (fst s').
Proof.
  induction cs as [|c cs IH]; intros [V f] s' l W P E; cbn [exec asked_for_lists fst snd] in *.
  - injection E as <-. rewrite app_nil_r. auto.
  - destruct (step w c V f) as [[V1 f1]|] eqn:S1; [|discriminate].
    assert (W1 : wf f1) by (apply (steps_wf w V f V1 f1); [now apply step_steps with c|exact W]).
    pose proof (step_asks w c V f V1 f1 W S1) as A. unfold asks_effect in A.
    assert (G : Permutation ((l ++ match acting c f with Some (Fetch _ a) => [a] | _ => [] end) ++ fetching f1) V1).
    { destruct (acting c f) as [[p a|p a|p a|p n l0|p b|e nest p b|p b|g|l0| |]|]; destruct A as (-> & _ & PF); rewrite ?app_nil_r;
        try (rewrite PF; exact P).
      - rewrite PF. rewrite <- Permutation_middle. now constructor.
      - rewrite <- app_assoc. cbn [app]. rewrite PF. exact P. }
    rewrite (app_assoc l). exact (IH (V1, f1) s' _ W1 G E).
Qed.

Lemma fetching_finished f : wf f -> finished f = true -> fetching f = [].
Proof. intros W F. destruct (finished_empty f W F) as (sem & out & ->). reflexivity. Qed.

Lemma start_wf ta : wf (snd (start ta)).
Proof. apply wf_fresh. Qed.

(** In every schedule, what was asked is what was visited. *)
Lemma asked_all w ta cs s : exec w cs (start ta) = Some s -> finished (snd s) = true ->
  Permutation (asked_for_lists w cs (start ta)) (fst s).
Proof.
  intros E F. destruct (asked_visited w cs (start ta) s [] (start_wf ta)) as [W P]; [reflexivity|exact E|].
  rewrite (fetching_finished _ W F), app_nil_r in P. exact P.
Qed.

Lemma visited_complete w ta s a : names_entities w -> reached w ta s -> finished (snd s) = true ->
  below (lists_always w) (asked_always w) ta a -> asked_always w a -> In a (fst s).
Proof.
  intros names R F B A. pose proof (complete_inv w ta names s R) as [H1 H2].
  destruct (finished_empty (snd s) (reached_wf w ta s R) F) as (sem & out & E). destruct s as [V f]. cbn [fst snd] in *. subst f.
  rewrite cores_eq in H1. destruct H1 as [H1|(t & [] & _)].
  assert (G : forall a b, In a V -> lists_always w a b -> asked_always w b -> In b V).
  { intros x b X L Q. destruct (H2 x b X L) as [(t & [] & _)|[_ F2]]. destruct (F2 Q) as [I|(t & [] & _)]. exact I. }
  induction B as [b L|x b B IH Ax L]; [now apply (G ta)|]. apply (G x); auto.
Qed.

Lemma visited_anchor w ta s : names_entities w -> reached w ta s -> finished (snd s) = true -> In ta (fst s).
Proof.
  intros names R F. pose proof (complete_inv w ta names s R) as [H1 _].
  destruct (finished_empty (snd s) (reached_wf w ta s R) F) as (sem & out & E). destruct s as [V f]. cbn [fst snd] in *. subst f.
  rewrite cores_eq in H1. destruct H1 as [H1|(t & [] & _)]. exact H1.
Qed.

Theorem asked_every w ta cs s a : names_entities w -> exec w cs (start ta) = Some s -> finished (snd s) = true ->
  a = ta \/ (below (lists_always w) (asked_always w) ta a /\ asked_always w a) -> In a (asked_for_lists w cs (start ta)).
Proof.
  intros names E F H. apply (Permutation_in a (Permutation_sym (asked_all w ta cs s E F))).
  assert (R : reached w ta s) by (now exists cs).
  destruct H as [-> |[B A]]; [now apply (visited_anchor w)|now apply (visited_complete w ta)].
Qed.

(** Nobody else is asked. *)
Theorem asked_only w ta cs s a : names_entities w -> exec w cs (start ta) = Some s -> In a (asked_for_lists w cs (start ta)) ->
  a = ta \/ (below (lists_once w) (asked_once w) ta a /\ asked_once w a).
Proof.
  intros names E I. destruct (asked_visited w cs (start ta) s [] (start_wf ta)) as [_ P]; [reflexivity|exact E|].
  cbn [app] in P. assert (V : In a (fst s)) by (apply (Permutation_in a P); apply in_app_iff; now left).
  assert (K : forall s, reached w ta s -> (forall t, In t (cores (snd s)) -> task_ok w ta t) /\ forall x, In x (fst s) -> authority_ok w ta x).
  { intros s0 R. apply (reached_inv_wf w ta (fun V f =>
      (forall e, In e (ents f) -> ent_ok w ta e) /\ (forall t, In t (cores f) -> task_ok w ta t) /\ forall x, In x V -> authority_ok w ta x)) in R.
    - now destruct R.
    - split; [intros e []|]. split; [|intros x []]. intros t [<-|[]]. now left.
    - intros V0 f0 V' f' W (H0 & H1 & H2) S. apply steps_moves in S; [|exact W].
      destruct S as [(-> & M1 & M2 & _)|(t & C0 & C1 & E1 & HT & HE & HC & HC' & HE1 & _)].
      + split; [intros e Ie; apply H0; now apply M2|]. split; [intros x Ix; apply H1; now apply M1|exact H2].
      + destruct (effect_ok w ta names V0 t V' C1 E1 (H1 t HT) HE) as [K1 K2]. split.
        * intros e Ie. apply HE1 in Ie. destruct Ie; auto.
        * split; [intros x Ix; apply HC' in Ix; destruct Ix as [Ix|Ix]; [now apply K1|apply H1; apply HC; now right]|].
          intros x Ix. destruct (effect_new w V0 t V' C1 E1 x HE Ix) as [Ix'|[p ->]]; [now apply H2|].
          exact (K1 (Fetch p x) (or_introl eq_refl)). }
  apply (K s); [now exists cs|exact V].
Qed.

(** ** Undisturbed executions *)
Lemma NoDup_app_remove_r (l l' : list string) : NoDup (l ++ l') -> NoDup l.
Proof.
  induction l as [|x l IH]; cbn [app]; intros H; [constructor|]. inversion H; subst. constructor; [|now apply IH].
  intros I. apply H2. apply in_app_iff. now left.
Qed.
Lemma nth_set {A} (l : list A) i x y : nth_error l i = Some x -> nth_error (set_nth i y l) i = Some y.
Proof. revert i. induction l as [|z l IH]; intros [|i] H; try discriminate; cbn; [reflexivity|now apply IH]. Qed.

Lemma check_next w c : forall V f V' f' p a, step w c V f = Some (V', f') -> acting c f = Some (Check p a) -> mem a V = false ->
  acting c f' = Some (Add p a) /\ finished f' = finished f.
Proof.
  induction c as [|i c IH]; intros V [sem wg got out ts] V' f' p a H A M; cbn [step acting] in *; [discriminate|].
  destruct (nth_error ts i) as [t|] eqn:N; [|discriminate].
  destruct t; try discriminate.
  - injection A as -> ->. rewrite M in H. injection H as <- <-. rewrite (nth_set ts i _ _ N). auto.
  - destruct (finished f) eqn:F; [discriminate|]. destruct (step w c V f) as [[V1 g']|] eqn:G; [|discriminate].
    injection H as <- <-. destruct (IH V f V1 g' p a G A M) as [I1 I2]. rewrite (nth_set ts i _ _ N), I2, F. auto.
Qed.

Lemma undisturbed_once w cs : forall s s' l, wf (snd s) -> adding (snd s) = [] ->
  NoDup (fst s) -> Permutation (l ++ fetching (snd s)) (fst s) ->
  exec w cs s = Some s' -> undisturbed w cs s -> NoDup (l ++ asked_for_lists w cs s).
Proof.
  intros s s' l. remember (List.length cs) as n eqn:En. assert (L : List.length cs <= n) by lia. clear En.
  revert cs s s' l L. induction n as [|n IH]; intros [|c cs] [V f] s' l L W A N P E D; cbn [List.length] in L; try lia;
    cbn [exec asked_for_lists undisturbed fst snd] in *.
  1,2: rewrite app_nil_r; apply (Permutation_NoDup (Permutation_sym P)) in N; now apply NoDup_app_remove_r in N.
  destruct (step w c V f) as [[V1 f1]|] eqn:S1; [|discriminate]. destruct D as [D1 D2].
  assert (W1 : wf f1) by (apply (steps_wf w V f V1 f1); [now apply step_steps with c|exact W]).
  pose proof (step_asks w c V f V1 f1 W S1) as AE. unfold asks_effect in AE.
  assert (Done : V1 = V -> adding f1 = [] -> forall l', Permutation (l' ++ fetching f1) V -> NoDup (l' ++ asked_for_lists w cs (V1, f1))).
  { intros -> A1 l' P'. apply (IH cs (V, f1) s' l'); auto. lia. }
  destruct (acting c f) as [[p a|p a|p a|p k l0|p b|e nest p b|p b|g|l0| |]|] eqn:AC; destruct AE as (EV & PA & PF); rewrite ?A in *;
    try (apply Done; [exact EV|now apply Permutation_sym, Permutation_nil in PA|rewrite PF; exact P]).
  - destruct (mem a V) eqn:M.
    { apply Done; [exact EV|now apply Permutation_sym, Permutation_nil in PA|rewrite PF; exact P]. }
    (* the goroutine goes on at once *)
    subst V1. destruct (check_next w c V f V f1 p a S1 AC M) as [NX _].
    destruct (D1 p a eq_refl) as [-> |[cs2 ->]]; [now apply mem_nIn| |].
    { cbn [asked_for_lists]. rewrite app_nil_r. apply (Permutation_NoDup (Permutation_sym P)) in N. now apply NoDup_app_remove_r in N. }
    cbn [asked_for_lists fst snd exec undisturbed] in *. rewrite NX in *. cbn [app].
    destruct (step w c V f1) as [[V2 f2]|] eqn:S2; [|discriminate].
    pose proof (step_asks w c V f1 V2 f2 W1 S2) as AE2. rewrite NX in AE2. cbn [asks_effect] in AE2. destruct AE2 as (-> & PA2 & PF2).
    destruct D2 as [_ D2]. cbn [List.length] in L.
    apply (IH cs2 (a :: V, f2) s' l); cbn [fst snd]; auto; try lia.
    + apply (steps_wf w V f1 (a :: V) f2); [now apply step_steps with c|exact W1].
    + rewrite PA in PA2. apply Permutation_cons_inv in PA2. now apply Permutation_nil, Permutation_sym.
    + constructor; [now apply mem_nIn|exact N].
    + rewrite PF2, PF, <- Permutation_middle. now constructor.
  - exfalso. apply Permutation_sym in PA; now apply Permutation_nil_cons in PA.
  - rewrite app_assoc. apply Done; [exact EV|now apply Permutation_sym, Permutation_nil in PA|].
    rewrite <- app_assoc. cbn [app]. rewrite PF. exact P.
Qed.

Theorem asked_once_each w ta cs s : exec w cs (start ta) = Some s -> undisturbed w cs (start ta) ->
  NoDup (asked_for_lists w cs (start ta)).
Proof.
  intros E D. apply (undisturbed_once w cs (start ta) s []); auto; [apply start_wf|constructor].
Qed.

