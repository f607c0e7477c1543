(** Proofs about the goroutines of collect. *)
From Coq Require Import Lia Permutation.
From Verif Require Import Base GoVal Policy Schema Metadata Chain Resolver FloatTime Json TrustMark Discovery SpecDiscovery BaseFacts.
Local Open Scope nat_scope.
Local Open Scope string_scope.
Local Open Scope list_scope.

(** ** Induction over the tree of calls *)
Section FrameInd.
  Variable P : task -> Prop.
  Variable Q : frame -> Prop.
  Hypothesis HLeaf : forall t, (forall f, t <> Wait f) -> P t.
  Hypothesis HWait : forall f, Q f -> P (Wait f).
  Hypothesis HFrame : forall sem wg got out ts, Forall P ts -> Q (Frame sem wg got out ts).
  Fixpoint frame_ind2 (f : frame) : Q f :=
    let task_ind2 := fun t : task => match t as t0 return P t0 with
      | Wait g => HWait g (frame_ind2 g)
      | Check p a => HLeaf (Check p a) (fun f (H : Check p a = Wait f) => ltac:(discriminate H))
      | Add p a => HLeaf (Add p a) (fun f H => ltac:(discriminate H))
      | Fetch p a => HLeaf (Fetch p a) (fun f H => ltac:(discriminate H))
      | Spawn p n l => HLeaf (Spawn p n l) (fun f H => ltac:(discriminate H))
      | Sub p b => HLeaf (Sub p b) (fun f H => ltac:(discriminate H))
      | Send e n p b => HLeaf (Send e n p b) (fun f H => ltac:(discriminate H))
      | Nest p b => HLeaf (Nest p b) (fun f H => ltac:(discriminate H))
      | Forward l => HLeaf (Forward l) (fun f H => ltac:(discriminate H))
      | Release => HLeaf Release (fun f H => ltac:(discriminate H))
      | Finish => HLeaf Finish (fun f H => ltac:(discriminate H))
      end in
    match f with
    | Frame sem wg got out ts =>
        HFrame sem wg got out ts
          ((fix go (l : list task) : Forall P l :=
              match l with [] => Forall_nil P | t :: l' => Forall_cons t (task_ind2 t) (go l') end) ts)
    end.
End FrameInd.

Lemma frame_rect1 (Q : frame -> Prop) :
  (forall sem wg got out ts, (forall g, In (Wait g) ts -> Q g) -> Q (Frame sem wg got out ts)) -> forall f, Q f.
Proof.
  intros H. apply (frame_ind2 (fun t => forall g, t = Wait g -> Q g) Q).
  - intros t N g ->. exfalso. now apply (N g).
  - intros f F g [= <-]. exact F.
  - intros sem wg got out ts F. apply H. intros g I. rewrite Forall_forall in F. now apply (F _ I).
Qed.

(** ** set_nth, del_nth *)
Lemma set_nth_split {A} (l : list A) i x y : nth_error l i = Some x ->
  exists l1 l2, l = l1 ++ x :: l2 /\ set_nth i y l = l1 ++ y :: l2 /\ del_nth i l = l1 ++ l2.
Proof.
  revert i. induction l as [|z l IH]; intros [|i] H; try discriminate.
  - injection H as ->. exists [], l. repeat split.
  - destruct (IH i H) as (l1 & l2 & -> & E & D). exists (z :: l1), l2. cbn. rewrite E, D. repeat split.
Qed.

(** ** Steps as a relation *)
Inductive steps (w : dworld) : list string -> frame -> list string -> frame -> Prop :=
| s_collect V sem wg e out ts : steps w V (Frame sem wg (Some e) out ts) V (Frame sem wg None (record_entity e out) ts)
| s_check V sem wg got out l1 l2 p a :
    steps w V (Frame sem wg got out (l1 ++ Check p a :: l2)) V
              (Frame sem wg got out (l1 ++ (if mem a V then Release else Add p a) :: l2))
| s_add V sem wg got out l1 l2 p a :
    steps w V (Frame sem wg got out (l1 ++ Add p a :: l2)) (a :: V) (Frame sem wg got out (l1 ++ Fetch p a :: l2))
| s_fetch V sem wg got out l1 l2 p a :
    steps w V (Frame sem wg got out (l1 ++ Fetch p a :: l2)) V
      (Frame sem wg got out (l1 ++ match dw_listing w p a with Some l => Spawn p 1 l | None => Release end :: l2))
| s_spawned V sem wg got out l1 l2 p n :
    steps w V (Frame sem wg got out (l1 ++ Spawn p n [] :: l2)) V (Frame sem wg got out (l1 ++ Release :: l2))
| s_spawn V sem wg got out l1 l2 p n b l :
    sem < max_workers ->
    steps w V (Frame sem wg got out (l1 ++ Spawn p n (b :: l) :: l2)) V
              (Frame (S sem) (S wg) got out ((l1 ++ Spawn p (S n) l :: l2) ++ [Sub (n :: p) b]))
| s_sub V sem wg got out l1 l2 p b :
    steps w V (Frame sem wg got out (l1 ++ Sub p b :: l2)) V
              (Frame sem wg got out (l1 ++ after_eval (dw_entity w p b) p b :: l2))
| s_send V sem wg out l1 l2 e (nest : bool) p b :
    steps w V (Frame sem wg None out (l1 ++ Send e nest p b :: l2)) V
              (Frame sem wg (Some e) out (l1 ++ (if nest then Nest p b else Release) :: l2))
| s_nest V sem wg got out l1 l2 p b :
    steps w V (Frame sem wg got out (l1 ++ Nest p b :: l2)) V (Frame sem wg got out (l1 ++ Wait (fresh (0 :: p) b) :: l2))
| s_done V sem wg got out l1 l2 g : finished g = true ->
    steps w V (Frame sem wg got out (l1 ++ Wait g :: l2)) V (Frame sem wg got out (l1 ++ Forward (f_out g) :: l2))
| s_wait V V' sem wg got out l1 l2 g g' : finished g = false -> steps w V g V' g' ->
    steps w V (Frame sem wg got out (l1 ++ Wait g :: l2)) V' (Frame sem wg got out (l1 ++ Wait g' :: l2))
| s_forwarded V sem wg got out l1 l2 :
    steps w V (Frame sem wg got out (l1 ++ Forward [] :: l2)) V (Frame sem wg got out (l1 ++ Release :: l2))
| s_forward V sem wg out l1 l2 e l :
    steps w V (Frame sem wg None out (l1 ++ Forward (e :: l) :: l2)) V (Frame sem wg (Some e) out (l1 ++ Forward l :: l2))
| s_release V sem wg got out l1 l2 :
    steps w V (Frame sem wg got out (l1 ++ Release :: l2)) V (Frame (pred sem) wg got out (l1 ++ Finish :: l2))
| s_finish V sem wg got out l1 l2 :
    steps w V (Frame sem wg got out (l1 ++ Finish :: l2)) V (Frame sem (pred wg) got out (l1 ++ l2)).

Lemma step_steps w c : forall V f V' f', step w c V f = Some (V', f') -> steps w V f V' f'.
Proof.
  induction c as [|i c IH]; intros V [sem wg got out ts] V' f' H; cbn [step] in H.
  - destruct got as [e|]; [|discriminate]. injection H as <- <-. constructor.
  - destruct (nth_error ts i) as [t|] eqn:N; [|discriminate].
    assert (Sp : forall y, exists l1 l2, ts = l1 ++ t :: l2 /\ set_nth i y ts = l1 ++ y :: l2 /\ del_nth i ts = l1 ++ l2)
      by (intros y; exact (set_nth_split ts i t y N)).
    destruct t.
    + injection H as <- <-. destruct (Sp (if mem a V then Release else Add p a)) as (l1 & l2 & -> & -> & _). constructor.
    + injection H as <- <-. destruct (Sp (Fetch p a)) as (l1 & l2 & -> & -> & _). constructor.
    + injection H as <- <-.
      destruct (Sp (match dw_listing w p a with Some l => Spawn p 1 l | None => Release end)) as (l1 & l2 & -> & -> & _).
      constructor.
    + destruct l as [|b l].
      * injection H as <- <-. destruct (Sp Release) as (l1 & l2 & -> & -> & _). constructor.
      * destruct (Nat.ltb sem max_workers) eqn:L; [|discriminate]. injection H as <- <-.
        destruct (Sp (Spawn p (S n) l)) as (l1 & l2 & -> & -> & _). constructor. now apply Nat.ltb_lt.
    + injection H as <- <-. destruct (Sp (after_eval (dw_entity w p b) p b)) as (l1 & l2 & -> & -> & _). constructor.
    + destruct got; [discriminate|]. injection H as <- <-.
      destruct (Sp (if nest then Nest p b else Release)) as (l1 & l2 & -> & -> & _). constructor.
    + injection H as <- <-. destruct (Sp (Wait (fresh (0 :: p) b))) as (l1 & l2 & -> & -> & _). constructor.
    + destruct (finished f) eqn:F.
      * injection H as <- <-. destruct (Sp (Forward (f_out f))) as (l1 & l2 & -> & -> & _). now constructor.
      * destruct (step w c V f) as [[V1 g']|] eqn:G; [|discriminate]. injection H as <- <-.
        destruct (Sp (Wait g')) as (l1 & l2 & -> & -> & _). constructor; [exact F|]. now apply IH.
    + destruct l as [|e l].
      * injection H as <- <-. destruct (Sp Release) as (l1 & l2 & -> & -> & _). constructor.
      * destruct got; [discriminate|]. injection H as <- <-.
        destruct (Sp (Forward l)) as (l1 & l2 & -> & -> & _). constructor.
    + injection H as <- <-. destruct (Sp Finish) as (l1 & l2 & -> & -> & _). constructor.
    + injection H as <- <-. destruct (Sp Finish) as (l1 & l2 & -> & _ & ->). constructor.
Qed.

(** Every reached state satisfies what holds at the start and is kept by the steps. *)
Lemma reached_inv w ta (I : list string -> frame -> Prop) :
  I [] (fresh [] ta) -> (forall V f V' f', I V f -> steps w V f V' f' -> I V' f') ->
  forall s, reached w ta s -> I (fst s) (snd s).
Proof.
  intros I0 IS s [cs E]. unfold start in E.
  assert (G : forall cs V f s, I V f -> exec w cs (V, f) = Some s -> I (fst s) (snd s)).
  { clear cs s E. induction cs as [|c cs IH]; intros V f s HI E; cbn in E.
    - now injection E as <-.
    - destruct (step w c V f) as [[V1 f1]|] eqn:S1; [|discriminate]. apply (IH V1 f1 s); [|exact E].
      apply (IS V f); [exact HI|]. now apply step_steps with c. }
  exact (G cs [] (fresh [] ta) s I0 E).
Qed.

(** ** Well-formed calls: the counters agree with the goroutines *)
Definition holds (t : task) : nat := match t with Finish => 0 | _ => 1 end.
Definition leads (t : task) : nat := match t with Check _ _ | Add _ _ | Fetch _ _ | Spawn _ _ _ => 1 | _ => 0 end.
Definition total (g : task -> nat) (ts : list task) : nat := fold_right (fun t n => g t + n) 0 ts.
Lemma total_app g a b : total g (a ++ b) = total g a + total g b.
Proof. induction a as [|x a IH]; cbn; [reflexivity|]. fold (total g (a ++ b)). fold (total g a). lia. Qed.
Lemma total_cons g x b : total g (x :: b) = g x + total g b.
Proof. reflexivity. Qed.

Fixpoint wf_task (t : task) : Prop :=
  match t with
  | Wait (Frame sem wg got out ts) =>
      sem = total holds ts /\ wg = List.length ts /\ total leads ts <= 1 /\ NoDup (map ce_id out) /\
      (fix all (l : list task) : Prop := match l with [] => True | x :: l' => wf_task x /\ all l' end) ts
  | _ => True
  end.
Definition wf (f : frame) : Prop := wf_task (Wait f).
Lemma wf_eq sem wg got out ts : wf (Frame sem wg got out ts) <->
  sem = total holds ts /\ wg = List.length ts /\ total leads ts <= 1 /\ NoDup (map ce_id out) /\ Forall wf_task ts.
Proof.
  unfold wf. cbn [wf_task].
  enough (E : forall l, (fix all (l : list task) : Prop := match l with [] => True | x :: l' => wf_task x /\ all l' end) l
                        <-> Forall wf_task l) by (rewrite E; reflexivity).
  induction l as [|x l IH]; [split; auto|]. rewrite IH. split; [intros [? ?]; now constructor|intros F; now inversion F].
Qed.

Lemma record_entity_nodup e out : NoDup (map ce_id out) -> NoDup (map ce_id (record_entity e out)).
Proof.
  intros N. unfold record_entity. destruct (mem (ce_id e) (map ce_id out)) eqn:M; [exact N|].
  rewrite map_app. cbn. apply Permutation_NoDup with (ce_id e :: map ce_id out).
  - apply Permutation_cons_append.
  - constructor; [|exact N]. intros I. apply mem_In in I. congruence.
Qed.

Lemma wf_fresh p a : wf (fresh p a).
Proof. unfold fresh. rewrite wf_eq. cbn. repeat split; auto; repeat constructor. Qed.

Ltac wfsplit H := rewrite wf_eq in H; destruct H as (HS & HW & HL & HN & HF);
  rewrite ?total_app, ?total_cons, ?app_length in *; cbn [holds leads List.length] in *;
  try (apply Forall_app in HF; destruct HF as [HF1 HF2]; apply Forall_cons_iff in HF2; destruct HF2 as [HF2 HF3]).

Lemma steps_wf w V f V' f' : steps w V f V' f' -> wf f -> wf f'.
Proof.
  induction 1 as [V sem wg e out ts|V sem wg got out l1 l2 p a|V sem wg got out l1 l2 p a|V sem wg got out l1 l2 p a
    |V sem wg got out l1 l2 p n|V sem wg got out l1 l2 p n b l Hs|V sem wg got out l1 l2 p b|V sem wg out l1 l2 e nest p b
    |V sem wg got out l1 l2 p b|V sem wg got out l1 l2 g Hf|V V' sem wg got out l1 l2 g g' Hf Hg IH|V sem wg got out l1 l2
    |V sem wg out l1 l2 e l|V sem wg got out l1 l2|V sem wg got out l1 l2]; intros W.
  1: { rewrite wf_eq in *. destruct W as (? & ? & ? & N & ?). repeat split; auto. now apply record_entity_nodup. }
  all: wfsplit W; rewrite wf_eq, ?total_app, ?total_cons, ?app_length, ?total_app, ?total_cons, ?app_length;
       cbn [holds leads List.length total fold_right];
       (assert (FF : forall t, wf_task t -> Forall wf_task (l1 ++ t :: l2)) by (intros; apply Forall_app; split; [assumption|now constructor])).
  - destruct (mem a V); cbn [holds leads]; repeat split; try lia; auto; now apply FF.
  - repeat split; try lia; auto; now apply FF.
  - destruct (dw_listing w p a); cbn [holds leads]; repeat split; try lia; auto; now apply FF.
  - repeat split; try lia; auto; now apply FF.
  - repeat split; try lia; auto. apply Forall_app. split; [now apply FF|repeat constructor].
  - destruct (dw_entity w p b) as [[e|] []]; cbn [after_eval holds leads]; repeat split; try lia; auto; now apply FF.
  - destruct nest; cbn [holds leads]; repeat split; try lia; auto; now apply FF.
  - repeat split; try lia; auto. apply FF. apply wf_fresh.
  - repeat split; try lia; auto; now apply FF.
  - repeat split; try lia; auto. apply FF. apply IH. exact HF2.
  - repeat split; try lia; auto; now apply FF.
  - repeat split; try lia; auto; now apply FF.
  - repeat split; try lia; auto; now apply FF.
  - repeat split; try lia; auto. apply Forall_app. now split.
Qed.

Lemma reached_wf w ta s : reached w ta s -> wf (snd s).
Proof.
  apply (reached_inv w ta (fun _ f => wf f)); [apply wf_fresh|]. intros V f V' f' W S. now apply (steps_wf w V f V' f').
Qed.

(** C59 *)
Lemma out_nodup w ta s : reached w ta s -> NoDup (map ce_id (f_out (snd s))).
Proof. intros R. apply reached_wf in R. destruct s as [V [sem wg got out ts]]. cbn [snd f_out] in *. rewrite wf_eq in R. apply R. Qed.

(** ** Progress *)
Lemma nth_error_middle {A} (l1 : list A) x l2 : nth_error (l1 ++ x :: l2) (List.length l1) = Some x.
Proof. rewrite nth_error_app2, Nat.sub_diag; [reflexivity|lia]. Qed.

Lemma progress w V : forall f, wf f -> finished f = false -> exists c, step w c V f <> None.
Proof.
  apply (frame_rect1 (fun f => wf f -> finished f = false -> exists c, step w c V f <> None)).
  intros sem wg got out ts IH W F. apply wf_eq in W. destruct W as (HS & HW & HL & HN & HF).
  destruct got as [e|]; [exists Collect; discriminate|].
  destruct ts as [|t ts]; [subst wg; discriminate|].
  (* either some goroutine is not waiting for a token, or there is just one *)
  assert (D : (exists l1 x l2, t :: ts = l1 ++ x :: l2 /\ forall p n b l, x <> Spawn p n (b :: l)) \/
              (forall x, In x (t :: ts) -> exists p n b l, x = Spawn p n (b :: l))).
  { clear. generalize (t :: ts) as k. induction k as [|x k IH]; [right; intros x []|].
    assert (X : (exists p n b l, x = Spawn p n (b :: l)) \/ (forall p n b l, x <> Spawn p n (b :: l))).
    { destruct x; try (right; intros; discriminate). destruct l; [right; intros; discriminate|left; eauto]. }
    destruct X as [X|X]; [|left; exists [], x, k; auto].
    destruct IH as [(l1 & y & l2 & -> & H)|H]; [left; exists (x :: l1), y, l2; auto|].
    right. intros y [<-|I]; [exact X|now apply H]. }
  destruct D as [(l1 & x & l2 & E & NS)|A].
  - assert (HFx : wf_task x).
    { rewrite E in HF. apply Forall_app in HF. destruct HF as [_ HF]. now inversion HF. }
    destruct x; try (exists (At (List.length l1) Collect); cbn [step]; rewrite E, nth_error_middle; discriminate).
    + destruct l as [|b l]; [|exfalso; now apply (NS p n b l)].
      exists (At (List.length l1) Collect); cbn [step]; rewrite E, nth_error_middle; discriminate.
    + destruct (finished f) eqn:Ff.
      * exists (At (List.length l1) Collect); cbn [step]; rewrite E, nth_error_middle, Ff; discriminate.
      * destruct (IH f) as [c C]; [rewrite E; apply in_elt|exact HFx|exact Ff|].
        exists (At (List.length l1) c); cbn [step]; rewrite E, nth_error_middle, Ff.
        destruct (step w c V f) as [[V' g']|]; [discriminate|now destruct C].
    + exists (At (List.length l1) Collect); cbn [step]; rewrite E, nth_error_middle. destruct l; discriminate.
  - assert (T : ts = []).
    { destruct ts as [|y ts]; [reflexivity|exfalso].
      destruct (A t (or_introl eq_refl)) as (? & ? & ? & ? & ->).
      destruct (A y (or_intror (or_introl eq_refl))) as (? & ? & ? & ? & ->).
      rewrite !total_cons in HL. cbn [leads] in HL. lia. }
    subst ts. destruct (A t (or_introl eq_refl)) as (p & n & b & l & ->).
    exists (At 0 Collect). cbn [step nth_error]. cbn in HS. subst sem. discriminate.
Qed.

Lemma finished_empty f : wf f -> finished f = true -> exists sem out, f = Frame sem 0 None out [].
Proof.
  destruct f as [sem wg got out ts]. intros W F. apply wf_eq in W. destruct W as (HS & HW & _).
  cbn in F. destruct wg, got; try discriminate. destruct ts; [|discriminate]. eauto.
Qed.

(** ** What the goroutines are about to do, and the entities under way *)
Fixpoint core (t : task) : list task :=
  match t with
  | Wait (Frame _ _ _ _ ts) => flat_map core ts
  | Forward _ | Release | Finish => []
  | _ => [t]
  end.
Definition cores (f : frame) : list task := core (Wait f).
Fixpoint carried (t : task) : list collected :=
  match t with
  | Wait (Frame _ _ got out ts) => (match got with Some e => [e] | None => [] end) ++ out ++ flat_map carried ts
  | Forward l => l
  | Send e _ _ _ => [e]
  | _ => []
  end.
Definition ents (f : frame) : list collected := carried (Wait f).
Definition opt {A} (x : option A) : list A := match x with Some e => [e] | None => [] end.
Lemma cores_eq sem wg got out ts : cores (Frame sem wg got out ts) = flat_map core ts.
Proof. reflexivity. Qed.
Lemma ents_eq sem wg got out ts : ents (Frame sem wg got out ts) = opt got ++ out ++ flat_map carried ts.
Proof. reflexivity. Qed.

(** What a goroutine does: the visited set, the goroutines it turns into, new entities. *)
Definition effect (w : dworld) (V : list string) (t : task) : list string * list task * list collected :=
  match t with
  | Check p a => (V, if mem a V then [] else [Add p a], [])
  | Add p a => (a :: V, [Fetch p a], [])
  | Fetch p a => (V, match dw_listing w p a with Some l => [Spawn p 1 l] | None => [] end, [])
  | Spawn p n [] => (V, [], [])
  | Spawn p n (b :: l) => (V, [Spawn p (S n) l; Sub (n :: p) b], [])
  | Sub p b => (V, core (after_eval (dw_entity w p b) p b), opt (fst (dw_entity w p b)))
  | Send e nest p b => (V, if nest then [Nest p b] else [], [])
  | Nest p b => (V, [Check (0 :: p) b], [])
  | _ => (V, [], [])
  end.

(** What one step does to the calls as a whole. *)
Definition moves (w : dworld) (V : list string) (C : list task) (E : list collected)
                 (V' : list string) (C' : list task) (E' : list collected) : Prop :=
  (V' = V /\ (forall x, In x C' <-> In x C) /\ (forall e, In e E' -> In e E) /\
   (forall e, In e E -> In (ce_id e) (map ce_id E'))) \/
  (exists t C0 C1 E1, In t C /\ effect w V t = (V', C1, E1) /\
   (forall x, In x C <-> x = t \/ In x C0) /\ (forall x, In x C' <-> In x C1 \/ In x C0) /\
   (forall e, In e E' -> In e E \/ In e E1) /\
   (forall e, In e E \/ In e E1 -> In (ce_id e) (map ce_id E'))).

Ltac inall := repeat (rewrite ?in_app_iff in * || rewrite ?flat_map_app in * || cbn [flat_map core carried In opt app] in *).

Lemma moves_context w V C E V' C' E' A B D F :
  moves w V C E V' C' E' -> moves w V (A ++ C ++ B) (D ++ E ++ F) V' (A ++ C' ++ B) (D ++ E' ++ F).
Proof.
  intros [(-> & H1 & H2 & H3)|(t & C0 & C1 & E1 & HT & HE & HC & HC' & HE1 & HE2)].
  - left. split; [reflexivity|]. split; [intros x; rewrite !in_app_iff, H1; tauto|]. split.
    + intros e. rewrite !in_app_iff. intros [I|[I|I]]; auto.
    + intros e. rewrite !map_app, !in_app_iff. intros [I|[I|I]]; auto using in_map.
  - right. exists t, (A ++ C0 ++ B), C1, E1. split; [rewrite !in_app_iff; auto|]. split; [exact HE|].
    split; [intros x; rewrite !in_app_iff, HC; tauto|]. split; [intros x; rewrite !in_app_iff, HC'; tauto|]. split.
    + intros e. rewrite !in_app_iff. intros [I|[I|I]]; auto. apply HE1 in I. tauto.
    + intros e. rewrite !map_app, !in_app_iff. intros [[I|[I|I]]|I]; auto using in_map.
Qed.

Lemma record_in e out x : In x (record_entity e out) -> In x out \/ x = e.
Proof. unfold record_entity. destruct (mem _ _); [auto|]. rewrite in_app_iff. cbn. intuition. Qed.
Lemma record_id e out : In (ce_id e) (map ce_id (record_entity e out)).
Proof.
  unfold record_entity. destruct (mem (ce_id e) (map ce_id out)) eqn:M; [now apply mem_In|].
  rewrite map_app, in_app_iff. cbn. auto.
Qed.
Lemma record_keep e out x : In x out -> In x (record_entity e out).
Proof. unfold record_entity. destruct (mem _ _); [auto|]. rewrite in_app_iff. auto. Qed.

Lemma steps_moves w V f V' f' : steps w V f V' f' -> wf f -> moves w V (cores f) (ents f) V' (cores f') (ents f').
Proof.
  induction 1 as [V sem wg e out ts|V sem wg got out l1 l2 p a|V sem wg got out l1 l2 p a|V sem wg got out l1 l2 p a
    |V sem wg got out l1 l2 p n|V sem wg got out l1 l2 p n b l Hs|V sem wg got out l1 l2 p b|V sem wg out l1 l2 e nest p b
    |V sem wg got out l1 l2 p b|V sem wg got out l1 l2 g Hf|V V' sem wg got out l1 l2 g g' Hf Hg IH|V sem wg got out l1 l2
    |V sem wg out l1 l2 e l|V sem wg got out l1 l2|V sem wg got out l1 l2]; intros W;
  rewrite !cores_eq, !ents_eq.
  - left. split; [reflexivity|]. split; [reflexivity|]. split.
    + intros x. cbn [opt app]. rewrite !in_app_iff. cbn [In]. rewrite !in_app_iff.
      intros [I|I]; [apply record_in in I; destruct I as [I| ->]; auto|auto].
    + intros x. cbn [opt app]. rewrite !map_app, !in_app_iff. cbn [In]. rewrite !in_app_iff. intros [<-|[I|I]].
      * left. apply record_id.
      * left. apply in_map. now apply record_keep.
      * right. now apply in_map.
  - right. exists (Check p a), (flat_map core l1 ++ flat_map core l2), (if mem a V then [] else [Add p a]), [].
    split; [inall; auto|]. split; [reflexivity|]. split; [intros x; inall; intuition congruence|].
    split; [intros x; destruct (mem a V); inall; intuition congruence|].
    split; intros x; destruct (mem a V); inall; rewrite ?map_app, ?in_app_iff; intuition auto using in_map.
  - right. exists (Add p a), (flat_map core l1 ++ flat_map core l2), [Fetch p a], [].
    split; [inall; auto|]. split; [reflexivity|]. split; [intros x; inall; intuition congruence|].
    split; [intros x; inall; intuition congruence|].
    split; intros x; inall; rewrite ?map_app, ?in_app_iff; intuition auto using in_map.
  - right. exists (Fetch p a), (flat_map core l1 ++ flat_map core l2),
      (match dw_listing w p a with Some l => [Spawn p 1 l] | None => [] end), [].
    split; [inall; auto|]. split; [reflexivity|]. split; [intros x; inall; intuition congruence|].
    split; [intros x; destruct (dw_listing w p a); inall; intuition congruence|].
    split; intros x; destruct (dw_listing w p a); inall; rewrite ?map_app, ?in_app_iff; intuition auto using in_map.
  - right. exists (Spawn p n []), (flat_map core l1 ++ flat_map core l2), [], [].
    split; [inall; auto|]. split; [reflexivity|]. split; [intros x; inall; intuition congruence|].
    split; [intros x; inall; intuition congruence|].
    split; intros x; inall; rewrite ?map_app, ?in_app_iff; intuition auto using in_map.
  - right. exists (Spawn p n (b :: l)), (flat_map core l1 ++ flat_map core l2), [Spawn p (S n) l; Sub (n :: p) b], [].
    split; [inall; auto|]. split; [reflexivity|]. split; [intros x; inall; intuition congruence|].
    split; [intros x; inall; intuition congruence|].
    split; intros x; inall; rewrite ?map_app, ?in_app_iff; intuition auto using in_map.
  - right. exists (Sub p b), (flat_map core l1 ++ flat_map core l2), (core (after_eval (dw_entity w p b) p b)), (opt (fst (dw_entity w p b))).
    split; [inall; auto|]. split; [reflexivity|]. split; [intros x; inall; intuition congruence|].
    split; [intros x; inall; intuition congruence|].
    split; intros x; destruct (dw_entity w p b) as [[e|] []]; cbn [after_eval fst]; inall; rewrite ?map_app, ?in_app_iff;
      cbn [map In]; intuition (subst; auto using in_map).
  - right. exists (Send e nest p b), (flat_map core l1 ++ flat_map core l2), (if nest then [Nest p b] else []), [].
    split; [inall; auto|]. split; [reflexivity|]. split; [intros x; inall; intuition congruence|].
    split; [intros x; destruct nest; inall; intuition congruence|].
    split; intros x; destruct nest; inall; cbn [map]; rewrite ?map_app; cbn [In]; rewrite ?in_app_iff;
      intuition (subst; auto using in_map).
  - right. exists (Nest p b), (flat_map core l1 ++ flat_map core l2), [Check (0 :: p) b], [].
    split; [inall; auto|]. split; [reflexivity|]. split; [intros x; inall; intuition congruence|].
    split; [intros x; unfold fresh; inall; intuition congruence|].
    split; intros x; unfold fresh; inall; rewrite ?map_app, ?in_app_iff; intuition auto using in_map.
  - wfsplit W. destruct (finished_empty g HF2 Hf) as (s0 & o0 & ->). left. split; [reflexivity|].
    split; [intros x; inall; intuition auto|].
    split; intros x; cbn [f_out]; inall; rewrite ?map_app, ?in_app_iff; intuition auto using in_map.
  - wfsplit W. specialize (IH HF2). rewrite !flat_map_app. cbn [flat_map].
    rewrite !(app_assoc _ (flat_map carried l1)), !(app_assoc _ (_ ++ flat_map carried l1)).
    apply (moves_context w V (cores g) (ents g) V' (cores g') (ents g')). exact IH.
  - left. split; [reflexivity|]. split; [intros x; inall; intuition auto|].
    split; intros x; inall; rewrite ?map_app, ?in_app_iff; intuition auto using in_map.
  - left. split; [reflexivity|]. split; [intros x; inall; intuition auto|].
    split; intros x; inall; cbn [map]; rewrite ?map_app; cbn [In]; rewrite ?in_app_iff; intuition (subst; auto using in_map).
  - left. split; [reflexivity|]. split; [intros x; inall; intuition auto|].
    split; intros x; inall; rewrite ?map_app, ?in_app_iff; intuition auto using in_map.
  - left. split; [reflexivity|]. split; [intros x; inall; intuition auto|].
    split; intros x; inall; rewrite ?map_app, ?in_app_iff; intuition auto using in_map.
Qed.
