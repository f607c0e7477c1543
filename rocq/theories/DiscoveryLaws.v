(** Soundness, completeness and termination of entity collection. *)
From Coq Require Import Lia.
From Verif Require Import Base GoVal Policy Schema Metadata Chain Resolver FloatTime Json TrustMark Discovery SpecDiscovery BaseFacts
  DiscoveryFacts EvalFacts.
Local Open Scope nat_scope.
Local Open Scope string_scope.
Local Open Scope list_scope.

Lemma reached_inv_wf w ta (I : list string -> frame -> Prop) :
  I [] (fresh [] ta) -> (forall V f V' f', wf f -> I V f -> steps w V f V' f' -> I V' f') ->
  forall s, reached w ta s -> I (fst s) (snd s).
Proof.
  intros I0 IS s R. apply (reached_inv w ta (fun V f => wf f /\ I V f)); [split; [apply wf_fresh|exact I0]| |exact R].
  intros V f V' f' [W H] S. split; [now apply (steps_wf w V f V' f')|now apply (IS V f V' f')].
Qed.

Lemma in_mem s l : In s l <-> mem s l = true.
Proof. symmetry. apply mem_In. Qed.

(** ** Soundness *)
Section Sound.
  Variable w : dworld.
  Variable ta : string.
  Hypothesis names : names_entities w.
  Let sub := below (lists_once w) (asked_once w) ta.
  Definition authority_ok (a : string) : Prop := a = ta \/ (sub a /\ asked_once w a).
  Definition task_ok (t : task) : Prop :=
    match t with
    | Check _ a | Add _ a | Fetch _ a => authority_ok a
    | Spawn _ _ l => forall b, In b l -> sub b
    | Sub _ b => sub b
    | Send _ nest _ b => sub b /\ (nest = true -> asked_once w b)
    | Nest _ b => sub b /\ asked_once w b
    | _ => True
    end.
  Definition ent_ok (e : collected) : Prop := sub (ce_id e) /\ exists p, fst (dw_entity w p (ce_id e)) = Some e.

  Lemma listed_ok p a l : authority_ok a -> dw_listing w p a = Some l -> forall b, In b l -> sub b.
  Proof.
    intros A L b I. assert (O : lists_once w a b) by (exists p, l; auto).
    destruct A as [-> |[A1 A2]]; [now apply below_anchor|now apply below_sub with a].
  Qed.

  Lemma effect_ok V t V' C1 E1 : task_ok t -> effect w V t = (V', C1, E1) ->
    (forall x, In x C1 -> task_ok x) /\ (forall e, In e E1 -> ent_ok e).
  Proof.
    intros K E. destruct t; cbn in E.
    - injection E as <- <- <-. destruct (mem a V); split; intros x I; inall; try contradiction.
      destruct I as [<-|[]]. exact K.
    - injection E as <- <- <-. split; intros x I; inall; [destruct I as [<-|[]]; exact K|contradiction].
    - injection E as <- <- <-. destruct (dw_listing w p a) as [l|] eqn:L; split; intros x I; inall; try contradiction.
      destruct I as [<-|[]]. cbn. now apply (listed_ok p a l).
    - destruct l as [|b l]; injection E as <- <- <-; split; intros x I; inall; try contradiction.
      destruct I as [<-|[<-|[]]]; cbn in *; auto.
    - injection E as <- <- <-. cbn in K. destruct (dw_entity w p b) as [[e|] nest] eqn:D.
      + split; intros x I; cbn in I; destruct I as [<-|[]].
        * cbn. split; [exact K|]. intros ->. exists p. now rewrite D.
        * assert (N : ce_id e = b) by (apply (names p b e); now rewrite D).
          split; rewrite N; [exact K|exists p; now rewrite D].
      + destruct nest; split; intros x I; cbn in I; try contradiction. destruct I as [<-|[]].
        cbn. split; [exact K|]. exists p. now rewrite D.
    - injection E as <- <- <-. destruct K as [K1 K2]. destruct nest; split; intros x I; inall; try contradiction.
      destruct I as [<-|[]]. cbn. auto.
    - injection E as <- <- <-. split; intros x I; inall; [destruct I as [<-|[]]; right; exact K|contradiction].
    - injection E as <- <- <-; split; intros x [].
    - injection E as <- <- <-; split; intros x [].
    - injection E as <- <- <-; split; intros x [].
    - injection E as <- <- <-; split; intros x [].
  Qed.

  Lemma sound_inv s : reached w ta s ->
    (forall t, In t (cores (snd s)) -> task_ok t) /\ (forall e, In e (ents (snd s)) -> ent_ok e).
  Proof.
    intros R. apply (reached_inv_wf w ta (fun V f => (forall t, In t (cores f) -> task_ok t) /\ (forall e, In e (ents f) -> ent_ok e)));
      [| |exact R].
    - split; [|intros e []]. intros t [<-|[]]. now left.
    - intros V f V' f' W [H1 H2] S. apply steps_moves in S; [|exact W].
      destruct S as [(-> & M1 & M2 & _)|(t & C0 & C1 & E1 & HT & HE & HC & HC' & HE1 & _)].
      + split; [intros x I; apply H1; now apply M1|intros e I; apply H2; now apply M2].
      + destruct (effect_ok V t V' C1 E1 (H1 t HT) HE) as [K1 K2]. split.
        * intros x I. apply HC' in I. destruct I as [I|I]; [now apply K1|]. apply H1. apply HC. now right.
        * intros e I. apply HE1 in I. destruct I; auto.
  Qed.

  Lemma collected_sound s e : reached w ta s -> In e (f_out (snd s)) -> ent_ok e.
  Proof.
    intros R I. apply (proj2 (sound_inv s R)). destruct s as [V [sem wg got out ts]]. cbn [snd f_out] in *.
    rewrite ents_eq, !in_app_iff. auto.
  Qed.
End Sound.

(** ** Completeness *)
Section Complete.
  Variable w : dworld.
  Variable ta : string.
  Hypothesis names : names_entities w.
  Definition expands (t : task) (b : string) : Prop :=
    match t with
    | Check _ a | Add _ a | Nest _ a => a = b
    | Send _ true _ a => a = b
    | _ => False
    end.
  Definition gives (t : task) (b : string) : Prop :=
    match t with
    | Fetch _ a => lists_always w a b
    | Spawn _ _ l => In b l
    | Sub _ a => a = b
    | _ => False
    end.
  Definition some (C : list task) (g : task -> string -> Prop) (b : string) : Prop := exists t, In t C /\ g t b.
  Definition fate (V : list string) (C : list task) (ids : list string) (b : string) : Prop :=
    some C gives b \/ ((passes_always w b -> In b ids) /\ (asked_always w b -> In b V \/ some C expands b)).

  Lemma effect_keeps V t V' C1 E1 a : effect w V t = (V', C1, E1) -> In a V -> In a V'.
  Proof. intros E I. destruct t as [| | |p n [|]| | | | | | |]; cbn in E; injection E as <- <- <-; cbn; auto. Qed.
  Lemma effect_new V t V' C1 E1 a : effect w V t = (V', C1, E1) -> In a V' -> In a V \/ exists p, C1 = [Fetch p a].
  Proof.
    intros E I. destruct t as [| | |p n [|]| | | | | | |]; cbn in E; injection E as <- <- <-; cbn in I; auto.
    destruct I as [<-|I]; [right; now exists p|auto].
  Qed.
  Lemma effect_expands V t V' C1 E1 b : effect w V t = (V', C1, E1) -> expands t b -> In b V' \/ some C1 expands b.
  Proof.
    intros E X. destruct t as [p a|p a|p a|p n [|c l]|p c|e nest p c|p c|f|l| |]; cbn in X, E; try contradiction; injection E as <- <- <-.
    - subst. destruct (mem b V) eqn:M; [left; now apply in_mem|right; eexists; split; [now left|reflexivity]].
    - subst. left. now left.
    - destruct nest; [|contradiction]. subst. right; eexists; split; [now left|reflexivity].
    - subst. right; eexists; split; [now left|reflexivity].
  Qed.
  Lemma effect_gives V t V' C1 E1 b : effect w V t = (V', C1, E1) -> gives t b ->
    some C1 gives b \/ ((passes_always w b -> In b (map ce_id E1)) /\ (asked_always w b -> some C1 expands b)).
  Proof.
    intros E X. destruct t as [p a|p a|p a|p n [|c l]|p c|e nest p c|p c|f|l| |]; cbn in X, E; try contradiction; injection E as <- <- <-.
    - destruct (X p) as (l & -> & I). left. eexists; split; [now left|exact I].
    - left. destruct X as [<-|I]; [exists (Sub (n :: p) c); split; [cbn; auto|reflexivity]|].
      exists (Spawn p (S n) l). split; [now left|exact I].
    - subst c. right. split.
      + intros P. destruct (P p) as [e Ee]. rewrite Ee. left. now apply names with p.
      + intros A. specialize (A p). destruct (dw_entity w p b) as [[e|] nest]; cbn in *; subst nest;
          (eexists; split; [now left|reflexivity]).
  Qed.

  Lemma some_moves (g : task -> string -> Prop) C C0 C1 C' t b :
    (forall x, In x C <-> x = t \/ In x C0) -> (forall x, In x C' <-> In x C1 \/ In x C0) ->
    some C g b -> g t b \/ some C' g b.
  Proof.
    intros HC HC' (x & I & G). apply HC in I. destruct I as [-> |I]; [now left|].
    right. exists x. split; [apply HC'; now right|exact G].
  Qed.
  Lemma some_new (g : task -> string -> Prop) C0 C1 C' b :
    (forall x, In x C' <-> In x C1 \/ In x C0) -> some C1 g b -> some C' g b.
  Proof. intros HC' (x & I & G). exists x. split; [apply HC'; now left|exact G]. Qed.

  Definition inv (V : list string) (f : frame) : Prop :=
    (In ta V \/ some (cores f) expands ta) /\
    forall a b, In a V -> lists_always w a b -> fate V (cores f) (map ce_id (ents f)) b.

  Lemma complete_inv s : reached w ta s -> inv (fst s) (snd s).
  Proof.
    apply (reached_inv_wf w ta inv).
    - split; [right; eexists; split; [now left|reflexivity]|intros a b []].
    - intros V f V' f' W [H1 H2] S. apply steps_moves in S; [|exact W].
      destruct S as [(-> & M1 & _ & M3)|(t & C0 & C1 & E1 & HT & HE & HC & HC' & _ & HE2)].
      + assert (SM : forall g b, some (cores f) g b -> some (cores f') g b)
          by (intros g b (x & I & G); exists x; split; [now apply M1|exact G]).
        split; [destruct H1 as [H1|H1]; auto|]. intros a b A L. destruct (H2 a b A L) as [F|[F1 F2]]; [left; auto|].
        right. split.
        * intros P. specialize (F1 P). apply in_map_iff in F1. destruct F1 as (e & <- & I). now apply M3.
        * intros K. destruct (F2 K); auto.
      + assert (SM := fun g b => some_moves g (cores f) C0 C1 (cores f') t b HC HC').
        assert (SN := fun g b => some_new g C0 C1 (cores f') b HC').
        assert (EX : forall b, In b V \/ some (cores f) expands b -> In b V' \/ some (cores f') expands b).
        { intros b [I|X]; [left; now apply (effect_keeps V t V' C1 E1)|].
          apply SM in X. destruct X as [X|X]; [|now right].
          destruct (effect_expands V t V' C1 E1 b HE X); [now left|right; auto]. }
        split; [now apply EX|].
        intros a b A L. destruct (effect_new V t V' C1 E1 a HE A) as [A0|[p ->]].
        * destruct (H2 a b A0 L) as [F|[F1 F2]].
          -- apply SM in F. destruct F as [F|F]; [|left; exact F].
             destruct (effect_gives V t V' C1 E1 b HE F) as [G|[G1 G2]]; [left; auto|].
             right. split; [|intros K; right; auto].
             intros P. specialize (G1 P). apply in_map_iff in G1. destruct G1 as (e & <- & I). apply HE2. now right.
          -- right. split; [|intros K; now apply EX, F2].
             intros P. specialize (F1 P). apply in_map_iff in F1. destruct F1 as (e & <- & I). apply HE2. now left.
        * left. apply SN. exists (Fetch p a). split; [now left|exact L].
  Qed.

  Lemma collected_complete s b : reached w ta s -> finished (snd s) = true ->
    below (lists_always w) (asked_always w) ta b -> passes_always w b -> In b (map ce_id (f_out (snd s))).
  Proof.
    intros R F B P. pose proof (complete_inv s R) as [H1 H2].
    destruct (finished_empty (snd s) (reached_wf w ta s R) F) as (sem & out & E). destruct s as [V f]. cbn [fst snd] in *. subst f.
    cbn [f_out]. rewrite cores_eq in H1. destruct H1 as [H1|(t & [] & _)].
    assert (G : forall a b, In a V -> lists_always w a b ->
      (passes_always w b -> In b (map ce_id out)) /\ (asked_always w b -> In b V)).
    { intros a b' A L. destruct (H2 a b' A L) as [(t & [] & _)|[F1 F2]]. split.
      - intros Q. specialize (F1 Q). rewrite ents_eq in F1. cbn [opt flat_map app] in F1. now rewrite app_nil_r in F1.
      - intros Q. destruct (F2 Q) as [I|(t & [] & _)]. exact I. }
    assert (T : (passes_always w b -> In b (map ce_id out)) /\ (asked_always w b -> In b V)).
    { clear P. induction B as [b L|a b B [_ IH] A L]; [now apply (G ta)|].
      apply (G a); [|exact L]. now apply IH. }
    now apply T.
  Qed.
End Complete.

(** ** Termination *)
Lemma steps_visited w V f V' f' : steps w V f V' f' -> incl V V'.
Proof. induction 1; intros x I; try exact I; [now right|now apply IHsteps]. Qed.

Section Weight.
  Variable w : dworld.
  Variable U : list string.
  Variables n m : nat.
  Hypothesis small : forall p a l, dw_listing w p a = Some l -> List.length l <= n.
  Hypothesis UM : List.length U <= m.

  Definition unvisited (V : list string) : nat := List.length (filter (fun x => negb (mem x V)) U).
  Fixpoint cw (k : nat) : nat := match k with 0 => 3 | S k' => 7 + n * (9 + 2 * m + cw k') end.
  Definition fetchw (k : nat) : nat := 4 + n * (9 + 2 * m + cw k).
  Fixpoint tw (V : list string) (t : task) : nat :=
    match t with
    | Check _ _ => cw (unvisited V)
    | Add _ a => 1 + fetchw (unvisited (a :: V))
    | Fetch _ _ => fetchw (unvisited V)
    | Spawn _ _ l => 3 + List.length l * (9 + 2 * m + cw (unvisited V))
    | Sub _ _ => 8 + 2 * m + cw (unvisited V)
    | Send _ _ _ _ => 7 + 2 * m + cw (unvisited V)
    | Nest _ _ => 5 + 2 * m + cw (unvisited V)
    | Wait (Frame _ _ got _ ts) => 4 + 2 * m + List.length (opt got) + total (tw V) ts
    | Forward l => 3 + 2 * List.length l
    | Release => 2
    | Finish => 1
    end.
  Definition fw (V : list string) (f : frame) : nat :=
    let 'Frame _ _ got _ ts := f in List.length (opt got) + total (tw V) ts.
  Lemma tw_wait V f : tw V (Wait f) = 4 + 2 * m + fw V f.
  Proof. destruct f. cbn [tw fw]. lia. Qed.

  Lemma cw_step k : cw k <= cw (S k).
  Proof.
    induction k as [|k IH]; [cbn [cw]; lia|]. cbn [cw] in *. 
    assert (n * (9 + 2 * m + cw k) <= n * (9 + 2 * m + (7 + n * (9 + 2 * m + cw k)))) by (apply Nat.mul_le_mono_l; cbn [cw] in IH; lia).
    lia.
  Qed.
  Lemma cw_mono j k : j <= k -> cw j <= cw k.
  Proof. induction 1 as [|k H IH]; [lia|]. pose proof (cw_step k). lia. Qed.
  Lemma cw_pos k : 3 <= cw k.
  Proof. destruct k; cbn [cw]; lia. Qed.
  Lemma fetchw_mono j k : j <= k -> fetchw j <= fetchw k.
  Proof. intros H. unfold fetchw. pose proof (cw_mono j k H). apply Nat.add_le_mono_l, Nat.mul_le_mono_l. lia. Qed.

  Lemma filter_le (f g : string -> bool) l : (forall x, f x = true -> g x = true) ->
    List.length (filter f l) <= List.length (filter g l).
  Proof.
    intros H. induction l as [|x l IH]; [cbn; lia|]. cbn [filter]. specialize (H x).
    destruct (f x), (g x); cbn [List.length]; try lia; now specialize (H eq_refl).
  Qed.
  Lemma filter_lt (f g : string -> bool) l a : (forall x, f x = true -> g x = true) -> In a l -> f a = false -> g a = true ->
    List.length (filter f l) < List.length (filter g l).
  Proof.
    intros H I F G. induction l as [|x l IH]; [contradiction|]. cbn [filter].
    pose proof (filter_le f g l H) as LE. specialize (H x). destruct I as [-> |I].
    - rewrite F, G. cbn [List.length]. lia.
    - specialize (IH I). destruct (f x), (g x); cbn [List.length]; try lia; now specialize (H eq_refl).
  Qed.
  Lemma unvisited_mono V V' : incl V V' -> unvisited V' <= unvisited V.
  Proof.
    intros I. unfold unvisited. apply filter_le. intros x F. destruct (mem x V) eqn:M; [|reflexivity].
    apply mem_In in M. apply I in M. apply mem_In in M. now rewrite M in F.
  Qed.
  Lemma unvisited_add V a : In a U -> mem a V = false -> unvisited (a :: V) < unvisited V.
  Proof.
    intros I M. unfold unvisited. apply filter_lt with a; [|exact I| |].
    - intros x F. destruct (mem x V) eqn:N; [|reflexivity]. cbn in F. change (existsb (String.eqb x) V) with (mem x V) in F.
      rewrite N, Bool.orb_true_r in F. discriminate.
    - cbn. now rewrite String.eqb_refl.
    - now rewrite M.
  Qed.

  Lemma tw_mono V V' : incl V V' -> forall t, tw V' t <= tw V t.
  Proof.
    intros I. assert (K := unvisited_mono V V' I). assert (C := cw_mono _ _ K). assert (F := fetchw_mono _ _ K).
    assert (G : forall f, fw V' f <= fw V f).
    { apply frame_rect1. intros sem wg got out ts IH. cbn [fw]. apply Nat.add_le_mono_l.
      induction ts as [|t ts IHts]; [cbn; lia|]. rewrite !total_cons.
      assert (T : tw V' t <= tw V t).
      { destruct t; try (cbn [tw]; lia).
        - cbn [tw]. apply le_n_S. apply fetchw_mono. apply unvisited_mono. intros x [->|X]; [now left|right; auto].
        - cbn [tw]. apply Nat.add_le_mono_l, Nat.mul_le_mono_l. lia.
        - rewrite !tw_wait. pose proof (IH f (or_introl eq_refl)). lia. }
      specialize (IHts (fun g J => IH g (or_intror J))). lia. }
    destruct t; try (cbn [tw]; lia).
    - cbn [tw]. apply le_n_S. apply fetchw_mono. apply unvisited_mono. intros x [->|X]; [now left|right; auto].
    - cbn [tw]. apply Nat.add_le_mono_l, Nat.mul_le_mono_l. lia.
    - rewrite !tw_wait. pose proof (G f). lia.
  Qed.
  Lemma total_mono V V' ts : incl V V' -> total (tw V') ts <= total (tw V) ts.
  Proof. intros I. induction ts as [|t ts IH]; [cbn; lia|]. rewrite !total_cons. pose proof (tw_mono V V' I t). lia. Qed.

  Definition in_scope (t : task) : Prop := match t with Check _ a | Add _ a => In a U | _ => True end.

  Lemma steps_weight V f V' f' : steps w V f V' f' -> wf f ->
    (forall t, In t (cores f) -> in_scope t) -> (forall e, In e (ents f) -> In (ce_id e) U) -> fw V' f' < fw V f.
  Proof.
    intros S. induction S as [V sem wg e out ts|V sem wg got out l1 l2 p a|V sem wg got out l1 l2 p a|V sem wg got out l1 l2 p a
    |V sem wg got out l1 l2 p k|V sem wg got out l1 l2 p k b l Hs|V sem wg got out l1 l2 p b|V sem wg out l1 l2 e nest p b
    |V sem wg got out l1 l2 p b|V sem wg got out l1 l2 g Hf|V V' sem wg got out l1 l2 g g' Hf Hg IH|V sem wg got out l1 l2
    |V sem wg out l1 l2 e l|V sem wg got out l1 l2|V sem wg got out l1 l2]; intros W HC HE;
      cbn [fw opt List.length]; rewrite ?total_app, ?total_cons, ?total_app, ?total_cons; cbn [total fold_right]; try (cbn [tw opt List.length]; lia).
    - (* Check *)
      destruct (mem a V) eqn:M.
      + cbn [tw]. pose proof (cw_pos (unvisited V)). lia.
      + cbn [tw]. assert (I : In a U).
        { apply (HC (Check p a)). rewrite cores_eq, flat_map_app, in_app_iff. right. now left. }
        pose proof (unvisited_add V a I M) as L. destruct (unvisited V) as [|u] eqn:Eu; [lia|].
        assert (L2 : unvisited (a :: V) <= u) by lia. pose proof (fetchw_mono _ _ L2). unfold fetchw in *. cbn [cw]. lia.
    - (* Add *)
      pose proof (total_mono V (a :: V) l1 (incl_tl a (incl_refl V))). pose proof (total_mono V (a :: V) l2 (incl_tl a (incl_refl V))).
      cbn [tw]. lia.
    - (* Fetch *)
      destruct (dw_listing w p a) as [l|] eqn:L; cbn [tw]; unfold fetchw; [|lia].
      pose proof (small p a l L) as S.
      pose proof (Nat.mul_le_mono_r (List.length l) n (9 + 2 * m + cw (unvisited V)) S). lia.
    - (* Sub *)
      pose proof (cw_pos (unvisited V)). destruct (dw_entity w p b) as [[e|] []]; cbn [after_eval tw]; lia.
    - (* Send *)
      pose proof (cw_pos (unvisited V)). destruct nest; cbn [tw]; lia.
    - (* Nest *)
      rewrite tw_wait. unfold fresh. cbn [fw opt tw total fold_right List.length]. lia.
    - (* Done *)
      rewrite tw_wait. cbn [tw].
      assert (B : List.length (f_out g) <= m).
      { destruct g as [s1 w1 g1 o1 t1]. cbn [f_out]. wfsplit W. change (wf (Frame s1 w1 g1 o1 t1)) in HF2. apply wf_eq in HF2.
        destruct HF2 as (_ & _ & _ & ND & _). rewrite <- (map_length ce_id). apply Nat.le_trans with (List.length U); [|exact UM].
        apply NoDup_incl_length; [exact ND|]. intros x I. apply in_map_iff in I. destruct I as (e & <- & I).
        apply HE. rewrite ents_eq, !in_app_iff, flat_map_app, in_app_iff. right. right. right.
        cbn [flat_map carried]. rewrite !in_app_iff. auto. }
      lia.
    - (* Wait *)
      rewrite !tw_wait. pose proof (steps_visited _ _ _ _ _ Hg) as IV.
      pose proof (total_mono V V' l1 IV). pose proof (total_mono V V' l2 IV).
      wfsplit W. assert (fw V' g' < fw V g); [|lia]. apply IH; [exact HF2| |].
      + intros t I. apply HC. rewrite cores_eq, flat_map_app, in_app_iff. right. cbn [flat_map]. rewrite in_app_iff. left. exact I.
      + intros e I. apply HE. rewrite ents_eq, !in_app_iff, flat_map_app, in_app_iff. right. right. right.
        cbn [flat_map]. rewrite in_app_iff. left. exact I.
  Qed.
End Weight.

Lemma below_in w ta U b : (forall p a l, dw_listing w p a = Some l -> incl l U) ->
  below (lists_once w) (asked_once w) ta b -> In b U.
Proof. intros H B. destruct B as [b (p & l & L & I)|a b _ _ (p & l & L & I)]; now apply (H _ _ _ L). Qed.

Lemma exec_snoc w cs c s : exec w (cs ++ [c]) s =
  match exec w cs s with Some s' => step w c (fst s') (snd s') | None => None end.
Proof.
  revert s. induction cs as [|d cs IH]; intros s; cbn.
  - now destruct (step w c (fst s) (snd s)).
  - destruct (step w d (fst s) (snd s)); [apply IH|reflexivity].
Qed.

Lemma collection_terminates w ta : names_entities w -> finite_world w ->
  exists bound, forall cs s, exec w cs (start ta) = Some s ->
    List.length cs <= bound /\ (finished (snd s) = true \/ exists c s', step w c (fst s) (snd s) = Some s').
Proof.
  intros names (ids & n & H).
  set (U := ta :: ids). set (m := List.length U).
  assert (small : forall p a l, dw_listing w p a = Some l -> List.length l <= n) by (intros p a l L; now apply (H p a l)).
  assert (inU : forall p a l, dw_listing w p a = Some l -> incl l U).
  { intros p a l L x I. right. now apply (H p a l). }
  exists (fw U n m [] (fresh [] ta)). intros cs s E. split.
  - assert (G : forall cs s, exec w cs (start ta) = Some s ->
      List.length cs + fw U n m (fst s) (snd s) <= fw U n m [] (fresh [] ta)).
    { clear cs s E. induction cs as [|c cs IH] using rev_ind; intros s E.
      - injection E as <-. cbn [fst snd start List.length]. lia.
      - rewrite exec_snoc in E. destruct (exec w cs (start ta)) as [s0|] eqn:E0; [|discriminate].
        specialize (IH s0 eq_refl). rewrite app_length. cbn [List.length].
        assert (R : reached w ta s0) by (now exists cs). destruct s as [V' f'].
        apply step_steps in E. destruct (sound_inv w ta names s0 R) as [S1 S2].
        enough (fw U n m V' f' < fw U n m (fst s0) (snd s0)) by (cbn [fst snd]; lia).
        apply (steps_weight w U n m small (Nat.le_refl m) _ _ _ _ E (reached_wf w ta s0 R)).
        + intros t I. specialize (S1 t I). destruct t; cbn in *; trivial; destruct S1 as [-> |[B _]];
            try (now left); now apply (below_in w ta U).
        + intros e I. destruct (S2 e I) as [B _]. now apply (below_in w ta U). }
    specialize (G cs s E). lia.
  - destruct (finished (snd s)) eqn:F; [now left|right].
    destruct (progress w (fst s) (snd s)) as [c C]; [apply (reached_wf w ta); now exists cs|exact F|].
    destruct (step w c (fst s) (snd s)) as [s'|] eqn:D; [|now destruct C]. exists c, s'. exact D.
Qed.

(** Without a bound on the federation there is none on the executions. *)
Lemma unfinished_runs w ta : (forall s, reached w ta s -> finished (snd s) = false) ->
  forall k, exists cs s, exec w cs (start ta) = Some s /\ List.length cs = k.
Proof.
  intros N k. induction k as [|k (cs & s & E & L)]; [exists [], (start ta); auto|].
  assert (R : reached w ta s) by (now exists cs).
  destruct (progress w (fst s) (snd s) (reached_wf w ta s R) (N s R)) as [c C].
  destruct (step w c (fst s) (snd s)) as [s'|] eqn:D; [|now destruct C].
  exists (cs ++ [c]), s'. rewrite exec_snoc, E, app_length. cbn. split; [exact D|lia].
Qed.

(** ** Races *)
Definition flat_task (t : task) : Prop :=
  match t with Wait _ | Nest _ _ => False | Send _ nest _ _ => nest = false | _ => True end.
Lemma flat_steps w V f V' f' : (forall p b, snd (dw_entity w p b) = false) -> steps w V f V' f' ->
  Forall flat_task (let 'Frame _ _ _ _ ts := f in ts) -> Forall flat_task (let 'Frame _ _ _ _ ts := f' in ts).
Proof.
  intros NA S. destruct S as [V sem wg e out ts|V sem wg got out l1 l2 p a|V sem wg got out l1 l2 p a|V sem wg got out l1 l2 p a
    |V sem wg got out l1 l2 p k|V sem wg got out l1 l2 p k b l Hs|V sem wg got out l1 l2 p b|V sem wg out l1 l2 e nest p b
    |V sem wg got out l1 l2 p b|V sem wg got out l1 l2 g Hf|V V' sem wg got out l1 l2 g g' Hf Hg|V sem wg got out l1 l2
    |V sem wg out l1 l2 e l|V sem wg got out l1 l2|V sem wg got out l1 l2]; intros F; [exact F|..];
    apply Forall_app in F; destruct F as [F1 F2]; inversion F2 as [|x l0 F3 F4]; subst; cbn in F3; try contradiction;
    repeat (apply Forall_app; split); auto; try (constructor; cbn; auto).
  - destruct (mem a V); cbn; auto.
  - destruct (dw_listing w p a); cbn; auto.
  - specialize (NA p b). destruct (dw_entity w p b) as [[e|] nest]; cbn in *; subst nest; cbn; auto.
  - subst nest. exact I.
Qed.

Lemma flat_no_race w ta s : (forall p b, snd (dw_entity w p b) = false) -> reached w ta s -> ~ races (snd s).
Proof.
  intros NA R.
  assert (F : Forall flat_task (let 'Frame _ _ _ _ ts := snd s in ts)).
  { apply (reached_inv_wf w ta (fun _ f => Forall flat_task (let 'Frame _ _ _ _ ts := f in ts))); [| |exact R].
    - repeat constructor.
    - intros V f V' f' _ H S. now apply (flat_steps w V f V' f'). }
  pose proof (reached_wf w ta s R) as W. destruct s as [V [sem wg got out ts]]. cbn [snd] in *.
  apply wf_eq in W. destruct W as (_ & _ & HL & _).
  intros (l1 & x & l2 & y & l3 & E & T1 & T2 & _).
  assert (G : goroutines (Frame sem wg got out ts) = ts).
  { cbn [goroutines]. clear - F. induction F as [|t ts H F IH]; [reflexivity|]. cbn [flat_map]. rewrite IH.
    destruct t; cbn in H; try contradiction; reflexivity. }
  rewrite G in E. subst ts. rewrite !total_app, !total_cons, !total_app, !total_cons in HL.
  assert (leads x = 1) by (destruct x; try discriminate; reflexivity).
  assert (leads y = 1) by (destruct y; try discriminate; reflexivity). lia.
Qed.

(** ** In terms of the network *)
Lemma network_names fuel ce rq w : network fuel ce rq w -> names_entities w.
Proof. intros [_ H] p b e E. destruct (answer_spec _ _ _ _ _ _ (H p b)) as (_ & _ & N). now apply N. Qed.

Lemma below_impl (l1 l2 : string -> string -> Prop) (a1 a2 : string -> Prop) ta b :
  (forall x y, l1 x y -> l2 x y) -> (forall x, a1 x -> a2 x) -> below l1 a1 ta b -> below l2 a2 ta b.
Proof.
  intros L A B. induction B as [b H|a b B IH H1 H2]; [apply below_anchor; auto|apply below_sub with a; auto].
Qed.

Lemma network_sound fuel ce rq w l e : network fuel ce rq w -> returns w (cr_anchor rq) l -> In e l ->
  below (net_lists_once ce) (fun a => exists p, net_authority ce p a) (cr_anchor rq) (ce_id e) /\
  exists p, net_passes fuel ce rq p (ce_id e).
Proof.
  intros N (s & R & _ & <-) I.
  destruct (collected_sound w (cr_anchor rq) (network_names _ _ _ _ N) s e R I) as [B [p P]].
  destruct N as [NL NE]. split.
  - revert B. apply below_impl.
    + intros x y (q & l & L & J). exists q, l. now rewrite <- NL.
    + intros x (q & A). exists q. now apply (answer_spec _ _ _ _ _ _ (NE q x)).
  - exists p. apply (answer_spec _ _ _ _ _ _ (NE p (ce_id e))). eauto.
Qed.

Lemma network_complete fuel ce rq w l b : network fuel ce rq w -> returns w (cr_anchor rq) l ->
  below (net_lists_always ce) (fun a => forall p, net_authority ce p a) (cr_anchor rq) b ->
  (forall p, net_passes fuel ce rq p b) -> In b (map ce_id l).
Proof.
  intros N (s & R & F & <-) B P. pose proof (network_names _ _ _ _ N) as NN. destruct N as [NL NE].
  apply (collected_complete w (cr_anchor rq) NN s b R F).
  - revert B. apply below_impl.
    + intros x y H p. destruct (H p) as (l & L & J). exists l. now rewrite NL.
    + intros x H p. apply (answer_spec _ _ _ _ _ _ (NE p x)). apply H.
  - intros p. apply (answer_spec _ _ _ _ _ _ (NE p b)). apply P.
Qed.

(** ** Wrappers used by the property theorems *)
Lemma returns_nodup w ta l : returns w ta l -> NoDup (map ce_id l).
Proof. intros (s & R & _ & <-). exact (out_nodup w ta s R). Qed.
Lemma no_deadlock w ta s : reached w ta s -> finished (snd s) = false -> exists c s', step w c (fst s) (snd s) = Some s'.
Proof.
  intros R F. destruct (progress w (fst s) (snd s) (reached_wf w ta s R) F) as [c C]. exists c.
  destruct (step w c (fst s) (snd s)) as [s'|]; [now exists s'|now destruct C].
Qed.
