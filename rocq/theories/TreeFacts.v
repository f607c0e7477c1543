(** Proofs: collecting in federations in which nobody has two superiors. *)
From Coq Require Import Lia Permutation.
From Verif Require Import Base GoVal Policy Schema Metadata Chain Resolver FloatTime Json TrustMark Discovery SpecDiscovery BaseFacts
  DiscoveryFacts EvalFacts DiscoveryLaws SpecAsked AskedFacts SpecTree.
Local Open Scope nat_scope.
Local Open Scope string_scope.
Local Open Scope list_scope.

(** Entities that may still be asked for their subordinates, and those still to be looked at. *)
Definition pend_of (t : task) : list string :=
  match t with
  | Check _ a | Add _ a => [a]
  | Spawn _ _ l => l
  | Sub _ b | Nest _ b => [b]
  | Send _ true _ b => [b]
  | _ => []
  end.
Definition wait_of (t : task) : list string :=
  match t with Spawn _ _ l => l | Sub _ b => [b] | _ => [] end.
Definition all_of (f : task -> list string) (fr : frame) : list string := flat_map f (cores fr).

Lemma all_of_eq f sem wg got out ts : all_of f (Frame sem wg got out ts) = flat_map f (flat_map core ts).
Proof. reflexivity. Qed.

Definition listed_by (w : dworld) (a b : string) : Prop := exists p l, dw_listing w p a = Some l /\ In b l.

Definition moves_pend (w : dworld) (V : list string) (f : frame) (t : option task) (V' : list string) (f' : frame) : Prop :=
  match t with
  | Some (Add _ a) => V' = a :: V /\ Permutation (a :: all_of pend_of f') (all_of pend_of f) /\
                      Permutation (all_of wait_of f') (all_of wait_of f)
  | Some (Fetch p a) => V' = V /\ exists l, l = match dw_listing w p a with Some l => l | None => [] end /\
                      Permutation (all_of pend_of f') (l ++ all_of pend_of f) /\
                      Permutation (all_of wait_of f') (l ++ all_of wait_of f)
  | Some (Sub _ b) => V' = V /\ (exists d, Permutation (d ++ all_of pend_of f') (all_of pend_of f)) /\
                      Permutation (b :: all_of wait_of f') (all_of wait_of f)
  | _ => V' = V /\ (exists d, Permutation (d ++ all_of pend_of f') (all_of pend_of f)) /\
                      Permutation (all_of wait_of f') (all_of wait_of f)
  end.

Lemma perm_add {A} (d x l y : list A) : Permutation (d ++ x ++ l ++ y) (x ++ (d ++ l) ++ y).
Proof.
  rewrite !app_assoc. apply Permutation_app_tail. rewrite <- app_assoc.
  rewrite (Permutation_app_comm d (x ++ l)), <- !app_assoc. apply Permutation_app_head, Permutation_app_comm.
Qed.

Lemma perm_front {A} (x l y : list A) : Permutation (x ++ l ++ y) (l ++ x ++ y).
Proof. rewrite !app_assoc. apply Permutation_app_tail, Permutation_app_comm. Qed.

Lemma pend_context w V V' g g' t sem wg got out l1 l2 :
  moves_pend w V g t V' g' ->
  moves_pend w V (Frame sem wg got out (l1 ++ Wait g :: l2)) t V' (Frame sem wg got out (l1 ++ Wait g' :: l2)).
Proof.
  assert (AE : forall F h, all_of F (Frame sem wg got out (l1 ++ Wait h :: l2)) =
    flat_map F (flat_map core l1) ++ all_of F h ++ flat_map F (flat_map core l2)).
  { intros F h. rewrite all_of_eq, flat_map_app. cbn [flat_map]. rewrite core_wait, !flat_map_app. reflexivity. }
  unfold moves_pend. rewrite !AE.
  assert (D : (exists d, Permutation (d ++ all_of pend_of g') (all_of pend_of g)) -> exists d,
    Permutation (d ++ flat_map pend_of (flat_map core l1) ++ all_of pend_of g' ++ flat_map pend_of (flat_map core l2))
                (flat_map pend_of (flat_map core l1) ++ all_of pend_of g ++ flat_map pend_of (flat_map core l2))).
  { intros [d P]. exists d. rewrite perm_add. now apply perm_in. }
  destruct t as [[p a|p a|p a|p n l|p b|e nest p b|p b|f|l| |]|]; intros [-> H]; (split; [reflexivity|]);
    try (destruct H as [H1 H2]; split; [now apply D|now apply perm_in]).
  - destruct H as [H1 H2]. rewrite perm_out. split; now apply perm_in.
  - destruct H as (l & L & H1 & H2). exists l. split; [exact L|]. rewrite !perm_add. split; now apply perm_in.
  - destruct H as [H1 H2]. split; [now apply D|]. rewrite perm_out. now apply perm_in.
Qed.

Ltac flat2 := rewrite ?all_of_eq, ?flat_map_app; cbn [flat_map core pend_of wait_of app]; rewrite ?flat_map_app, ?app_nil_r; cbn [flat_map app].
Ltac kept2 := split; [exists []; reflexivity|reflexivity].

Lemma step_pend w c : forall V f V' f', wf f -> step w c V f = Some (V', f') -> moves_pend w V f (acting c f) V' f'.
Proof.
  induction c as [|i c IH]; intros V [sem wg got out ts] V' f' W H; cbn [step acting] in *.
  - destruct got as [e|]; [|discriminate]. injection H as <- <-. split; [reflexivity|]. split; [exists []; reflexivity|reflexivity].
  - destruct (nth_error ts i) as [t|] eqn:N; [|discriminate].
    assert (Sp : forall y, exists l1 l2, ts = l1 ++ t :: l2 /\ set_nth i y ts = l1 ++ y :: l2 /\ del_nth i ts = l1 ++ l2)
      by (intros y; exact (set_nth_split ts i t y N)).
    destruct t; cbn [moves_pend].
    + injection H as <- <-. destruct (Sp (if mem a V then Release else Add p a)) as (l1 & l2 & -> & -> & _).
      split; [reflexivity|]. destruct (mem a V); flat2; [|kept2].
      split; [exists [a]; cbn [app]; apply Permutation_middle|reflexivity].
    + injection H as <- <-. destruct (Sp (Fetch p a)) as (l1 & l2 & -> & -> & _).
      split; [reflexivity|]. flat2. split; [apply Permutation_middle|reflexivity].
    + injection H as <- <-.
      destruct (Sp (match dw_listing w p a with Some l => Spawn p 1 l | None => Release end)) as (l1 & l2 & -> & -> & _).
      split; [reflexivity|]. destruct (dw_listing w p a) as [l|]; flat2.
      * exists l. split; [reflexivity|]. split; apply perm_front.
      * exists []. split; [reflexivity|]. split; reflexivity.
    + destruct l as [|b l].
      * injection H as <- <-. destruct (Sp Release) as (l1 & l2 & -> & -> & _). split; [reflexivity|]. flat2. kept2.
      * destruct (Nat.ltb sem max_workers) eqn:L; [|discriminate]. injection H as <- <-.
        destruct (Sp (Spawn p (S n) l)) as (l1 & l2 & -> & -> & _). split; [reflexivity|]. flat2. rewrite <- !app_assoc.
        assert (K : forall (x y : list string), Permutation (x ++ l ++ y ++ [b]) (x ++ b :: l ++ y)).
        { intros x y. apply Permutation_app_head. rewrite app_assoc. symmetry. apply Permutation_cons_append. }
        split; [exists []; apply K|apply K].
    + injection H as <- <-. destruct (Sp (after_eval (dw_entity w p b) p b)) as (l1 & l2 & -> & -> & _).
      split; [reflexivity|].
      destruct (dw_entity w p b) as [[e|] [|]]; cbn [after_eval]; flat2; (split; [|apply Permutation_middle]);
        first [exists []; reflexivity|exists [b]; cbn [app]; apply Permutation_middle].
    + destruct got; [discriminate|]. injection H as <- <-.
      destruct (Sp (if nest then Nest p b else Release)) as (l1 & l2 & -> & -> & _). split; [reflexivity|].
      destruct nest; flat2; kept2.
    + injection H as <- <-. destruct (Sp (Wait (fresh (0 :: p) b))) as (l1 & l2 & -> & -> & _). split; [reflexivity|].
      flat2. kept2.
    + apply wf_eq in W. destruct W as (_ & _ & _ & _ & WF).
      destruct (finished f) eqn:F.
      * injection H as <- <-. destruct (Sp (Forward (f_out f))) as (l1 & l2 & E & -> & _). split; [reflexivity|].
        assert (Wf : wf f) by (rewrite Forall_forall in WF; exact (WF (Wait f) (nth_error_In _ _ N))).
        destruct (finished_empty f Wf F) as (sem' & out' & ->). subst ts. flat2. kept2.
      * destruct (step w c V f) as [[V1 g']|] eqn:G; [|discriminate]. injection H as <- <-.
        assert (Wf : wf f) by (rewrite Forall_forall in WF; exact (WF (Wait f) (nth_error_In _ _ N))).
        destruct (Sp (Wait g')) as (l1 & l2 & -> & -> & _).
        apply pend_context. now apply IH.
    + destruct l as [|e l].
      * injection H as <- <-. destruct (Sp Release) as (l1 & l2 & -> & -> & _). split; [reflexivity|]. flat2. kept2.
      * destruct got; [discriminate|]. injection H as <- <-.
        destruct (Sp (Forward l)) as (l1 & l2 & -> & -> & _). split; [reflexivity|]. flat2. kept2.
    + injection H as <- <-. destruct (Sp Finish) as (l1 & l2 & -> & -> & _). split; [reflexivity|]. flat2. kept2.
    + injection H as <- <-. destruct (Sp Finish) as (l1 & l2 & -> & _ & ->). split; [reflexivity|]. flat2. kept2.
Qed.

Lemma nodup_more (l m : list string) : NoDup l -> NoDup m -> (forall x, In x l -> ~ In x m) -> NoDup (l ++ m).
Proof.
  induction l as [|x l IH]; intros A B D; [exact B|]. inversion A; subst. cbn [app]. constructor.
  - intros I. apply in_app_iff in I. destruct I as [I|I]; [auto|]. exact (D x (or_introl eq_refl) I).
  - apply IH; auto. intros y I. apply D. now right.
Qed.
Lemma nodup_rest (d m : list string) : NoDup (d ++ m) -> NoDup m.
Proof. induction d as [|x d IH]; [trivial|]. cbn [app]. intros H. inversion H. auto. Qed.

Section Tree.
  Variables (w : dworld) (ta : string).
  Hypothesis tree : one_superior w ta.

  Definition from (asked : list string) (b : string) : Prop := b = ta \/ exists a, In a asked /\ listed_by w a b.
  Definition below_asked (asked : list string) (b : string) : Prop := exists a, In a asked /\ listed_by w a b.

  Definition inv (A E V : list string) (f : frame) : Prop :=
    Permutation (A ++ fetching f) V /\
    NoDup (V ++ all_of pend_of f) /\ NoDup (E ++ all_of wait_of f) /\
    (forall b, In b (V ++ all_of pend_of f) -> from A b) /\ (forall b, In b (E ++ all_of wait_of f) -> below_asked A b).

  Lemma tree_inv cs : forall A E s s', wf (snd s) -> inv A E (fst s) (snd s) -> exec w cs s = Some s' ->
    NoDup (A ++ asked_for_lists w cs s) /\ NoDup (E ++ looked_at w cs s).
  Proof.
    induction cs as [|c cs IH]; intros A E [V f] s' W (P & N1 & N2 & F1 & F2) X; cbn [exec asked_for_lists looked_at fst snd] in *.
    - rewrite !app_nil_r. split; [|now apply NoDup_app_remove_r in N2].
      apply NoDup_app_remove_r in N1. apply (Permutation_NoDup (Permutation_sym P)) in N1. now apply NoDup_app_remove_r in N1.
    - destruct (step w c V f) as [[V1 f1]|] eqn:S1; [|discriminate].
      assert (W1 : wf f1) by (apply (steps_wf w V f V1 f1); [now apply step_steps with c|exact W]).
      pose proof (step_asks w c V f V1 f1 W S1) as Q. pose proof (step_pend w c V f V1 f1 W S1) as R.
      unfold asks_effect in Q. unfold moves_pend in R.
      assert (Same : V1 = V -> (exists d, Permutation (d ++ all_of pend_of f1) (all_of pend_of f)) ->
        Permutation (all_of wait_of f1) (all_of wait_of f) -> Permutation (fetching f1) (fetching f) -> inv A E V1 f1).
      { intros -> [d D] PW PF. split; [rewrite PF; exact P|].
        assert (PD : Permutation (d ++ V ++ all_of pend_of f1) (V ++ all_of pend_of f)).
        { rewrite <- D, !app_assoc. apply Permutation_app_tail, Permutation_app_comm. }
        split; [|split; [|split]].
        - apply (Permutation_NoDup (Permutation_sym PD)) in N1. now apply nodup_rest in N1.
        - rewrite PW. exact N2.
        - intros b I. apply F1. apply (Permutation_in b PD). apply in_app_iff. now right.
        - intros b I. apply F2. apply (Permutation_in b (Permutation_app_head E PW)). exact I. }
      assert (G : inv (A ++ match acting c f with Some (Fetch _ a) => [a] | _ => [] end)
                      (E ++ match acting c f with Some (Sub _ b) => [b] | _ => [] end) V1 f1).
      { destruct (acting c f) as [[p a|p a|p a|p n l0|p b|e nest p b|p b|g|l0| |]|]; rewrite ?app_nil_r;
          try (destruct Q as (_ & _ & PF); destruct R as (-> & PD & PW); now apply Same).
        - (* Add *)
          destruct Q as (_ & _ & PF). destruct R as (-> & PD & PW).
          assert (PA : Permutation ((a :: V) ++ all_of pend_of f1) (V ++ all_of pend_of f)).
          { rewrite <- PD. cbn [app]. apply Permutation_middle. }
          split; [rewrite PF, <- Permutation_middle; now constructor|]. split; [now rewrite PA|]. split; [now rewrite PW|].
          split; [intros b I; apply F1; now apply (Permutation_in b PA)|].
          intros b I. apply F2. apply (Permutation_in b (Permutation_app_head E PW)). exact I.
        - (* Fetch *)
          destruct Q as (_ & _ & PF). destruct R as (-> & l & L0 & PD & PW).
          assert (L : dw_listing w p a = Some l \/ l = []) by (destruct (dw_listing w p a); [left; now rewrite L0|now right]). clear L0.
          assert (NA : ~ In a A).
          { intros I. apply NoDup_app_remove_r in N1. apply (Permutation_NoDup (Permutation_sym P)) in N1.
            rewrite <- PF in N1. apply NoDup_remove_2 in N1. apply N1. apply in_app_iff. now left. }
          assert (New : forall b, In b l -> ~ below_asked A b).
          { intros b I (a' & Ia & p' & l' & L' & I'). destruct L as [L| ->]; [|destruct I].
            rewrite (proj2 tree p a l p' a' l' b L L' I I') in Ia. contradiction. }
          assert (NT : ~ In ta l).
          { intros I. destruct L as [L| ->]; [|destruct I]. exact (proj2 (proj1 tree p a l L) I). }
          assert (NL : NoDup l).
          { destruct L as [L| ->]; [|constructor]. exact (proj1 (proj1 tree p a l L)). }
          assert (Mono : forall b, below_asked A b -> below_asked (A ++ [a]) b).
          { intros b (a' & Ia & K). exists a'. split; [apply in_app_iff; now left|exact K]. }
          assert (By : forall b, In b l -> below_asked (A ++ [a]) b).
          { intros b I. exists a. split; [apply in_app_iff; right; now left|]. destruct L as [L| ->]; [|destruct I]. now exists p, l. }
          assert (P1 : Permutation (V ++ all_of pend_of f1) (l ++ V ++ all_of pend_of f)).
          { rewrite PD, !app_assoc. apply Permutation_app_tail, Permutation_app_comm. }
          assert (P2 : Permutation (E ++ all_of wait_of f1) (l ++ E ++ all_of wait_of f)).
          { rewrite PW, !app_assoc. apply Permutation_app_tail, Permutation_app_comm. }
          split; [rewrite <- app_assoc; cbn [app]; rewrite PF; exact P|]. split; [|split; [|split]].
          + rewrite P1. apply nodup_more; auto. intros b I J. destruct (F1 b J) as [-> |K]; [auto|now apply (New b)].
          + rewrite P2. apply nodup_more; auto. intros b I J. now apply (New b), (F2 b).
          + intros b I. apply (Permutation_in b P1) in I. apply in_app_iff in I. destruct I as [I|I]; [right; now apply By|].
            destruct (F1 b I) as [-> |K]; [now left|right; now apply Mono].
          + intros b I. apply (Permutation_in b P2) in I. apply in_app_iff in I. destruct I as [I|I]; [now apply By|].
            now apply Mono, F2.
        - (* Sub *)
          destruct Q as (_ & _ & PF). destruct R as (-> & [d D] & PW).
          assert (PD : Permutation (d ++ V ++ all_of pend_of f1) (V ++ all_of pend_of f)).
          { rewrite <- D, !app_assoc. apply Permutation_app_tail, Permutation_app_comm. }
          split; [rewrite PF; exact P|]. split; [|split; [|split]].
          + apply (Permutation_NoDup (Permutation_sym PD)) in N1. now apply nodup_rest in N1.
          + rewrite <- app_assoc. cbn [app]. rewrite PW. exact N2.
          + intros x I. apply F1. apply (Permutation_in x PD). apply in_app_iff. now right.
          + intros x I. apply F2. rewrite <- app_assoc in I. cbn [app] in I.
            apply (Permutation_in x (Permutation_app_head E PW)). exact I. }
      rewrite (app_assoc A), (app_assoc E). exact (IH _ _ (V1, f1) s' W1 G X).
  Qed.

  Lemma tree_start : inv [] [] (fst (start ta)) (snd (start ta)).
  Proof.
    split; [reflexivity|]. cbn. split; [repeat constructor; intros []|]. split; [constructor|].
    split; [intros b [<-|[]]; now left|intros b []].
  Qed.
End Tree.

Theorem tree_asked_once w ta cs s : one_superior w ta -> exec w cs (start ta) = Some s ->
  NoDup (asked_for_lists w cs (start ta)).
Proof. intros T X. exact (proj1 (tree_inv w ta T cs [] [] (start ta) s (start_wf ta) (tree_start w ta) X)). Qed.
Theorem tree_looked_once w ta cs s : one_superior w ta -> exec w cs (start ta) = Some s ->
  NoDup (looked_at w cs (start ta)).
Proof. intros T X. exact (proj2 (tree_inv w ta T cs [] [] (start ta) s (start_wf ta) (tree_start w ta) X)). Qed.

(** Every listed entity is looked at as often as it was listed. *)
Lemma looked_listed w cs : forall s s' A E, wf (snd s) -> Permutation (E ++ all_of wait_of (snd s)) A ->
  exec w cs s = Some s' -> wf (snd s') /\ Permutation ((E ++ looked_at w cs s) ++ all_of wait_of (snd s')) (A ++ listed_in w cs s).
Proof.
  induction cs as [|c cs IH]; intros [V f] s' A E W P X; cbn [exec looked_at listed_in fst snd] in *.
  - injection X as <-. rewrite !app_nil_r. auto.
  - destruct (step w c V f) as [[V1 f1]|] eqn:S1; [|discriminate].
    assert (W1 : wf f1) by (apply (steps_wf w V f V1 f1); [now apply step_steps with c|exact W]).
    pose proof (step_pend w c V f V1 f1 W S1) as R. unfold moves_pend in R.
    assert (G : Permutation ((E ++ match acting c f with Some (Sub _ b) => [b] | _ => [] end) ++ all_of wait_of f1)
      (A ++ match acting c f with
            | Some (Fetch p a) => match dw_listing w p a with Some l => l | None => [] end
            | _ => []
            end)).
    { destruct (acting c f) as [[p a|p a|p a|p n l0|p b|e nest p b|p b|g|l0| |]|]; rewrite ?app_nil_r;
        try (destruct R as (_ & _ & PW); rewrite PW; exact P).
      - destruct R as (_ & l & <- & _ & PW). rewrite PW, <- P, (Permutation_app_comm l), app_assoc. reflexivity.
      - destruct R as (_ & _ & PW). rewrite <- app_assoc. cbn [app]. rewrite PW. exact P. }
    rewrite (app_assoc E), (app_assoc A). exact (IH (V1, f1) s' _ _ W1 G X).
Qed.

Theorem looked_exact w ta cs s : exec w cs (start ta) = Some s -> finished (snd s) = true ->
  Permutation (looked_at w cs (start ta)) (listed_in w cs (start ta)).
Proof.
  intros X F. destruct (looked_listed w cs (start ta) s [] [] (start_wf ta) (Permutation_refl _) X) as [W P].
  destruct (finished_empty (snd s) W F) as (sem & out & E). rewrite E in P.
  replace (all_of wait_of (Frame sem 0 None out [])) with (@nil string) in P by reflexivity.
  rewrite app_nil_r in P. exact P.
Qed.
Theorem looked_not_more w ta cs s : exec w cs (start ta) = Some s ->
  exists rest, Permutation (looked_at w cs (start ta) ++ rest) (listed_in w cs (start ta)).
Proof.
  intros X. destruct (looked_listed w cs (start ta) s [] [] (start_wf ta) (Permutation_refl _) X) as [W P]. eauto.
Qed.

Lemma listed_asked w b cs : forall s, In b (listed_in w cs s) -> exists a, In a (asked_for_lists w cs s) /\ lists_once w a b.
Proof.
  induction cs as [|c cs IH]; intros s I; cbn [listed_in asked_for_lists] in *; [contradiction|].
  apply in_app_iff in I. destruct I as [I|I].
  - destruct (acting c (snd s)) as [[p a|p a|p a|p n l0|p x|e nest p x|p x|g|l0| |]|]; try contradiction.
    destruct (dw_listing w p a) as [l|] eqn:L; [|contradiction]. exists a. split; [now left|]. now exists p, l.
  - destruct (step w c (fst s) (snd s)) as [s'|]; [|contradiction]. destruct (IH s' I) as (a & A & O).
    exists a. split; [apply in_app_iff; now right|exact O].
Qed.
Lemma asked_listed w a b cs : forall s, In a (asked_for_lists w cs s) -> lists_always w a b -> In b (listed_in w cs s).
Proof.
  induction cs as [|c cs IH]; intros s I L; cbn [listed_in asked_for_lists] in *; [contradiction|].
  apply in_app_iff in I. apply in_app_iff. destruct I as [I|I].
  - left. destruct (acting c (snd s)) as [[p x|p x|p x|p n l0|p x|e nest p x|p x|g|l0| |]|]; try contradiction.
    destruct I as [<-|[]]. destruct (L p) as (l & -> & K). exact K.
  - right. destruct (step w c (fst s) (snd s)) as [s'|]; [|contradiction]. now apply IH.
Qed.

Theorem looked_only w ta cs s b : names_entities w -> exec w cs (start ta) = Some s -> In b (looked_at w cs (start ta)) ->
  below (lists_once w) (asked_once w) ta b.
Proof.
  intros names X I. destruct (looked_not_more w ta cs s X) as [r P].
  assert (J : In b (listed_in w cs (start ta))) by (apply (Permutation_in b P); apply in_app_iff; now left).
  destruct (listed_asked w b cs (start ta) J) as (a & A & O).
  destruct (asked_only w ta cs s a names X A) as [-> |[B Q]]; [now apply below_anchor|now apply below_sub with a].
Qed.
Theorem looked_every w ta cs s b : names_entities w -> exec w cs (start ta) = Some s -> finished (snd s) = true ->
  below (lists_always w) (asked_always w) ta b -> In b (looked_at w cs (start ta)).
Proof.
  intros names X F B. apply (Permutation_in b (Permutation_sym (looked_exact w ta cs s X F))).
  destruct B as [b L|a b B A L]; [apply (asked_listed w ta)|apply (asked_listed w a)]; auto;
    apply (asked_every w ta cs s); auto.
Qed.

(** If listings do not change, an entity is looked at once for each request to a superior. *)
Lemma count_nodup (b : string) l : NoDup l -> count_occ string_dec l b = if mem b l then 1 else 0.
Proof.
  intros N. destruct (mem b l) eqn:M.
  - apply mem_In in M. pose proof (proj1 (NoDup_count_occ string_dec l) N b) as A.
    pose proof (proj1 (count_occ_In string_dec l b) M) as B. lia.
  - apply mem_nIn in M. now apply count_occ_not_In.
Qed.
Lemma count_perm (b : string) l l' : Permutation l l' -> count_occ string_dec l b = count_occ string_dec l' b.
Proof.
  induction 1; cbn [count_occ]; auto.
  - destruct (string_dec x b); auto.
  - destruct (string_dec x b), (string_dec y b); auto.
  - congruence.
Qed.
Lemma listed_count w L b cs : (forall p a, dw_listing w p a = L a) -> (forall a l, L a = Some l -> NoDup l) -> forall s,
  count_occ string_dec (listed_in w cs s) b =
  List.length (filter (fun a => match L a with Some l => mem b l | None => false end) (asked_for_lists w cs s)).
Proof.
  intros ST N. induction cs as [|c cs IH]; intros s; cbn [listed_in asked_for_lists]; [reflexivity|].
  rewrite count_occ_app, filter_app, app_length.
  f_equal; [|destruct (step w c (fst s) (snd s)) as [s'|]; [apply IH|reflexivity]].
  destruct (acting c (snd s)) as [[p a|p a|p a|p n l0|p x|e nest p x|p x|g|l0| |]|]; try reflexivity.
  rewrite ST. cbn [filter]. destruct (L a) as [l|] eqn:E; [|reflexivity].
  rewrite (count_nodup b l (N a l E)). destruct (mem b l); reflexivity.
Qed.
Theorem looked_superiors w L ta cs s b : (forall p a, dw_listing w p a = L a) -> (forall a l, L a = Some l -> NoDup l) ->
  exec w cs (start ta) = Some s -> finished (snd s) = true ->
  count_occ string_dec (looked_at w cs (start ta)) b =
  List.length (filter (fun a => match L a with Some l => mem b l | None => false end) (asked_for_lists w cs (start ta))).
Proof.
  intros ST N X F. rewrite (count_perm b _ _ (looked_exact w ta cs s X F)). now apply listed_count.
Qed.

(** No authority is asked more often than it was looked at. *)
Definition cand_of (t : task) : list string :=
  match t with
  | Check _ a | Add _ a => [a]
  | Nest _ b => [b]
  | Send _ true _ b => [b]
  | _ => []
  end.
Definition moves_cand (V : list string) (f : frame) (t : option task) (V' : list string) (f' : frame) : Prop :=
  match t with
  | Some (Add _ a) => V' = a :: V /\ Permutation (a :: all_of cand_of f') (all_of cand_of f)
  | Some (Sub _ b) => V' = V /\ exists d, Permutation (d ++ all_of cand_of f') (b :: all_of cand_of f)
  | _ => V' = V /\ exists d, Permutation (d ++ all_of cand_of f') (all_of cand_of f)
  end.
Lemma cand_context V V' g g' t sem wg got out l1 l2 :
  moves_cand V g t V' g' ->
  moves_cand V (Frame sem wg got out (l1 ++ Wait g :: l2)) t V' (Frame sem wg got out (l1 ++ Wait g' :: l2)).
Proof.
  assert (AE : forall F h, all_of F (Frame sem wg got out (l1 ++ Wait h :: l2)) =
    flat_map F (flat_map core l1) ++ all_of F h ++ flat_map F (flat_map core l2)).
  { intros F h. rewrite all_of_eq, flat_map_app. cbn [flat_map]. rewrite core_wait, !flat_map_app. reflexivity. }
  unfold moves_cand. rewrite !AE.
  destruct t as [[p a|p a|p a|p n l|p b|e nest p b|p b|f|l| |]|]; intros [-> H]; (split; [reflexivity|]);
    try (destruct H as [d P]; exists d; rewrite perm_add; now apply perm_in).
  - rewrite perm_out. now apply perm_in.
  - destruct H as [d P]. exists d. rewrite perm_add, perm_out. now apply perm_in.
Qed.
Ltac flat3 := rewrite ?all_of_eq, ?flat_map_app; cbn [flat_map core cand_of app]; rewrite ?flat_map_app, ?app_nil_r; cbn [flat_map app].
Lemma step_cand w c : forall V f V' f', wf f -> step w c V f = Some (V', f') -> moves_cand V f (acting c f) V' f'.
Proof.
  induction c as [|i c IH]; intros V [sem wg got out ts] V' f' W H; cbn [step acting] in *.
  - destruct got as [e|]; [|discriminate]. injection H as <- <-. split; [reflexivity|]. exists []; reflexivity.
  - destruct (nth_error ts i) as [t|] eqn:N; [|discriminate].
    assert (Sp : forall y, exists l1 l2, ts = l1 ++ t :: l2 /\ set_nth i y ts = l1 ++ y :: l2 /\ del_nth i ts = l1 ++ l2)
      by (intros y; exact (set_nth_split ts i t y N)).
    destruct t; cbn [moves_cand].
    + injection H as <- <-. destruct (Sp (if mem a V then Release else Add p a)) as (l1 & l2 & -> & -> & _).
      split; [reflexivity|]. destruct (mem a V); flat3; [exists [a]; cbn [app]; apply Permutation_middle|exists []; reflexivity].
    + injection H as <- <-. destruct (Sp (Fetch p a)) as (l1 & l2 & -> & -> & _).
      split; [reflexivity|]. flat3. apply Permutation_middle.
    + injection H as <- <-.
      destruct (Sp (match dw_listing w p a with Some l => Spawn p 1 l | None => Release end)) as (l1 & l2 & -> & -> & _).
      split; [reflexivity|]. destruct (dw_listing w p a) as [l|]; flat3; exists []; reflexivity.
    + destruct l as [|b l].
      * injection H as <- <-. destruct (Sp Release) as (l1 & l2 & -> & -> & _). split; [reflexivity|]. flat3. exists []; reflexivity.
      * destruct (Nat.ltb sem max_workers) eqn:L; [|discriminate]. injection H as <- <-.
        destruct (Sp (Spawn p (S n) l)) as (l1 & l2 & -> & -> & _). split; [reflexivity|]. flat3. exists []; reflexivity.
    + injection H as <- <-. destruct (Sp (after_eval (dw_entity w p b) p b)) as (l1 & l2 & -> & -> & _).
      split; [reflexivity|].
      destruct (dw_entity w p b) as [[e|] [|]]; cbn [after_eval]; flat3;
        first [exists [b]; reflexivity|exists []; cbn [app]; symmetry; apply Permutation_middle].
    + destruct got; [discriminate|]. injection H as <- <-.
      destruct (Sp (if nest then Nest p b else Release)) as (l1 & l2 & -> & -> & _). split; [reflexivity|].
      destruct nest; flat3; exists []; reflexivity.
    + injection H as <- <-. destruct (Sp (Wait (fresh (0 :: p) b))) as (l1 & l2 & -> & -> & _). split; [reflexivity|].
      flat3. exists []; reflexivity.
    + apply wf_eq in W. destruct W as (_ & _ & _ & _ & WF).
      destruct (finished f) eqn:F.
      * injection H as <- <-. destruct (Sp (Forward (f_out f))) as (l1 & l2 & E & -> & _). split; [reflexivity|].
        assert (Wf : wf f) by (rewrite Forall_forall in WF; exact (WF (Wait f) (nth_error_In _ _ N))).
        destruct (finished_empty f Wf F) as (sem' & out' & ->). subst ts. flat3. exists []; reflexivity.
      * destruct (step w c V f) as [[V1 g']|] eqn:G; [|discriminate]. injection H as <- <-.
        assert (Wf : wf f) by (rewrite Forall_forall in WF; exact (WF (Wait f) (nth_error_In _ _ N))).
        destruct (Sp (Wait g')) as (l1 & l2 & -> & -> & _).
        apply cand_context. now apply IH.
    + destruct l as [|e l].
      * injection H as <- <-. destruct (Sp Release) as (l1 & l2 & -> & -> & _). split; [reflexivity|]. flat3. exists []; reflexivity.
      * destruct got; [discriminate|]. injection H as <- <-.
        destruct (Sp (Forward l)) as (l1 & l2 & -> & -> & _). split; [reflexivity|]. flat3. exists []; reflexivity.
    + injection H as <- <-. destruct (Sp Finish) as (l1 & l2 & -> & -> & _). split; [reflexivity|]. flat3. exists []; reflexivity.
    + injection H as <- <-. destruct (Sp Finish) as (l1 & l2 & -> & _ & ->). split; [reflexivity|]. flat3. exists []; reflexivity.
Qed.

Lemma visited_looked w cs : forall s s' E, wf (snd s) -> (exists r, Permutation (r ++ fst s ++ all_of cand_of (snd s)) E) ->
  exec w cs s = Some s' -> exists r, Permutation (r ++ fst s' ++ all_of cand_of (snd s')) (E ++ looked_at w cs s).
Proof.
  induction cs as [|c cs IH]; intros [V f] s' E W [r P] X; cbn [exec looked_at fst snd] in *.
  - injection X as <-. rewrite app_nil_r. eauto.
  - destruct (step w c V f) as [[V1 f1]|] eqn:S1; [|discriminate].
    assert (W1 : wf f1) by (apply (steps_wf w V f V1 f1); [now apply step_steps with c|exact W]).
    pose proof (step_cand w c V f V1 f1 W S1) as R. unfold moves_cand in R.
    assert (K : forall d C C', Permutation (d ++ C') C -> Permutation ((d ++ r) ++ V ++ C') (r ++ V ++ C)).
    { intros d C C' D. rewrite <- D, <- app_assoc. transitivity (r ++ d ++ V ++ C'); [apply Permutation_app_swap_app|].
      apply Permutation_app_head, Permutation_app_swap_app. }
    assert (G : exists r', Permutation (r' ++ V1 ++ all_of cand_of f1)
      (E ++ match acting c f with Some (Sub _ b) => [b] | _ => [] end)).
    { destruct (acting c f) as [[p a|p a|p a|p n l0|p b|e nest p b|p b|g|l0| |]|]; rewrite ?app_nil_r;
        try (destruct R as (-> & d & D); exists (d ++ r); rewrite <- P; now apply K).
      - destruct R as (-> & D). exists r. rewrite <- P, <- D. apply Permutation_app_head. cbn [app]. apply Permutation_middle.
      - destruct R as (-> & d & D). exists (d ++ r). rewrite (K d _ _ D), <- P, <- !app_assoc.
        do 2 apply Permutation_app_head. apply Permutation_cons_append. }
    rewrite (app_assoc E). exact (IH (V1, f1) s' _ W1 G X).
Qed.

Theorem asked_looked w ta cs s : exec w cs (start ta) = Some s ->
  exists rest, Permutation (asked_for_lists w cs (start ta) ++ rest) (ta :: looked_at w cs (start ta)).
Proof.
  intros X. destruct (asked_visited w cs (start ta) s [] (start_wf ta)) as [_ P]; [reflexivity|exact X|]. cbn [app] in P.
  destruct (visited_looked w cs (start ta) s [ta] (start_wf ta)) as [r Q]; [exists []; reflexivity|exact X|].
  exists (fetching (snd s) ++ r ++ all_of cand_of (snd s)). cbn [app] in Q. rewrite <- Q, <- P.
  rewrite !app_assoc. apply Permutation_app_tail. rewrite <- !app_assoc, (Permutation_app_comm r), <- !app_assoc. reflexivity.
Qed.
Theorem asked_bounded w L ta cs s b : (forall p a, dw_listing w p a = L a) -> (forall a l, L a = Some l -> NoDup l) ->
  exec w cs (start ta) = Some s ->
  count_occ string_dec (asked_for_lists w cs (start ta)) b <=
  (if String.eqb b ta then 1 else 0) +
  List.length (filter (fun a => match L a with Some l => mem b l | None => false end) (asked_for_lists w cs (start ta))).
Proof.
  intros ST N X. destruct (asked_looked w ta cs s X) as [r P]. destruct (looked_not_more w ta cs s X) as [q Q].
  apply (count_perm b) in P. apply (count_perm b) in Q. rewrite count_occ_app in P, Q. cbn [count_occ] in P.
  rewrite (listed_count w L b cs ST N) in Q.
  destruct (String.eqb_spec b ta) as [->|D].
  - destruct (string_dec ta ta); [|contradiction]. lia.
  - destruct (string_dec ta b) as [E|_]; [now destruct D|]. lia.
Qed.
