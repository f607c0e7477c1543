(** What a chain of policies makes of an attribute with a single value. *)
From Verif Require Import Base GoVal Policy Schema Metadata Chain BaseFacts SpecPolicy SpecMetadata SpecChain SpecSingle
  PolicyFacts MergeFacts CombineFacts MetadataFacts ChainFacts SingleFacts.
Local Open Scope string_scope.

Lemma stated_set em k r cur : stated em k r cur -> mem (fr_name r) (em_set em) = is_some cur.
Proof. intros [_ H]. exact H. Qed.

Lemma says_nothing ss cur : alike [None] ss -> outcome ss cur cur.
Proof.
  intros A. eapply alike_outcome; [exact A|].
  assert (NO : forall s : single, ~ In (Some s) [None]) by (intros s [E|[]]; discriminate).
  constructor.
  - intros x (s & K & _). elim (NO _ K).
  - auto.
  - intros d _ (s & K & _). elim (NO _ K).
  - intros [(s & K & _)|[H _]] _; [elim (NO _ K)|auto].
  - intros l x (s & K & _). elim (NO _ K).
  - intros (s & K & _). elim (NO _ K).
Qed.

Lemma field_result e s t cur nm v : states e s -> single_type t ->
  (v' <- apply_to e (field_value t cur) (is_some cur) ;; assign t (scope_fix nm v')) = Ok v ->
  exists out, run s cur = Ok out /\ v = field_value t out.
Proof.
  intros S T H. pose proof (apply_single e s t cur S T) as A. destruct (run s cur) as [o| |].
  - destruct A as (w & E & Hh). rewrite E in H. cbn [bind] in H. destruct (assign_held t o w nm Hh T) as (_ & W & _). destruct (proj1 (W v) H) as [_ E']. exists o. auto.
  - rewrite A in H. discriminate.
  - rewrite A in H. discriminate.
Qed.

Theorem chain_single c md t k ss em r cur :
  2 <= List.length c -> chain_metadata c = Ok (Some md) -> In t entity_types ->
  Forall2 (says k) (policies_of (snd t) c) ss ->
  fst t (leaf_metadata c) = Some em -> stated em k r cur -> fr_ty r = TStr \/ fr_ty r = TBool ->
  exists out em', fst t md = Some em' /\ em_tag k em' = Some (field_value (fr_ty r) out) /\ outcome ss cur out.
Proof.
  intros HL HM Ht HF He St T. pose proof St as [Hf _].
  destruct (chain_metadata_types c _ HL HM) as (m & E & TT & _). injection E as <-.
  destruct (TT t Ht) as (p & Hp & R). rewrite He in R.
  destruct (combine_says _ _ _ _ HF Hp) as (f & [ND D] & A & _).
  assert (Etag : fr_tag r = k). { apply find_some in Hf as [_ B]. symmetry. now apply String.eqb_eq. }
  destruct p as [q|].
  2:{ simpl in D. destruct f; [contradiction|]. exists cur, em. split; auto. split; [unfold em_tag; now rewrite Hf|now apply says_nothing]. }
  destruct R as (em' & Ha & Hmd). cbn [pol] in *.
  apply apply_policy_fields in Ha as [_ FF].
  pose proof (find_parallel _ _ k _ _ FF) as P. unfold by_tag in P. rewrite Hf in P.
  destruct (find _ (em_fields em')) as [[r' v0]|] eqn:Ef; [|contradiction].
  unfold apply_field in P. rewrite Etag in P.
  destruct (lookup k q) as [e|] eqn:Ek.
  - destruct f as [s|]; [|contradiction]. rewrite (stated_set _ _ _ _ St) in P.
    apply bind_ok in P as (v' & Hv' & P). apply bind_ok in P as (v'' & Hv'' & P). injection P as <- <-.
    destruct (field_result e s (fr_ty r) cur (fr_name r) v'' D T) as (out & Hr & ->).
    { rewrite Hv'. exact Hv''. }
    exists out, em'. split; auto. split; [unfold em_tag; now rewrite Ef|].
    eapply alike_outcome; [exact A|]. now apply run_outcome in Hr as [Hr _].
  - destruct f as [s|]; [contradiction|]. injection P as <- <-. exists cur, em'. split; auto.
    split; [unfold em_tag; now rewrite Ef|now apply says_nothing].
Qed.

(** ** Exactly *)

Lemma with_value_same k r v em :
  NoDup (map (fun fv : frow * gval => fr_tag (fst fv)) (em_fields em)) ->
  find (fun fv : frow * gval => String.eqb k (fr_tag (fst fv))) (em_fields em) = Some (r, v) ->
  with_value k v em = em.
Proof.
  intros ND Hf. destruct em as [fs set]. unfold with_value. cbn [em_fields em_set] in *. f_equal.
  induction fs as [|[r1 v1] fs IH]; [discriminate|]. cbn [map find fst snd] in *. inversion ND as [|? ? N ND']; subst.
  destruct (String.eqb_spec k (fr_tag r1)) as [->|Ne].
  - injection Hf as <- <-. f_equal.
    clear -N. induction fs as [|[r2 v2] fs IH]; auto. cbn [map fst] in *.
    destruct (String.eqb_spec (fr_tag r1) (fr_tag r2)) as [E|_]; [elim N; left; auto|]. f_equal. apply IH. intros K. apply N. now right.
  - f_equal. now apply IH.
Qed.

Lemma fields_one ws k e r v fs :
  NoDup (map (fun fv : frow * gval => fr_tag (fst fv)) fs) ->
  find (fun fv : frow * gval => String.eqb k (fr_tag (fst fv))) fs = Some (r, v) ->
  map_res (apply_field ws [(k, e)]) fs =
  (w <- (v' <- apply_to e v (mem (fr_name r) ws) ;; assign (fr_ty r) (scope_fix (fr_name r) v')) ;;
   Ok (map (fun fv : frow * gval => if String.eqb k (fr_tag (fst fv)) then (fst fv, w) else fv) fs)).
Proof.
  assert (SKIP : forall fs, ~ In k (map (fun fv : frow * gval => fr_tag (fst fv)) fs) ->
     map_res (apply_field ws [(k, e)]) fs = Ok fs /\
     forall w, map (fun fv : frow * gval => if String.eqb k (fr_tag (fst fv)) then (fst fv, w) else fv) fs = fs).
  { clear. induction fs as [|[r v] fs IH]; intros N; [auto|]. cbn [map map_res fst] in *.
    destruct IH as [I1 I2]; [intros K; apply N; now right|].
    assert (Ne : k <> fr_tag r) by (intros K; apply N; left; auto).
    unfold apply_field at 1. cbn [lookup]. destruct (String.eqb_spec (fr_tag r) k); [congruence|]. cbn [bind]. rewrite I1. cbn [bind].
    split; auto. intros w. destruct (String.eqb_spec k (fr_tag r)); [contradiction|]. now rewrite I2. }
  induction fs as [|[r1 v1] fs IH]; [discriminate|]. intros ND Hf. cbn [map find map_res fst] in *. inversion ND as [|? ? N ND']; subst.
  unfold apply_field at 1. cbn [lookup].
  destruct (String.eqb_spec k (fr_tag r1)) as [->|Ne].
  - injection Hf as <- <-. rewrite String.eqb_refl. destruct (SKIP fs N) as [S1 S2].
    destruct (apply_to e v1 (mem (fr_name r1) ws)) as [v'| |]; cbn [bind]; auto.
    destruct (assign (fr_ty r1) (scope_fix (fr_name r1) v')) as [w| |]; cbn [bind]; auto. rewrite S1. cbn [bind]. now rewrite S2.
  - destruct (String.eqb_spec (fr_tag r1) k); [congruence|]. cbn [bind]. rewrite (IH ND' Hf).
    destruct (v' <- apply_to e v (mem (fr_name r) ws);; assign (fr_ty r) (scope_fix (fr_name r) v')) as [w| |]; reflexivity.
Qed.

Lemma combine_shape k ps ss q : Forall2 (says k) ps ss -> only k ps -> combine_policies ps = Ok q -> exists f, shape k q f.
Proof.
  intros F O. apply says_shapes in F; auto.
  assert (G : forall ps ss out so, shape k out so -> Forall2 (shape k) ps ss -> forall q, combine_fold out ps = Ok q -> exists f, shape k q f).
  { clear. induction ps as [|p ps IH]; intros ss out so D F q H; inversion F as [|? sp ? ss' Dp F']; subst; cbn [combine_fold] in H.
    - injection H as <-. eauto.
    - apply bind_ok in H as (o & H1 & H2). exact (IH _ _ _ (combine2_keeps _ _ _ _ _ _ D Dp H1) F' _ H2). }
  destruct F as [|p sp ps ss Dp F]; cbn [combine_policies].
  - intros E. injection E as <-. exists None. left. auto.
  - intros H. apply bind_ok in H as ([] & _ & H). eapply G; eauto.
Qed.

Lemma no_blanks_out ss cur out : no_blanks ss cur -> outcome ss cur out -> forall x, out = Some x -> ~ blank x.
Proof.
  intros NB [V K D N I E] x -> B. destruct (NB x B) as (N1 & N2 & N3).
  (* the value comes from the subject, a fixed value or a default *)
  assert (NF : forall v, ~ fixes ss v).
  { intros [y|] Hf.
    - pose proof (V y Hf) as Ey. injection Ey as <-. contradiction.
    - assert (ND : forall d, ~ offers ss d). { intros d Hd. pose proof (D d (or_introl Hf) Hd) as Ed. injection Ed as <-. contradiction. }
      discriminate (N (or_introl Hf) ND). }
  destruct cur as [y|].
  - pose proof (K y NF eq_refl) as Ey. injection Ey as <-. now apply N1.
  - assert (ND : forall d, ~ offers ss d). { intros d Hd. pose proof (D d (or_intror (conj eq_refl NF)) Hd) as Ed. injection Ed as <-. contradiction. }
    discriminate (N (or_intror (conj eq_refl NF)) ND).
Qed.

Lemma says_nothing_out ss cur out : alike [None] ss -> outcome ss cur out -> out = cur.
Proof.
  intros A O. apply (alike_outcome _ _ _ _ (alike_sym _ _ A)) in O. destruct O as [V K D N I E].
  assert (NO : forall s : single, ~ In (Some s) [None]) by (intros s [E'|[]]; discriminate).
  assert (NF : forall v, ~ fixes [None] v) by (intros v (s & K' & _); elim (NO _ K')).
  destruct cur as [x|]; [now apply K|]. apply N; auto. intros d (s & K' & _). elim (NO _ K').
Qed.

Lemma alike_requires s ss : alike [Some s] ss -> sg_essential s = Some true -> requires ss.
Proof. intros A E. apply (al_req _ _ A). exists s. split; [now left|auto]. Qed.

Theorem single_exact k ps ss em r cur m' :
  Forall2 (says k) ps ss -> only k ps -> Forall coherent ss -> no_blanks ss cur ->
  NoDup (map (fun fv : frow * gval => fr_tag (fst fv)) (em_fields em)) ->
  stated em k r cur -> fr_ty r = TStr \/ fr_ty r = TBool -> (forall x, cur = Some x -> has_type (fr_ty r) x) ->
  ((exists q, combine_policies ps = Ok q /\ apply_one (Some em) q = Ok (Some m')) <->
   agreed ss /\ exists out, outcome ss cur out /\ (forall x, out = Some x -> has_type (fr_ty r) x) /\
                            m' = with_value k (field_value (fr_ty r) out) em).
Proof.
  intros F O CO NB ND St T HT. pose proof St as [Hf _].
  assert (PR : Forall proper_opt ss) by (eapply Forall_impl; [|exact CO]; intros s; apply coherent_proper).
  assert (SAME : with_value k (field_value (fr_ty r) cur) em = em) by (eapply with_value_same; eauto).
  split.
  - intros (q & Hq & Ha). destruct (combine_says _ _ _ _ F Hq) as (f & Sf & A & P).
    split; [eapply alike_agreed_of; eauto|].
    destruct (combine_shape _ _ _ _ F O Hq) as (f' & [[Eq _]|(e & s' & Eq & _ & _)]).
    + assert (f = None) as -> by (destruct Sf as [_ Sf]; rewrite Eq in Sf; simpl in Sf; destruct f; [contradiction|auto]).
      exists cur. split; [now apply says_nothing|]. split; auto. rewrite SAME.
      destruct q as [q|]; simpl in Ha; [|congruence]. simpl in Eq. subst q.
      unfold apply_policy in Ha. rewrite (map_res_ok_map _ (fun x => x)) in Ha by (now intros [? ?]).
      rewrite map_id in Ha. cbn [bind] in Ha. destruct em; simpl in *; congruence.
    + destruct Sf as [_ Sf]. rewrite Eq in Sf. simpl in Sf. rewrite String.eqb_refl in Sf. destruct f as [s|]; [|contradiction].
      destruct q as [q|]; simpl in Eq; [|discriminate]. subst q. cbn [apply_one] in Ha.
      unfold apply_policy in Ha. rewrite (fields_one _ k e r _ _ ND Hf), (stated_set _ _ _ _ St) in Ha.
      apply bind_ok in Ha as (em' & Ha & E). injection E as <-. apply bind_ok in Ha as (fs & Ha & E). injection E as <-.
      apply bind_ok in Ha as (w & Hw & E). injection E as <-.
      destruct (field_result e s (fr_ty r) cur (fr_name r) w Sf T Hw) as (out & Hr & ->).
      apply bind_ok in Hw as (v' & Hv' & Has). 
      pose proof (apply_single e s (fr_ty r) cur Sf T) as AS. rewrite Hr in AS. destruct AS as (v2 & E2 & Hh).
      assert (v2 = v') as -> by congruence. destruct (assign_held _ _ _ (fr_name r) Hh T) as (_ & W & _). destruct (proj1 (W _) Has) as [Hty _].
      exists out. split; [eapply alike_outcome; [exact A|]; now apply run_outcome in Hr as [Hr _]|]. split; auto.
  - intros (AG & out & Ho & Hty & ->). destruct (combine_total _ _ _ F O) as [_ OK]. destruct (OK AG) as (q & Hq). exists q. split; auto.
    destruct (combine_says _ _ _ _ F Hq) as (f & Sf & A & P).
    destruct (combine_shape _ _ _ _ F O Hq) as (f' & Sh).
    destruct Sh as [[Eq ->]|(e & s' & Eq & -> & Se')].
    + assert (f = None) as -> by (destruct Sf as [_ Sf]; rewrite Eq in Sf; simpl in Sf; destruct f; [contradiction|auto]).
      assert (out = cur) as -> by (eapply says_nothing_out; eauto). rewrite SAME.
      destruct q as [q|]; simpl; auto. simpl in Eq. subst q.
      unfold apply_policy. rewrite (map_res_ok_map _ (fun x => x)) by (now intros [? ?]). rewrite map_id. now destruct em.
    + destruct Sf as [_ Sf]. rewrite Eq in Sf. simpl in Sf. rewrite String.eqb_refl in Sf. destruct f as [s|]; [|contradiction].
      destruct q as [q|]; simpl in Eq; [|discriminate]. subst q. cbn [apply_one].
      unfold apply_policy. rewrite (fields_one _ k e r _ _ ND Hf), (stated_set _ _ _ _ St).
      assert (Hr : run s cur = Ok out).
      { apply run_outcome. split; [eapply alike_outcome; [apply alike_sym; exact A|auto]|].
        intros _. eapply no_blanks_out; eauto. }
      pose proof (apply_single e s (fr_ty r) cur Sf T) as AS. rewrite Hr in AS. destruct AS as (v2 & E2 & Hh). rewrite E2. cbn [bind].
      destruct (assign_held _ _ _ (fr_name r) Hh T) as (_ & W & _).
      assert (E : assign (fr_ty r) (scope_fix (fr_name r) v2) = Ok (field_value (fr_ty r) out)) by (apply W; auto).
      rewrite E. reflexivity.
Qed.

Theorem single_safe k ps ss em r cur :
  Forall2 (says k) ps ss -> only k ps ->
  NoDup (map (fun fv : frow * gval => fr_tag (fst fv)) (em_fields em)) ->
  stated em k r cur -> fr_ty r = TStr \/ fr_ty r = TBool ->
  (forall x, cur = Some x \/ fixes ss (Some x) \/ offers ss x -> has_type (fr_ty r) x) ->
  combine_policies ps <> Panic /\ forall q, combine_policies ps = Ok q -> apply_one (Some em) q <> Panic.
Proof.
  intros F O ND St T HT. pose proof St as [Hf _]. split; [eapply combine_total; eauto|].
  intros q Hq. destruct (combine_says _ _ _ _ F Hq) as (f & Sf & A & _).
  destruct (combine_shape _ _ _ _ F O Hq) as (f' & [[Eq _]|(e & s' & Eq & _ & _)]).
  - destruct q as [q|]; simpl; [|discriminate]. simpl in Eq. subst q.
    unfold apply_policy. rewrite (map_res_ok_map _ (fun x => x)) by (now intros [? ?]). discriminate.
  - destruct Sf as [_ Sf]. rewrite Eq in Sf. simpl in Sf. rewrite String.eqb_refl in Sf. destruct f as [s|]; [|contradiction].
    destruct q as [q|]; simpl in Eq; [|discriminate]. subst q. cbn [apply_one].
    unfold apply_policy. rewrite (fields_one _ k e r _ _ ND Hf), (stated_set _ _ _ _ St).
    pose proof (apply_single e s (fr_ty r) cur Sf T) as AS. destruct (run s cur) as [o| |] eqn:Hr.
    2,3: rewrite AS; discriminate.
    destruct AS as (v & E & Hh). rewrite E. cbn [bind].
    assert (IN : In (Some s) [Some s]) by now left.
    assert (OT : forall x, o = Some x -> has_type (fr_ty r) x).
    { intros x ->. apply HT. unfold run in Hr.
      assert (Fx : filled s cur = Some x).
      { destruct (filled s cur) as [y|].
        - destruct (match sg_one_of s with Some l => sc_in y l | None => true end); [|discriminate].
          destruct (_ && _)%bool; [discriminate|]. injection Hr as <-. reflexivity.
        - destruct (match sg_essential s with Some true => true | _ => false end); discriminate. }
      unfold filled, base in Fx. destruct (sg_value s) as [[y|]|] eqn:Ev.
      - injection Fx as <-. right; left. apply (al_fixes _ _ A). exists s. auto.
      - right; right. apply (al_offers _ _ A). exists s. auto.
      - destruct cur as [y|]; [left; auto|]. right; right. apply (al_offers _ _ A). exists s. auto. }
    destruct (assign_held _ _ _ (fr_name r) Hh T) as (_ & W & _).
    assert (E2 : assign (fr_ty r) (scope_fix (fr_name r) v) = Ok (field_value (fr_ty r) o)) by (apply W; auto).
    rewrite E2. discriminate.
Qed.
