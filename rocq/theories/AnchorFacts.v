(** Proofs about resolving with several trust anchors. *)
From Verif Require Import Base GoVal Policy Schema Metadata Chain BaseFacts Resolver SpecResolver SpecExact SpecAnchors ResolverFacts ExactFacts.
From Verif Require CritFacts.
From Coq Require Import Permutation.
Local Open Scope string_scope.

(** ** Only the configured keys count *)

Lemma pinned_in tas id : In id (anchor_ids tas) <-> pinned tas id <> None.
Proof.
  unfold pinned, anchor_ids. induction tas as [|ta tas IH]; cbn [map find In]; [split; [intros []|intros H; now elim H]|].
  destruct (String.eqb_spec (ta_id ta) id) as [E|N]; [split; [discriminate|auto]|].
  rewrite <- IH. split; [intros [E|H]; [contradiction|exact H]|auto].
Qed.

Lemma pinned_trusted tas e ks : trusted_keys tas e ks <->
  exists k, pinned tas (st_iss e) = Some k /\ ks = match k with None => st_jwks e | Some l => Some l end.
Proof.
  unfold trusted_keys, pinned. split.
  - intros (pre & ta & post & -> & E & N & ->). exists (ta_jwks ta). split; auto.
    induction pre as [|x pre IH]; cbn [find app].
    + rewrite E, String.eqb_refl. reflexivity.
    + destruct (String.eqb_spec (ta_id x) (st_iss e)) as [K|_]; [elim (N x (or_introl eq_refl) K)|].
      apply IH. intros y Hy. apply N. now right.
  - intros (k & H & ->). induction tas as [|x tas IH]; cbn [find] in H; [discriminate|].
    destruct (String.eqb_spec (ta_id x) (st_iss e)) as [K|N].
    + injection H as <-. exists [], x, tas. split; [reflexivity|]. split; [exact K|]. split; [intros y []|auto].
    + destruct (IH H) as (pre & ta & post & -> & E & N' & Ek). exists (x :: pre), ta, post.
      split; [reflexivity|]. split; [exact E|]. split; [|exact Ek]. intros y [<-|Hy]; auto.
Qed.

Lemma pinned_keys tas e s : anchor_keys tas e s =
  if (String.eqb (st_iss e) (st_sub e) && String.eqb (st_iss e) (st_iss s))%bool
  then option_map (fun k : jwks => match k with None => st_jwks e | ks => ks end) (pinned tas (st_iss e)) else None.
Proof.
  unfold anchor_keys, pinned. induction tas as [|ta tas IH]; cbn [find]; [now destruct (_ && _)%bool|].
  destruct (String.eqb_spec (ta_id ta) (st_iss e)) as [E|N]; cbn [andb].
  - rewrite E. revert IH. destruct (_ && _)%bool; auto. intros _. cbn. now destruct (ta_jwks ta).
  - exact IH.
Qed.

Section Same.
Context (tas tas' : list anchor) (S : forall id, pinned tas id = pinned tas' id).

Lemma same_mem id : mem id (anchor_ids tas) = mem id (anchor_ids tas').
Proof.
  assert (H : In id (anchor_ids tas) <-> In id (anchor_ids tas')) by (rewrite !pinned_in, S; tauto).
  destruct (mem id (anchor_ids tas)) eqn:E, (mem id (anchor_ids tas')) eqn:E'; auto.
  - apply mem_In, H, mem_In in E. congruence.
  - apply mem_In, H, mem_In in E'. congruence.
Qed.

Lemma same_empty : match tas with [] => true | _ => false end = match tas' with [] => true | _ => false end.
Proof.
  destruct tas as [|x l], tas' as [|y l']; auto.
  - specialize (S (ta_id y)). unfold pinned in S. cbn [find] in S. rewrite String.eqb_refl in S. discriminate.
  - specialize (S (ta_id x)). unfold pinned in S. cbn [find] in S. rewrite String.eqb_refl in S. discriminate.
Qed.

Lemma hints_loop_ext step rec rec' : (forall i a ec s, rec i a ec s = rec' i a ec s) ->
  forall hs i x, hints_loop step rec i hs x = hints_loop step rec' i hs x.
Proof.
  intros H. induction hs as [|a hs IH]; intros i x; cbn [hints_loop]; auto.
  destruct (step i a) as [[ec s]|]; [rewrite H; destruct (rec' i a ec s); auto; now rewrite IH|now rewrite IH].
Qed.

Lemma same_resolve w fuel : forall p d types ids e sub,
  resolve fuel w tas p d types ids e sub = resolve fuel w tas' p d types ids e sub.
Proof.
  induction fuel as [|f IH]; intros; cbn [resolve]; auto. rewrite same_mem. destruct (mem _ _); auto.
  destruct (st_hints e) as [|h hs]; auto.
  erewrite hints_loop_ext; [reflexivity|]. intros i a ec s. apply IH.
Qed.

Lemma same_verify w t : verify_sigs w tas t = verify_sigs w tas' t.
Proof.
  induction t as [e sub auth x IH] using CritFacts.tree_ind_in. cbn [verify_sigs].
  match goal with |- match sub with None => ?r | _ => _ end = match sub with None => ?r' | _ => _ end => assert (R : r = r') end.
  { destruct auth as [l|]; auto. f_equal.
    assert (H : forall t, In t l -> verify_sigs w tas t = verify_sigs w tas' t) by (intros t; now apply IH). clear IH.
    induction l as [|a l IHl]; auto. rewrite (H a); [|now left]. rewrite IHl; [reflexivity|]. intros t Ht. apply H. now right. }
  rewrite R. destruct sub as [s|]; auto. destruct e as [en|].
  - rewrite !pinned_keys, S. reflexivity.
  - pose proof same_empty as E. destruct tas, tas'; try discriminate; reflexivity.
Qed.

Theorem same_chains fuel w types start :
  resolve_chains fuel w tas types start = resolve_chains fuel w tas' types start /\
  resolve_valid fuel w tas types start = resolve_valid fuel w tas' types start.
Proof.
  assert (H : resolve_chains fuel w tas types start = resolve_chains fuel w tas' types start).
  { unfold resolve_chains, resolve_tree. destruct (String.eqb start ""); [cbn; now destruct tas, tas'|].
    destruct (w_config w [] start) as [s|]; [|cbn; now destruct tas, tas'].
    destruct (st_metadata s) as [m|]; auto. rewrite same_resolve. destruct (resolve _ _ _ _ _ _ _ _ _) as [t|]; auto.
    cbn [bind]. now rewrite same_verify. }
  split; [exact H|]. unfold resolve_valid. now rewrite H.
Qed.
End Same.

Lemma pinned_perm tas tas' : Permutation tas tas' -> NoDup (anchor_ids tas) -> forall id, pinned tas id = pinned tas' id.
Proof.
  intros P. induction P as [|x l l' P IH|x y l|l l' l'' P1 IH1 P2 IH2]; intros N id; auto.
  - unfold pinned in *. cbn [find]. destruct (String.eqb (ta_id x) id); auto. apply IH. now inversion N.
  - unfold pinned. cbn [find]. destruct (String.eqb_spec (ta_id y) id) as [E|E], (String.eqb_spec (ta_id x) id) as [E'|E']; auto.
    inversion N as [|? ? H _]. elim H. left. congruence.
  - rewrite IH1; auto. apply IH2. unfold anchor_ids in *. eapply Permutation_NoDup; [apply Permutation_map; exact P1|exact N].
Qed.

Theorem order_chains tas tas' : Permutation tas tas' -> NoDup (anchor_ids tas) -> forall fuel w types start,
  resolve_chains fuel w tas types start = resolve_chains fuel w tas' types start /\
  resolve_valid fuel w tas types start = resolve_valid fuel w tas' types start.
Proof. intros P N fuel w types start. apply same_chains. now apply pinned_perm. Qed.

(** ** From one set of anchors to another *)

Lemma path_below w tas p e bl hs : path_up w tas p e bl hs -> forall x, In x (map st_sub (map h_sub hs)) -> ~ In x (anchor_ids tas).
Proof.
  induction 1 as [|p e bl i ec s hs N _ _ _ _ _ _ _ _ Es _ _ _ IH]; intros x Hx; [destruct Hx|].
  cbn [map h_sub In] in Hx. destruct Hx as [<-|Hx]; [now rewrite Es|auto].
Qed.

Lemma path_other w tas tas' p e bl hs : path_up w tas p e bl hs -> In (st_iss (top e hs)) (anchor_ids tas') ->
  (forall x, In x (map st_sub (map h_sub hs)) -> ~ In x (anchor_ids tas')) -> path_up w tas' p e bl hs.
Proof.
  induction 1 as [|p e bl i ec s hs N Hn Hl Hc Hs Hv Hf Hw Hi Es Hvs Hco _ IH]; intros T B; [now constructor|].
  econstructor; eauto.
  - rewrite <- Es. apply B. now left.
  - apply IH; auto. intros x Hx. apply B. now right.
Qed.

Lemma signed_other w tas tas' e sub hs : signed_up w tas e sub hs ->
  pinned tas (st_iss (top e hs)) = pinned tas' (st_iss (top e hs)) -> signed_up w tas' e sub hs.
Proof.
  induction 1 as [e s ks T V1 V2|e sub i ec s hs V1 V2 _ IH]; intros E.
  - cbn [top] in E. econstructor; eauto. apply pinned_trusted. apply pinned_trusted in T. now rewrite <- E.
  - econstructor; eauto.
Qed.

Lemma along_top e h hs : leads_to (st_iss (top e (h :: hs))) (chain_along e (h :: hs)) /\
  below_top (chain_along e (h :: hs)) = map st_sub (map h_sub (h :: hs)).
Proof.
  unfold chain_along, leads_to, below_top. split.
  - exists (e :: map h_sub (h :: hs)), (top e (h :: hs)). split; reflexivity.
  - cbn [tl]. now rewrite removelast_last.
Qed.

Lemma leads_unique id id' c : leads_to id c -> leads_to id' c -> id = id'.
Proof. intros (l & s & -> & <-) (l' & s' & E & <-). apply app_inj_tail in E as [_ ->]. reflexivity. Qed.

Lemma chain_other w tas tas' types start c id : trust_chain w tas types start c -> 2 <= List.length c -> leads_to id c ->
  pinned tas id = pinned tas' id -> clear_of tas' c -> trust_chain w tas' types start c.
Proof.
  intros (e & St & [[-> _]|(h & hs & P & Sg & ->)]) L T E B; [cbn in L; lia|].
  exists e. split; [exact St|]. right. exists h, hs. destruct (along_top e h hs) as [T' B'].
  pose proof (leads_unique _ _ _ T T') as ->. unfold clear_of in B. rewrite B' in B.
  assert (IT : In (st_iss (top e (h :: hs))) (anchor_ids tas')).
  { apply pinned_in. rewrite <- E. apply pinned_in. clear -P. revert P. generalize (h :: hs) as l. intros l P.
    induction P; cbn [top]; auto. }
  split; [|split; [|reflexivity]]; [eapply path_other; eauto|eapply signed_other; eauto].
Qed.

Lemma chain_clear w tas types start c : trust_chain w tas types start c -> 2 <= List.length c ->
  clear_of tas c /\ exists id, leads_to id c /\ In id (anchor_ids tas).
Proof.
  intros (e & St & [[-> _]|(h & hs & P & Sg & ->)]) L; [cbn in L; lia|].
  destruct (along_top e h hs) as [T' B']. split.
  - intros x. rewrite B'. eapply path_below; eauto.
  - eexists. split; [exact T'|]. clear -P. revert P. generalize (h :: hs) as l. intros l P. induction P; cbn [top]; auto.
Qed.

Lemma chain_exactly w tas types start id ks c : pinned tas id = Some ks -> 2 <= List.length c -> leads_to id c ->
  (trust_chain w tas types start c <-> trust_chain w [Anchor id ks] types start c /\ clear_of tas c).
Proof.
  intros P L T.
  assert (E : pinned [Anchor id ks] id = Some ks) by (unfold pinned; cbn [find ta_id]; now rewrite String.eqb_refl).
  split.
  - intros C. destruct (chain_clear _ _ _ _ _ C L) as [B _]. split; [|exact B].
    eapply (chain_other _ tas); eauto; [congruence|]. intros x Hx Hin. cbn in Hin. destruct Hin as [<-|[]].
    apply (B _ Hx). apply pinned_in. congruence.
  - intros [C B]. eapply chain_other; eauto. congruence.
Qed.

Theorem chains_exactly fuel fuel' w tas types start cs cs' id ks c :
  resolve_chains fuel w tas types start = Done (Ok cs) ->
  resolve_chains fuel' w [Anchor id ks] types start = Done (Ok cs') ->
  pinned tas id = Some ks -> 2 <= List.length c -> leads_to id c ->
  (In c cs <-> In c cs' /\ clear_of tas c).
Proof.
  intros R R' P L T. rewrite (chains_exact _ _ _ _ _ _ R c), (chains_exact _ _ _ _ _ _ R' c). now apply chain_exactly.
Qed.

Theorem valid_exactly fuel fuel' w tas types start cs cs' id ks c :
  resolve_valid fuel w tas types start = Done (Ok cs) ->
  resolve_valid fuel' w [Anchor id ks] types start = Done (Ok cs') ->
  pinned tas id = Some ks -> 2 <= List.length c -> leads_to id c ->
  (In c cs <-> In c cs' /\ clear_of tas c).
Proof.
  intros R R' P L T. rewrite (valid_exact _ _ _ _ _ _ R c), (valid_exact _ _ _ _ _ _ R' c).
  rewrite (chain_exactly w tas types start id ks c P L T). tauto.
Qed.

Theorem chains_keep fuel fuel' w tas tas' types start cs cs' id c :
  resolve_chains fuel w tas types start = Done (Ok cs) ->
  resolve_chains fuel' w tas' types start = Done (Ok cs') ->
  In c cs -> 2 <= List.length c -> leads_to id c -> pinned tas' id = pinned tas id -> clear_of tas' c -> In c cs'.
Proof.
  intros R R' H L T E B. apply (chains_exact _ _ _ _ _ _ R' c). apply (chain_other w tas tas' types start c id); auto.
  now apply (chains_exact _ _ _ _ _ _ R c).
Qed.
