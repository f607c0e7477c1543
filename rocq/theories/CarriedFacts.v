(** What collected entities carry. *)
From Coq Require Import Permutation.
From Verif Require Import Base GoVal Policy Schema Metadata Chain Resolver FloatTime Json TrustMark SpecTrustMark Discovery SpecDiscovery SpecCarried
  BaseFacts TrustMarkFacts TrustMarkLaws EvalFacts DiscoveryFacts DiscoveryLaws.
Local Open Scope nat_scope.
Local Open Scope string_scope.

Lemma asks_named rq c : asks rq c = true <-> asked_for rq c.
Proof.
  unfold asks, asked_for. destruct (cr_claims rq) as [l|].
  - rewrite mem_In. split; [eauto|]. intros (l0 & [= <-] & I). exact I.
  - split; [discriminate|]. intros (l0 & E & _). discriminate.
Qed.
Lemma asks_unnamed rq c : ~ asked_for rq c -> asks rq c = false.
Proof. intros N. destruct (asks rq c) eqn:E; [|reflexivity]. apply asks_named in E. contradiction. Qed.
Lemma wants_welcome rq c : wants rq c = true <-> welcome rq c.
Proof.
  unfold wants, welcome, asked_for. destruct (cr_claims rq) as [l|].
  - rewrite mem_In. split; [right; eauto|]. intros [E|(l0 & [= <-] & I)]; [discriminate|exact I].
  - split; [left; reflexivity|reflexivity].
Qed.
Lemma wants_unwelcome rq c : ~ welcome rq c -> wants rq c = false.
Proof. intros N. destruct (wants rq c) eqn:E; [|reflexivity]. apply wants_welcome in E. contradiction. Qed.

(** The parts of an evaluation that includes the entity. *)
Lemma evaluate_parts fuel ce rq q sub cfg m e : evaluate fuel ce rq q sub cfg m = Done (Ok (Some e)) ->
  exists pl, resolved fuel (ce_env ce) (4 :: q) rq sub = Done (Ok pl) /\
    let marks1 := match pl with Some x => if asks rq "trust_marks" then pl_marks x else [] | None => [] end in
    (match marks1, te_config (ce_env ce) (at_ta q) (cr_anchor rq) with
     | [], Some ta' => if asks rq "trust_marks" then verified_marks fuel (ce_env ce) (6 :: q) (infos_of cfg) ta' else Done (Ok [])
     | _, _ => Done (Ok marks1)
     end) = Done (Ok (ce_marks e)) /\
    ce_chain e = (match pl with Some x => if asks rq "trust_chain" then pl_chain x else [] | None => [] end) /\
    ce_metadata e = (match pl with Some x => if asks rq "metadata" then pl_metadata x else None | None => None end).
Proof.
  unfold evaluate. intros H. apply rbind_ok in H. destruct H as (mk & _ & H).
  destruct (type_ok rq (guess_entity_types m) && name_ok ce rq (guess_display_names m) && mk)%bool; [|discriminate].
  apply rbind_ok in H. destruct H as (ui & _ & H). apply rbind_ok in H. destruct H as (pl & P & H).
  apply rbind_ok in H. destruct H as (marks & K & H). injection H as <-. exists pl. auto.
Qed.

Lemma no_tag_json fuel ce rq q sub cfg m e tag : evaluate fuel ce rq q sub cfg m = Done (Ok (Some e)) -> In tag ui_strings ->
  wants rq tag = false -> forall ty u, lookup ty (ce_ui e) = Some u -> ui_json u tag = None.
Proof.
  intros E I W ty u L. apply evaluate_spec in E. destruct E as [_ E]. destruct (E e eq_refl) as (_ & _ & U).
  pose proof (ui_infos_val rq m _ ty tag U I) as V. unfold uival in V. rewrite L in V.
  destruct (ui_infos_plain rq m _ U ty u L) as [P1 P2]. rewrite (ui_json_plain u tag P1 P2).
  rewrite V. unfold claims_for. now rewrite W.
Qed.

Theorem evaluated_modest fuel ce rq q sub cfg m e : evaluate fuel ce rq q sub cfg m = Done (Ok (Some e)) -> modest rq sub m e.
Proof.
  intros E. destruct (evaluate_parts _ _ _ _ _ _ _ _ E) as (pl & R & K & C & M). cbv zeta in K.
  pose proof (proj2 (evaluate_spec _ _ _ _ _ _ _ _ E) e eq_refl) as (EI & ET & _). constructor.
  - exact EI.
  - intros W t. apply wants_welcome in W. rewrite W in ET. rewrite ET. apply in_guess.
  - intros W. apply wants_unwelcome in W. now rewrite W in ET.
  - intros N. apply asks_unnamed in N. rewrite N in K.
    assert (Z : match pl with Some _ => @nil info | None => [] end = []) by (now destruct pl). rewrite Z in K.
    destruct (te_config (ce_env ce) (at_ta q) (cr_anchor rq)); congruence.
  - intros N. apply asks_unnamed in N. rewrite N in C. now destruct pl.
  - intros N. apply asks_unnamed in N. rewrite N in M. now destruct pl.
  - intros tag I W. apply (no_tag_json _ _ _ _ _ _ _ _ _ E I). now apply wants_unwelcome.
Qed.

(** The trust marks when the resolver gave none. *)
Lemma own_marks fuel ce rq q cfg e : asks rq "trust_marks" = true ->
  match te_config (ce_env ce) (at_ta q) (cr_anchor rq) with
  | Some ta' => if asks rq "trust_marks" then verified_marks fuel (ce_env ce) (6 :: q) (infos_of cfg) ta' else Done (Ok [])
  | None => Done (Ok [])
  end = Done (Ok (ce_marks e)) -> of_marks fuel ce rq q cfg e.
Proof.
  intros A K. unfold of_marks. rewrite A in K. destruct (te_config (ce_env ce) (at_ta q) (cr_anchor rq)) as [ta|]; [|congruence].
  apply verified_marks_exact in K. exact K.
Qed.

Theorem evaluated_local fuel ce rq q sub cfg m e : te_default (ce_env ce) = LocalR ->
  evaluate fuel ce rq q sub cfg m = Done (Ok (Some e)) -> complete_local fuel ce rq q sub cfg e.
Proof.
  intros D E. destruct (evaluate_parts _ _ _ _ _ _ _ _ E) as (pl & R & K & C & M). cbv zeta in K.
  unfold resolved in R. rewrite D in R. fold (question rq sub) in R.
  assert (NM : match pl with Some x => pl_marks x = [] | None => True end).
  { destruct (asks rq "metadata" || asks rq "trust_chain")%bool; [|injection R as <-; exact I].
    destruct (local_plain fuel (ce_env ce) (4 :: q) (question rq sub)) as [[[pl0 c]| |]|] eqn:L; cbn [rbind fst] in R; try discriminate;
      injection R as <-; [|exact I].
    apply local_plain_ok in L. destruct L as (cs & md & r & _ & _ & _ & ->). reflexivity. }
  split.
  - intros Q.
    assert (A : (asks rq "metadata" || asks rq "trust_chain")%bool = true).
    { destruct Q as [Q|Q]; apply asks_named in Q; rewrite Q; [apply Bool.orb_true_r|reflexivity]. }
    rewrite A in R.
    destruct (local_plain fuel (ce_env ce) (4 :: q) (question rq sub)) as [[[pl0 c]| |]|] eqn:L; cbn [rbind fst] in R; try discriminate;
      injection R as <-.
    + left. apply local_plain_ok in L. destruct L as (cs & md & r & RV & ES & EM & ->). exists c. split.
      * exists fuel, cs. split; [exact RV|]. eapply Permutation_in; [apply (sort_path_len_perm (ce_env ce))|]. rewrite ES. now left.
      * cbn [pl_chain pl_metadata] in C, M. split; intros N; apply asks_named in N; rewrite N in *; [exact C|]. now rewrite M.
    + right. split; [split; assumption|]. intros c H.
      apply (local_fails fuel (ce_env ce) (4 :: q) (question rq sub)) with c; [|exact H].
      unfold local_resolve. now rewrite L.
  - intros N. apply asks_named in N. apply own_marks; [exact N|].
    destruct pl as [x|]; [rewrite NM, N in K|]; rewrite ?N in *; exact K.
Qed.

Theorem evaluated_remote fuel ce rq q sub cfg m e pl : te_default (ce_env ce) <> LocalR ->
  asked_for rq "trust_chain" \/ asked_for rq "metadata" ->
  resolve_payload fuel (ce_env ce) (te_default (ce_env ce)) (4 :: q) (question rq sub) =
    Done (match pl with Some x => Ok x | None => Err end) ->
  evaluate fuel ce rq q sub cfg m = Done (Ok (Some e)) -> complete_remote fuel ce rq q cfg pl e.
Proof.
  intros D Q P E. destruct (evaluate_parts _ _ _ _ _ _ _ _ E) as (pl' & R & K & C & M). cbv zeta in K.
  unfold resolved in R. fold (question rq sub) in R.
  assert (A : (asks rq "metadata" || asks rq "trust_chain")%bool = true).
  { destruct Q as [Q|Q]; apply asks_named in Q; rewrite Q; [apply Bool.orb_true_r|reflexivity]. }
  rewrite A in R.
  assert (pl' = pl) as ->.
  { destruct (te_default (ce_env ce)) as [|ep|] eqn:T; [now destruct D| |]; rewrite P in R; destruct pl; congruence. }
  split; [|split].
  - intros N. apply asks_named in N. rewrite N in C. exact C.
  - intros N. apply asks_named in N. rewrite N in M. exact M.
  - intros N. apply asks_named in N. destruct pl as [x|].
    + intros NE. rewrite N in K. destruct (pl_marks x) as [|t l]; [now destruct NE|]. congruence.
    + apply own_marks; [exact N|]. exact K.
Qed.

(** For everything a collection returns. *)
Lemma collected_evaluated fuel ce rq w l e : network fuel ce rq w -> returns w (cr_anchor rq) l -> In e l ->
  exists p cfg m, te_config (ce_env ce) (2 :: p) (ce_id e) = Some cfg /\ st_metadata cfg = Some m /\
    evaluate fuel ce rq p (ce_id e) cfg m = Done (Ok (Some e)).
Proof.
  intros N (s & R & _ & <-) I.
  destruct (collected_sound w (cr_anchor rq) (network_names _ _ _ _ N) s e R I) as [_ [p P]].
  destruct N as [_ NE]. specialize (NE p (ce_id e)). exists p. unfold entity_answer in NE.
  destruct (te_config (ce_env ce) (2 :: p) (ce_id e)) as [cfg|]; [|injection NE as NE; rewrite <- NE in P; discriminate].
  destruct (st_metadata cfg) as [m|] eqn:SM; [|injection NE as NE; rewrite <- NE in P; discriminate].
  apply rbind_ok in NE. destruct NE as (x & E & H). injection H as H. rewrite <- H in P. cbn [fst] in P. subst x.
  exists cfg, m. auto.
Qed.

Theorem collected_modest fuel ce rq w l e : network fuel ce rq w -> returns w (cr_anchor rq) l -> In e l ->
  exists p cfg m, te_config (ce_env ce) (2 :: p) (ce_id e) = Some cfg /\ st_metadata cfg = Some m /\ modest rq (ce_id e) m e.
Proof.
  intros N R I. destruct (collected_evaluated _ _ _ _ _ _ N R I) as (p & cfg & m & T & S & E).
  exists p, cfg, m. split; [exact T|]. split; [exact S|]. now apply evaluated_modest in E.
Qed.
Theorem collected_local fuel ce rq w l e : te_default (ce_env ce) = LocalR -> network fuel ce rq w -> returns w (cr_anchor rq) l -> In e l ->
  exists p cfg m, te_config (ce_env ce) (2 :: p) (ce_id e) = Some cfg /\ st_metadata cfg = Some m /\
    complete_local fuel ce rq p (ce_id e) cfg e.
Proof.
  intros D N R I. destruct (collected_evaluated _ _ _ _ _ _ N R I) as (p & cfg & m & T & S & E).
  exists p, cfg, m. split; [exact T|]. split; [exact S|]. now apply (evaluated_local _ _ _ _ _ _ _ _ D) in E.
Qed.
