(** Cases and counterexamples for PropertiesSteps.v. *)
From Coq Require Import QArith.
From Verif Require Import Base GoVal Policy Schema Metadata Chain Resolver SpecResolver WitnessResolver TrustMark Refresher FloatTime Cache SpecCache CacheFacts CacheLaws WitnessCache Steps SpecSteps StepsFacts.
Local Open Scope nat_scope.
Local Open Scope string_scope.

Definition verifies0 : string -> list string -> bool := w_verify net0.
Definition program0 : list (string * list anchor * list string) := [(LEAF, tas0, []); (LEAF, tas0, [])].

(** The leaf's configuration is signed by somebody else. *)
Definition forged : stmt := mk "evil" LEAF LEAF ["kl"] [IM] md_rp_only None [] 1000%Z.
Definition net_forged : world := net LEAF forged None None [].
Definition forged_chain : chain := chain0 forged None None [].
(** Nothing can be reached. *)
Definition net_gone : world := tables [] [].

Lemma forged_unsigned : ~ signed_chain net_forged tas0 (map stmt_msgpack forged_chain).
Proof.
  intros H. inversion H as [|a b c SB H1]; subst. destruct SB as (k & l & EK & V). vm_compute in EK. injection EK as <- <-.
  vm_compute in V. discriminate.
Qed.

(** The calls one after the other; the first resolver only resolves, and its chains are read. *)
Definition first_calls : list event :=
  [ECall 0 MResolve 5 net_forged at500; ECall 1 MResolve 5 net0 at500; EOther 500%Z "subordinate_listing" "x" (COther "y") 100%Z;
   ECall 0 MChains 5 net_forged at500; ECall 1 MVerifySignatures 5 net0 at500; ECall 1 MChains 5 net0 at500; ECall 1 MVerifySignatures 5 net0 at500].

Lemma ordinary_call m i f w : w_verify w = verifies0 -> ordinary verifies0 (ECall i m f w at500).
Proof. intros E. split; [intros j; discriminate|exact E]. Qed.

Lemma first_ordinary : Forall (ordinary verifies0) first_calls.
Proof.
  repeat (apply Forall_cons; [first [now apply ordinary_call | split; [cbn; tauto|split; discriminate]]|]). constructor.
Qed.

Section Cases.
  Variable hash : string -> list string -> list string -> string.

  Lemma call_at objs c who m f w t r x : nth_error objs who = Some r -> do_call hash m f w t r c = Done (Ok x) ->
    happens hash (objs, c) (ECall who m f w t) (fst (fst x)) (put who (snd (fst x)) objs, snd x).
  Proof. intros N D. destruct x as [[cs r'] c']. exact (h_call hash objs c who m f w t r cs r' c' N D). Qed.

  Definition step (e : event) (s : state) : option state :=
    match e with
    | ECall who m f w t => match nth_error (fst s) who with
                           | Some r => match do_call hash m f w t r (snd s) with Done (Ok x) => Some (put who (snd (fst x)) (fst s), snd x) | _ => None end
                           | None => None
                           end
    | EOther now ss sk v ttl => Some (fst s, cache_set now (cache_key ss sk) v ttl (snd s))
    | ESweep now which => Some (fst s, cache_sweep now which (snd s))
    end.
  Lemma step_happens e s s' : step e s = Some s' -> exists cs, happens hash s e cs s'.
  Proof.
    destruct s as [objs c]. destruct e as [who m f w t|now ss sk v ttl|now which]; cbn [step fst snd].
    - destruct (nth_error objs who) as [r|] eqn:N; [|discriminate]. destruct (do_call hash m f w t r c) as [[x| |]|] eqn:D; try discriminate.
      intros [= <-]. eexists. exact (call_at objs c who m f w t r x N D).
    - intros [= <-]. eexists. constructor.
    - intros [= <-]. eexists. constructor.
  Qed.
  Fixpoint steps (h : list event) (s : state) : option state :=
    match h with [] => Some s | e :: h' => match step e s with Some s' => steps h' s' | None => None end end.
  Lemma steps_history h : forall s0 h0 s s', history hash s0 h0 s -> steps h s = Some s' -> history hash s0 (h0 ++ h)%list s'.
  Proof.
    induction h as [|e h IH]; intros s0 h0 s s' H E; cbn [steps] in E.
    - injection E as <-. now rewrite app_nil_r.
    - destruct (step e s) as [s1|] eqn:S; [|discriminate]. destruct (step_happens _ _ _ S) as [cs HP].
      change (e :: h) with ([e] ++ h)%list. rewrite app_assoc. apply (IH s0 _ s1 s'); [exact (hist_snoc hash _ _ _ _ _ _ H HP)|exact E].
  Qed.

  (** The second resolver resolves and verifies while the first one reads forged chains. *)
  Lemma steps_case : exists rs c s',
    history hash (start_with program0 (Memory [])) first_calls (rs, c) /\ verified_last 1 first_calls = true /\
    calls_of 1 first_calls = [(MResolve, 5, net0); (MVerifySignatures, 5, net0); (MChains, 5, net0); (MVerifySignatures, 5, net0)] /\
    happens hash (rs, c) (ECall 1 MChains 5 net0 at500) [chain0 leaf0 None None []] s'.
  Proof.
    destruct (steps first_calls (start_with program0 (Memory []))) as [[rs c]|] eqn:E; [|vm_compute in E; discriminate].
    exists rs, c. pose proof (steps_history _ _ [] _ _ (hist_nil hash _) E) as H. cbn [app] in H.
    vm_compute in E. injection E as <- <-. eexists. split; [exact H|]. split; [reflexivity|]. split; [reflexivity|].
    eapply h_call; [reflexivity|]. vm_compute. reflexivity.
  Qed.

  (** What is read before it is verified. *)
  Definition poison : list event := [ECall 0 MResolve 5 net_forged at500; ECall 0 MChains 5 net_forged at500].
  Lemma forged_tree : exists tr, resolve_tree 5 net_forged tas0 [] LEAF = Done (Ok tr) /\ t_entity tr <> None /\ tree_chains tr = [forged_chain].
  Proof. destruct (resolve_tree 5 net_forged tas0 [] LEAF) as [[tr| |]|] eqn:E; try (vm_compute in E; discriminate). exists tr. vm_compute in E. injection E as <-. split; [reflexivity|]. split; [discriminate|]. vm_compute. reflexivity. Qed.
  Lemma poisoned : exists rs c s',
    history hash (start_with program0 (Redis [])) poison (rs, c) /\ calls_of 1 poison = [] /\
    happens hash (rs, c) (ECall 1 MValidChains 5 net_forged at500) [map stmt_msgpack forged_chain] s'.
  Proof.
    destruct forged_tree as (tr & R & NE & CH). destruct (t_entity tr) as [en|] eqn:EN; [clear NE|congruence].
    set (r0 := new_resolver LEAF tas0 []).
    pose proof (resolve_tree_exp_le _ _ _ _ _ _ R) as LE.
    set (ca := cache_set (at500 2) (my_tree_key hash r0) (CTree tr) (until (t_exp tr) (at500 2)) (Redis [])).
    set (cb := cache_set (at500 5) (my_chains_key hash r0) (CChains [forged_chain]) (until (t_exp tr) (at500 5)) ca).
    assert (S1 : do_call hash MResolve 5 net_forged at500 r0 (Redis []) = Done (Ok ([], with_tree r0 tr false, ca))).
    { cbn [do_call]. unfold do_resolve. cbn [cache_get red_find find_entry find option_map]. cbn [r0 new_resolver rs_start rs_tas rs_types]. rewrite R, EN. reflexivity. }
    assert (G : cache_get (at500 4) (my_chains_key hash r0) ca = (None, ca)).
    { unfold ca. cbn [cache_set cache_get]. rewrite red_find_set. destruct (String.eqb_spec (my_tree_key hash r0) (my_chains_key hash r0)) as [E|_].
      - now apply tree_key_apart in E.
      - reflexivity. }
    assert (S2 : do_call hash MChains 5 net_forged at500 (with_tree r0 tr false) ca = Done (Ok ([forged_chain], with_tree r0 tr false, cb))).
    { cbn [do_call]. unfold do_chains. change (my_chains_key hash (with_tree r0 tr false)) with (my_chains_key hash r0). rewrite G.
      cbn [with_tree rs_tree]. rewrite CH. reflexivity. }
    assert (S3 : do_call hash MValidChains 5 net_forged at500 r0 cb = Done (Ok ([map stmt_msgpack forged_chain], r0, cb))).
    { cbn [do_call]. unfold cb, ca. cbn [cache_set cache_get]. rewrite red_set_forever by (apply until_zero; [exact LE|discriminate]).
      reflexivity. }
    exists [with_tree r0 tr false; r0], cb, ([with_tree r0 tr false; r0], cb). split; [|split; [reflexivity|]].
    - apply (hist_snoc hash _ [ECall 0 MResolve 5 net_forged at500] ([with_tree r0 tr false; r0], ca) _ [forged_chain]).
      + apply (hist_snoc hash _ [] (start_with program0 (Redis [])) _ []); [constructor|].
        exact (h_call hash [r0; r0] (Redis []) 0 MResolve 5 net_forged at500 r0 [] (with_tree r0 tr false) ca eq_refl S1).
      + exact (h_call hash [with_tree r0 tr false; r0] ca 0 MChains 5 net_forged at500 (with_tree r0 tr false) [forged_chain] (with_tree r0 tr false) cb eq_refl S2).
    - exact (h_call hash [with_tree r0 tr false; r0] cb 1 MValidChains 5 net_forged at500 r0 [map stmt_msgpack forged_chain] r0 cb eq_refl S3).
  Qed.

  Theorem poison_refuted : exists objs h rs c start tas types who f w t cs s' ch,
    history hash (start_with objs (Redis [])) h (rs, c) /\ (exists v, Forall (ordinary v) h /\ ordinary v (ECall who MValidChains f w t)) /\
    nth_error objs who = Some (start, tas, types) /\ calls_of who h = [] /\
    happens hash (rs, c) (ECall who MValidChains f w t) cs s' /\ In ch cs /\ List.length ch <> 1 /\ ~ signed_chain w tas ch.
  Proof.
    destruct poisoned as (rs & c & s' & H & C & HP).
    exists program0, poison, rs, c, LEAF, tas0, [], 1, 5, net_forged, at500, [map stmt_msgpack forged_chain], s', (map stmt_msgpack forged_chain).
    split; [exact H|]. split. { exists verifies0. split; [repeat (apply Forall_cons; [now apply ordinary_call|]); constructor|now apply ordinary_call]. }
    split; [reflexivity|]. split; [exact C|]. split; [exact HP|]. split; [now left|]. split; [discriminate|exact forged_unsigned].
  Qed.

  (** The same resolver again, when its entity is gone. *)
  Definition before_gone : list event := [ECall 0 MValidChains 5 net0 at500].
  Theorem stale_refuted : exists objs h rs c start tas types who f w t cs s' ch,
    history hash (start_with objs (Memory [])) h (rs, c) /\ (exists v, Forall (ordinary v) h /\ ordinary v (ECall who MValidChains f w t)) /\
    nth_error objs who = Some (start, tas, types) /\
    (forall p id, w_config w p id = None) /\ resolve_chains f w tas types start = Done (Ok []) /\
    happens hash (rs, c) (ECall who MValidChains f w t) cs s' /\ In ch cs /\ forall s i, In s ch -> (st_exp s < t i)%Z.
  Proof.
    destruct (steps before_gone (start_with program0 (Memory []))) as [[rs c]|] eqn:E; [|vm_compute in E; discriminate].
    pose proof (steps_history _ _ [] _ _ (hist_nil hash _) E) as H. cbn [app] in H. vm_compute in E. injection E as <- <-.
    eexists program0, before_gone, _, _, LEAF, tas0, [], 0, 5, net_gone, at5000, [chain0 leaf0 None None []], _, (chain0 leaf0 None None []).
    split; [exact H|]. split. { exists verifies0. split; [repeat (apply Forall_cons; [now apply ordinary_call|]); constructor|split; [intros j; discriminate|reflexivity]]. }
    split; [reflexivity|]. split; [reflexivity|]. split; [vm_compute; reflexivity|]. split; [eapply h_call; [reflexivity|]; vm_compute; reflexivity|].
    split; [now left|]. intros s i [<- | [<- | [<- | [<- | []]]]]; reflexivity.
  Qed.
End Cases.
