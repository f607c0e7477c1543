(** Proofs of the exact characterisations. *)
From Verif Require Import Base GoVal Policy Schema Metadata Chain Resolver SpecResolver SpecPolicy SpecMetadata SpecChain
  BaseFacts OpFacts CombineFacts PolicyLaws MetadataFacts ChainFacts ResolverFacts ResolverLaws Custom SpecCustom CustomFacts SpecExact.
From Coq Require Import Permutation Lia.
Local Open Scope string_scope.

(** ** Resolution *)
Lemma trust_chain_root w tas types start c :
  trust_chain w tas types start c <-> exists e, start_config w types start e /\ root_chain w tas e c.
Proof. reflexivity. Qed.

Theorem chains_exact fuel w tas types start cs :
  resolve_chains fuel w tas types start = Done (Ok cs) -> forall c, In c cs <-> trust_chain w tas types start c.
Proof. intros H c. rewrite trust_chain_root. exact (resolve_chains_spec _ _ _ _ _ _ H c). Qed.

Theorem valid_exact fuel w tas types start cs :
  resolve_valid fuel w tas types start = Done (Ok cs) ->
  forall c, In c cs <-> trust_chain w tas types start c /\ exists m, chain_metadata c = Ok m.
Proof.
  unfold resolve_valid. destruct (resolve_chains fuel w tas types start) as [[cs0| |]|] eqn:E; try discriminate.
  cbn [bind]. intros [= H] c. rewrite (valid_filter_in _ _ c H), (chains_exact _ _ _ _ _ _ E c).
  split; intros [A B]; split; auto; destruct (chain_metadata c) as [m| |]; try discriminate; eauto; destruct B; discriminate.
Qed.

Theorem chains_authentic w tas types start c :
  returned w tas types start c -> List.length c <> 1 -> authentic w tas c.
Proof.
  intros H N. split.
  - destruct (returned_one _ _ _ _ _ H); [contradiction|assumption].
  - eapply chain_signed; eauto.
  - eapply chain_anchored; eauto.
  - eapply chain_linked; eauto.
  - intros s r x E Hx. eapply chain_times; eauto.
Qed.

(** ** Chain metadata *)
Lemma additional_entries k c : extra_entries k (Metadata.present (map st_policy c)) = additional_policies k c.
Proof.
  unfold extra_entries, Metadata.present, additional_policies. induction c as [|s c IH]; [reflexivity|].
  cbn [map flat_map]. rewrite flat_map_app, IH. destruct (st_policy s); [|reflexivity]. cbn [flat_map]. now rewrite app_nil_r.
Qed.

Lemma extra_keys_In k c : ~ In k (extra_keys (Metadata.present (map st_policy c))) -> additional_policies k c = [].
Proof.
  unfold extra_keys. rewrite dedup_In. intros N. rewrite <- additional_entries.
  unfold extra_entries. induction (Metadata.present (map st_policy c)) as [|p ps IH]; [reflexivity|].
  cbn [flat_map] in *. rewrite in_app_iff in N.
  rewrite (proj2 (lookup_None k (mp_extra p))) by tauto. apply IH. tauto.
Qed.

Lemma map_res_pairs (f : string -> res gpolicy) ks ex :
  map_res (fun k => c <- f k ;; Ok (k, c)) ks = Ok ex ->
  keys ex = ks /\ (forall k, In k ks -> exists p, f k = Ok p) /\ forall k, lookup k ex = if mem k ks then match f k with Ok p => Some p | _ => None end else None.
Proof.
  revert ex. induction ks as [|k ks IH]; cbn [map_res]; intros ex H.
  - injection H as <-. repeat split; auto. intros ? [].
  - apply bind_ok in H as (y & Hy & H). apply bind_ok in Hy as (p & Hp & E). injection E as <-.
    apply bind_ok in H as (ys & Hys & H). injection H as <-. destruct (IH _ Hys) as (A & B & C). split; [|split].
    + unfold keys in *. cbn [map fst]. now f_equal.
    + intros k' [<-|K]; eauto.
    + intros k'. unfold mem in *. cbn [lookup existsb]. destruct (String.eqb_spec k' k) as [->|N]; cbn [orb].
      * now rewrite Hp.
      * apply C.
Qed.

Lemma map_res_pairs_ok (f : string -> res gpolicy) ks :
  (forall k, In k ks -> exists p, f k = Ok p) -> exists ex, map_res (fun k => c <- f k ;; Ok (k, c)) ks = Ok ex.
Proof.
  induction ks as [|k ks IH]; intros H; [now exists []|]. destruct (H k (or_introl eq_refl)) as (p & Hp).
  destruct IH as (ex & Hex); [intros; apply H; now right|]. exists ((k, p) :: ex). cbn [map_res]. now rewrite Hp, Hex.
Qed.

Lemma apply_extras (p : smap gpolicy) (l : smap gval) : (forall k, In k (keys l) -> lookup k p = None \/ lookup k p = Some None) <-> map_res (apply_extra p) l = Ok l.
Proof.
  induction l as [|[k v] l IH]; cbn [map_res keys map In]; [split; [reflexivity|intros _ ? []]|].
  split.
  - intros H. assert (E : apply_extra p (k, v) = Ok (k, v)).
    { unfold apply_extra. cbn [fst]. pose proof (H k (or_introl eq_refl)) as [E|E]; rewrite E; reflexivity. }
    rewrite E. cbn [bind]. rewrite (proj1 IH); [reflexivity|]. intros; apply H; now right.
  - intros H. apply bind_ok in H as (y & Hy & H). apply bind_ok in H as (ys & Hys & H). injection H as -> ->.
    intros k' [<-|K]; cbn [fst].
    + unfold apply_extra in Hy. cbn [fst] in Hy. destruct (lookup k p) as [[q|]|]; try discriminate; auto.
    + now apply IH.
Qed.

Lemma apply_extras_id p l l' : map_res (apply_extra p) l = Ok l' -> l' = l.
Proof.
  revert l'. induction l as [|x l IH]; cbn [map_res]; intros l' H; [now injection H as <-|].
  apply bind_ok in H as (y & Hy & H). apply bind_ok in H as (ys & Hys & H). injection H as <-. f_equal; auto.
  unfold apply_extra in Hy. destruct (lookup (fst x) p) as [[q|]|]; try discriminate; now injection Hy as <-.
Qed.

Theorem chain_metadata_exact c m : 2 <= List.length c ->
  (chain_metadata c = Ok (Some m) <->
   crit_supported c /\ (forall t, In t entity_types -> type_result t c m) /\
   additional_types_ok c /\ md_extra m = md_extra (leaf_metadata c)).
Proof.
  intros HL. split.
  - intros H. destruct (chain_metadata_types c _ HL H) as (m' & [= <-] & T & E).
    destruct c as [|s [|s' c]]; simpl List.length in HL; try lia. rewrite chain_metadata_two in H.
    destruct (unsupported_crit (s :: s' :: c)) eqn:U; [|discriminate]. apply unsupported_nil in U.
    split; auto. split; auto. split; auto.
    apply bind_ok in H as (p & Hp & H). apply bind_ok in H as (m1 & Hm & H). injection H as <-.
    set (cc := s :: s' :: c) in *. change (md_apply (leaf_metadata cc) (Some p) = Ok m1) in Hm.
    unfold merge_policies in Hp.
    do 6 (apply bind_ok in Hp as (? & _ & Hp)). apply bind_ok in Hp as (ex & Hex & Hp). injection Hp as <-.
    apply map_res_pairs in Hex as (Kex & Aex & Lex).
    unfold md_apply in Hm. cbn [mp_extra] in Hm. do 6 (apply bind_ok in Hm as (? & _ & Hm)).
    apply bind_ok in Hm as (ex' & Hex' & Hm). pose proof (apply_extras_id _ _ _ Hex') as ->.
    pose proof (proj2 (apply_extras _ _) Hex') as Hex2. clear Hex'. rename Hex2 into Hex'.
    intros k. destruct (mem k (extra_keys (Metadata.present (map st_policy cc)))) eqn:M.
    + assert (I := M). apply mem_In in I. destruct (Aex k I) as (q & Hq). rewrite additional_entries in Hq.
      exists q. split; auto. intros K. specialize (Hex' k K). rewrite Lex, M in Hex'.
      rewrite additional_entries, Hq in Hex'. destruct Hex'; congruence.
    + apply mem_nIn in M. exists None. rewrite (extra_keys_In k cc M). auto.
  - intros (HC & HT & HX & HE).
    destruct c as [|s [|s' c]]; simpl List.length in HL; try lia. rewrite chain_metadata_two.
    apply unsupported_nil in HC. rewrite HC. set (cc := s :: s' :: c) in *.
    change (match st_metadata s with Some m => m | None => empty_metadata end) with (leaf_metadata cc).
    unfold merge_policies. rewrite !policies_of_present.
    destruct (map_res_pairs_ok (fun k => combine_policies (extra_entries k (Metadata.present (map st_policy cc))))
                (extra_keys (Metadata.present (map st_policy cc)))) as (ex & Hex).
    { intros k _. rewrite additional_entries. destruct (HX k) as (p & Hp & _). eauto. }
    pose proof (HT (md_op, mp_op)) as T1. pose proof (HT (md_rp, mp_rp)) as T2. pose proof (HT (md_as, mp_as)) as T3.
    pose proof (HT (md_oc, mp_oc)) as T4. pose proof (HT (md_pr, mp_pr)) as T5. pose proof (HT (md_fe, mp_fe)) as T6.
    unfold entity_types in *. simpl In in *.
    specialize (T1 ltac:(tauto)). specialize (T2 ltac:(tauto)). specialize (T3 ltac:(tauto)).
    specialize (T4 ltac:(tauto)). specialize (T5 ltac:(tauto)). specialize (T6 ltac:(tauto)).
    destruct (T1) as (p1 & E1 & _). destruct (T2) as (p2 & E2 & _). destruct (T3) as (p3 & E3 & _).
    destruct (T4) as (p4 & E4 & _). destruct (T5) as (p5 & E5 & _). destruct (T6) as (p6 & E6 & _).
    pose proof (type_result_apply _ _ _ _ T1 E1) as A1. pose proof (type_result_apply _ _ _ _ T2 E2) as A2.
    pose proof (type_result_apply _ _ _ _ T3 E3) as A3. pose proof (type_result_apply _ _ _ _ T4 E4) as A4.
    pose proof (type_result_apply _ _ _ _ T5 E5) as A5. pose proof (type_result_apply _ _ _ _ T6 E6) as A6.
    cbn [fst snd] in *. rewrite E1, E2, E3, E4, E5, E6. cbn [bind]. rewrite Hex. cbn [bind].
    unfold md_apply. cbn [mp_op mp_rp mp_as mp_oc mp_pr mp_fe mp_extra].
    rewrite A1, A2, A3, A4, A5, A6. cbn [bind].
    rewrite (proj1 (apply_extras ex (md_extra (leaf_metadata cc)))).
    + cbn [bind]. rewrite <- HE. now destruct m.
    + apply map_res_pairs in Hex as (_ & _ & Lex). intros k K. rewrite Lex.
      destruct (mem k _); [|now left]. rewrite additional_entries. destruct (HX k) as (p & Hp & Hn). rewrite Hp, (Hn K). now right.
Qed.

(** ** Policies *)
Theorem verify_policy_exact (p : policy) : verify_policy p = Ok tt <-> forall k e, In (k, e) p -> verify_entry e = Ok tt.
Proof.
  induction p as [|[k e] p IH]; cbn [verify_policy].
  - split; [intros _ ? ? []|reflexivity].
  - split.
    + intros H. apply bind_ok in H as ([] & H1 & H2). intros k' e' [[= <- <-]|I]; auto. now apply (proj1 IH H2 k').
    + intros H. rewrite (H k e (or_introl eq_refl)). cbn [bind]. apply IH. intros; eapply H; right; eauto.
Qed.
