(** Proofs about metadata lookup and restriction. *)
From Verif Require Import Base BaseFacts GoVal Policy Schema Metadata Chain SpecChain ChainFacts Resolver SpecResolver
  ResolverFacts ResolverLaws TrustMark SpecTrustMark TrustMarkFacts TrustMarkLaws Lookup SpecLookup.
Local Open Scope nat_scope.
Local Open Scope string_scope.

Lemma shown_typed m t :
  shown_at m t = match typed_field m t with
                 | Some em => Some (Known em)
                 | None => option_map Additional (lookup t (md_extra m))
                 end.
Proof.
  unfold shown_at, typed_field. cbn [find fst].
  destruct (String.eqb t "openid_provider"); [now destruct (md_op m)|].
  destruct (String.eqb t "openid_relying_party"); [now destruct (md_rp m)|].
  destruct (String.eqb t "oauth_authorization_server"); [now destruct (md_as m)|].
  destruct (String.eqb t "oauth_client"); [now destruct (md_oc m)|].
  destruct (String.eqb t "oauth_resource"); [now destruct (md_pr m)|].
  destruct (String.eqb t "federation_entity"); [now destruct (md_fe m)|]. reflexivity.
Qed.

Lemma find_absent T (fill : gval -> T -> bool * T) m alloc t target :
  (t <> "-" \/ alloc = false) -> shown_at m t = None -> find_metadata fill m alloc t target = (false, target).
Proof.
  intros Ht. rewrite shown_typed. unfold find_metadata. destruct (typed_field m t); [discriminate|].
  assert (String.eqb t "-" && alloc = false)%bool as ->.
  { destruct Ht as [Ht| ->]; [apply String.eqb_neq in Ht; now rewrite Ht|apply andb_false_r]. }
  destruct (lookup t (md_extra m)); [discriminate|reflexivity].
Qed.

Lemma find_additional T (fill : gval -> T -> bool * T) m alloc t j target :
  (t <> "-" \/ alloc = false) -> shown_at m t = Some (Additional j) -> find_metadata fill m alloc t target = fill j target.
Proof.
  intros Ht. rewrite shown_typed. unfold find_metadata. destruct (typed_field m t); [discriminate|].
  assert (String.eqb t "-" && alloc = false)%bool as ->.
  { destruct Ht as [Ht| ->]; [apply String.eqb_neq in Ht; now rewrite Ht|apply andb_false_r]. }
  destruct (lookup t (md_extra m)); [|discriminate].
  cbn. now intros [= ->].
Qed.

Lemma find_dash T (fill : gval -> T -> bool * T) m target : find_metadata fill m true "-" target = (true, target).
Proof. unfold find_metadata. destruct (typed_field m "-"); reflexivity. Qed.

Lemma find_known T (fill : gval -> T -> bool * T) m alloc t em target :
  shown_at m t = Some (Known em) -> find_metadata fill m alloc t target = (true, target).
Proof.
  rewrite shown_typed. unfold find_metadata. destruct (typed_field m t); [reflexivity|].
  destruct (lookup t (md_extra m)); discriminate.
Qed.

Lemma lookup_kept types (m : smap gval) t :
  lookup t (filter (fun kv => mem (fst kv) types) m) = if mem t types then lookup t m else None.
Proof.
  induction m as [|[k v] m IH]; cbn; [now destruct (mem t types)|].
  destruct (mem k types) eqn:E; cbn.
  - destruct (String.eqb_spec t k) as [->|N]; [now rewrite E|]. exact IH.
  - rewrite IH. destruct (String.eqb_spec t k) as [->|N]; [now rewrite E|]. reflexivity.
Qed.

Lemma typed_kept types m t : typed_field (nil_all_except m types) t = if mem t types then typed_field m t else None.
Proof.
  unfold typed_field, nil_all_except, keep. cbn [md_op md_rp md_as md_oc md_pr md_fe].
  destruct (String.eqb_spec t "openid_provider") as [->|]; [reflexivity|].
  destruct (String.eqb_spec t "openid_relying_party") as [->|]; [reflexivity|].
  destruct (String.eqb_spec t "oauth_authorization_server") as [->|]; [reflexivity|].
  destruct (String.eqb_spec t "oauth_client") as [->|]; [reflexivity|].
  destruct (String.eqb_spec t "oauth_resource") as [->|]; [reflexivity|].
  destruct (String.eqb_spec t "federation_entity") as [->|]; [reflexivity|].
  now destruct (mem t types).
Qed.

Theorem restriction m types : restricted types m (nil_all_except m types).
Proof.
  intros t. rewrite !shown_typed, typed_kept. unfold nil_all_except. cbn [md_extra].
  rewrite lookup_kept. split; intros H.
  - apply mem_In in H. now rewrite H.
  - destruct (mem t types) eqn:E; [apply mem_In in E; contradiction|reflexivity].
Qed.

(** The first statement of every returned chain. *)
Theorem chain_restricted w tas types start c :
  returned w tas types start c -> types <> [] ->
  exists e r s m m', c = e :: r /\ w_config w [] start = Some s /\ st_metadata s = Some m /\
    st_metadata e = Some m' /\ restricted types m m'.
Proof.
  intros H Ht. apply returned_root in H. destruct H as (e & (_ & s & m & Hs & Hm & ->) & R).
  destruct types as [|t0 types]; [contradiction|].
  assert (X : forall r, exists e r' s0 m0 m', with_metadata s (Some (nil_all_except m (t0 :: types))) :: r = e :: r' /\
    w_config w [] start = Some s0 /\ st_metadata s0 = Some m0 /\ st_metadata e = Some m' /\
    restricted (t0 :: types) m0 m').
  { intros r. eexists _, r, s, m, (nil_all_except m (t0 :: types)).
    split; [reflexivity|]. split; [exact Hs|]. split; [exact Hm|]. split; [reflexivity|]. apply restriction. }
  destruct R as [[-> _]|(h & hs & _ & _ & ->)]; apply X.
Qed.

(** Policies neither add nor remove entity types. *)
Lemma chain_types_kept c m t : 2 <= List.length c -> chain_metadata c = Ok (Some m) ->
  (shown_at m t = None <-> shown_at (leaf_metadata c) t = None).
Proof.
  intros HL H. destruct (chain_metadata_types c _ HL H) as (m' & E & T & X). injection E as <-.
  assert (K : forall sel, In sel entity_types -> (fst sel m = None <-> fst sel (leaf_metadata c) = None)).
  { intros sel I. destruct (T sel I) as (p & _ & R). destruct p, (fst sel (leaf_metadata c)).
    - destruct R as (em' & _ & ->). split; discriminate.
    - rewrite R. tauto.
    - rewrite R. tauto.
    - rewrite R. tauto. }
  assert (KT : typed_field m t = None <-> typed_field (leaf_metadata c) t = None).
  { unfold typed_field.
    destruct (String.eqb t "openid_provider"); [apply (K (md_op, mp_op)); cbn; tauto|].
    destruct (String.eqb t "openid_relying_party"); [apply (K (md_rp, mp_rp)); cbn; tauto|].
    destruct (String.eqb t "oauth_authorization_server"); [apply (K (md_as, mp_as)); cbn; tauto|].
    destruct (String.eqb t "oauth_client"); [apply (K (md_oc, mp_oc)); cbn; tauto|].
    destruct (String.eqb t "oauth_resource"); [apply (K (md_pr, mp_pr)); cbn; tauto|].
    destruct (String.eqb t "federation_entity"); [apply (K (md_fe, mp_fe)); cbn; tauto|]. tauto. }
  rewrite !shown_typed, X. destruct (typed_field m t), (typed_field (leaf_metadata c) t).
  - split; discriminate.
  - destruct KT as [_ KT]. discriminate (KT eq_refl).
  - destruct KT as [KT _]. discriminate (KT eq_refl).
  - tauto.
Qed.

(** Local resolution with a type filter. *)
Theorem resolved_types fuel e p rq m : local_resolve fuel e p rq = Done (Ok (Some m)) -> rq_types rq <> [] ->
  exists s m0, w_config (te_world e p rq) [] (rq_sub rq) = Some s /\ st_metadata s = Some m0 /\
    forall t, shown_at m t <> None <-> In t (rq_types rq) /\ shown_at m0 t <> None.
Proof.
  intros H Ht. apply local_sound in H. destruct H as (c & (f & cs & HR & HI) & HM).
  assert (R : returned (te_world e p rq) (map (fun id => Anchor id None) (rq_anchors rq)) (rq_types rq) (rq_sub rq) c).
  { exists f, cs. auto. }
  destruct (chain_restricted _ _ _ _ _ R Ht) as (s & r & s0 & m0 & m' & -> & Hs & Hm & Hm' & RR).
  exists s0, m0. split; [exact Hs|]. split; [exact Hm|]. intros t.
  assert (K : shown_at m t = None <-> shown_at m' t = None).
  { destruct r as [|s' r].
    - cbn in HM. rewrite Hm' in HM. injection HM as ->. tauto.
    - assert (HL : 2 <= List.length (s :: s' :: r)) by (cbn; lia).
      rewrite (chain_types_kept _ _ t HL HM). cbn [leaf_metadata]. rewrite Hm'. tauto. }
  destruct (RR t) as [R1 R2]. destruct (in_dec string_dec t (rq_types rq)) as [I|I].
  - rewrite K, (R1 I). tauto.
  - rewrite K, (R2 I). tauto.
Qed.
