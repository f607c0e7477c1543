(** Counterexamples and cases for the theorems in PropertiesMetaCache.v. *)
From Verif Require Import Base BaseFacts GoVal Policy Schema Metadata SpecMetadata Chain SpecChain Resolver TrustMark Refresher FloatTime Cache MetaCache SpecMetaCache MetaCacheFacts WitnessPolicy.
Local Open Scope nat_scope.
Local Open Scope string_scope.
Local Open Scope list_scope.

Definition wchain : chain := [leaf_st; sup_policy []; bare "ta" "ta"].
(** Digests of the chains with the statements of [c0]. *)
Definition digests (c0 c : chain) (d : string) : Prop := d = "d" /\ same_statements c0 c.

Lemma same_statements_trans a b c : same_statements a b -> same_statements b c -> same_statements a c.
Proof.
  intros H. revert c. induction H as [|x y l l' [E1 E2] _ IH]; intros c K; inversion K as [|y' z l1 l2 [E3 E4] K']; subst; constructor.
  - split; congruence.
  - now apply IH.
Qed.
Lemma digests_ok c0 : no_collision (digests c0).
Proof. intros c c' d [_ H] [_ H']. exact (same_statements_trans _ _ _ (same_statements_sym _ _ H) H'). Qed.
Lemma same_refl c : same_statements c c.
Proof. induction c; constructor; auto. Qed.
Lemma same_msgpack c : same_statements c (map stmt_msgpack c).
Proof. induction c; constructor; auto. Qed.

Definition mcall (c : chain) (t : time) : muse := MCall c "d" "d" t t t.

Lemma wchain_ok t : Forall (muse_ok (digests wchain)) [mcall wchain t].
Proof. constructor; [|constructor]. split; (split; [reflexivity|apply same_refl]). Qed.

Lemma c85_case : exists m,
  no_collision (digests wchain) /\ Forall (muse_ok (digests wchain)) [mcall wchain 500%Z] /\ digests wchain wchain "d" /\
  chain_metadata wchain = Ok (Some m) /\
  fst (meta_cache_get 600%Z "d" (after_muses [mcall wchain 500%Z] (Memory []))) = Some (md_msgpack m) /\
  fst (meta_cache_get 600%Z "d" (after_muses [mcall wchain 500%Z] (Redis []))) = Some (md_msgpack m).
Proof.
  eexists. split; [apply digests_ok|]. split; [apply wchain_ok|]. split; [split; [reflexivity|apply same_refl]|].
  split; [vm_compute; reflexivity|]. split; vm_compute; reflexivity.
Qed.

(** *** Expiry *)
Lemma wchain_range t : (0 < t < 10000)%Z -> Forall muse_in_range [mcall wchain t].
Proof. intros H. constructor; [|constructor]. cbn [muse_in_range mcall]. change (expires_at wchain) with 1000%Z. lia. Qed.

Lemma c86_case : Forall muse_in_range [mcall wchain 500%Z] /\ expires_at wchain = 1000%Z /\
  fst (meta_cache_get 1000%Z "d" (after_muses [mcall wchain 500%Z] (Memory []))) <> None /\
  fst (meta_cache_get 1001%Z "d" (after_muses [mcall wchain 500%Z] (Memory []))) = None.
Proof.
  split; [apply wchain_range; lia|]. split; [reflexivity|]. split; [vm_compute; discriminate|vm_compute; reflexivity].
Qed.

Lemma c86_redis now : exists c h m, Forall (muse_ok (digests c)) h /\ Forall muse_in_range h /\ digests c c "d" /\
  (expires_at c < 2000)%Z /\
  fst (meta_cache_get now "d" (after_muses h (Redis []))) = Some m.
Proof.
  exists wchain, [mcall wchain 5000%Z]. eexists. split; [apply wchain_ok|]. split; [apply wchain_range; lia|].
  split; [split; [reflexivity|apply same_refl]|]. split; [reflexivity|].
  vm_compute. reflexivity.
Qed.

Lemma c86_memory now : exists c h m, Forall (muse_ok (digests c)) h /\ Forall muse_in_range h /\ digests c c "d" /\
  (expires_at c < 2000)%Z /\
  fst (meta_cache_get now "d" (after_muses h (Memory []))) = Some m.
Proof.
  exists wchain, [mcall wchain 1001%Z]. eexists. split; [apply wchain_ok|]. split; [apply wchain_range; lia|].
  split; [split; [reflexivity|apply same_refl]|]. split; [reflexivity|]. vm_compute. reflexivity.
Qed.

(** *** History *)
Definition dec3 (a b c : stmt) (j : string) : stmt :=
  if String.eqb j (st_jwt a) then a else if String.eqb j (st_jwt b) then b else c.

Lemma wchain_safe : cache_safe wchain.
Proof.
  repeat split; intros em E; cbn in E; try discriminate E. injection E as <-.
  exists rp_contacts. split; [vm_compute; reflexivity|]. intros r IR S (q & IQ & L). exfalso.
  cbn in IQ. destruct IQ as [<- | []]. cbn [pol] in L. unfold contacts_policy in L. cbn [lookup] in L.
  destruct (String.eqb_spec (fr_tag r) "contacts") as [T|]; [|congruence].
  revert S T. clear -IR. cbn [In rp_schema] in IR.
  repeat (destruct IR as [<- | IR]; [cbn; intros; discriminate|]). destruct IR.
Qed.

Lemma c87_case : decoded (dec3 leaf_st (sup_policy []) (bare "ta" "ta")) (map stmt_msgpack wchain) = wchain /\
  cache_safe wchain /\ Forall (from_jwt (dec3 leaf_st (sup_policy []) (bare "ta" "ta"))) (map stmt_msgpack wchain) /\
  Forall (from_jwt (dec3 leaf_st (sup_policy []) (bare "ta" "ta"))) wchain.
Proof.
  split; [reflexivity|]. split; [apply wchain_safe|]. split; repeat constructor; (left; reflexivity) || (right; reflexivity).
Qed.

Definition rp_empty : emeta := Eval vm_compute in match decode_meta rp_schema [] with Ok m => m | _ => EMeta [] [] end.
Definition lchain : chain := [with_rp (bare "rp" "rp") rp_empty; with_policy (bare "ta" "rp") logo_default []; bare "ta" "ta"].
Definition ldec : string -> stmt := dec3 (with_rp (bare "rp" "rp") rp_empty) (with_policy (bare "ta" "rp") logo_default []) (bare "ta" "ta").

Definition logo_of (r : res (option metadata)) : option gval :=
  match r with Ok (Some m) => match md_rp m with Some em => em_tag "logo_uri" em | None => None end | _ => None end.

Lemma c87_witness : exists dec h c digest_of,
  no_collision digest_of /\ Forall (muse_ok digest_of) h /\ digest_of c "d" /\
  (forall c' d1 d2 t0 t1 t2, In (MCall c' d1 d2 t0 t1 t2) h -> Forall (from_jwt dec) c') /\ Forall (from_jwt dec) c /\
  decode_meta rp_schema [] = Ok rp_empty /\
  logo_of (fst (metadata_cached "d" "d" 500 500 500 c (after_muses [] (Memory []))))%Z = Some (VStr "https://ta.example/logo.png") /\
  logo_of (fst (metadata_cached "d" "d" 500 500 500 c (after_muses h (Memory []))))%Z = Some (VStr "").
Proof.
  exists ldec, [mcall (map stmt_msgpack lchain) 500%Z], lchain, (digests lchain).
  split; [apply digests_ok|]. split; [constructor; [|constructor]; split; (split; [reflexivity|apply same_msgpack])|].
  split; [split; [reflexivity|apply same_refl]|]. split.
  { intros c' d1 d2 t0 t1 t2 [[= <- <- <- <- <- <-] | []]. repeat constructor; (left; reflexivity) || (right; reflexivity). }
  split; [repeat constructor; (left; reflexivity) || (right; reflexivity)|]. split; [vm_compute; reflexivity|].
  split; vm_compute; reflexivity.
Qed.
