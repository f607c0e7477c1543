(** Cases for the theorems on the end of the verification of trust marks with a remote
    resolver. *)
From Coq Require Import QArith.
From Verif Require Import Base BaseFacts GoVal Policy Schema Metadata Chain Resolver SpecResolver SpecChain ResolverFacts ResolverLaws FloatTime SpecTime Json SpecJson TrustMark
  SpecTrustMark TrustMarkFacts TrustMarkLaws WitnessResolver WitnessPolicy WitnessTrustMark SpecAuth AuthFacts SpecMarkDefault MarkDefaultFacts WitnessMarkDefault SpecMarkReturns MarkReturnFacts.
Local Open Scope nat_scope.
Local Open Scope string_scope.

(** Networks without metadata policies resolve calmly. *)
Definition no_policies : policies := Policies None None None None None None [].
Lemma merged_none c : (forall s, In s c -> st_policy s = None) -> merge_policies (map st_policy c) = Ok no_policies.
Proof.
  intros H. assert (E : Metadata.present (map st_policy c) = []).
  { induction c as [|s c IH]; [reflexivity|]. unfold Metadata.present in *. cbn [map flat_map]. rewrite (H s (or_introl eq_refl)). cbn [app]. apply IH. intros; apply H; now right. }
  unfold merge_policies. rewrite E. vm_compute. reflexivity.
Qed.
Lemma calm_tables cfgs fs tas iss f :
  (forall a s, In (a, s) cfgs -> st_policy s = None /\ exists m, st_metadata s = Some m /\ md_apply m (Some no_policies) <> Panic) ->
  (forall a s, In (a, s) fs -> st_policy s = None) ->
  resolve_valid f (tables cfgs fs) tas [] iss <> Done Panic.
Proof.
  intros HC HF H. apply resolve_panics in H. destruct H as [(_ & s & E & M)|(cs & c & R & Hc & M)].
  - apply lookup_In in E. destruct (HC _ _ E) as (_ & m & X & _). congruence.
  - assert (RT : returned (tables cfgs fs) tas [] iss c) by (exists f, cs; auto).
    destruct (Nat.eq_dec (List.length c) 1) as [L|L]; [destruct c as [|s [|]]; try discriminate|].
    destruct (returned_path _ _ _ _ _ RT L) as (e & h & hs & (_ & s & m & E & SM & ->) & P & _ & ->).
    apply lookup_In in E. destruct (HC _ _ E) as (SP & m' & X & NP). rewrite SM in X. injection X as <-.
    destruct (path_served _ _ _ _ _ _ P) as [F [q T]]; [discriminate|].
    assert (A : forall x, In x (chain_along (with_metadata s (Some m)) (h :: hs)) -> st_policy x = None).
    { intros x [<-|I]; [exact SP|]. apply in_app_or in I. destruct I as [I|[<-|[]]].
      - destruct (F _ I) as (q' & ep & sub & is' & W). change (lookup (fetch_key ep sub) fs = Some x) in W. apply lookup_In in W. eauto.
      - apply lookup_In in T. now destruct (HC _ _ T). }
    pose proof (merged_none _ A) as MP. unfold chain_along in *. unfold chain_metadata in M. cbn [map app] in *.
    destruct (unsupported_crit _); [|discriminate]. rewrite MP in M. cbn [bind with_metadata st_metadata] in M.
    destruct (md_apply m (Some no_policies)); cbn [bind] in M; congruence.
Qed.

(** An issuer that bears a mark of an authority, which bears none. *)
Definition AUTH := "https://auth.example".
Definition bearer : stmt :=
  Stmt "kiss:bearer" ISS ISS 100%Z 1000%Z (Some ["kiss"]) [TA] md_rp_only None None [] [] [("tm2", "kauth:m")] [] [].
Definition auth_cfg : stmt := mk "kauth" AUTH AUTH ["kauth"] [TA] md_rp_only None [] 1000%Z.
Definition ta_auth : stmt := mk "kt" TA AUTH ["kauth"] [] None None [] 1000%Z.
Definition carrier2 : stmt :=
  Stmt "kl:leaf2" LEAF LEAF 100%Z 1000%Z (Some ["kl"]) [TA] md_rp_only None None [] [] [("tm1", "kiss:bare")] [] [].
Definition configs2 : smap stmt := [(LEAF, carrier2); (ISS, bearer); (AUTH, auth_cfg); (TA, ta_cfg)].
Definition fetches2 : smap stmt :=
  [(fetch_key "https://ta.example/fetch" LEAF, ta_leaf); (fetch_key "https://ta.example/fetch" ISS, ta_iss); (fetch_key "https://ta.example/fetch" AUTH, ta_auth)].
Definition jwts2 := (("told", (typ_resolve, JObj [])) :: ("kauth:m", mark_jwt AUTH ISS "tm2" "") :: jwts0)%list.
Definition env2 (d : resolver) : env :=
  env_of d (tables configs2 fetches2) jwts2 [carrier2; bearer; auth_cfg; ta_cfg] [(RES, ABody "told")] (fun _ => Some (Payload None [] [st_jwt bearer])).
Definition rank2 (id : string) : nat := if String.eqb id LEAF then 2 else if String.eqb id ISS then 1 else 0.

Lemma decodes2 d q iss ta : decodes (env2 d) (te_world (env2 d) q (issuer_request iss ta)).
Proof. apply decodes_tables. intros x s [[= <- <-]|[[= <- <-]|[[= <- <-]|[[= <- <-]|[]]]]]; vm_compute; reflexivity. Qed.

Lemma network2 d : all_have_keys (env2 d) /\ superiors_among [TA] (env2 d) /\ resolves_calmly (env2 d) /\ marks_descend rank2 (env2 d).
Proof.
  assert (CF : forall id s, lookup id configs2 = Some s -> (id = LEAF /\ s = carrier2) \/ (id = ISS /\ s = bearer) \/ (id = AUTH /\ s = auth_cfg) \/ (id = TA /\ s = ta_cfg)).
  { intros id s H. apply lookup_In in H. destruct H as [[= <- <-]|[[= <- <-]|[[= <- <-]|[[= <- <-]|[]]]]]; tauto. }
  split; [|split; [|split]].
  - split.
    + intros j s H. change (lookup j (map (fun s => (st_jwt s, s)) [carrier2; bearer; auth_cfg; ta_cfg]) = Some s) in H. apply lookup_In in H.
      apply in_map_iff in H. destruct H as (s' & [= _ <-] & [<-|[<-|[<-|[<-|[]]]]]); discriminate.
    + intros p id s H. destruct (CF id s H) as [[-> ->]|[[-> ->]|[[-> ->]|[-> ->]]]]; discriminate.
  - intros q iss ta q' a s H. destruct (CF a s H) as [[-> ->]|[[-> ->]|[[-> ->]|[-> ->]]]]; intros x; vm_compute; tauto.
  - intros q iss ta f. apply calm_tables.
    + intros a s [[= <- <-]|[[= <- <-]|[[= <- <-]|[[= <- <-]|[]]]]]; (split; [reflexivity|]; eexists; split; [reflexivity|]; vm_compute; discriminate).
    + intros a s [[= <- <-]|[[= <- <-]|[[= <- <-]|[]]]]; reflexivity.
  - intros q iss ta s tj m H Hj M. assert (P : parse_mark (env2 d) (snd tj) = Ok m) by (apply parse_mark_spec; exact M). clear M.
    destruct (CF iss s H) as [[-> ->]|[[-> ->]|[[-> ->]|[-> ->]]]]; [destruct Hj as [<-|[]]|destruct Hj as [<-|[]]|destruct Hj|destruct Hj];
      vm_compute in P; injection P as <-; vm_compute; auto.
Qed.

Lemma c72_smart_case : exists e, te_default e = SmartR /\ in_sync e (info0 "tm1" "kiss:bare") /\
  (all_have_keys e /\ superiors_among [TA] e /\ resolves_calmly e /\ marks_descend rank2 e) /\
  (forall m, is_mark e "kiss:bare" m -> rank2 (mk_iss m) = 1) /\ verify_mark 9 e [] (info0 "tm1" "kiss:bare") ta_cfg = Done (Ok tt).
Proof.
  exists (env2 SmartR). split; [reflexivity|]. split; [discriminate|]. split; [apply network2|]. split.
  - intros m M. assert (P : parse_mark (env2 SmartR) "kiss:bare" = Ok m) by (apply parse_mark_spec; exact M). vm_compute in P. injection P as <-. reflexivity.
  - vm_compute. reflexivity.
Qed.

Lemma c40_descend_case : exists e s, te_default e = SmartR /\ in_sync e (info0 "tm1" "kiss:bare") /\
  (all_have_keys e /\ superiors_among [TA] e /\ resolves_calmly e /\ marks_descend rank2 e) /\
  (forall iss, decodes e (te_world e [] (issuer_request iss ta_cfg))) /\
  w_config (te_world e [] (issuer_request ISS ta_cfg)) [] ISS = Some s /\ st_marks s <> [] /\
  verify_mark 9 e [] (info0 "tm1" "kiss:bare") ta_cfg = Done (Ok tt) /\ verify_mark 9 e [] (info0 "tm1" "ko:d") ta_cfg = Done Err.
Proof.
  exists (env2 SmartR), bearer. split; [reflexivity|]. split; [discriminate|]. split; [apply network2|]. split; [intros; apply decodes2|].
  split; [reflexivity|]. split; [discriminate|]. split; vm_compute; reflexivity.
Qed.

(** An endpoint that answers with the configuration of an issuer that has no key set. *)
Definition env_bare_told : env :=
  env_of (SimpleR RES) (tables configs2 fetches2) jwts2 [no_keys] [(RES, ABody "told")] (fun _ => Some (Payload None [] [st_jwt no_keys])).
Lemma c72_remote_case : exists e e', te_default e = SimpleR RES /\ in_sync e (info0 "tm1" "kiss:bare") /\
  verify_mark 1 e [] (info0 "tm1" "kiss:bare") ta_cfg = Done (Ok tt) /\
  te_default e' = SimpleR RES /\ in_sync e' (info0 "tm1" "kiss:bare") /\ verify_mark 1 e' [] (info0 "tm1" "kiss:bare") ta_cfg = Done Panic.
Proof.
  exists (env2 (SimpleR RES)), env_bare_told. split; [reflexivity|]. split; [discriminate|]. split; [vm_compute; reflexivity|].
  split; [reflexivity|]. split; [discriminate|]. vm_compute; reflexivity.
Qed.

(** Marks of carriers. *)
Lemma c41_remote_case : exists pl t, te_default (env2 (SimpleR RES)) = SimpleR RES /\
  resolve_payload 9 (env2 (SimpleR RES)) LocalR [] (Req LEAF [TA] []) = Done (Ok pl) /\ In t (pl_marks pl).
Proof. eexists _, _. split; [reflexivity|]. split; [vm_compute; reflexivity|]. left. reflexivity. Qed.
Lemma c41_smart_case : exists pl t, te_default (env2 SmartR) = SmartR /\
  (forall q iss ta, decodes (env2 SmartR) (te_world (env2 SmartR) q (issuer_request iss ta))) /\
  resolve_payload 9 (env2 SmartR) SmartR [] (Req LEAF [TA] []) = Done (Ok pl) /\ In t (pl_marks pl).
Proof. eexists _, _. split; [reflexivity|]. split; [intros; apply decodes2|]. split; [vm_compute; reflexivity|]. left. reflexivity. Qed.

Definition env_other (d : resolver) : env :=
  env_of d net_carrier (("told", (typ_resolve, JObj [])) :: jwts0) [carrier; iss_cfg [TA]; ta_cfg] [(RES, ABody "told")] (fun _ => Some (Payload None [] [st_jwt (iss_cfg [TA])])).
Lemma c41_other d : d = SimpleR RES \/ d = SmartR -> exists fuel e p rq pl t m,
  te_default e = d /\ resolve_payload fuel e LocalR p rq = Done (Ok pl) /\ In t (pl_marks pl) /\
  is_mark e (ti_jwt t) m /\ mk_sub m <> rq_sub rq.
Proof.
  intros HD. exists 9, (env_other d), [], (Req LEAF [TA] []). eexists.
  exists (Info "tm1" "kiss:other" [] (match parse_mark (env_other d) "kiss:other" with Ok m => Some m | _ => None end)).
  exists (match parse_mark (env_other d) "kiss:other" with Ok m => m | _ => Mark "" "" "" 0%Z "" None "" "" [] None end).
  split; [reflexivity|]. split; [destruct HD as [-> | ->]; vm_compute; reflexivity|]. split; [left; vm_compute; reflexivity|]. split.
  - apply parse_mark_spec. vm_compute. reflexivity.
  - vm_compute. discriminate.
Qed.
