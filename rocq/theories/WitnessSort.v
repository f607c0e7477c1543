(** Witnesses for sorting chains. *)
From Verif Require Import Base GoVal Policy Schema Metadata Chain SpecChain Sort SpecSort Resolver SpecResolver WitnessResolver
  WitnessPolicy TrustMark SpecTrustMark WitnessTrustMark.
Local Open Scope nat_scope.
Local Open Scope string_scope.

(** A leaf that names its superiors from the farthest to the nearest one. *)
Definition leaf_hints (hs : list string) : stmt :=
  Stmt (st_jwt leaf3) LEAF LEAF (st_iat leaf3) (st_exp leaf3) (st_jwks leaf3) hs (st_metadata leaf3) None None [] [] [] [] [].
Definition net_hints (hs : list string) : world :=
  World (fun p a => if String.eqb a LEAF then Some (leaf_hints hs) else w_config net3 p a)
        (w_fetch net3) (w_now net3) (w_verify net3) (w_host net3).
Definition env_hints (hs : list string) : env :=
  let e := env_of LocalR (net_hints hs) [] [] [] no_remote in
  Env (te_default e) (te_world e) (te_config e) (te_remote e) (te_now e) (te_parse e) (te_stmt e) (te_payload e)
      (te_verify e) length_swaps.
Definition hints_chains (hs : list string) : chains :=
  match resolve_valid 9 (net_hints hs) [Anchor TA None] [] LEAF with Done (Ok cs) => cs | _ => [] end.
Definition lengths (cs : chains) : list nat := map path_len cs.

Definition falling := [IM2; IM1; TA].
Definition many := (repeat TA 7 ++ repeat IM1 6)%list.

Lemma falling_case : exists m,
  resolve_valid 9 (net_hints falling) [Anchor TA None] [] LEAF = Done (Ok (hints_chains falling)) /\
  lengths (hints_chains falling) = [2; 1; 0] /\
  falls_to (fun c => Z.of_nat (path_len c)) (hints_chains falling) 2 /\
  minimal (hints_chains falling) (nth 2 (hints_chains falling) []) /\
  local_resolve 9 (env_hints falling) [] (Req LEAF [TA] []) = Done (Ok m).
Proof.
  eexists. split; [vm_compute; reflexivity|]. split; [vm_compute; reflexivity|]. split.
  { split; [vm_compute; lia|]. split.
    - intros [|[|i]] Hi; [vm_compute; reflexivity|vm_compute; reflexivity|lia].
    - intros H. vm_compute in H. lia. }
  split; [|vm_compute; reflexivity].
  split; [vm_compute; auto|]. intros d _. replace (path_len (nth 2 (hints_chains falling) [])) with 0 by (vm_compute; reflexivity). lia.
Qed.

Lemma many_case : exists m,
  resolve_valid 9 (net_hints many) [Anchor TA None] [] LEAF = Done (Ok (hints_chains many)) /\
  lengths (hints_chains many) = [0; 0; 0; 0; 0; 0; 0; 1; 1; 1; 1; 1; 1] /\
  sorted_by (fun c => Z.of_nat (path_len c)) (hints_chains many) /\
  local_resolve 9 (env_hints many) [] (Req LEAF [TA] []) = Done (Ok m).
Proof.
  eexists. split; [vm_compute; reflexivity|]. split; [vm_compute; reflexivity|]. split; [|vm_compute; reflexivity].
  intros i j d Hij Hj. assert (L : List.length (hints_chains many) = 13) by (vm_compute; reflexivity). rewrite L in Hj.
  assert (E : forall k, k < 13 -> path_len (nth k (hints_chains many) d) = nth k [0; 0; 0; 0; 0; 0; 0; 1; 1; 1; 1; 1; 1] 0).
  { intros k Hk. do 13 (destruct k as [|k]; [vm_compute; reflexivity|]). lia. }
  rewrite !E by lia. do 13 (destruct i as [|i]; [do 13 (destruct j as [|j]; [cbn; lia|]); lia|]). lia.
Qed.

(** More than twelve chains: the result can be unsorted, too. *)
Definition steps14 : chains := map scored [13; 12; 11; 10; 9; 8; 7; 6; 5; 4; 3; 2; 1; 0].

Lemma sort_many_refuted :
  (exists cs, 12 < List.length cs /\ ~ sorted_by score_len (go_sort_asc score_len cs)) /\
  (exists cs, 12 < List.length cs /\ ~ sorted_by (fun c => (- score_len c)%Z) (go_sort_desc score_len cs)).
Proof.
  split.
  - exists steps14. split; [cbn; lia|]. intros H. specialize (H 4 5 [] ltac:(lia)). vm_compute in H. specialize (H ltac:(lia)). congruence.
  - exists (rev steps14). split; [cbn; lia|]. intros H. specialize (H 4 5 [] ltac:(lia)). vm_compute in H. specialize (H ltac:(lia)). congruence.
Qed.

Lemma sort_case : falls_to score_len [scored 5; scored 3; scored 4; scored 1] 1 /\
  map (@List.length _) (go_sort_asc score_len [scored 5; scored 3; scored 4; scored 1]) = [3; 5; 1; 4] /\
  map (@List.length _) (go_sort_asc score_len (rev steps14)) = seq 0 14.
Proof.
  split; [|split; vm_compute; reflexivity]. split; [cbn; lia|]. split.
  - intros [|i] Hi; [vm_compute; reflexivity|lia].
  - intros _. vm_compute. discriminate.
Qed.
