(** Concrete trust marks and resolvers: counterexamples for statements that are false of the
    code, and cases that meet the hypotheses of the theorems in PropertiesTrustMark.v. *)
From Coq Require Import QArith.
From Verif Require Import Base BaseFacts GoVal Policy Schema Metadata Chain Resolver SpecResolver SpecChain ResolverLaws
  FloatTime SpecTime WitnessResolver WitnessPolicy.
From Verif Require Import Json SpecJson JsonFacts TrustMark SpecTrustMark TrustMarkFacts TrustMarkLaws.
Local Open Scope nat_scope.
Local Open Scope string_scope.

Definition ISS := "https://iss.example".
Definition OWNER := "https://owner.example".
Definition OTHER := "https://other.example".

(** An environment with the network [w]; JWTs and statements from tables; a JWT verifies
    under a key set if it starts with one of the keys. Marks are checked at second 500. *)
Definition env_of (d : resolver) (w : world) (jwts : smap (string * json)) (stmts : list stmt)
           (remote : smap answer) (pl : json -> option payload) : env :=
  Env d (fun _ _ => w) (fun _ a => w_config w [] a)
      (fun _ ep _ => match lookup ep remote with Some a => a | None => ATransport end)
      (fun _ _ => seconds 500) (fun j => lookup j jwts) (fun j => lookup j (map (fun s => (st_jwt s, s)) stmts))
      pl (fun jwt ks => existsb (fun k => has_prefix k jwt) ks) (fun _ => []).
Definition no_remote : json -> option payload := fun _ => None.

Definition mark_json (iss sub typ deleg : string) (more : smap json) : json :=
  JObj ([("iss", JStr iss); ("sub", JStr sub); ("trust_mark_type", JStr typ); ("iat", JNum (100 # 1));
         ("exp", JNum (1000 # 1))] ++ (if String.eqb deleg "" then [] else [("delegation", JStr deleg)]) ++ more)%list.
Definition mark_jwt (iss sub typ deleg : string) : string * json := (typ_mark, mark_json iss sub typ deleg []).
Definition deleg_jwt (iss sub typ : string) : string * json :=
  (typ_delegation, mark_json iss sub typ "" []).
Definition info0 (typ jwt : string) : info := Info typ jwt [] None.

Definition iss_cfg (hints : list string) : stmt := mk "kiss" ISS ISS ["kiss"] hints md_rp_only None [] 1000%Z.
Definition ta_iss : stmt := mk "kt" TA ISS ["kiss"] [] None None [] 1000%Z.
Definition net_iss : world :=
  tables [(ISS, iss_cfg [TA]); (TA, ta_cfg)] [(fetch_key "https://ta.example/fetch" ISS, ta_iss)].
Definition net_iss_orphan : world := tables [(ISS, iss_cfg [])] [].

(** The anchor's configuration with trust mark issuers and owners. *)
Definition ta_marks (issuers : smap (list string)) (owners : smap (string * jwks)) : stmt :=
  Stmt (st_jwt ta_cfg) TA TA 100%Z 1000%Z (Some ["kt"]) [] (st_metadata ta_cfg) None None [] [] [] issuers owners.
Definition ta0 := ta_marks [("tm1", [ISS])] [("tm1", (OWNER, Some ["ko"]))].

Definition jwts0 : smap (string * json) :=
  [("kiss:m", mark_jwt ISS LEAF "tm1" "ko:d"); ("ko:d", deleg_jwt OWNER ISS "tm1");
   ("kiss:bare", mark_jwt ISS LEAF "tm1" ""); ("kiss:other", mark_jwt ISS OTHER "tm1" "")].
Definition env0 := env_of LocalR net_iss jwts0 [iss_cfg [TA]; ta_cfg] [] no_remote.
Definition env_orphan := env_of LocalR net_iss_orphan jwts0 [iss_cfg []] [] no_remote.

Lemma decodes_tables e cfgs fs : (forall a s, In (a, s) cfgs -> te_stmt e (st_jwt s) = Some s) ->
  decodes e (tables cfgs fs).
Proof. intros H p a s L. apply lookup_In in L. eapply H; exact L. Qed.

Lemma decodes0 iss ta p : decodes env0 (te_world env0 p (issuer_request iss ta)).
Proof. apply decodes_tables. intros a s [[= <- <-]|[[= <- <-]|[]]]; vm_compute; reflexivity. Qed.
Lemma decodes_orphan iss ta p : decodes env_orphan (te_world env_orphan p (issuer_request iss ta)).
Proof. apply decodes_tables. intros a s [[= <- <-]|[]]; vm_compute; reflexivity. Qed.

(** *** C40 *)
Lemma c40_case :
  te_default env0 = LocalR /\ in_sync env0 (info0 "tm1" "kiss:m") /\
  (forall iss, decodes env0 (te_world env0 [] (issuer_request iss ta0))) /\
  (forall m s, is_mark env0 "kiss:m" m -> w_config (te_world env0 [] (issuer_request (mk_iss m) ta0)) [] (mk_iss m) = Some s ->
     st_hints s <> [] /\ st_iss s = mk_iss m) /\
  verify_mark 9 env0 [] (info0 "tm1" "kiss:m") ta0 = Done (Ok tt) /\
  verify_mark 9 env0 [] (info0 "tm1" "kiss:bare") ta0 = Done Err /\
  verify_mark 9 env0 [] (info0 "tm2" "kiss:m") ta0 = Done Err.
Proof.
  split; [reflexivity|]. split; [discriminate|]. split; [intros; apply decodes0|]. split.
  - intros m s M. assert (P : parse_mark env0 "kiss:m" = Ok m) by (apply parse_mark_spec; exact M).
    vm_compute in P. injection P as <-. vm_compute. intros [= <-]. split; [discriminate|reflexivity].
  - repeat split; vm_compute; reflexivity.
Qed.

(** An issuer without authority hints is not in the federation, yet its marks are accepted. *)
Lemma c40_witness : exists e p t ta,
  te_default e = LocalR /\ in_sync e t /\ (forall iss, decodes e (te_world e p (issuer_request iss ta))) /\
  (exists fuel, verify_mark fuel e p t ta = Done (Ok tt)) /\ ~ recognised federation_keys e p t ta.
Proof.
  exists env_orphan, [], (info0 "tm1" "kiss:bare"), (ta_marks [("tm1", [ISS])] []).
  split; [reflexivity|]. split; [discriminate|]. split; [intros; apply decodes_orphan|].
  split; [exists 9; vm_compute; reflexivity|].
  intros (m & ks & K & V & _). destruct V as [M _ _ _ _].
  assert (P : parse_mark env_orphan "kiss:bare" = Ok m) by (apply parse_mark_spec; exact M).
  vm_compute in P. injection P as <-.
  destruct K as [(E & _)|(_ & s & r & k & l & (f & cs & R & I) & (_ & A) & _)]; [discriminate E|].
  assert (R5 : resolve_valid 5 net_iss_orphan [Anchor TA None] [] ISS = Done (Ok [[iss_cfg []]])) by (vm_compute; reflexivity).
  pose proof (resolve_valid_det _ _ _ _ _ _ _ _ R R5) as E. injection E as ->. destruct I as [E|[]].
  rewrite <- E in A. destruct A as (pre & t & E2 & _ & ta & [<-|[]] & Et).
  destruct pre as [|? [|]]; try discriminate. injection E2 as <-. discriminate.
Qed.

(** Decoding another document into an info keeps the parsed mark of the first one. *)
Definition verified_info : info := snd (info_verify_federation (issuer_keys 9 env0) env0 [] (info0 "tm1" "kiss:m") ta0).
Lemma c40_stale : exists e p t j t' ta fuel,
  verify_mark fuel e p t ta = Done (Ok tt) /\
  unmarshal_info j (snd (info_verify_federation (issuer_keys fuel e) e p t ta)) = Ok t' /\
  ti_jwt t' = "garbage" /\ te_parse e "garbage" = None /\
  verify_mark fuel e p t' ta = Done (Ok tt).
Proof.
  exists env0, [], (info0 "tm1" "kiss:m"), (JObj [("trust_mark_type", JStr "tm1"); ("trust_mark", JStr "garbage")]).
  eexists. exists ta0, 9.
  split; [vm_compute; reflexivity|]. split; [vm_compute; reflexivity|]. repeat split; vm_compute; reflexivity.
Qed.

(** *** C41 *)
Definition carrier : stmt :=
  Stmt "kl:leaf" LEAF LEAF 100%Z 1000%Z (Some ["kl"]) [TA] md_rp_only None None [] [] [("tm1", "kiss:other")] [] [].
Definition ta_leaf : stmt := mk "kt" TA LEAF ["kl"] [] None None [] 1000%Z.
Definition net_carrier : world :=
  tables [(LEAF, carrier); (ISS, iss_cfg [TA]); (TA, ta_cfg)]
         [(fetch_key "https://ta.example/fetch" LEAF, ta_leaf); (fetch_key "https://ta.example/fetch" ISS, ta_iss)].
Definition env_carrier := env_of LocalR net_carrier jwts0 [carrier; iss_cfg [TA]; ta_cfg] [] no_remote.

Lemma c41_witness : exists fuel e p rq pl t m,
  te_default e = LocalR /\ resolve_payload fuel e LocalR p rq = Done (Ok pl) /\ In t (pl_marks pl) /\
  is_mark e (ti_jwt t) m /\ mk_sub m <> rq_sub rq.
Proof.
  exists 9, env_carrier, [], (Req LEAF [TA] []). eexists.
  exists (Info "tm1" "kiss:other" [] (match parse_mark env_carrier "kiss:other" with Ok m => Some m | _ => None end)).
  exists (match parse_mark env_carrier "kiss:other" with Ok m => m | _ => Mark "" "" "" 0%Z "" None "" "" [] None end).
  split; [reflexivity|]. split; [vm_compute; reflexivity|]. split; [left; vm_compute; reflexivity|]. split.
  - apply parse_mark_spec. vm_compute. reflexivity.
  - vm_compute. discriminate.
Qed.

Lemma c41_case : exists pl t, te_default env_carrier = LocalR /\
  (forall q iss ta, decodes env_carrier (te_world env_carrier q (issuer_request iss ta))) /\
  resolve_payload 9 env_carrier LocalR [] (Req LEAF [TA] []) = Done (Ok pl) /\ In t (pl_marks pl).
Proof.
  eexists _, _. split; [reflexivity|]. split.
  - intros q iss ta. apply decodes_tables. intros a s [[= <- <-]|[[= <- <-]|[[= <- <-]|[]]]]; vm_compute; reflexivity.
  - split; [vm_compute; reflexivity|]. left. reflexivity.
Qed.

(** *** C42 *)
Definition marks3 := [info0 "tm1" "kiss:m"; info0 "tm1" "kiss:bare"; info0 "tm2" "x"; info0 "tm1" "kiss:m"].
Lemma c42_case : exists r, verified_marks 9 env0 [] marks3 ta0 = Done (Ok r) /\
  map ti_jwt r = ["kiss:m"; "kiss:m"] /\
  (forall k t, nth_error marks3 k = Some t -> exists x, verify_mark 9 env0 [k] t ta0 = Done x /\ x <> Panic) /\
  (exists r', verified_external env0 [] 0 marks3 (Some ["kiss"]) [] = Ok r' /\ map ti_jwt r' = ["kiss:m"; "kiss:bare"; "kiss:m"]) /\
  find_by_id "tm2" marks3 = Some (info0 "tm2" "x").
Proof.
  eexists. split; [vm_compute; reflexivity|]. split; [reflexivity|]. split; [|split].
  - intros [|[|[|[|[|k]]]]] t [= <-]; (eexists; split; [vm_compute; reflexivity|discriminate]).
  - eexists. split; vm_compute; reflexivity.
  - reflexivity.
Qed.

(** *** C35 *)
Definition IM1 := "https://im1.example".
Definition IM2 := "https://im2.example".
Definition IM3 := "https://im3.example".
Definition im_of (key id up : string) : stmt := mk key id id [key] [up] (md_fetch (id ++ "/fetch")) None [] 1000%Z.
Definition leaf3 : stmt := mk "kl" LEAF LEAF ["kl"] [IM1; IM2; TA] (Some (Metadata None (Some rp_meta) None None None None [])) None [] 1000%Z.
Definition about (key iss sub k : string) : stmt := mk key iss sub [k] [] None None [] 1000%Z.
Definition named (s : stmt) : stmt := with_policy s [("contacts", e_value ["im1"])] [].
Definition net3 : world :=
  tables [(LEAF, leaf3); (IM1, im_of "k1" IM1 TA); (IM2, im_of "k2" IM2 IM3); (IM3, im_of "k3" IM3 TA); (TA, ta_cfg)]
    [(fetch_key "https://im1.example/fetch" LEAF, named (about "k1" IM1 LEAF "kl"));
     (fetch_key "https://ta.example/fetch" IM1, about "kt" TA IM1 "k1");
     (fetch_key "https://im2.example/fetch" LEAF, about "k2" IM2 LEAF "kl");
     (fetch_key "https://im3.example/fetch" IM2, about "k3" IM3 IM2 "k2");
     (fetch_key "https://ta.example/fetch" IM3, about "kt" TA IM3 "k3");
     (fetch_key "https://ta.example/fetch" LEAF, about "kt" TA LEAF "kl")].
Definition env3 := env_of LocalR net3 [] [] [] no_remote.
Definition chains3 : chains := match resolve_valid 9 net3 [Anchor TA None] [] LEAF with Done (Ok cs) => cs | _ => [] end.

Lemma c35_witness : exists fuel e p rq cs m,
  resolve_valid fuel (te_world e p rq) (map (fun id => Anchor id None) (rq_anchors rq)) (rq_types rq) (rq_sub rq) = Done (Ok cs) /\
  local_resolve fuel e p rq = Done (Ok m) /\ forall c, minimal cs c -> chain_metadata c <> Ok m.
Proof.
  exists 9, env3, [], (Req LEAF [TA] []), chains3. eexists.
  split; [vm_compute; reflexivity|]. split; [vm_compute; reflexivity|].
  intros c (I & M) E.
  assert (L : path_len c = 0).
  { assert (H : In [leaf3; about "kt" TA LEAF "kl"; ta_cfg] chains3) by (vm_compute; auto 9).
    specialize (M _ H). change (path_len [leaf3; about "kt" TA LEAF "kl"; ta_cfg]) with 0 in M. lia. }
  vm_compute in I. destruct I as [<-|[<-|[<-|[]]]]; [vm_compute in L; discriminate L| |].
  all: try (vm_compute in L; discriminate L). vm_compute in E. discriminate E.
Qed.

Lemma c35_case : exists cs m,
  resolve_valid 9 net_carrier [Anchor TA None] [] LEAF = Done (Ok cs) /\ List.length cs <= 2 /\ cs <> [] /\
  local_resolve 9 env_carrier [] (Req LEAF [TA] []) = Done (Ok (Some m)).
Proof.
  eexists _, _. split; [vm_compute; reflexivity|]. split; [simpl; lia|]. split; [discriminate|].
  vm_compute. reflexivity.
Qed.

(** *** C36 *)
Definition op_leaf : stmt :=
  mk "kl" LEAF LEAF ["kl"] [TA] (Some (Metadata (Some (zero_meta op_schema)) None None None None None [])) None [] 1000%Z.
Definition evil_ta : stmt := mk "evil" TA TA ["evil"] [] (md_fetch "https://ta.example/fetch") None [] 1000%Z.
Definition net_evil : world :=
  tables [(LEAF, op_leaf); (TA, evil_ta)] [(fetch_key "https://ta.example/fetch" LEAF, about "evil" TA LEAF "kl")].
Definition env_evil := env_of LocalR net_evil [] [] [] no_remote.
Lemma c36_witness : exists e p tas issuer fuel op,
  te_default e = LocalR /\ (forall a, In a tas -> ta_jwks a <> None) /\
  resolve_op fuel e p tas issuer = Done (Ok (Some op)) /\
  forall f cs, resolve_valid f (te_world e p (Req issuer (anchor_ids tas) ["openid_provider"])) tas ["openid_provider"] issuer = Done (Ok cs) -> cs = [].
Proof.
  exists env_evil, [], tas0, LEAF, 9, (zero_meta op_schema).
  split; [reflexivity|]. split; [intros a [<-|[]]; discriminate|]. split; [vm_compute; reflexivity|].
  intros f cs H.
  assert (R5 : resolve_valid 5 net_evil tas0 ["openid_provider"] LEAF = Done (Ok [])) by (vm_compute; reflexivity).
  pose proof (resolve_valid_det _ _ _ _ _ _ _ _ H R5) as E. now injection E.
Qed.
Lemma c36_case : te_default env_evil = LocalR /\ exists op, resolve_op 9 env_evil [] [Anchor TA None] LEAF = Done (Ok (Some op)).
Proof. split; [reflexivity|]. eexists. vm_compute. reflexivity. Qed.

(** *** C37, C38 *)
Definition RES := "https://ta.example/resolve".
Definition md_resolve : option metadata :=
  Some (Metadata None None None None None
    (match decode_meta fe_schema [("federation_fetch_endpoint", VStr "https://ta.example/fetch"); ("federation_resolve_endpoint", VStr RES)]
     with Ok m => Some m | _ => None end) []).
Definition ta_res : stmt := mk "kt" TA TA ["kt"] [] md_resolve None [] 1000%Z.
Definition net_res : world :=
  tables [(LEAF, carrier); (TA, ta_res)] [(fetch_key "https://ta.example/fetch" LEAF, ta_leaf)].
Definition pl_forged : payload := Payload (Some empty_metadata) [] [].
Definition env_res (a : answer) : env :=
  env_of LocalR net_res [("forged", (typ_resolve, JObj [("sub", JStr OTHER)]))] [carrier; ta_res] [(RES, a)]
    (fun _ => Some pl_forged).

Lemma c37_witness : exists fuel e p rq,
  (forall k id, nth_error (rq_anchors rq) k = Some id -> unreachable e (k :: p) rq id) /\
  resolve_possible fuel e LocalR p rq = Done (Ok (true, false)) /\
  resolve_possible fuel e SmartR p rq = Done (Ok (false, true)).
Proof.
  exists 9, (env_res ATransport), [], (Req LEAF [TA] []). split.
  - intros [|[|k]] id [= <-] ec [= <-] _. vm_compute. reflexivity.
  - split; vm_compute; reflexivity.
Qed.
Lemma c37_case :
  usable (env_res (ABody "forged")) [0] (Req LEAF [TA] []) TA pl_forged /\
  resolve_payload 9 (env_res (ABody "forged")) SmartR [] (Req LEAF [TA] []) = Done (Ok pl_forged) /\
  (forall k id pl, nth_error [TA] k = Some id -> ~ usable (env_res (AError "server_error")) [k] (Req LEAF [TA] []) id pl) /\
  (forall k id, nth_error [TA] k = Some id -> undecided (env_res (AError "server_error")) [k] (Req LEAF [TA] []) id) /\
  resolve_possible 9 (env_res (AError "server_error")) SmartR [] (Req LEAF [TA] []) = Done (Ok (true, false)).
Proof.
  split; [|split; [|split; [|split]]].
  - exists ta_res, "forged", (JObj [("sub", JStr OTHER)]). repeat split; vm_compute; try reflexivity; discriminate.
  - vm_compute. reflexivity.
  - intros [|[|k]] id pl [= <-] (ec & b & j & [= <-] & _ & A & _). vm_compute in A. discriminate A.
  - intros [|[|k]] id [= <-] ec [= <-] _. exists "server_error". split; [vm_compute; reflexivity|]. split; discriminate.
  - vm_compute. reflexivity.
Qed.

(** Nobody signed the response and it is about another entity. *)
Lemma c38_witness : exists e p ep rq b j pl,
  te_remote e p ep rq = ABody b /\ (forall ks, te_verify e b ks = false) /\
  te_parse e b = Some ("resolve-response+jwt", j) /\ claim "sub" j <> Some (JStr (rq_sub rq)) /\
  resolve_payload 9 e (SimpleR ep) p rq = Done (Ok pl).
Proof.
  exists (with_verify (env_res (ABody "forged")) (fun _ _ => false)), [], RES, (Req LEAF [TA] []), "forged", (JObj [("sub", JStr OTHER)]), pl_forged.
  repeat split; vm_compute; try reflexivity; discriminate.
Qed.

(** *** C43, C44 *)
Definition flat_eqb (a b : json) : bool :=
  match a, b with
  | JStr s, JStr t => String.eqb s t
  | JNum q, JNum r => (Z.eqb (Qnum q) (Qnum r) && Pos.eqb (Qden q) (Qden r))%bool
  | _, _ => false
  end.
Fixpoint members_eqb (l l' : list (string * json)) : bool :=
  match l, l' with
  | [], [] => true
  | (k, v) :: r, (k', v') :: r' => (String.eqb k k' && flat_eqb v v' && members_eqb r r')%bool
  | _, _ => false
  end.
Definition obj_eqb (a b : json) : bool := match a, b with JObj l, JObj l' => members_eqb l l' | _, _ => false end.
Lemma flat_eqb_eq a b : flat_eqb a b = true -> a = b.
Proof.
  destruct a, b; try discriminate; simpl; intros H.
  - apply andb_prop in H. destruct H as (H1 & H2). apply Z.eqb_eq in H1. apply Pos.eqb_eq in H2.
    destruct q as [n d], q0 as [n' d']. simpl in *. now subst.
  - apply String.eqb_eq in H. now subst.
Qed.
Lemma members_eqb_eq l : forall l', members_eqb l l' = true -> l = l'.
Proof.
  induction l as [|[k v] l IH]; intros [|[k' v'] l']; try discriminate; [reflexivity|]. cbn [members_eqb]. intros H.
  apply andb_prop in H. destruct H as (H & H3). apply andb_prop in H. destruct H as (H1 & H2).
  apply String.eqb_eq in H1. apply flat_eqb_eq in H2. apply IH in H3. congruence.
Qed.
Lemma obj_eqb_eq a b : obj_eqb a b = true -> a = b.
Proof. destruct a, b; try discriminate. intros H. apply members_eqb_eq in H. now subst. Qed.

(** A signer with key "ki" that has signed exactly [j], with header [typ0]. *)
Definition sign_only (typ0 : string) (j : json) (typ : string) (j' : json) : option string :=
  if (String.eqb typ typ0 && obj_eqb j' j)%bool then Some "ki:signed" else None.
Definition env_at (t : time) (typ0 : string) (j : json) : env :=
  Env LocalR (fun _ _ => net_iss) (fun _ _ => None) (fun _ _ _ => ATransport) (fun _ _ => t)
      (fun s => if String.eqb s "ki:signed" then Some (typ0, j) else None) (fun _ => None) no_remote
      (fun s ks => mem "ki" ks) (fun _ => []).
Lemma signer_only t typ0 j : signer (env_at t typ0 j) (sign_only typ0 j) "ki".
Proof.
  intros typ j' jwt H. unfold sign_only in H. destruct (String.eqb typ typ0) eqn:E; [|discriminate].
  destruct (obj_eqb j' j) eqn:E2; [|discriminate]. injection H as <-. apply String.eqb_eq in E. apply obj_eqb_eq in E2.
  subst. split; [reflexivity|]. intros ks. apply mem_In.
Qed.

Definition spec1 (extra : smap json) : mark_spec := MarkSpec "tm1" (seconds 60) "" "" extra false "".
Definition mark1 (now : time) (extra : smap json) : json :=
  marshal mark_fields (mark_values (Mark ISS LEAF "tm1" now "" (Some (now + seconds 60)%Z) "" "" extra None)) extra.
Definition S0 : Z := 1763337600%Z.
Definition odd_time : time := (seconds S0 + 201)%Z.

(** Issued at [odd_time], the mark does not verify at that instant: iat is rounded up. *)
Lemma c43_rounding : exists e p sign k ent specs spec now typ sub t,
  signer e sign k /\ issuer_specs specs /\ lookup typ specs = Some spec /\ no_clash mark_fields (ms_extra spec) /\
  (0 < ms_lifetime spec)%Z /\ issue_mark sign ent specs now typ sub None = Ok t /\
  te_now e p false = now /\ fst (info_verify_external e p t (Some [k]) []) = Err.
Proof.
  exists (env_at odd_time typ_mark (mark1 odd_time [])), [], (sign_only typ_mark (mark1 odd_time [])), "ki", ISS,
    (new_issuer [spec1 []]), (spec1 []), odd_time, "tm1", LEAF. eexists.
  split; [apply signer_only|]. split; [constructor|]. split; [reflexivity|].
  split; [split; [constructor|intros k []]|]. split; [reflexivity|].
  split; [vm_compute; reflexivity|]. split; [reflexivity|]. vm_compute. reflexivity.
Qed.

(** An additional claim "sub" in the specification replaces the subject. *)
Lemma c43_extra : exists e sign k ent specs spec now typ sub t m,
  signer e sign k /\ issuer_specs specs /\ lookup typ specs = Some spec /\
  issue_mark sign ent specs now typ sub None = Ok t /\ is_mark e (ti_jwt t) m /\ mk_sub m <> sub.
Proof.
  pose (x := [("sub", JStr OTHER)]).
  exists (env_at (seconds S0) typ_mark (mark1 (seconds S0) x)), (sign_only typ_mark (mark1 (seconds S0) x)), "ki", ISS,
    (new_issuer [spec1 x]), (spec1 x), (seconds S0), "tm1", LEAF. eexists.
  exists (match parse_mark (env_at (seconds S0) typ_mark (mark1 (seconds S0) x)) "ki:signed" with
          | Ok m => m | _ => Mark "" "" "" 0%Z "" None "" "" [] None end).
  split; [apply signer_only|]. split; [constructor|]. split; [reflexivity|].
  split; [vm_compute; reflexivity|]. split; [apply parse_mark_spec; vm_compute; reflexivity|]. vm_compute. discriminate.
Qed.

Lemma c43_case :
  let e t := env_at t typ_mark (mark1 (seconds S0) []) in
  let sign := sign_only typ_mark (mark1 (seconds S0) []) in
  (forall t, signer (e t) sign "ki") /\ issuer_specs (new_issuer [spec1 []]) /\
  lookup "tm1" (new_issuer [spec1 []]) = Some (spec1 []) /\ no_clash mark_fields (ms_extra (spec1 [])) /\
  ms_lifetime (spec1 []) = seconds 60 /\ (Z.abs S0 <= 4611686018)%Z /\ (Z.abs (S0 + 60) <= 4611686018)%Z /\
  exists t, issue_mark sign ISS (new_issuer [spec1 []]) (seconds S0) "tm1" LEAF None = Ok t /\
    fst (info_verify_external (e (seconds (S0 + 60))) [] t (Some ["ki"]) []) = Ok tt /\
    fst (info_verify_external (e (seconds (S0 + 60) + 1)%Z) [] t (Some ["ki"]) []) = Err /\
    issue_mark sign ISS (new_issuer [spec1 []]) (seconds S0) "tm2" LEAF None = Err.
Proof.
  split; [intros; apply signer_only|]. split; [constructor|]. split; [reflexivity|].
  split; [split; [constructor|intros k []]|]. split; [reflexivity|]. split; [vm_compute; discriminate|]. split; [vm_compute; discriminate|].
  eexists. split; [vm_compute; reflexivity|]. repeat split; vm_compute; reflexivity.
Qed.

Definition own (l : Z) : owned := Owned "tm1" l "" [].
Definition sign_any (typ : string) (j : json) : option string := match claim "exp" j with Some _ => Some "exp" | None => Some "noexp" end.
(** Configured zero, requested 60 s: no expiry. Configured 60 s, requested zero ("no
    expiry"): expires at once. *)
Lemma c44_witness1 : exists sign ent specs spec now typ sub l jwt j,
  lookup typ specs = Some spec /\ l <> 0%Z /\ delegate sign ent specs now typ sub (Some l) = Ok jwt /\
  (forall j', sign "trust-mark-delegation+jwt" j' = Some jwt -> j' = j) /\ claim "exp" j = None.
Proof.
  pose (j := marshal delegation_fields (deleg_values (Deleg OWNER ISS "tm1" (seconds S0) None "" [] None)) []).
  exists (sign_only typ_delegation j), OWNER, [("tm1", own 0%Z)], (own 0%Z), (seconds S0), "tm1", ISS, (seconds 60), "ki:signed", j.
  split; [reflexivity|]. split; [discriminate|]. split; [vm_compute; reflexivity|]. split; [|vm_compute; reflexivity].
  intros j' H. unfold sign_only in H. change (String.eqb "trust-mark-delegation+jwt" typ_delegation) with true in H. cbn [andb] in H.
  destruct (obj_eqb j' j) eqn:E; [|discriminate]. now apply obj_eqb_eq.
Qed.
Lemma c44_witness2 : exists sign ent specs spec now typ sub jwt j,
  lookup typ specs = Some spec /\ delegate sign ent specs now typ sub (Some 0%Z) = Ok jwt /\
  (forall j', sign "trust-mark-delegation+jwt" j' = Some jwt -> j' = j) /\ claim "exp" j = claim "iat" j /\ claim "exp" j <> None.
Proof.
  pose (j := marshal delegation_fields (deleg_values (Deleg OWNER ISS "tm1" (seconds S0) (Some (seconds S0)) "" [] None)) []).
  exists (sign_only typ_delegation j), OWNER, [("tm1", own (seconds 60))], (own (seconds 60)), (seconds S0), "tm1", ISS, "ki:signed", j.
  split; [reflexivity|]. split; [vm_compute; reflexivity|]. split; [|vm_compute; split; [reflexivity|discriminate]].
  intros j' H. unfold sign_only in H. change (String.eqb "trust-mark-delegation+jwt" typ_delegation) with true in H. cbn [andb] in H.
  destruct (obj_eqb j' j) eqn:E; [|discriminate]. now apply obj_eqb_eq.
Qed.
Lemma c44_case : no_exact_clash delegation_fields (ow_extra (own (seconds 60))) /\
  exists jwt, delegate sign_any OWNER [("tm1", own (seconds 60))] (seconds S0) "tm1" ISS None = Ok jwt.
Proof. split; [split; [constructor|intros k []]|]. eexists. vm_compute. reflexivity. Qed.

(** *** C72 *)
Definition no_keys : stmt := Stmt "kiss:nokeys" ISS ISS 100%Z 1000%Z None [] md_rp_only None None [] [] [] [] [].
Definition net_nokeys : world := tables [(ISS, no_keys)] [].
Definition env_nokeys := env_of LocalR net_nokeys jwts0 [no_keys] [] no_remote.
Lemma c72_panic : exists fuel e p t ta, te_default e = LocalR /\ verify_mark fuel e p t ta = Done Panic.
Proof. exists 9, env_nokeys, [], (info0 "tm1" "kiss:bare"), (ta_marks [] []). split; vm_compute; reflexivity. Qed.

(** An issuer that carries a mark issued by itself, and an anchor without resolve endpoint. *)
Definition selfish : stmt :=
  Stmt "kiss:self" ISS ISS 100%Z 1000%Z (Some ["kiss"]) [TA] md_rp_only None None [] [] [("tm1", "kiss:bare")] [] [].
Definition net_selfish : world :=
  tables [(ISS, selfish); (TA, ta_cfg)] [(fetch_key "https://ta.example/fetch" ISS, ta_iss)].
Definition env_selfish := env_of SmartR net_selfish jwts0 [selfish; ta_cfg] [] no_remote.

Lemma selfish_keys : forall fuel p, issuer_keys fuel env_selfish p ISS ta_cfg = OutOfFuel.
Proof.
  induction fuel as [|f IH]; intros p; [reflexivity|].
  cbn [issuer_keys te_default env_selfish env_of].
  change (String.eqb ISS (st_sub ta_cfg)) with false. cbv iota.
  assert (A : ask_anchors env_selfish p 0 [TA] (Req ISS [TA] []) = None) by (vm_compute; reflexivity).
  unfold smart_payload. change (rq_anchors (Req ISS [st_sub ta_cfg] [])) with [TA].
  change (env_of SmartR net_selfish jwts0 [selfish; ta_cfg] [] no_remote) with env_selfish in *.
  change (Req ISS [st_sub ta_cfg] []) with (Req ISS [TA] []). rewrite A.
  unfold local_payload.
  assert (L : local_plain f env_selfish p (Req ISS [TA] []) = OutOfFuel \/
              exists pl, local_plain f env_selfish p (Req ISS [TA] []) = Done (Ok (pl, [selfish; ta_iss; ta_cfg]))).
  { destruct f as [|[|f]]; [left; reflexivity|left; vm_compute; reflexivity|right]. eexists. vm_compute. reflexivity. }
  destruct L as [->|(pl & ->)]; [reflexivity|]. cbn [rbind snd fst last].
  change (infos_of selfish) with [info0 "tm1" "kiss:bare"]. cbn [verified_federation]. unfold info_verify_federation.
  assert (I : exists m t', info_mark env_selfish (info0 "tm1" "kiss:bare") = Ok (m, t') /\ mk_type m = "tm1" /\ mk_iss m = ISS).
  { eexists _, _. split; [vm_compute; reflexivity|]. split; reflexivity. }
  destruct I as (m & t' & -> & Et & Ei). rewrite Et. change (String.eqb "tm1" (ti_type (info0 "tm1" "kiss:bare"))) with true.
  cbn [negb]. unfold mark_verify_federation. rewrite Ei. change (st_mark_issuers ta_cfg) with (@nil (string * list string)).
  cbn [lookup]. rewrite IH. reflexivity.
Qed.
Lemma c72_diverges : exists e p t ta, forall fuel, verify_mark fuel e p t ta = OutOfFuel.
Proof.
  exists env_selfish, [], (info0 "tm1" "kiss:bare"), ta_cfg. intros fuel. unfold verify_mark, info_verify_federation.
  assert (I : exists m t', info_mark env_selfish (info0 "tm1" "kiss:bare") = Ok (m, t') /\ mk_type m = "tm1" /\ mk_iss m = ISS).
  { eexists _, _. split; [vm_compute; reflexivity|]. split; reflexivity. }
  destruct I as (m & t' & -> & Et & Ei). rewrite Et. change (String.eqb "tm1" (ti_type (info0 "tm1" "kiss:bare"))) with true.
  cbn [negb fst]. unfold mark_verify_federation. rewrite Ei. change (st_mark_issuers ta_cfg) with (@nil (string * list string)).
  cbn [lookup]. now rewrite selfish_keys.
Qed.

Lemma c72_case : te_default env0 = LocalR /\ in_sync env0 (info0 "tm1" "kiss:m") /\
  (forall iss, decodes env0 (te_world env0 [] (issuer_request iss ta0))) /\
  (forall iss q a ec, w_config (te_world env0 [] (issuer_request iss ta0)) q a = Some ec ->
     incl (st_hints ec) [TA] /\ st_jwks ec <> None) /\
  (forall m f, is_mark env0 "kiss:m" m ->
     resolve_valid f (te_world env0 [] (issuer_request (mk_iss m) ta0)) [Anchor (st_sub ta0) None] [] (mk_iss m) <> Done Panic).
Proof.
  split; [reflexivity|]. split; [discriminate|]. split; [intros; apply decodes0|]. split.
  - intros iss q a ec L. apply (lookup_In a [(ISS, iss_cfg [TA]); (TA, ta_cfg)]) in L.
    destruct L as [[= <- <-]|[[= <- <-]|[]]]; (split; [intros x; vm_compute; tauto|discriminate]).
  - intros m f M. assert (P : parse_mark env0 "kiss:m" = Ok m) by (apply parse_mark_spec; exact M).
    vm_compute in P. injection P as <-. destruct f as [|[|f]]; vm_compute; discriminate.
Qed.

(** *** C73 *)
Definition env_deleg := env_of LocalR net_iss [("ko:x", deleg_jwt OTHER ISS "tm1")] [] [] no_remote.
Lemma c73_witness : exists e p jwt d ta owner ks,
  is_delegation e jwt d /\ lookup (dg_type d) (st_mark_owners ta) = Some (owner, ks) /\ dg_iss d <> owner /\
  deleg_verify_federation e p d ta = Ok tt.
Proof.
  exists env_deleg, [], "ko:x", (match parse_delegation env_deleg "ko:x" with Ok d => d | _ => Deleg "" "" "" 0%Z None "" [] None end), ta0, OWNER, (Some ["ko"]).
  split; [apply parse_delegation_spec; vm_compute; reflexivity|]. repeat split; vm_compute; try reflexivity. discriminate.
Qed.
Lemma c73_case : exists d, is_delegation env0 "ko:d" d /\ deleg_verify_federation env0 [] d ta0 = Ok tt.
Proof.
  exists (match parse_delegation env0 "ko:d" with Ok d => d | _ => Deleg "" "" "" 0%Z None "" [] None end).
  split; [apply parse_delegation_spec; vm_compute; reflexivity|vm_compute; reflexivity].
Qed.
