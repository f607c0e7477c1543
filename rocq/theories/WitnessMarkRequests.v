(** Cases for the theorems on the requests made when trust marks are verified and metadata is
    resolved. *)
From Coq Require Import QArith.
From Verif Require Import Base BaseFacts GoVal Policy Schema Metadata Chain Resolver SpecResolver Requests SpecRequests WitnessResolver WitnessPolicy
  FloatTime SpecTime Json TrustMark SpecTrustMark TrustMarkFacts WitnessTrustMark MarkRequests SpecMarkRequests.
Local Open Scope nat_scope.
Local Open Scope string_scope.

(** A network in which nobody answers, and an expired mark that nobody has signed. *)
Definition silent : world := World (fun _ _ => None) (fun _ _ _ _ => None) (fun _ _ => 0%Z) (fun _ _ => false) (fun _ => None).
Definition lure (url ty : string) : env :=
  Env LocalR (fun _ _ => silent) (fun _ _ => None) (fun _ _ _ => ATransport) (fun _ _ => seconds 500)
      (fun _ => Some (typ_mark, JObj [("iss", JStr url); ("sub", JStr "https://me.example"); ("trust_mark_type", JStr ty);
                                      ("iat", JNum (100 # 1)); ("exp", JNum (200 # 1))]))
      (fun _ => None) (fun _ => None) (fun _ _ => false) (fun _ => []).

Theorem lured : forall ta ty url, lookup ty (st_mark_issuers ta) = None -> url <> "" -> url <> st_sub ta ->
  exists e t m, te_default e = LocalR /\ in_sync e t /\ ti_type t = ty /\
    is_mark e (ti_jwt t) m /\ (exists x, mk_exp m = Some x /\ forall p b, (x < te_now e p b)%Z) /\ (forall j ks, te_verify e j ks = false) /\
    In (Within [] (Req url [st_sub ta] []) (ForConfig [] url)) (verify_contacts 2 e [] t ta).
Proof.
  intros ta ty url L NE NT.
  assert (P : exists m, parse_mark (lure url ty) "jwt" = Ok m /\ mk_iss m = url /\ mk_type m = ty /\ mk_exp m = Some (seconds 200)).
  { eexists. split; [vm_compute; reflexivity|]. repeat split; vm_compute; reflexivity. }
  destruct P as (m & P & PI & PT & PE).
  exists (lure url ty), (Info ty "jwt" [] None), m. split; [reflexivity|]. split; [discriminate|]. split; [reflexivity|].
  split; [now apply parse_mark_spec|]. split; [exists (seconds 200); split; auto; intros; vm_compute; reflexivity|]. split; [reflexivity|].
  unfold verify_contacts, info_contacts, info_mark. cbn [ti_mark ti_jwt]. rewrite P. cbn [bind ti_type].
  rewrite PT, String.eqb_refl. cbn [negb]. unfold mark_contacts. rewrite PT, L, PI. cbn [issuer_contacts].
  destruct (String.eqb_spec url (st_sub ta)); [contradiction|]. cbn [te_default lure]. apply in_app_iff. left.
  unfold plain_contacts. apply in_map_iff. exists (ForConfig [] url). split; auto.
  unfold resolve_requests. cbn [rq_sub]. destruct (String.eqb_spec url ""); [contradiction|]. now left.
Qed.

(** The mark of C40_case: its issuer is named by the anchor. *)
Lemma c160_case : te_default env0 <> SmartR /\ in_sync env0 (info0 "tm1" "kiss:m") /\
  lookup "tm1" (st_mark_issuers ta0) = Some [ISS] /\
  verify_contacts 9 env0 [] (info0 "tm1" "kiss:m") ta0 =
    map (Within [] (Req ISS [TA] [])) [ForConfig [] ISS; ForConfig [0] TA; ForStatement [0] "https://ta.example/fetch" ISS TA] /\
  verify_mark 9 env0 [] (info0 "tm1" "kiss:m") ta0 = Done (Ok tt).
Proof.
  split; [discriminate|]. split; [discriminate|]. split; [reflexivity|]. split; vm_compute; reflexivity.
Qed.

(** The network of C40_case, and one in which other entities exist as well. *)
Definition net_more : world :=
  tables [(ISS, iss_cfg [TA]); (TA, ta_cfg); (OTHER, iss_cfg [])] [(fetch_key "https://ta.example/fetch" ISS, ta_iss)].
Definition env_more := env_of LocalR net_more jwts0 [iss_cfg [TA]; ta_cfg] [] no_remote.
Lemma c160_answers_case : differ_in_answers env0 env_more /\
  (forall c, In c (verify_contacts 9 env0 [] (info0 "tm1" "kiss:m") ta0) -> answered_same env0 env_more c) /\
  te_config env_more [] OTHER <> te_config env0 [] OTHER.
Proof.
  split. { constructor; try reflexivity. intros p rq. repeat split. }
  split. { assert (E := proj1 (proj2 (proj2 (proj2 c160_case)))). rewrite E. intros c [<-|[<-|[<-|[]]]]; vm_compute; reflexivity. }
  vm_compute. discriminate.
Qed.

Lemma c161_case : usable (env_res (ABody "forged")) [0] (Req LEAF [TA; OTHER] []) TA pl_forged /\
  payload_contacts 9 (env_res (ABody "forged")) SmartR [] (Req LEAF [TA; OTHER] []) =
    [ToEntity [0] TA; ToResolver [0] "https://ta.example/resolve" (Req LEAF [TA; OTHER] [])] /\
  (exists p rq r, In (Within p rq r) (payload_contacts 9 (env_res (AError "server_error")) SmartR [] (Req LEAF [TA; OTHER] []))).
Proof.
  split. { destruct c37_case as ((ec & b & j & H) & _). exists ec, b, j. exact H. }
  split; [vm_compute; reflexivity|]. exists [], (Req LEAF [TA; OTHER] []), (ForConfig [] LEAF). vm_compute. tauto.
Qed.

(** The same environment, but no entity below the anchor answers. *)
Definition quiet (w : world) : world := World (fun _ _ => None) (fun _ _ _ _ => None) (w_now w) (w_verify w) (w_host w).
Definition quiet_env (e : env) : env :=
  Env (te_default e) (fun p rq => quiet (te_world e p rq)) (te_config e) (te_remote e) (te_now e) (te_parse e) (te_stmt e) (te_payload e)
      (te_verify e) (te_swaps e).
Lemma c161_answers_case : differ_in_answers (env_res (ABody "forged")) (quiet_env (env_res (ABody "forged"))) /\
  (forall c, In c (payload_contacts 9 (env_res (ABody "forged")) SmartR [] (Req LEAF [TA; OTHER] [])) ->
     answered_same (env_res (ABody "forged")) (quiet_env (env_res (ABody "forged"))) c) /\
  resolve_payload 9 (env_res (ABody "forged")) LocalR [] (Req LEAF [TA] []) <>
  resolve_payload 9 (quiet_env (env_res (ABody "forged"))) LocalR [] (Req LEAF [TA] []).
Proof.
  split. { constructor; try reflexivity. intros p rq. repeat split. }
  split. { rewrite (proj1 (proj2 c161_case)). intros c [<-|[<-|[]]]; reflexivity. }
  vm_compute. discriminate.
Qed.
