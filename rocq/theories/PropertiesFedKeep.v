(** Trust marks that members of a federation keep up to date with this library. The theorems range
    over all networks, keys, histories of calls and lines of superiors. *)
From Coq Require Import QArith.
From Verif Require Import Base GoVal Policy Schema Metadata Chain Resolver SpecResolver WitnessResolver Json SpecJson TrustMark SpecTrustMark Refresher Leaf Config Jwt Statement
  Encode SpecEncode WitnessStatement WitnessEncode Federation SpecFederation WitnessFederation SpecFedMark FedMarkFacts WitnessFedMark SpecFedKeep FedKeepFacts WitnessFedKeep.
From Verif Require Import SpecEncode Json.
Local Open Scope nat_scope.
Local Open Scope string_scope.

(** ** C141 The trust marks a member keeps are accepted by the others *)

(** [x] is configured to ask [y] for marks, or to issue them itself. After any history of calls, what
    TrustMarkJWT returns is accepted by every member until the configured minimal lifetime has
    passed. *)
Theorem C141_accepted : forall e net p a x y ta dj parse own sign c c1 t c2 k j c3, member e net -> configures a ta ->
  let n := net p (Req (pa_id y) [pa_id a] []) in
  belongs n a y -> may_issue n a y (mc_type c) dj (te_now e p true) ->
  asks_for y c \/ makes_own n x y dj sign c -> mc_jwt c = "" -> verify_mconfig parse (pa_id x) own sign c = Ok c1 ->
  let good := good_call n x y dj own (mc_min c1) c in
  kept good c1 t c2 -> good k -> (t <= ca_now k)%Z -> mark_jwt (ca_env k) (ca_ask k) (ca_now k) c2 = (Ok j, c3) ->
  (ca_now k + 1500 <= te_now e p false <= ca_now k + mc_min c1 - 3000)%Z ->
  exists fuel, verify_mark fuel e p (Info (mc_type c) j [] None) ta = Done (Ok tt).
Proof. exact kept_accepted. Qed.
Print Assumptions C141_accepted.

Example C141_case : member member_env (fun _ _ => n0) /\ configures p_ta ta_read /\ belongs n0 p_ta p_im /\ may_issue n0 p_ta p_im "tm1" "dlg" (te_now member_env [] true) /\
  asks_for p_im keep_config /\ verify_mconfig (fun _ => None) (pa_id p_leaf) "" None keep_config = Ok keep_start /\
  let good := good_call n0 p_leaf p_im "dlg" "" (mc_min keep_start) keep_config in
  kept good keep_start (at_second 90) keep_now /\ good (keep_call 95) /\
  mark_jwt (ca_env (keep_call 95)) (ca_ask (keep_call 95)) (ca_now (keep_call 95)) keep_now = (Ok "eyJ", keep_now) /\
  (at_second 95 + 1500 <= te_now member_env [] false <= at_second 95 + mc_min keep_start - 3000)%Z /\
  verify_mark 4 member_env [] (Info "tm1" "eyJ" [] None) ta_read = Done (Ok tt).
Proof. exact c141_case. Qed.

Example C141_own_case : member late_env (fun _ _ => n0) /\ may_issue n0 p_ta p_im "tm2" "" (te_now late_env [] true) /\ makes_own n0 p_im p_im "" (Some own_sign) own_config /\
  exists c1, verify_mconfig (fun _ => None) (pa_id p_im) "" (Some own_sign) own_config = Ok c1 /\
  good_call n0 p_im p_im "" "" (mc_min c1) own_config (keep_call 90) /\
  fst (mark_jwt (ca_env (keep_call 90)) (ca_ask (keep_call 90)) (ca_now (keep_call 90)) c1) = Ok "own" /\
  (at_second 90 + 1500 <= te_now late_env [] false <= at_second 90 + mc_min c1 - 3000)%Z.
Proof. exact c141_own_case. Qed.

(** When [x] publishes it in its configuration, resolvers report it for [x]. *)
Theorem C141_reported : forall e net p a x y dj parse own sign c c1 t c2 k j c3 d i fuel pl, member e net ->
  let n := net p (Req (pa_id x) [pa_id a] []) in
  sound_participant n x -> publishes n [] x d -> pa_id x <> pa_id a -> pa_hints x <> [] ->
  (forall q s, w_config (seen n) q (pa_id a) = Some s -> configures a s) ->
  nth_error (st_marks (sp_claims d)) i = Some (mc_type c, j) ->
  let n' := net (i :: p) (Req (pa_id y) [pa_id a] []) in
  belongs n' a y -> may_issue n' a y (mc_type c) dj (te_now e (i :: p) true) ->
  asks_for y c \/ makes_own n' x y dj sign c -> mc_jwt c = "" -> verify_mconfig parse (pa_id x) own sign c = Ok c1 ->
  let good := good_call n' x y dj own (mc_min c1) c in
  kept good c1 t c2 -> good k -> (t <= ca_now k)%Z -> mark_jwt (ca_env k) (ca_ask k) (ca_now k) c2 = (Ok j, c3) ->
  (ca_now k + 1500 <= te_now e (i :: p) false <= ca_now k + mc_min c1 - 3000)%Z ->
  resolve_payload fuel e LocalR p (Req (pa_id x) [pa_id a] []) = Done (Ok pl) ->
  exists t', In t' (pl_marks pl) /\ ti_type t' = mc_type c /\ ti_jwt t' = j.
Proof. exact kept_reported. Qed.
Print Assumptions C141_reported.

Example C141_reported_case : sound_participant n0 p_leaf /\ publishes n0 [] p_leaf c_leaf /\ pa_id p_leaf <> pa_id p_ta /\ pa_hints p_leaf <> [] /\
  (forall q s, w_config (seen n0) q (pa_id p_ta) = Some s -> configures p_ta s) /\ nth_error (st_marks (sp_claims c_leaf)) 0 = Some ("tm1", "eyJ") /\
  (at_second 95 + 1500 <= te_now member_env [0%nat] false <= at_second 95 + mc_min keep_start - 3000)%Z /\
  exists pl, resolve_payload 5 member_env LocalR [] (Req LEAF [TA] []) = Done (Ok pl) /\ map (fun t => (ti_type t, ti_jwt t)) (pl_marks pl) = [("tm1", "eyJ")].
Proof. exact c141_reported_case. Qed.
