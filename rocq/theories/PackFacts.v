(** Proofs: the resolver runs the same way on statements that have been through the cache. *)
From Coq Require Import QArith Lia.
From Verif Require Import Base GoVal Policy Schema Metadata Chain Resolver SpecResolver TrustMark Refresher FloatTime Cache SpecCache CacheFacts
  CritFacts Requests SpecRequests RequestFacts Traffic SpecTraffic Together SpecTogether TogetherFacts.
Local Open Scope nat_scope.
Local Open Scope string_scope.

Local Notation g := stmt_msgpack.
Definition packed (w : world) : world :=
  World (fun p a => option_map g (w_config w p a)) (fun p ep sub iss => option_map g (w_fetch w p ep sub iss)) (w_now w) (w_verify w) (w_host w).
Definition pack_run (r : run chains) : run chains :=
  match r with Done (Ok cs) => Done (Ok (map (map g) cs)) | r => r end.

Lemma fetch_pack s : fetch_endpoint (g s) = fetch_endpoint s.
Proof. unfold fetch_endpoint. cbn [stmt_msgpack with_metadata st_metadata]. destruct (st_metadata s) as [m|]; [|reflexivity]. cbn [option_map md_msgpack md_fe]. now destruct (md_fe m). Qed.
Lemma guess_pack m : guess_entity_types (md_msgpack m) = guess_entity_types m.
Proof. destruct m as [op rp az oc pr fe ex]. unfold guess_entity_types. cbn [md_msgpack md_op md_rp md_as md_oc md_pr md_fe md_extra]. destruct op, rp, az, oc, pr, fe; reflexivity. Qed.
Lemma nil_pack m types : nil_all_except (md_msgpack m) types = md_msgpack (nil_all_except m types).
Proof.
  destruct m as [op rp az oc pr fe ex]. unfold nil_all_except, md_msgpack. cbn [md_op md_rp md_as md_oc md_pr md_fe md_extra].
  assert (K : forall (f : emeta -> emeta) t o, keep types t (option_map f o) = option_map f (keep types t o)).
  { intros f t o. unfold keep. now destruct (mem t types). }
  now rewrite !K.
Qed.
Lemma types_pack s : types_of (g s) = types_of s.
Proof. unfold types_of. cbn [stmt_msgpack with_metadata st_metadata]. destruct (st_metadata s); [apply guess_pack|reflexivity]. Qed.

Fixpoint gtree (t : tree) : tree :=
  match t with
  | Tree e s a x => Tree (option_map g e) (option_map g s) (option_map (map gtree) a) x
  end.

Lemma hint_step_pack w p e d types ids a :
  hint_step (packed w) p (g e) d types ids a = option_map (fun r => (g (fst r), g (snd r))) (hint_step w p e d types ids a).
Proof.
  unfold hint_step. cbn [packed w_config w_fetch w_now]. destruct (mem a ids); [reflexivity|].
  destruct (w_config w p a) as [ec|]; [|reflexivity]. cbn [option_map].
  change (time_valid (w_now w p false) (g ec)) with (time_valid (w_now w p false) ec).
  change (st_iss (g ec)) with (st_iss ec). change (st_sub (g ec)) with (st_sub ec).
  rewrite ?fetch_pack. change (st_iss (g e)) with (st_iss e).
  destruct (negb _ || _)%bool; [reflexivity|]. destruct (String.eqb (fetch_endpoint ec) ""); [reflexivity|].
  destruct (w_fetch w p (fetch_endpoint ec) (st_iss e) a) as [s|]; [|reflexivity]. cbn [option_map].
  change (time_valid (w_now w p true) (g s)) with (time_valid (w_now w p true) s).
  change (st_iss (g s)) with (st_iss s). change (st_sub (g s)) with (st_sub s).
  change (st_constraints (g s)) with (st_constraints s).
  change (check_constraints (packed w)) with (check_constraints w).
  destruct (negb _ || _ || _)%bool; [reflexivity|]. now destruct (negb (check_constraints _ _ _ _ _)).
Qed.

Lemma hints_loop_pack step step' (rec rec' : nat -> string -> stmt -> stmt -> option tree) :
  (forall i a, step' i a = option_map (fun r => (g (fst r), g (snd r))) (step i a)) ->
  (forall i a ec s, rec' i a (g ec) (g s) = option_map gtree (rec i a ec s)) ->
  forall hs i x, hints_loop step' rec' i hs x = option_map (fun r => (map gtree (fst r), snd r)) (hints_loop step rec i hs x).
Proof.
  intros HS HR. induction hs as [|a hs IH]; intros i x; [reflexivity|]. cbn [hints_loop]. rewrite HS.
  destruct (step i a) as [[ec s]|]; cbn [option_map fst snd].
  - rewrite HR. destruct (rec i a ec s) as [t|]; [|reflexivity]. cbn [option_map]. change (st_exp (g s)) with (st_exp s).
    rewrite IH. now destruct (hints_loop step rec (S i) hs _) as [[ts x']|].
  - rewrite IH. now destruct (hints_loop step rec (S i) hs x) as [[ts x']|].
Qed.

Lemma resolve_pack fuel w tas : forall p d types ids e sub,
  resolve fuel (packed w) tas p d types ids (g e) (option_map g sub) = option_map gtree (resolve fuel w tas p d types ids e sub).
Proof.
  induction fuel as [|fuel IH]; intros p d types ids e sub; [reflexivity|]. cbn [resolve].
  change (st_iss (g e)) with (st_iss e). change (st_exp (g e)) with (st_exp e). change (st_hints (g e)) with (st_hints e).
  destruct (mem (st_iss e) (anchor_ids tas)); [reflexivity|]. destruct (st_hints e) as [|h hs] eqn:H; [reflexivity|].
  rewrite (hints_loop_pack (fun i a => hint_step w (i :: p) e d types ids a) _
             (fun i a ec s => resolve fuel w tas (i :: p) (S d) (types ++ types_of ec)%list (a :: ids) ec (Some s))).
  - now destruct (hints_loop _ _ 0 (h :: hs) _) as [[ts x]|].
  - intros i a. apply hint_step_pack.
  - intros i a ec s. rewrite types_pack. apply (IH (i :: p) (S d) _ _ ec (Some s)).
Qed.

Lemma keep_pack w e sub a :
  keep_authority (packed w) (option_map g e) (option_map g sub) (gtree a) = keep_authority w e sub a.
Proof. destruct a as [ae [as_|] aa ax], e as [e|], sub as [sub|]; reflexivity. Qed.

Lemma anchor_keys_pack tas e s : anchor_keys tas (g e) (g s) = anchor_keys tas e s.
Proof. reflexivity. Qed.

Lemma verify_sigs_pack w tas t :
  verify_sigs (packed w) tas (gtree t) =
  match verify_sigs w tas t with Ok (b, t') => Ok (b, gtree t') | Err => Err | Panic => Panic end.
Proof.
  induction t as [e sub auth x IH] using tree_ind_in. cbn [gtree verify_sigs].
  match goal with |- match option_map g sub with None => ?r' | _ => _ end = match (match sub with None => ?r | _ => _ end) with _ => _ end =>
    assert (R : r' = match r with Ok (b, t') => Ok (b, gtree t') | Err => Err | Panic => Panic end) end.
  { destruct auth as [l|]; [|reflexivity]. cbn [option_map].
    match goal with |- bind (?go' (map gtree l)) _ = match bind (?go l) _ with _ => _ end =>
      assert (G : go' (map gtree l) = match go l with Ok l' => Ok (map gtree l') | Err => Err | Panic => Panic end) end.
    { assert (IHl : forall t, In t l -> verify_sigs (packed w) tas (gtree t) =
        match verify_sigs w tas t with Ok (b, t') => Ok (b, gtree t') | Err => Err | Panic => Panic end) by (intros t I; now apply (IH l)).
      clear IH. induction l as [|a r IHr]; [reflexivity|]. cbn [map]. rewrite (IHl a) by now left.
      destruct (verify_sigs w tas a) as [[b a']| |]; try reflexivity. cbn [bind].
      rewrite keep_pack. rewrite IHr by (intros t I; apply IHl; now right).
      destruct (if b then keep_authority w e sub a' else Ok false) as [k| |]; try reflexivity. cbn [bind].
      match goal with |- bind (match ?X with _ => _ end) _ = _ => destruct X as [l'| |]; try reflexivity end. cbn [bind]. now destruct k. }
    rewrite G. match goal with |- bind (match ?X with _ => _ end) _ = _ => destruct X as [l'| |]; try reflexivity end. cbn [bind]. now destruct l'. }
  destruct sub as [s|]; cbn [option_map] in *; [|exact R]. destruct e as [en|]; cbn [option_map] in *.
  - change (anchor_keys tas (g en) (g s)) with (anchor_keys tas en s).
    destruct (anchor_keys tas en s) as [ks|]; [reflexivity|exact R].
  - destruct tas; [exact R|reflexivity].
Qed.

Lemma tree_chains_pack t : tree_chains (gtree t) = map (map g) (tree_chains t).
Proof.
  induction t as [e sub auth x IH] using tree_ind_in. cbn [gtree tree_chains]. destruct auth as [l|]; cbn [option_map].
  - assert (IHl : forall t, In t l -> tree_chains (gtree t) = map (map g) (tree_chains t)) by (intros t I; now apply (IH l)). clear IH.
    induction l as [|a r IHr]; [reflexivity|]. cbn [map]. rewrite map_app, (IHl a) by now left.
    f_equal; [|apply IHr; intros t I; apply IHl; now right].
    rewrite !map_map. apply map_ext. intros c. rewrite map_app. destruct sub as [s|], e as [en|]; reflexivity.
  - destruct sub as [s|], e as [en|]; reflexivity.
Qed.

Lemma resolve_tree_pack fuel w tas types start :
  resolve_tree fuel (packed w) tas types start =
  match resolve_tree fuel w tas types start with
  | Done (Ok t) => Done (Ok (gtree t)) | Done Err => Done Err | Done Panic => Done Panic | OutOfFuel => OutOfFuel end.
Proof.
  unfold resolve_tree. destruct (String.eqb start ""); [reflexivity|]. cbn [packed w_config].
  destruct (w_config w [] start) as [s|]; [|reflexivity]. cbn [option_map].
  change (st_metadata (g s)) with (option_map md_msgpack (st_metadata s)).
  destruct (st_metadata s) as [m|] eqn:EM; [|reflexivity]. cbn [option_map].
  assert (EM' : match types with [] => md_msgpack m | _ => nil_all_except (md_msgpack m) types end = md_msgpack (match types with [] => m | _ => nil_all_except m types end)).
  { destruct types; [reflexivity|]. apply nil_pack. }
  rewrite EM'. set (m' := match types with [] => m | _ => nil_all_except m types end). clearbody m'. rewrite guess_pack.
  change (with_metadata (g s) (Some (md_msgpack m'))) with (g (with_metadata s (Some m'))).
  change (st_sub (g (with_metadata s (Some m')))) with (st_sub (with_metadata s (Some m'))).
  pose proof (resolve_pack fuel w tas [] 0 (guess_entity_types m') [st_sub (with_metadata s (Some m'))] (with_metadata s (Some m')) None) as R.
  cbn [option_map] in R. rewrite R. now destruct (resolve fuel w tas [] 0 _ _ _ None).
Qed.

Theorem resolve_chains_pack fuel w tas types start :
  resolve_chains fuel (packed w) tas types start = pack_run (resolve_chains fuel w tas types start).
Proof.
  unfold resolve_chains. rewrite resolve_tree_pack. destruct (resolve_tree fuel w tas types start) as [[t| |]|]; try reflexivity.
  cbn [bind]. rewrite verify_sigs_pack. destruct (verify_sigs w tas t) as [[b t']| |]; try reflexivity. cbn [bind pack_run].
  now rewrite tree_chains_pack.
Qed.


Lemma hints_requests_pack (own own' : nat -> string -> list request) (step step' : nat -> string -> option (stmt * stmt)) rec rec' :
  (forall i a, own' i a = own i a) ->
  (forall i a, step' i a = option_map (fun r => (g (fst r), g (snd r))) (step i a)) ->
  (forall i a ec s, rec' i a (g ec) (g s) = rec i a ec s) ->
  forall hs i, hints_requests own' step' rec' i hs = hints_requests own step rec i hs.
Proof.
  intros HO HS HR. induction hs as [|a hs IH]; intros i; [reflexivity|]. cbn [hints_requests]. rewrite HO, HS, IH.
  destruct (step i a) as [[ec s]|]; cbn [option_map fst snd]; [now rewrite HR|reflexivity].
Qed.
Lemma hint_requests_pack w p e ids a : hint_requests (packed w) p (g e) ids a = hint_requests w p e ids a.
Proof.
  unfold hint_requests. cbn [packed w_config w_now]. destruct (mem a ids); [reflexivity|].
  destruct (w_config w p a) as [ec|]; [|reflexivity]. cbn [option_map]. rewrite fetch_pack. reflexivity.
Qed.
Lemma tree_requests_pack fuel w tas : forall p d types ids e,
  tree_requests fuel (packed w) tas p d types ids (g e) = tree_requests fuel w tas p d types ids e.
Proof.
  induction fuel as [|fuel IH]; intros p d types ids e; [reflexivity|]. cbn [tree_requests].
  change (st_iss (g e)) with (st_iss e). change (st_hints (g e)) with (st_hints e).
  destruct (mem (st_iss e) (anchor_ids tas)); [reflexivity|].
  apply hints_requests_pack.
  - intros i a. apply hint_requests_pack.
  - intros i a. apply hint_step_pack.
  - intros i a ec s. rewrite types_pack. apply IH.
Qed.
Lemma requests_pack fuel w tas types start : resolve_requests fuel (packed w) tas types start = resolve_requests fuel w tas types start.
Proof.
  unfold resolve_requests. destruct (String.eqb start ""); [reflexivity|]. cbn [packed w_config].
  destruct (w_config w [] start) as [s|]; [|reflexivity]. cbn [option_map].
  change (st_metadata (g s)) with (option_map md_msgpack (st_metadata s)).
  destruct (st_metadata s) as [m|] eqn:EM; [|reflexivity]. cbn [option_map].
  assert (EM' : match types with [] => md_msgpack m | _ => nil_all_except (md_msgpack m) types end = md_msgpack (match types with [] => m | _ => nil_all_except m types end)).
  { destruct types; [reflexivity|]. apply nil_pack. }
  rewrite EM'. set (m' := match types with [] => m | _ => nil_all_except m types end). clearbody m'. rewrite guess_pack.
  change (with_metadata (g s) (Some (md_msgpack m'))) with (g (with_metadata s (Some m'))). f_equal. apply tree_requests_pack.
Qed.

Lemma msgpack_twice s : g (g s) = g s.
Proof.
  unfold stmt_msgpack. cbn [with_metadata st_metadata]. destruct (st_metadata s) as [m|]; [|reflexivity]. cbn [option_map].
  unfold with_metadata. cbn. f_equal. f_equal. destruct m as [op rp az oc pr fe ex]. unfold md_msgpack. cbn [md_op md_rp md_as md_oc md_pr md_fe md_extra].
  f_equal; [destruct op|destruct rp|destruct az|destruct oc|destruct pr|destruct fe]; reflexivity.
Qed.
Lemma same_packed s0 s : same_document s0 s -> g s = g s0.
Proof. intros [->| ->]; [reflexivity|apply msgpack_twice]. Qed.

Theorem resolutions_together grace factor net net0 c acts st os fuel w w0 tas types start :
  entries c = [] -> own_keys acts -> (forall t a sub iss, In (t, a) acts -> net t sub iss = net0 sub iss) ->
  together grace factor net acts (c, []) = Some (st, os) ->
  (forall r, In r (resolve_requests fuel w tas types start) -> In (Outcome (fst (kept_as r)) (snd (kept_as r)) (answer_in w r)) os) ->
  same_but_served w w0 -> (forall r, answer_in w0 r = net0 (fst (kept_as r)) (snd (kept_as r))) ->
  alike_but_cached (resolve_chains fuel w tas types start) (resolve_chains fuel w0 tas types start).
Proof.
  intros E OK S R SEEN SB A0.
  assert (P : pack_run (resolve_chains fuel w tas types start) = pack_run (resolve_chains fuel w0 tas types start)).
  { rewrite <- !resolve_chains_pack. symmetry. apply (answers_suffice fuel (packed w) (packed w0) tas types start); [exact SB|].
    rewrite requests_pack. intros r I. specialize (SEEN r I). specialize (A0 r).
    assert (Q : option_map g (answer_in w0 r) = option_map g (answer_in w r)).
    { rewrite A0. pose proof (steady_outcomes _ _ _ _ _ _ _ _ _ _ _ E OK (fun t a J => S t a (fst (kept_as r)) (snd (kept_as r)) J) R SEEN) as K.
      destruct (answer_in w r) as [s|]; [|now rewrite K]. destruct K as (s0 & -> & D). cbn [option_map]. f_equal. symmetry. now apply same_packed. }
    destruct r as [p a|p ep sub iss]; exact Q. }
  unfold alike_but_cached. destruct (resolve_chains fuel w tas types start) as [[cs| |]|], (resolve_chains fuel w0 tas types start) as [[cs'| |]|]; cbn [pack_run] in P; try discriminate P; auto.
  now injection P.
Qed.
