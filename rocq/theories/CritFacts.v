(** Proof of C39_never_examined: the resolver runs the same way whatever the crit claims. *)
From Verif Require Import Base GoVal Policy Schema Metadata Chain Resolver SpecResolver SpecCrit.
Local Open Scope string_scope.

Section Crit.
Variable f : string -> list string.
Let g := set_crit f.

Fixpoint gtree (t : tree) : tree :=
  match t with
  | Tree e s a x => Tree (option_map g e) (option_map g s) (option_map (map gtree) a) x
  end.

Lemma hint_step_crit w p e d types ids a :
  hint_step (set_crits f w) p (g e) d types ids a = option_map (fun r => (g (fst r), g (snd r))) (hint_step w p e d types ids a).
Proof.
  unfold hint_step. cbn [set_crits w_config w_fetch w_now]. destruct (mem a ids); [reflexivity|].
  destruct (w_config w p a) as [ec|]; [|reflexivity]. cbn [option_map].
  change (time_valid (w_now w p false) (set_crit f ec)) with (time_valid (w_now w p false) ec).
  change (st_iss (set_crit f ec)) with (st_iss ec). change (st_sub (set_crit f ec)) with (st_sub ec).
  change (fetch_endpoint (set_crit f ec)) with (fetch_endpoint ec). change (st_iss (g e)) with (st_iss e).
  destruct (negb _ || _)%bool; [reflexivity|]. destruct (String.eqb (fetch_endpoint ec) ""); [reflexivity|].
  destruct (w_fetch w p (fetch_endpoint ec) (st_iss e) a) as [s|]; [|reflexivity]. cbn [option_map].
  change (time_valid (w_now w p true) (set_crit f s)) with (time_valid (w_now w p true) s).
  change (st_iss (set_crit f s)) with (st_iss s). change (st_sub (set_crit f s)) with (st_sub s).
  change (st_constraints (set_crit f s)) with (st_constraints s).
  change (check_constraints (set_crits f w)) with (check_constraints w).
  destruct (negb _ || _ || _)%bool; [reflexivity|]. now destruct (negb (check_constraints _ _ _ _ _)).
Qed.

Lemma hints_loop_crit step step' (rec rec' : nat -> string -> stmt -> stmt -> option tree) :
  (forall i a, step' i a = option_map (fun r => (g (fst r), g (snd r))) (step i a)) ->
  (forall i a ec s, rec' i a (g ec) (g s) = option_map gtree (rec i a ec s)) ->
  forall hs i x, hints_loop step' rec' i hs x = option_map (fun r => (map gtree (fst r), snd r)) (hints_loop step rec i hs x).
Proof.
  intros HS HR. induction hs as [|a hs IH]; intros i x; [reflexivity|]. cbn [hints_loop]. rewrite HS.
  destruct (step i a) as [[ec s]|]; cbn [option_map fst snd].
  - rewrite HR. destruct (rec i a ec s) as [t|]; [|reflexivity]. cbn [option_map]. change (st_exp (g s)) with (st_exp s).
    rewrite IH. now destruct (hints_loop step rec (S i) hs _) as [[ts x']|].
  - rewrite IH. now destruct (hints_loop step rec (S i) hs x) as [[ts x']|].
Qed.

Lemma resolve_crit fuel w tas : forall p d types ids e sub,
  resolve fuel (set_crits f w) tas p d types ids (g e) (option_map g sub) = option_map gtree (resolve fuel w tas p d types ids e sub).
Proof.
  induction fuel as [|fuel IH]; intros p d types ids e sub; [reflexivity|]. cbn [resolve].
  change (st_iss (g e)) with (st_iss e). change (st_exp (g e)) with (st_exp e). change (st_hints (g e)) with (st_hints e).
  destruct (mem (st_iss e) (anchor_ids tas)); [reflexivity|]. destruct (st_hints e) as [|h hs] eqn:H; [reflexivity|].
  rewrite (hints_loop_crit (fun i a => hint_step w (i :: p) e d types ids a) _
             (fun i a ec s => resolve fuel w tas (i :: p) (S d) (types ++ types_of ec)%list (a :: ids) ec (Some s))).
  - now destruct (hints_loop _ _ 0 (h :: hs) _) as [[ts x]|].
  - intros i a. apply hint_step_crit.
  - intros i a ec s. change (types_of (g ec)) with (types_of ec). apply (IH (i :: p) (S d) _ _ ec (Some s)).
Qed.

Lemma tree_ind_in (P : tree -> Prop) :
  (forall e s a x, (forall l t, a = Some l -> In t l -> P t) -> P (Tree e s a x)) -> forall t, P t.
Proof.
  intros H. fix IH 1. intros [e s a x]. apply H. destruct a as [l'|]; [|discriminate]. intros l t E. injection E as <-. revert t.
  induction l' as [|y l' IHl]; intros t I; [destruct I|]. destruct I as [<-|I]; [apply IH|now apply IHl].
Qed.

Lemma keep_crit w e sub a :
  keep_authority (set_crits f w) (option_map g e) (option_map g sub) (gtree a) = keep_authority w e sub a.
Proof. destruct a as [ae [as_|] aa ax], e as [e|], sub as [sub|]; reflexivity. Qed.

Lemma anchor_keys_crit tas e s : anchor_keys tas (g e) (g s) = anchor_keys tas e s.
Proof. reflexivity. Qed.

Lemma verify_sigs_crit w tas t :
  verify_sigs (set_crits f w) tas (gtree t) =
  match verify_sigs w tas t with Ok (b, t') => Ok (b, gtree t') | Err => Err | Panic => Panic end.
Proof.
  induction t as [e sub auth x IH] using tree_ind_in. cbn [gtree verify_sigs].
  match goal with |- match option_map g sub with None => ?r' | _ => _ end = match (match sub with None => ?r | _ => _ end) with _ => _ end =>
    assert (R : r' = match r with Ok (b, t') => Ok (b, gtree t') | Err => Err | Panic => Panic end) end.
  { destruct auth as [l|]; [|reflexivity]. cbn [option_map].
    match goal with |- bind (?go' (map gtree l)) _ = match bind (?go l) _ with _ => _ end =>
      assert (G : go' (map gtree l) = match go l with Ok l' => Ok (map gtree l') | Err => Err | Panic => Panic end) end.
    { assert (IHl : forall t, In t l -> verify_sigs (set_crits f w) tas (gtree t) =
        match verify_sigs w tas t with Ok (b, t') => Ok (b, gtree t') | Err => Err | Panic => Panic end) by (intros t I; now apply (IH l)).
      clear IH. induction l as [|a r IHr]; [reflexivity|]. cbn [map]. rewrite (IHl a) by now left.
      destruct (verify_sigs w tas a) as [[b a']| |]; try reflexivity. cbn [bind].
      rewrite keep_crit. rewrite IHr by (intros t I; apply IHl; now right).
      destruct (if b then keep_authority w e sub a' else Ok false) as [k| |]; try reflexivity. cbn [bind].
      match goal with |- bind (match ?X with _ => _ end) _ = _ => destruct X as [l'| |]; try reflexivity end. cbn [bind]. now destruct k. }
    rewrite G. match goal with |- bind (match ?X with _ => _ end) _ = _ => destruct X as [l'| |]; try reflexivity end. cbn [bind]. now destruct l'. }
  destruct sub as [s|]; cbn [option_map] in *; [|exact R]. destruct e as [en|]; cbn [option_map] in *.
  - change (anchor_keys tas (g en) (g s)) with (anchor_keys tas en s).
    destruct (anchor_keys tas en s) as [ks|]; [reflexivity|exact R].
  - destruct tas; [exact R|reflexivity].
Qed.

Lemma tree_chains_crit t : tree_chains (gtree t) = map (map g) (tree_chains t).
Proof.
  induction t as [e sub auth x IH] using tree_ind_in. cbn [gtree tree_chains]. destruct auth as [l|]; cbn [option_map].
  - assert (IHl : forall t, In t l -> tree_chains (gtree t) = map (map g) (tree_chains t)) by (intros t I; now apply (IH l)). clear IH.
    induction l as [|a r IHr]; [reflexivity|]. cbn [map]. rewrite map_app, (IHl a) by now left.
    f_equal; [|apply IHr; intros t I; apply IHl; now right].
    rewrite !map_map. apply map_ext. intros c. rewrite map_app. destruct sub as [s|], e as [en|]; reflexivity.
  - destruct sub as [s|], e as [en|]; reflexivity.
Qed.

Lemma resolve_tree_crit fuel w tas types start :
  resolve_tree fuel (set_crits f w) tas types start =
  match resolve_tree fuel w tas types start with
  | Done (Ok t) => Done (Ok (gtree t)) | Done Err => Done Err | Done Panic => Done Panic | OutOfFuel => OutOfFuel end.
Proof.
  unfold resolve_tree. destruct (String.eqb start ""); [reflexivity|]. cbn [set_crits w_config].
  destruct (w_config w [] start) as [s|]; [|reflexivity]. cbn [option_map]. change (st_metadata (set_crit f s)) with (st_metadata s).
  destruct (st_metadata s) as [m|]; [|reflexivity]. set (m' := match types with [] => m | _ => nil_all_except m types end). clearbody m'.
  change (with_metadata (set_crit f s) (Some m')) with (g (with_metadata s (Some m'))).
  change (st_sub (g (with_metadata s (Some m')))) with (st_sub (with_metadata s (Some m'))).
  pose proof (resolve_crit fuel w tas [] 0 (guess_entity_types m') [st_sub (with_metadata s (Some m'))] (with_metadata s (Some m')) None) as R.
  cbn [option_map] in R. fold g. rewrite R. now destruct (resolve fuel w tas [] 0 _ _ _ None).
Qed.

Theorem resolve_chains_crit fuel w tas types start :
  resolve_chains fuel (set_crits f w) tas types start = same_but_crit f (resolve_chains fuel w tas types start).
Proof.
  unfold resolve_chains. rewrite resolve_tree_crit. destruct (resolve_tree fuel w tas types start) as [[t| |]|]; try reflexivity.
  cbn [bind]. rewrite verify_sigs_crit. destruct (verify_sigs w tas t) as [[b t']| |]; try reflexivity. cbn [bind same_but_crit].
  now rewrite tree_chains_crit.
Qed.

Lemma chain_metadata_crit c : chain_metadata (map g c) = chain_metadata c.
Proof.
  destruct c as [|s [|s' r]]; [reflexivity|reflexivity|]. cbn [map].
  assert (U : unsupported_crit (map g (s :: s' :: r)) = unsupported_crit (s :: s' :: r)).
  { unfold unsupported_crit. f_equal. f_equal. generalize (s :: s' :: r). induction l as [|y l IH]; [reflexivity|]. cbn [map flat_map]. now rewrite IH. }
  assert (P : map st_policy (map g (s :: s' :: r)) = map st_policy (s :: s' :: r)) by (rewrite map_map; reflexivity).
  cbn [map] in U, P. cbn [chain_metadata]. rewrite U. cbn [map]. rewrite P. reflexivity.
Qed.

Lemma valid_filter_crit cs :
  valid_metadata_filter (map (map g) cs) = match valid_metadata_filter cs with Ok l => Ok (map (map g) l) | Err => Err | Panic => Panic end.
Proof.
  induction cs as [|c cs IH]; [reflexivity|]. cbn [map valid_metadata_filter]. rewrite chain_metadata_crit.
  destruct (chain_metadata c); [|exact IH|reflexivity]. rewrite IH. now destruct (valid_metadata_filter cs).
Qed.

Theorem resolve_valid_crit fuel w tas types start :
  resolve_valid fuel (set_crits f w) tas types start = same_but_crit f (resolve_valid fuel w tas types start).
Proof.
  unfold resolve_valid. rewrite resolve_chains_crit. destruct (resolve_chains fuel w tas types start) as [[cs| |]|]; try reflexivity.
  cbn [same_but_crit bind]. fold g. rewrite valid_filter_crit. now destruct (valid_metadata_filter cs).
Qed.
End Crit.
