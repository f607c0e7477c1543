(** Proofs: ResolvePossible of the smart resolver. *)
From Coq Require Import Lia.
From Verif Require Import Base BaseFacts GoVal Policy Schema Metadata Chain Resolver FloatTime Json TrustMark SpecTrustMark WitnessResolver WitnessTrustMark.
Local Open Scope nat_scope.
Local Open Scope string_scope.

Lemma remote_possible_one e p ep rq : remote_possible e p ep rq = (true, false) \/ remote_possible e p ep rq = (false, true) \/ remote_possible e p ep rq = (false, false).
Proof. unfold remote_possible. destruct (remote_response e p ep rq) as [[x| |] []]; auto. Qed.

Definition neither (fuel : nat) (e : env) (p : list nat) (rq : request) (ids : list string) (i k : nat) : Prop :=
  forall j id ec, j < k -> nth_error ids j = Some id -> te_config e ((i + j) :: p) id = Some ec -> resolve_endpoint ec <> "" ->
    resolve_possible fuel e (SimpleR (resolve_endpoint ec)) ((i + j) :: p) rq = Done (Ok (false, false)).
Lemma neither_step fuel e p rq id0 ids i k : neither fuel e p rq (id0 :: ids) i (S k) ->
  ask_possible e p i (id0 :: ids) rq = ask_possible e p (S i) ids rq /\ neither fuel e p rq ids (S i) k.
Proof.
  intros N. split.
  - cbn [ask_possible]. destruct (te_config e (i :: p) id0) as [ec|] eqn:C; [|reflexivity].
    destruct (String.eqb_spec (resolve_endpoint ec) "") as [E|E]; [reflexivity|].
    pose proof (N 0 id0 ec (Nat.lt_0_succ k) eq_refl) as X. rewrite Nat.add_0_r in X. specialize (X C E). cbn [resolve_possible] in X. injection X as ->. reflexivity.
  - intros j id ec L NT. replace (S i + j) with (i + S j) by lia. apply N; [lia|exact NT].
Qed.
Lemma ask_first fuel e p rq : forall ids i k id ec yes no, nth_error ids k = Some id ->
  te_config e ((i + k) :: p) id = Some ec -> resolve_endpoint ec <> "" ->
  resolve_possible fuel e (SimpleR (resolve_endpoint ec)) ((i + k) :: p) rq = Done (Ok (yes, no)) -> yes = true \/ no = true ->
  neither fuel e p rq ids i k -> ask_possible e p i ids rq = Some (yes, no).
Proof.
  induction ids as [|id0 ids IH]; intros i k id ec yes no N C NE R Y U; [destruct k; discriminate|]. destruct k as [|k].
  - cbn [nth_error] in N. injection N as ->. rewrite Nat.add_0_r in C, R. cbn [ask_possible]. rewrite C.
    destruct (String.eqb_spec (resolve_endpoint ec) ""); [contradiction|]. cbn [resolve_possible] in R. injection R as R.
    destruct (remote_possible_one e (i :: p) (resolve_endpoint ec) rq) as [E|[E|E]]; rewrite E in *; injection R as <- <-; try reflexivity.
    destruct Y; discriminate.
  - apply neither_step in U. destruct U as [-> U]. cbn [nth_error] in N. replace (i + S k) with (S i + k) in * by lia. now apply (IH (S i) k id ec).
Qed.
Lemma ask_none fuel e p rq : forall ids i, neither fuel e p rq ids i (List.length ids) -> ask_possible e p i ids rq = None.
Proof.
  induction ids as [|id ids IH]; intros i U; [reflexivity|]. cbn [List.length] in U. apply neither_step in U. destruct U as [-> U]. now apply IH.
Qed.

Theorem smart_first fuel e p rq k id ec yes no : nth_error (rq_anchors rq) k = Some id ->
  te_config e (k :: p) id = Some ec -> resolve_endpoint ec <> "" ->
  resolve_possible fuel e (SimpleR (resolve_endpoint ec)) (k :: p) rq = Done (Ok (yes, no)) -> yes = true \/ no = true ->
  (forall j id' ec', j < k -> nth_error (rq_anchors rq) j = Some id' -> te_config e (j :: p) id' = Some ec' -> resolve_endpoint ec' <> "" ->
     resolve_possible fuel e (SimpleR (resolve_endpoint ec')) (j :: p) rq = Done (Ok (false, false))) ->
  resolve_possible fuel e SmartR p rq = Done (Ok (yes, no)).
Proof.
  intros N C NE R Y U. unfold resolve_possible at 1, smart_possible. now rewrite (ask_first fuel e p rq (rq_anchors rq) 0 k id ec yes no N C NE R Y U).
Qed.
Theorem smart_rest fuel e p rq :
  (forall j id ec, nth_error (rq_anchors rq) j = Some id -> te_config e (j :: p) id = Some ec -> resolve_endpoint ec <> "" ->
     resolve_possible fuel e (SimpleR (resolve_endpoint ec)) (j :: p) rq = Done (Ok (false, false))) ->
  resolve_possible fuel e SmartR p rq = resolve_possible fuel e LocalR p rq.
Proof.
  intros U. unfold resolve_possible, smart_possible. rewrite (ask_none fuel e p rq (rq_anchors rq) 0); [reflexivity|].
  intros j id ec _. apply U.
Qed.

Lemma smart_possible_case :
  (exists ec, te_config (env_res (AError "invalid_trust_chain")) [1] TA = Some ec /\ resolve_endpoint ec <> "" /\
     resolve_possible 9 (env_res (AError "invalid_trust_chain")) (SimpleR (resolve_endpoint ec)) [1] (Req LEAF [OTHER; TA] []) = Done (Ok (false, true))) /\
  te_config (env_res (AError "invalid_trust_chain")) [0] OTHER = None /\
  resolve_possible 9 (env_res (AError "invalid_trust_chain")) SmartR [] (Req LEAF [OTHER; TA] []) = Done (Ok (false, true)) /\
  resolve_possible 9 (env_res (AError "server_error")) SmartR [] (Req LEAF [OTHER; TA] []) = Done (Ok (true, false)).
Proof.
  split. { eexists. split; [reflexivity|]. split; [vm_compute; discriminate|]. vm_compute; reflexivity. }
  repeat split; vm_compute; reflexivity.
Qed.
