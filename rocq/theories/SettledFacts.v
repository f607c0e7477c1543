(** Proofs: whom the smart resolver asks whether an entity can be resolved. *)
From Coq Require Import Lia.
From Verif Require Import Base BaseFacts GoVal Policy Schema Metadata Chain Resolver SpecResolver Requests SpecRequests WitnessResolver FloatTime Json TrustMark
  SpecTrustMark WitnessTrustMark MarkRequests SpecMarkRequests MarkRequestFacts MarkRequestLaws WitnessMarkRequests.
Local Open Scope nat_scope.
Local Open Scope string_scope.

Lemma anchors_upto settled e p rq c : forall ids i k id ec, nth_error ids k = Some id ->
  te_config e ((i + k) :: p) id = Some ec -> resolve_endpoint ec <> "" -> settled ((i + k) :: p) (resolve_endpoint ec) = true ->
  In c (anchors_contacts settled e p i ids rq) ->
  exists j id', j <= k /\ nth_error ids j = Some id' /\
    (c = ToEntity ((i + j) :: p) id' \/ exists ec, te_config e ((i + j) :: p) id' = Some ec /\ c = ToResolver ((i + j) :: p) (resolve_endpoint ec) rq).
Proof.
  induction ids as [|id0 ids IH]; intros i k id ec N C NE ST H; [destruct k; discriminate|]. cbn [anchors_contacts] in H.
  destruct H as [<-|H].
  { exists 0, id0. rewrite Nat.add_0_r. split; [lia|]. split; auto. }
  destruct k as [|k].
  - cbn [nth_error] in N. injection N as ->. rewrite Nat.add_0_r in C, ST. rewrite C in H.
    destruct (String.eqb_spec (resolve_endpoint ec) "") as [E|E]; [contradiction|]. rewrite ST in H.
    destruct H as [<-|[]]. exists 0, id. rewrite Nat.add_0_r. split; [lia|]. split; auto. right. exists ec. auto.
  - assert (NEXT : In c (anchors_contacts settled e p (S i) ids rq) -> exists j id', j <= S k /\ nth_error (id0 :: ids) j = Some id' /\
    (c = ToEntity ((i + j) :: p) id' \/ exists ec, te_config e ((i + j) :: p) id' = Some ec /\ c = ToResolver ((i + j) :: p) (resolve_endpoint ec) rq)).
    { intros I. cbn [nth_error] in N. replace (i + S k) with (S i + k) in * by lia.
      destruct (IH (S i) k id ec N C NE ST I) as (j & id' & L & N' & R).
      exists (S j), id'. split; [lia|]. split; auto. now replace (i + S j) with (S i + j) by lia. }
    destruct (te_config e (i :: p) id0) as [ec0|] eqn:EC; [|now apply NEXT].
    destruct (String.eqb (resolve_endpoint ec0) ""); [now apply NEXT|]. destruct H as [<-|H].
    + exists 0, id0. rewrite Nat.add_0_r. split; [lia|]. split; auto. right. exists ec0. auto.
    + destruct (settled (i :: p) (resolve_endpoint ec0)); [destruct H|now apply NEXT].
Qed.

Lemma possible_upto e p rq : forall ids i k id ec, nth_error ids k = Some id ->
  te_config e ((i + k) :: p) id = Some ec -> resolve_endpoint ec <> "" -> possible_settled e rq ((i + k) :: p) (resolve_endpoint ec) = true ->
  ask_possible e p i ids rq <> None.
Proof.
  induction ids as [|id0 ids IH]; intros i k id ec N C NE ST; [destruct k; discriminate|]. cbn [ask_possible].
  destruct k as [|k].
  - cbn [nth_error] in N. injection N as ->. rewrite Nat.add_0_r in C, ST. rewrite C.
    destruct (String.eqb_spec (resolve_endpoint ec) "") as [E|E]; [contradiction|]. unfold possible_settled in ST.
    destruct (remote_possible e (i :: p) (resolve_endpoint ec) rq) as [[] []]; try discriminate.
  - cbn [nth_error] in N. replace (i + S k) with (S i + k) in * by lia. pose proof (IH (S i) k id ec N C NE ST) as X.
    destruct (te_config e (i :: p) id0) as [ec0|]; auto. destruct (String.eqb _ _); auto.
    destruct (remote_possible _ _ _ _) as [[|] [|]]; auto; discriminate.
Qed.

Theorem settled_spares fuel e p rq k id ec yes no c : nth_error (rq_anchors rq) k = Some id ->
  te_config e (k :: p) id = Some ec -> resolve_endpoint ec <> "" ->
  resolve_possible fuel e (SimpleR (resolve_endpoint ec)) (k :: p) rq = Done (Ok (yes, no)) -> yes = true \/ no = true ->
  In c (possible_contacts fuel e SmartR p rq) ->
  exists j id', j <= k /\ nth_error (rq_anchors rq) j = Some id' /\
    (c = ToEntity (j :: p) id' \/ exists ec, te_config e (j :: p) id' = Some ec /\ c = ToResolver (j :: p) (resolve_endpoint ec) rq).
Proof.
  intros N C NE R Y H. cbn [resolve_possible] in R. injection R as R.
  assert (ST : possible_settled e rq (k :: p) (resolve_endpoint ec) = true).
  { unfold possible_settled. rewrite R. cbn. destruct Y as [-> | ->]; [reflexivity|apply Bool.orb_true_r]. }
  cbn [possible_contacts] in H. pose proof (possible_upto e p rq (rq_anchors rq) 0 k id ec N C NE ST) as A.
  destruct (ask_possible e p 0 (rq_anchors rq) rq); [|congruence]. rewrite app_nil_r in H.
  exact (anchors_upto _ e p rq c (rq_anchors rq) 0 k id ec N C NE ST H).
Qed.

Lemma anchors_asked settled e p rq : forall ids i k id, nth_error ids k = Some id ->
  (forall j id' ec, j < k -> nth_error ids j = Some id' -> te_config e ((i + j) :: p) id' = Some ec -> resolve_endpoint ec <> "" ->
     settled ((i + j) :: p) (resolve_endpoint ec) = false) ->
  In (ToEntity ((i + k) :: p) id) (anchors_contacts settled e p i ids rq) /\
  (forall ec, te_config e ((i + k) :: p) id = Some ec -> resolve_endpoint ec <> "" ->
     In (ToResolver ((i + k) :: p) (resolve_endpoint ec) rq) (anchors_contacts settled e p i ids rq)).
Proof.
  induction ids as [|id0 ids IH]; intros i k id N U; [destruct k; discriminate|]. cbn [anchors_contacts].
  destruct k as [|k].
  - cbn [nth_error] in N. injection N as ->. rewrite Nat.add_0_r. split; [now left|]. intros ec -> NE. right.
    destruct (String.eqb_spec (resolve_endpoint ec) ""); [contradiction|]. now left.
  - cbn [nth_error] in N. destruct (IH (S i) k id N) as [A B].
    { intros j id' ec L. replace (S i + j) with (i + S j) by lia. intros N'. apply U; [lia|exact N']. }
    replace (S i + k) with (i + S k) in * by lia.
    assert (K : forall c, In c (anchors_contacts settled e p (S i) ids rq) -> In c (match te_config e (i :: p) id0 with
      | None => anchors_contacts settled e p (S i) ids rq
      | Some ec =>
          if String.eqb (resolve_endpoint ec) "" then anchors_contacts settled e p (S i) ids rq
          else ToResolver (i :: p) (resolve_endpoint ec) rq ::
               (if settled (i :: p) (resolve_endpoint ec) then [] else anchors_contacts settled e p (S i) ids rq)
      end)).
    { intros c I. destruct (te_config e (i :: p) id0) as [ec|] eqn:C; [|exact I]. destruct (String.eqb_spec (resolve_endpoint ec) ""); [exact I|]. right.
      pose proof (U 0 id0 ec (Nat.lt_0_succ k) eq_refl) as X. rewrite Nat.add_0_r in X. now rewrite (X C n). }
    split; [right; now apply K|]. intros ec C NE. right. apply K. now apply B.
Qed.
Theorem unsettled_asks fuel e p rq k id : nth_error (rq_anchors rq) k = Some id ->
  (forall j id' ec, j < k -> nth_error (rq_anchors rq) j = Some id' -> te_config e (j :: p) id' = Some ec -> resolve_endpoint ec <> "" ->
     resolve_possible fuel e (SimpleR (resolve_endpoint ec)) (j :: p) rq = Done (Ok (false, false))) ->
  In (ToEntity (k :: p) id) (possible_contacts fuel e SmartR p rq) /\
  (forall ec, te_config e (k :: p) id = Some ec -> resolve_endpoint ec <> "" ->
     In (ToResolver (k :: p) (resolve_endpoint ec) rq) (possible_contacts fuel e SmartR p rq)).
Proof.
  intros N U. cbn [possible_contacts]. destruct (anchors_asked (possible_settled e rq) e p rq (rq_anchors rq) 0 k id N) as [A B].
  - intros j id' ec L N' C NE. specialize (U j id' ec L N' C NE). cbn [resolve_possible] in U. injection U as U.
    unfold possible_settled. cbn [Nat.add]. now rewrite U.
  - cbn [Nat.add] in *. split; [apply in_or_app; now left|]. intros ec C NE. apply in_or_app. left. now apply B.
Qed.

Lemma settled_case :
  (exists ec, te_config (env_res (AError "invalid_trust_chain")) [0] TA = Some ec /\ resolve_endpoint ec <> "" /\
     resolve_possible 9 (env_res (AError "invalid_trust_chain")) (SimpleR (resolve_endpoint ec)) [0] (Req LEAF [TA; OTHER] []) = Done (Ok (false, true)) /\
     resolve_possible 9 (env_res (AError "server_error")) (SimpleR (resolve_endpoint ec)) [0] (Req LEAF [TA; OTHER] []) = Done (Ok (false, false))) /\
  possible_contacts 9 (env_res (AError "invalid_trust_chain")) SmartR [] (Req LEAF [TA; OTHER] []) =
    [ToEntity [0] TA; ToResolver [0] "https://ta.example/resolve" (Req LEAF [TA; OTHER] [])] /\
  In (ToEntity [1] OTHER) (possible_contacts 9 (env_res (AError "server_error")) SmartR [] (Req LEAF [TA; OTHER] [])).
Proof.
  split. { eexists. split; [reflexivity|]. split; [vm_compute; discriminate|]. split; vm_compute; reflexivity. }
  split; [vm_compute; reflexivity|]. vm_compute. tauto.
Qed.
