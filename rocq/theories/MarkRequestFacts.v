(** Proofs about the requests made when trust marks are verified and metadata is resolved. *)
From Verif Require Import Base BaseFacts GoVal Policy Schema Metadata Chain Resolver SpecResolver Requests SpecRequests RequestFacts FloatTime Json TrustMark
  MarkRequests SpecMarkRequests.
Local Open Scope string_scope.

Section Same.
  Variables (e e' : env).
  Hypothesis D : differ_in_answers e e'.

  Lemma sort_same cs : sort_path_len e' cs = sort_path_len e cs.
  Proof. unfold sort_path_len. now rewrite (da_swaps _ _ D). Qed.

  Lemma plain_same fuel p rq : (forall c, In c (plain_contacts fuel e p rq) -> answered_same e e' c) ->
    plain_contacts fuel e' p rq = plain_contacts fuel e p rq /\ local_plain fuel e' p rq = local_plain fuel e p rq /\
    local_possible fuel e' p rq = local_possible fuel e p rq.
  Proof.
    intros H. unfold plain_contacts, local_plain, local_possible in *.
    destruct (answers_suffice fuel (te_world e p rq) (te_world e' p rq) (map (fun id => Anchor id None) (rq_anchors rq)) (rq_types rq) (rq_sub rq)
                (da_world _ _ D p rq)) as (E1 & _ & E2).
    { intros r I. apply (H (Within p rq r)). apply in_map_iff. eauto. }
    rewrite E1, E2. split; auto. split; auto.
    clear E1 E2 H. destruct (resolve_valid _ _ _ _ _) as [[cs| |]|]; cbn [rbind]; auto. destruct cs; auto. now rewrite sort_same.
  Qed.

  Lemma parse_mark_same j : parse_mark e' j = parse_mark e j.
  Proof. unfold parse_mark. now rewrite (da_parse _ _ D). Qed.
  Lemma info_mark_same t : info_mark e' t = info_mark e t.
  Proof. unfold info_mark. rewrite parse_mark_same. reflexivity. Qed.
  Lemma vws_same m ks : verify_with_set e' m ks = verify_with_set e m ks.
  Proof. unfold verify_with_set. destruct m; auto. destruct ks as [[|k l]|]; auto. apply (da_verify _ _ D). Qed.
  Lemma mve_same p m ks tmo : mark_verify_external e' p m ks tmo = mark_verify_external e p m ks tmo.
  Proof.
    unfold mark_verify_external, mark_delegation, parse_delegation, deleg_verify_external.
    rewrite !(da_now _ _ D), vws_same, (da_parse _ _ D).
    destruct (verify_time_ptr _ _ _) as [u| |]; cbn [bind]; auto. destruct (verify_with_set e (mk_msg m) ks); auto.
    destruct tmo as [|[o ko] l]; auto.
    destruct (if String.eqb (mk_deleg m) "" then _ else _) as [[d|]| |]; cbn [bind]; auto.
    now rewrite vws_same.
  Qed.

  Lemma remote_same p ep rq : te_remote e' p ep rq = te_remote e p ep rq ->
    remote_payload e' p ep rq = remote_payload e p ep rq /\ remote_possible e' p ep rq = remote_possible e p ep rq /\
    remote_resolve e' p ep rq = remote_resolve e p ep rq.
  Proof.
    intros H.
    assert (E : remote_response e' p ep rq = remote_response e p ep rq).
    { unfold remote_response. rewrite H. destruct (te_remote e p ep rq) as [|c|b]; auto.
      unfold parse_response. rewrite (da_parse _ _ D). destruct (te_parse e b) as [[typ j]|]; auto.
      destruct (negb _); auto. now rewrite (da_payload _ _ D). }
    unfold remote_payload, remote_possible, remote_resolve, remote_payload. rewrite E. auto.
  Qed.

  Lemma anchors_same settled settled' p rq :
    (forall q ep, te_remote e' q ep rq = te_remote e q ep rq -> settled' q ep = settled q ep) ->
    forall ids i, (forall c, In c (anchors_contacts settled e p i ids rq) -> answered_same e e' c) ->
    anchors_contacts settled' e' p i ids rq = anchors_contacts settled e p i ids rq.
  Proof.
    intros HS. induction ids as [|id ids IH]; intros i H; cbn [anchors_contacts] in *; auto.
    assert (C : te_config e' (i :: p) id = te_config e (i :: p) id) by exact (H _ (or_introl eq_refl)).
    rewrite C. f_equal. destruct (te_config e (i :: p) id) as [ec|]; [|apply IH; intros c I; apply H; now right].
    destruct (String.eqb (resolve_endpoint ec) ""); [apply IH; intros c I; apply H; now right|].
    f_equal. rewrite HS by exact (H _ (or_intror (or_introl eq_refl))).
    destruct (settled _ _); auto. apply IH. intros c I. apply H. right. now right.
  Qed.

  Lemma ask_same p rq : forall ids i, (forall c, In c (anchors_contacts (payload_settled e rq) e p i ids rq) -> answered_same e e' c) ->
    ask_anchors e' p i ids rq = ask_anchors e p i ids rq.
  Proof.
    induction ids as [|id ids IH]; intros i H; cbn [anchors_contacts ask_anchors] in *; auto.
    assert (C : te_config e' (i :: p) id = te_config e (i :: p) id) by exact (H _ (or_introl eq_refl)).
    rewrite C. destruct (te_config e (i :: p) id) as [ec|]; [|apply IH; intros c I; apply H; now right].
    destruct (String.eqb (resolve_endpoint ec) ""); [apply IH; intros c I; apply H; now right|].
    destruct (remote_same (i :: p) (resolve_endpoint ec) rq) as (R & _); [exact (H _ (or_intror (or_introl eq_refl)))|].
    rewrite R. unfold payload_settled in H at 1.
    destruct (remote_payload e (i :: p) (resolve_endpoint ec) rq) eqn:RP; auto;
      apply IH; intros c I; apply H; right; right; cbn [is_ok]; exact I.
  Qed.

  Lemma ask_possible_same p rq : forall ids i, (forall c, In c (anchors_contacts (possible_settled e rq) e p i ids rq) -> answered_same e e' c) ->
    ask_possible e' p i ids rq = ask_possible e p i ids rq.
  Proof.
    induction ids as [|id ids IH]; intros i H; cbn [anchors_contacts ask_possible] in *; auto.
    assert (C : te_config e' (i :: p) id = te_config e (i :: p) id) by exact (H _ (or_introl eq_refl)).
    rewrite C. destruct (te_config e (i :: p) id) as [ec|]; [|apply IH; intros c I; apply H; now right].
    destruct (String.eqb (resolve_endpoint ec) ""); [apply IH; intros c I; apply H; now right|].
    destruct (remote_same (i :: p) (resolve_endpoint ec) rq) as (_ & R & _); [exact (H _ (or_intror (or_introl eq_refl)))|].
    rewrite R. unfold possible_settled in H at 1.
    destruct (remote_possible e (i :: p) (resolve_endpoint ec) rq) as [[|] [|]] eqn:RP; auto.
    apply IH; intros c I; apply H; right; right. cbn [fst snd orb]. exact I.
  Qed.

  Section Keys.
    Variables (keys keys' : list nat -> string -> stmt -> run jwks) (ask ask' : list nat -> string -> stmt -> list contact).
    Hypothesis HK : forall p iss ta, (forall c, In c (ask p iss ta) -> answered_same e e' c) ->
      keys' p iss ta = keys p iss ta /\ ask' p iss ta = ask p iss ta.

    Lemma info_same p t ta : (forall c, In c (info_contacts ask e p t ta) -> answered_same e e' c) ->
      info_contacts ask' e' p t ta = info_contacts ask e p t ta /\
      info_verify_federation keys' e' p t ta = info_verify_federation keys e p t ta.
    Proof.
      intros H. unfold info_contacts, info_verify_federation in *. rewrite info_mark_same.
      destruct (info_mark e t) as [[m t']| |]; auto. destruct (negb _); auto.
      unfold mark_contacts, mark_verify_federation in *.
      destruct (match lookup (mk_type m) (st_mark_issuers ta) with Some l => negb (mem (mk_iss m) l) | None => false end); auto.
      destruct (HK p (mk_iss m) ta H) as [E1 E2]. rewrite E1, E2. split; auto. f_equal.
      destruct (keys p (mk_iss m) ta) as [[ks| |]|]; cbn [rbind]; auto. destruct (lookup _ _); now rewrite mve_same.
    Qed.

    Lemma infos_same p ta : forall ts i, (forall c, In c (infos_contacts keys ask e p i ts ta) -> answered_same e e' c) ->
      infos_contacts keys' ask' e' p i ts ta = infos_contacts keys ask e p i ts ta /\
      verified_federation keys' e' p i ts ta = verified_federation keys e p i ts ta.
    Proof.
      induction ts as [|t ts IH]; intros i H; cbn [infos_contacts verified_federation] in *; auto.
      destruct (info_same (i :: p) t ta) as [E1 E2]; [intros c I; apply H; apply in_app_iff; now left|].
      rewrite E1, E2. destruct (info_verify_federation keys e (i :: p) t ta) as [[[u| |]|] t'] eqn:EV; cbn [fst] in *; auto.
      - destruct (IH (S i)) as [E3 E4]; [intros c I; apply H; apply in_app_iff; now right|]. rewrite E3, E4. auto.
      - destruct (IH (S i)) as [E3 E4]; [intros c I; apply H; apply in_app_iff; now right|]. rewrite E3, E4. auto.
    Qed.

    Lemma local_same fuel p rq : (forall c, In c (local_contacts keys ask fuel e p rq) -> answered_same e e' c) ->
      local_contacts keys' ask' fuel e' p rq = local_contacts keys ask fuel e p rq /\
      local_payload keys' fuel e' p rq = local_payload keys fuel e p rq.
    Proof.
      intros H. unfold local_contacts, local_payload in *.
      destruct (plain_same fuel p rq) as (E1 & E2 & _); [intros c I; apply H; apply in_app_iff; now left|].
      rewrite E1, E2. clear E1 E2. destruct (local_plain fuel e p rq) as [[[pl [|leaf c0]]| |]|]; cbn [rbind snd fst]; auto.
      destruct (infos_same p (last (leaf :: c0) leaf) (infos_of leaf) 0) as [E3 E4]; [intros c I; apply H; apply in_app_iff; now right|].
      rewrite E3, E4. auto.
    Qed.

    Lemma smart_same fuel p rq : (forall c, In c (smart_contacts keys ask fuel e p rq) -> answered_same e e' c) ->
      smart_contacts keys' ask' fuel e' p rq = smart_contacts keys ask fuel e p rq /\
      smart_payload keys' fuel e' p rq = smart_payload keys fuel e p rq.
    Proof.
      intros H. unfold smart_contacts, smart_payload in *.
      assert (H1 : forall c, In c (anchors_contacts (payload_settled e rq) e p 0 (rq_anchors rq) rq) -> answered_same e e' c)
        by (intros c I; apply H; apply in_app_iff; now left).
      rewrite (ask_same p rq _ 0 H1).
      rewrite (anchors_same (payload_settled e rq) (payload_settled e' rq) p rq) with (2 := H1).
      2:{ intros q ep R. unfold payload_settled. now rewrite (proj1 (remote_same q ep rq R)). }
      destruct (ask_anchors e p 0 (rq_anchors rq) rq); auto.
      destruct (local_same fuel p rq) as [E3 E4]; [intros c I; apply H; apply in_app_iff; now right|].
      rewrite E3, E4. auto.
    Qed.
  End Keys.

  Lemma issuer_same : forall fuel p iss ta, (forall c, In c (issuer_contacts fuel e p iss ta) -> answered_same e e' c) ->
    issuer_keys fuel e' p iss ta = issuer_keys fuel e p iss ta /\ issuer_contacts fuel e' p iss ta = issuer_contacts fuel e p iss ta.
  Proof.
    induction fuel as [|f IH]; intros p iss ta H; cbn [issuer_keys issuer_contacts] in *; auto.
    destruct (String.eqb iss (st_sub ta)); auto. rewrite (da_default _ _ D).
    set (rq := Req iss [st_sub ta] []) in *.
    set (R := match te_default e with
              | LocalR => rbind (local_plain f e p rq) (fun r => Done (Ok (fst r)))
              | SimpleR ep => Done (remote_payload e p ep rq)
              | SmartR => smart_payload (issuer_keys f e) f e p rq end) in *.
    set (R' := match te_default e with
              | LocalR => rbind (local_plain f e' p rq) (fun r => Done (Ok (fst r)))
              | SimpleR ep => Done (remote_payload e' p ep rq)
              | SmartR => smart_payload (issuer_keys f e') f e' p rq end).
    set (C := match te_default e with
              | LocalR => plain_contacts f e p rq
              | SimpleR ep => [ToResolver p ep rq]
              | SmartR => smart_contacts (issuer_keys f e) (issuer_contacts f e) f e p rq end) in *.
    set (C' := match te_default e with
              | LocalR => plain_contacts f e' p rq
              | SimpleR ep => [ToResolver p ep rq]
              | SmartR => smart_contacts (issuer_keys f e') (issuer_contacts f e') f e' p rq end).
    assert (E : R' = R /\ C' = C).
    { assert (HC : forall c, In c C -> answered_same e e' c) by (intros c I; apply H; apply in_app_iff; now left).
      clear H. unfold R, R', C, C' in *. destruct (te_default e) as [|ep|].
      - destruct (plain_same f p rq HC) as (E1 & E2 & _). rewrite E1, E2. auto.
      - split; auto. f_equal. apply remote_same. exact (HC _ (or_introl eq_refl)).
      - destruct (smart_same (issuer_keys f e) (issuer_keys f e') (issuer_contacts f e) (issuer_contacts f e') IH f p rq HC). auto. }
    destruct E as [-> ->]. 
    assert (HE : forall c, In c (match R with Done (Ok pl) => match pl_chain pl with [] => [ToEntity p iss] | _ => [] end | _ => [] end) -> answered_same e e' c)
      by (intros c I; apply H; apply in_app_iff; now right).
    split; auto. clear H. clearbody R. destruct R as [[pl| |]|]; cbn [rbind]; auto.
    destruct (pl_chain pl) as [|j l].
    - rewrite (HE _ (or_introl eq_refl) : te_config e' p iss = te_config e p iss). reflexivity.
    - now rewrite (da_stmt _ _ D).
  Qed.

  Theorem verify_answers fuel p t ta : (forall c, In c (verify_contacts fuel e p t ta) -> answered_same e e' c) ->
    verify_contacts fuel e' p t ta = verify_contacts fuel e p t ta /\ verify_mark fuel e' p t ta = verify_mark fuel e p t ta.
  Proof.
    intros H. unfold verify_contacts, verify_mark in *.
    destruct (info_same _ _ _ _ (issuer_same fuel) p t ta H) as [-> ->]. auto.
  Qed.

  Theorem verified_answers fuel p ts ta : (forall c, In c (verified_contacts fuel e p ts ta) -> answered_same e e' c) ->
    verified_contacts fuel e' p ts ta = verified_contacts fuel e p ts ta /\ verified_marks fuel e' p ts ta = verified_marks fuel e p ts ta.
  Proof. intros H. exact (infos_same _ _ _ _ (issuer_same fuel) p ta ts 0 H). Qed.

  Theorem payload_answers fuel r p rq : (forall c, In c (payload_contacts fuel e r p rq) -> answered_same e e' c) ->
    payload_contacts fuel e' r p rq = payload_contacts fuel e r p rq /\ resolve_payload fuel e' r p rq = resolve_payload fuel e r p rq.
  Proof.
    intros H. destruct r as [|ep|]; cbn [payload_contacts resolve_payload] in *.
    - exact (local_same _ _ _ _ (issuer_same fuel) fuel p rq H).
    - split; auto. f_equal. apply remote_same. exact (H _ (or_introl eq_refl)).
    - exact (smart_same _ _ _ _ (issuer_same fuel) fuel p rq H).
  Qed.

  Theorem metadata_answers fuel r p rq : (forall c, In c (metadata_contacts fuel e r p rq) -> answered_same e e' c) ->
    metadata_contacts fuel e' r p rq = metadata_contacts fuel e r p rq /\ resolve_metadata fuel e' r p rq = resolve_metadata fuel e r p rq.
  Proof.
    intros H. destruct r as [|ep|]; cbn [metadata_contacts resolve_metadata] in *.
    - destruct (plain_same fuel p rq H) as (E1 & E2 & _). unfold local_resolve. now rewrite E1, E2.
    - split; auto. f_equal. apply remote_same. exact (H _ (or_introl eq_refl)).
    - destruct (smart_same _ _ _ _ (issuer_same fuel) fuel p rq H) as [-> ->]. auto.
  Qed.

  Theorem possible_answers fuel r p rq : (forall c, In c (possible_contacts fuel e r p rq) -> answered_same e e' c) ->
    possible_contacts fuel e' r p rq = possible_contacts fuel e r p rq /\ resolve_possible fuel e' r p rq = resolve_possible fuel e r p rq.
  Proof.
    intros H. destruct r as [|ep|]; cbn [possible_contacts resolve_possible] in *.
    - destruct (plain_same fuel p rq H) as (E1 & _ & E3). now rewrite E1, E3.
    - split; auto. do 2 f_equal. apply remote_same. exact (H _ (or_introl eq_refl)).
    - unfold smart_possible.
      assert (H1 : forall c, In c (anchors_contacts (possible_settled e rq) e p 0 (rq_anchors rq) rq) -> answered_same e e' c)
        by (intros c I; apply H; apply in_app_iff; now left).
      rewrite (ask_possible_same p rq _ 0 H1).
      rewrite (anchors_same (possible_settled e rq) (possible_settled e' rq) p rq) with (2 := H1).
      2:{ intros q ep R. unfold possible_settled. now rewrite (proj1 (proj2 (remote_same q ep rq R))). }
      destruct (ask_possible e p 0 (rq_anchors rq) rq); auto.
      destruct (plain_same fuel p rq) as (E1 & _ & E3); [intros c I; apply H; apply in_app_iff; now right|]. now rewrite E1, E3.
  Qed.
End Same.
