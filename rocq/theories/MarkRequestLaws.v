(** More proofs about the requests made when trust marks are verified and metadata is
    resolved. *)
From Coq Require Import Lia.
From Verif Require Import Base BaseFacts GoVal Policy Schema Metadata Chain Resolver SpecResolver Requests SpecRequests RequestFacts FloatTime Json TrustMark
  SpecTrustMark TrustMarkFacts TrustMarkLaws MarkRequests SpecMarkRequests.
Local Open Scope string_scope.

Lemma info_mark_sound e t m t' : in_sync e t -> info_mark e t = Ok (m, t') -> is_mark e (ti_jwt t) m.
Proof.
  intros S. unfold info_mark.
  assert (P : forall r, (m' <- parse_mark e (ti_jwt t) ;; Ok (m', Info (ti_type t) (ti_jwt t) (ti_extra t) (Some m'))) = r ->
    r = Ok (m, t') -> is_mark e (ti_jwt t) m).
  { intros r <- H. apply bind_ok in H. destruct H as (m' & Hm & [= <- _]). now apply parse_mark_spec. }
  destruct (ti_mark t) as [m0|] eqn:E0; [|intros H; eapply P; eauto].
  destruct (mk_msg m0) as [j|] eqn:EM; [|intros H; eapply P; eauto].
  intros [= <- <-]. exact (S m0 j E0 EM).
Qed.

Theorem verify_on_behalf fuel e p t ta c : te_default e <> SmartR -> in_sync e t -> In c (verify_contacts fuel e p t ta) ->
  exists m, is_mark e (ti_jwt t) m /\ mk_type m = ti_type t /\ mk_iss m <> st_sub ta /\
    (forall l, lookup (mk_type m) (st_mark_issuers ta) = Some l -> In (mk_iss m) l) /\
    on_behalf_of e (st_sub ta) (mk_iss m) c.
Proof.
  intros ND S. unfold verify_contacts, info_contacts. destruct (info_mark e t) as [[m t']| |] eqn:EM; try (intros []).
  destruct (String.eqb_spec (mk_type m) (ti_type t)) as [ET|]; [|intros []]. cbn [negb]. unfold mark_contacts.
  destruct (match lookup (mk_type m) (st_mark_issuers ta) with Some l => negb (mem (mk_iss m) l) | None => false end) eqn:EA; [intros []|].
  destruct fuel as [|f]; [intros []|]. cbn [issuer_contacts]. destruct (String.eqb_spec (mk_iss m) (st_sub ta)) as [|NE]; [intros []|].
  intros H. exists m. split; [exact (info_mark_sound e t m t' S EM)|]. split; auto. split; auto. split.
  { intros l L. rewrite L in EA. apply Bool.negb_false_iff in EA. now apply mem_In. }
  apply in_app_iff in H. destruct H as [H|H].
  - destruct (te_default e) as [|ep|] eqn:ED; [| |congruence].
    + unfold plain_contacts in H. apply in_map_iff in H. destruct H as (r & <- & H). cbn [on_behalf_of]. split; auto.
      apply requests_sound in H. exact H.
    + destruct H as [<-|[]]. cbn [on_behalf_of]. auto.
  - destruct (match te_default e with LocalR => _ | _ => _ end) as [[pl| |]|]; try destruct H.
    destruct (pl_chain pl); [|destruct H]. destruct H as [<-|[]]. reflexivity.
Qed.

Theorem verify_named fuel e p t ta l c : te_default e <> SmartR -> in_sync e t -> lookup (ti_type t) (st_mark_issuers ta) = Some l ->
  In c (verify_contacts fuel e p t ta) -> exists iss, In iss l /\ iss <> st_sub ta /\ on_behalf_of e (st_sub ta) iss c.
Proof.
  intros ND S L H. destruct (verify_on_behalf fuel e p t ta c ND S H) as (m & _ & ET & NE & A & B).
  exists (mk_iss m). split; auto. apply A. now rewrite ET.
Qed.

(** The same for a list of marks. *)
Theorem verified_named fuel e p ta c : te_default e <> SmartR -> forall ts i,
  (forall t, In t ts -> in_sync e t /\ exists l, lookup (ti_type t) (st_mark_issuers ta) = Some l) ->
  In c (infos_contacts (issuer_keys fuel e) (issuer_contacts fuel e) e p i ts ta) ->
  exists t l iss, In t ts /\ lookup (ti_type t) (st_mark_issuers ta) = Some l /\ In iss l /\ iss <> st_sub ta /\ on_behalf_of e (st_sub ta) iss c.
Proof.
  intros ND. induction ts as [|t ts IH]; intros i A H; cbn [infos_contacts] in H; [destruct H|].
  apply in_app_iff in H. destruct H as [H|H].
  - destruct (A t (or_introl eq_refl)) as (S & l & L). destruct (verify_named fuel e (i :: p) t ta l c ND S L H) as (iss & I & N & B).
    exists t, l, iss. split; [now left|auto].
  - assert (H' : In c (infos_contacts (issuer_keys fuel e) (issuer_contacts fuel e) e p (S i) ts ta)).
    { destruct (fst _) as [[u| |]|]; auto; destruct H. }
    destruct (IH (S i)) as (t0 & l & iss & I & R); auto.
    + intros t0 I. apply A. now right.
    + exists t0, l, iss. split; [now right|auto].
Qed.

(** ** The smart resolver *)

Lemma anchors_until e p rq settled c : (forall q ep pl, remote_payload e q ep rq = Ok pl -> settled q ep = true) ->
  forall ids i k id pl, nth_error ids k = Some id -> usable e ((i + k) :: p) rq id pl ->
  In c (anchors_contacts settled e p i ids rq) ->
  exists j id', j <= k /\ nth_error ids j = Some id' /\
    (c = ToEntity ((i + j) :: p) id' \/ exists ec, te_config e ((i + j) :: p) id' = Some ec /\ c = ToResolver ((i + j) :: p) (resolve_endpoint ec) rq).
Proof.
  intros HS. induction ids as [|id0 ids IH]; intros i k id pl N U H; [destruct k; discriminate|]. cbn [anchors_contacts] in H.
  destruct H as [<-|H].
  { exists 0, id0. rewrite Nat.add_0_r. split; [lia|]. split; auto. }
  assert (NEXT : In c (anchors_contacts settled e p (S i) ids rq) -> k <> 0 -> exists j id', j <= k /\ nth_error (id0 :: ids) j = Some id' /\
    (c = ToEntity ((i + j) :: p) id' \/ exists ec, te_config e ((i + j) :: p) id' = Some ec /\ c = ToResolver ((i + j) :: p) (resolve_endpoint ec) rq)).
  { intros I K. destruct k as [|k]; [congruence|]. cbn [nth_error] in N.
    destruct (IH (S i) k id pl N) as (j & id' & L & N' & R); auto.
    { now replace (S i + k) with (i + S k) by lia. }
    exists (S j), id'. split; [lia|]. split; auto. now replace (i + S j) with (S i + j) by lia. }
  assert (K0 : k = 0 -> exists ec, te_config e (i :: p) id0 = Some ec /\ resolve_endpoint ec <> "" /\ remote_payload e (i :: p) (resolve_endpoint ec) rq = Ok pl).
  { intros ->. cbn [nth_error] in N. injection N as ->. rewrite Nat.add_0_r in U. now apply usable_step. }
  destruct (te_config e (i :: p) id0) as [ec|] eqn:EC.
  - destruct (String.eqb_spec (resolve_endpoint ec) "") as [E|E].
    + apply NEXT; auto. intros K. destruct (K0 K) as (ec' & [= <-] & X & _). congruence.
    + destruct H as [<-|H].
      * exists 0, id0. rewrite Nat.add_0_r. split; [lia|]. split; auto. right. exists ec. auto.
      * destruct (settled (i :: p) (resolve_endpoint ec)) eqn:ES; [destruct H|].
        apply NEXT; auto. intros K. destruct (K0 K) as (ec' & [= <-] & _ & X). rewrite (HS _ _ _ X) in ES. discriminate.
  - apply NEXT; auto. intros K. destruct (K0 K) as (ec' & X & _). discriminate.
Qed.

Lemma ask_some e p rq : forall ids i k id pl, nth_error ids k = Some id -> usable e ((i + k) :: p) rq id pl ->
  ask_anchors e p i ids rq <> None.
Proof.
  induction ids as [|id0 ids IH]; intros i k id pl N U; [destruct k; discriminate|]. cbn [ask_anchors].
  destruct k as [|k].
  - cbn [nth_error] in N. injection N as ->. rewrite Nat.add_0_r in U. apply usable_step in U. destruct U as (ec & -> & NE & ->).
    destruct (String.eqb_spec (resolve_endpoint ec) ""); [contradiction|discriminate].
  - assert (X : ask_anchors e p (S i) ids rq <> None).
    { apply (IH (S i) k id pl); auto. now replace (S i + k) with (i + S k) by lia. }
    destruct (te_config e (i :: p) id0) as [ec|]; auto. destruct (String.eqb _ _); auto.
    destruct (remote_payload _ _ _ _); auto. discriminate.
Qed.

Lemma payload_possible e q ep rq pl : remote_payload e q ep rq = Ok pl -> remote_possible e q ep rq = (true, false).
Proof.
  unfold remote_payload, remote_possible. destruct (remote_response e q ep rq) as [[[pl'|]| |] []]; try discriminate. reflexivity.
Qed.

Lemma ask_possible_some e p rq : forall ids i k id pl, nth_error ids k = Some id -> usable e ((i + k) :: p) rq id pl ->
  ask_possible e p i ids rq <> None.
Proof.
  induction ids as [|id0 ids IH]; intros i k id pl N U; [destruct k; discriminate|]. cbn [ask_possible].
  destruct k as [|k].
  - cbn [nth_error] in N. injection N as ->. rewrite Nat.add_0_r in U. apply usable_step in U. destruct U as (ec & -> & NE & R).
    destruct (String.eqb_spec (resolve_endpoint ec) ""); [contradiction|]. rewrite (payload_possible _ _ _ _ _ R). discriminate.
  - assert (X : ask_possible e p (S i) ids rq <> None).
    { apply (IH (S i) k id pl); auto. now replace (S i + k) with (i + S k) by lia. }
    destruct (te_config e (i :: p) id0) as [ec|]; auto. destruct (String.eqb _ _); auto.
    destruct (remote_possible _ _ _ _) as [[|] [|]]; auto; discriminate.
Qed.

Theorem smart_spares fuel e p rq k id pl c : nth_error (rq_anchors rq) k = Some id -> usable e (k :: p) rq id pl ->
  In c (payload_contacts fuel e SmartR p rq) \/ In c (metadata_contacts fuel e SmartR p rq) \/ In c (possible_contacts fuel e SmartR p rq) ->
  exists j id', j <= k /\ nth_error (rq_anchors rq) j = Some id' /\
    (c = ToEntity (j :: p) id' \/ exists ec, te_config e (j :: p) id' = Some ec /\ c = ToResolver (j :: p) (resolve_endpoint ec) rq).
Proof.
  intros N U H.
  assert (H' : In c (smart_contacts (issuer_keys fuel e) (issuer_contacts fuel e) fuel e p rq) \/ In c (possible_contacts fuel e SmartR p rq))
    by (cbn [payload_contacts metadata_contacts] in H; tauto).
  clear H. destruct H' as [H|H].
  - unfold smart_contacts in H. pose proof (ask_some e p rq (rq_anchors rq) 0 k id pl N U) as A.
    destruct (ask_anchors e p 0 (rq_anchors rq) rq); [|congruence]. rewrite app_nil_r in H.
    refine (anchors_until e p rq _ c _ _ 0 k id pl N U H). intros q ep pl' E. unfold payload_settled. now rewrite E.
  - cbn [possible_contacts] in H. pose proof (ask_possible_some e p rq (rq_anchors rq) 0 k id pl N U) as A.
    destruct (ask_possible e p 0 (rq_anchors rq) rq); [|congruence]. rewrite app_nil_r in H.
    refine (anchors_until e p rq _ c _ _ 0 k id pl N U H). intros q ep pl' E. unfold possible_settled. now rewrite (payload_possible _ _ _ _ _ E).
Qed.
