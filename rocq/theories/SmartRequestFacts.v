(** Proofs about the requests made when trust marks are verified with the smart resolver as
    the default. *)
From Coq Require Import Lia.
From Verif Require Import Base BaseFacts GoVal Policy Schema Metadata Chain Resolver SpecResolver Requests SpecRequests RequestFacts FloatTime Json TrustMark
  SpecTrustMark TrustMarkFacts TrustMarkLaws MarkRequests SpecMarkRequests MarkRequestLaws SpecSmartRequests.
Local Open Scope string_scope.

Lemma info_prompts ask e p t ta c : in_sync e t -> In c (info_contacts ask e p t ta) ->
  exists m, is_mark e (ti_jwt t) m /\ mk_type m = ti_type t /\
    (forall l, lookup (mk_type m) (st_mark_issuers ta) = Some l -> In (mk_iss m) l) /\ In c (ask p (mk_iss m) ta).
Proof.
  intros S. unfold info_contacts. destruct (info_mark e t) as [[m t']| |] eqn:EM; try (intros []).
  destruct (String.eqb_spec (mk_type m) (ti_type t)) as [ET|]; [|intros []]. cbn [negb]. unfold mark_contacts.
  destruct (match lookup (mk_type m) (st_mark_issuers ta) with Some l => negb (mem (mk_iss m) l) | None => false end) eqn:EA; [intros []|].
  intros H. exists m. split; [exact (info_mark_sound e t m t' S EM)|]. split; auto. split; auto.
  intros l L. rewrite L in EA. apply Bool.negb_false_iff in EA. now apply mem_In.
Qed.
Lemma infos_prompts keys ask e p ta c : forall ts i, In c (infos_contacts keys ask e p i ts ta) -> exists j t, In t ts /\ In c (info_contacts ask e (j :: p) t ta).
Proof.
  induction ts as [|t ts IH]; intros i H; cbn [infos_contacts] in H; [destruct H|]. apply in_app_iff in H. destruct H as [H|H].
  - exists i, t. split; [now left|exact H].
  - assert (H' : In c (infos_contacts keys ask e p (S i) ts ta)) by (destruct (fst _) as [[u| |]|]; auto; destruct H).
    destruct (IH _ H') as (j & t0 & I & R). exists j, t0. split; [now right|exact R].
Qed.
Lemma infos_of_sync e s t : In t (infos_of s) -> in_sync e t.
Proof. unfold infos_of. intros I. apply in_map_iff in I. destruct I as (x & <- & _). intros m j H. discriminate H. Qed.

Lemma issuer_leads e : te_default e = SmartR -> forall fuel p iss ta c, In c (issuer_contacts fuel e p iss ta) ->
  iss <> st_sub ta /\ exists ta' iss', leads_to e ta iss ta' iss' /\ smartly_for e (st_sub ta') iss' c.
Proof.
  intros ED. induction fuel as [|f IH]; intros p iss ta c H; [destruct H|]. cbn [issuer_contacts] in H.
  destruct (String.eqb_spec iss (st_sub ta)) as [|NE]; [destruct H|]. split; [exact NE|]. rewrite ED in H.
  set (rq := Req iss [st_sub ta] []) in *. apply in_app_iff in H. destruct H as [H|H].
  2:{ destruct (smart_payload _ _ _ _ _) as [[pl| |]|]; try destruct H. destruct (pl_chain pl); [|destruct H]. destruct H as [<-|[]].
      exists ta, iss. split; [constructor|now left]. }
  unfold smart_contacts in H. apply in_app_iff in H. destruct H as [H|H].
  - exists ta, iss. split; [constructor|]. unfold rq in H at 2. cbn [rq_anchors anchors_contacts] in H. destruct H as [<-|H]; [now right|].
    destruct (te_config e (0 :: p) (st_sub ta)) as [ec|] eqn:EC; [|destruct H]. destruct (String.eqb _ _); [destruct H|].
    destruct H as [<-|H]; [|destruct (payload_settled _ _ _ _); destruct H]. cbn [smartly_for]. split; [reflexivity|]. eauto.
  - destruct (ask_anchors e p 0 (rq_anchors rq) rq); [destruct H|]. unfold local_contacts in H. apply in_app_iff in H. destruct H as [H|H].
    + exists ta, iss. split; [constructor|]. unfold plain_contacts in H. apply in_map_iff in H. destruct H as (r & <- & H). cbn [smartly_for]. split; [reflexivity|].
      apply requests_sound in H. exact H.
    + destruct (local_plain f e p rq) as [[[pl [|leaf ch]]| |]|] eqn:LP; try destruct H.
      destruct (infos_prompts _ _ _ _ _ _ _ _ H) as (j & t & It & Ht).
      destruct (info_prompts _ _ _ _ _ _ (infos_of_sync e leaf t It) Ht) as (m & IM & ET & AL & Hc).
      destruct (IH _ _ _ _ Hc) as (NE' & ta' & iss' & L & B). exists ta', iss'. split; [|exact B].
      eapply lt_mark; eauto; [do 3 eexists; exact LP|split; auto].
Qed.

Theorem verify_smart fuel e p t ta c : te_default e = SmartR -> in_sync e t -> In c (verify_contacts fuel e p t ta) ->
  exists m ta' iss', is_mark e (ti_jwt t) m /\ mk_type m = ti_type t /\ eligible ta m /\
    leads_to e ta (mk_iss m) ta' iss' /\ smartly_for e (st_sub ta') iss' c.
Proof.
  intros ED S H. destruct (info_prompts _ _ _ _ _ _ S H) as (m & IM & ET & AL & Hc).
  destruct (issuer_leads e ED _ _ _ _ _ Hc) as (NE & ta' & iss' & L & B). exists m, ta', iss'. repeat split; auto.
Qed.

(** If no configuration of an eligible issuer carries marks, nobody else is asked about. *)
Theorem verify_smart_named fuel e p t ta l c : te_default e = SmartR -> in_sync e t -> lookup (ti_type t) (st_mark_issuers ta) = Some l ->
  (forall iss leaf ch, In iss l -> chain_to_any e (Req iss [st_sub ta] []) (leaf :: ch) -> st_marks leaf = []) ->
  In c (verify_contacts fuel e p t ta) -> exists iss, In iss l /\ iss <> st_sub ta /\ smartly_for e (st_sub ta) iss c.
Proof.
  intros ED S L NM H. destruct (verify_smart _ _ _ _ _ _ ED S H) as (m & ta' & iss' & IM & ET & [NE AL] & LT & B).
  assert (I : In (mk_iss m) l) by (apply AL; now rewrite ET).
  exists (mk_iss m). split; auto. split; auto. inversion LT; subst; [exact B|].
  match goal with CH : chain_to_any _ _ (?leaf :: _), T : In _ (infos_of ?leaf) |- _ => pose proof (NM _ _ _ I CH) as Z; unfold infos_of in T; rewrite Z in T; destruct T end.
Qed.
