(** Proofs about the HTTP requests of a resolution with redis. *)
From Coq Require Import QArith Lia.
From Verif Require Import Base BaseFacts GoVal Policy Schema Metadata Chain Resolver SpecResolver TrustMark Refresher FloatTime Cache CacheFacts
  Requests SpecRequests RequestFacts Traffic SpecTraffic TrafficFacts.
Local Open Scope nat_scope.
Local Open Scope string_scope.

Section RWindow.
  Variables (grace : Z) (factor : Q) (from upto : time).
  Hypothesis HF : (0 < from)%Z.
  Hypothesis HG : (ms <= grace)%Z.

  Definition red_stays (k : string) (l : list (entry cached)) : Prop :=
    exists e s, find_entry k l = Some e /\ en_val e = CStmt s /\ forall now, (now <= upto)%Z -> red_expired now e = false.

  Lemma find_drop_other k k' (l : list (entry cached)) : k' <> k -> find_entry k (drop_entry k' l) = find_entry k l.
  Proof.
    intros NE. unfold find_entry, drop_entry. induction l as [|e l IH]; cbn [filter find]; auto.
    destruct (String.eqb_spec (en_key e) k') as [E|E]; cbn [negb find].
    - rewrite IH. destruct (String.eqb_spec (en_key e) k); [congruence|auto].
    - rewrite IH. reflexivity.
  Qed.

  Lemma red_stays_set k k' now v ttl l : k' <> k -> red_stays k l -> red_stays k (red_set now k' v ttl l).
  Proof.
    intros NE (e & s & F & R). exists e, s. split; auto. unfold red_set, find_entry. cbn [find en_key].
    destruct (String.eqb_spec k' k); [contradiction|]. fold (find_entry k (drop_entry k' l)). now rewrite find_drop_other.
  Qed.

  Lemma red_stays_new k now s ttl l : (ms <= ttl)%Z -> (upto + ms <= now + ttl)%Z -> red_stays k (red_set now k (CStmt s) ttl l).
  Proof.
    intros T U. unfold ms in *. unfold red_set.
    destruct (Z.ltb_spec 0 ttl); [|lia]. destruct (Z.ltb_spec ttl ms) as [B|B]; [unfold ms in B; lia|].
    eexists _, s. split; [unfold find_entry; cbn [find en_key]; now rewrite String.eqb_refl|]. split; auto.
    intros now' L. unfold red_expired. cbn [en_exp]. apply Z.ltb_ge. unfold ms in *.
    pose proof (Z.div_mod now 1000000 ltac:(lia)). pose proof (Z.mod_pos_bound now 1000000 ltac:(lia)).
    pose proof (Z.div_mod ttl 1000000 ltac:(lia)). pose proof (Z.mod_pos_bound ttl 1000000 ltac:(lia)).
    pose proof (Z.div_mod now' 1000000 ltac:(lia)). pose proof (Z.mod_pos_bound now' 1000000 ltac:(lia)).
    lia.
  Qed.

  Lemma red_all_last_set now k s ttl l : lasts grace from upto s -> all_last grace from upto l ->
    all_last grace from upto (red_set now k (CStmt s) ttl l).
  Proof.
    intros S A e s' [<-|H] E; [injection E as <-; auto|]. apply (A e); auto. unfold drop_entry in H. apply filter_In in H. tauto.
  Qed.

  Variables (net : request -> option stmt) (t : nat -> time * time * time).
  Hypothesis HW : within from upto t.
  Hypothesis HN : forall r s, net r = Some s -> lasts grace from upto s.

  Lemma red_sent_once : forall rs i l (done : list string),
    (forall k, In k done -> red_stays k l) -> all_last grace from upto l ->
    NoDup (map key (filter (gets_answer net) (sent grace factor net t i rs (Redis l)))) /\
    forall r, In r (filter (gets_answer net) (sent grace factor net t i rs (Redis l))) -> ~ In (key r) done.
  Proof.
    induction rs as [|r rs IH]; intros i l done HK HA; cbn [sent].
    { cbn. split; [constructor|intros r []]. }
    destruct (t i) as [[now t1] t2] eqn:ET. destruct (HW i now t1 t2 ET) as (WN & W1 & W12 & W2).
    unfold get_statement, stmt_cache_get, cache_get. fold (key r).
    assert (MISS : ~ In (key r) done ->
      let out := ([r] ++ sent grace factor net t (S i) rs (obtain t1 t2 (fst (kept_as r)) (snd (kept_as r)) (net r) (Redis l)))%list in
      NoDup (map key (filter (gets_answer net) out)) /\ forall r0, In r0 (filter (gets_answer net) out) -> ~ In (key r0) done).
    { intros ND. cbn zeta. cbn [app filter]. unfold obtain. destruct (net r) as [s|] eqn:EN.
      - assert (GA : gets_answer net r = true) by (unfold gets_answer; now rewrite EN). rewrite GA.
        unfold stmt_cache_set, cache_set. fold (key r). pose proof (HN r s EN) as LS. destruct LS as [LS1 LS2].
        assert (EU : until (st_exp s) t1 = (st_exp s - t1)%Z) by (unfold until, sat; unfold ms in HG; lia).
        rewrite EU.
        destruct (IH (S i) (red_set t2 (key r) (CStmt s) (st_exp s - t1) l) (key r :: done)) as [N D].
        + intros k [<-|H]; [apply red_stays_new; lia|]. apply red_stays_set; auto. intros E. apply ND. now rewrite E.
        + apply red_all_last_set; auto. now apply (HN r).
        + split.
          * cbn [map]. constructor; auto. intros H. apply in_map_iff in H. destruct H as (r0 & E & H).
            apply (D r0 H). left. auto.
          * intros r0 [<-|H]; auto. intros I. apply (D r0 H). now right.
      - assert (GA : gets_answer net r = false) by (unfold gets_answer; now rewrite EN). rewrite GA. now apply IH. }
    assert (GOT : match option_map (fun s : stmt => (s, false)) (net r) with
                  | Some (s, true) => if refresh_due grace factor now s then [r] else []
                  | _ => [r] end = [r]) by (destruct (net r); reflexivity).
    unfold red_find. destruct (find_entry (key r) l) as [e|] eqn:EF.
    - destruct (find_entry_in _ _ _ EF) as [IE KE]. destruct (red_expired now e) eqn:EX.
      + cbn [option_map]. cbv beta iota; rewrite GOT; apply MISS.
        intros H. destruct (HK _ H) as (e' & s & EF' & _ & NX). rewrite EF in EF'. injection EF' as <-.
        rewrite NX in EX; [discriminate|lia].
      + cbn [option_map]. destruct (en_val e) as [s|t0|cs|d] eqn:EV.
        * rewrite (not_due grace factor from upto); try (unfold ms in HG; lia); [|exact (HA e s IE EV)]. cbn [app]. now apply IH.
        * cbv beta iota; rewrite GOT; apply MISS. intros H. destruct (HK _ H) as (e' & s & EF' & V & _). congruence.
        * cbv beta iota; rewrite GOT; apply MISS. intros H. destruct (HK _ H) as (e' & s & EF' & V & _). congruence.
        * cbv beta iota; rewrite GOT; apply MISS. intros H. destruct (HK _ H) as (e' & s & EF' & V & _). congruence.
    - cbn [option_map]. cbv beta iota; rewrite GOT; apply MISS. intros H. destruct (HK _ H) as (e' & s & EF' & _). congruence.
  Qed.
End RWindow.

Theorem answered_once_redis grace factor from upto net t rs l :
  (0 < from)%Z -> (ms <= grace)%Z -> within from upto t -> lasting grace from upto net l ->
  NoDup (map kept_as (filter (gets_answer net) (sent grace factor net t 0 rs (Redis l)))).
Proof.
  intros F G W [N A].
  destruct (red_sent_once grace factor from upto F G net t W N rs 0 l []) as [D _]; auto.
  - intros k [].
  - clear -D. induction (filter _ _) as [|r rs' IH]; cbn [map] in *; [constructor|].
    inversion D as [|? ? H1 H2]; subst. constructor; auto. intros H. apply H1. apply in_map_iff in H.
    destruct H as (r' & E & H). apply in_map_iff. exists r'. split; auto. now apply key_kept_as.
Qed.

Theorem traffic_linear_redis U b grace factor from upto net t fuel w tas types start l :
  (0 < from)%Z -> (ms <= grace)%Z -> within from upto t -> lasting grace from upto net l ->
  federation_of U b w -> same_names w -> In start U ->
  List.length (filter (gets_answer net) (sent grace factor net t 0 (resolve_requests fuel w tas types start) (Redis l))) <= List.length U * (b + 1).
Proof.
  intros F G W L HU (name & hints & HS) IS.
  pose proof (answered_once_redis grace factor from upto net t (resolve_requests fuel w tas types start) l F G W L) as ND.
  rewrite <- (map_length kept_as).
  set (K := (map (fun a => (a, a)) U ++ flat_map (fun a => map (fun h => (name a, h)) (firstn b (hints a))) U)%list).
  assert (LK : List.length K <= List.length U * (b + 1)).
  { unfold K. rewrite app_length, map_length. clear. induction U as [|a U IH]; cbn [flat_map List.length]; [lia|].
    rewrite app_length, map_length. pose proof (firstn_le_length b (hints a)). lia. }
  etransitivity; [|exact LK]. apply NoDup_incl_length; auto.
  intros k H. apply in_map_iff in H. destruct H as (r & <- & H). apply filter_In in H. destruct H as [H _].
  apply sent_incl in H. apply requests_sound in H. unfold K. rewrite in_app_iff.
  assert (HH : forall p e below i a, reached w tas types start p e below -> to_ask tas e below i a ->
    In a U /\ exists q c, In c U /\ w_config w q c <> None /\ st_iss e = name c /\ In a (firstn b (hints c))).
  { intros p e below i a R (_ & E & _). apply reached_config in R. destruct R as (q & c & ec & C & EI & EH).
    destruct (HU q c ec C) as (IC & IH & IB). destruct (HS q c ec C) as (N & HI). rewrite EH in E.
    apply nth_error_In in E. split; [now apply IH|]. exists q, c. split; auto. split; [congruence|].
    split; [congruence|]. rewrite <- HI. rewrite firstn_all2; auto. }
  destruct H as [N|p e below i a R T|p e below i a ec R T UC]; cbn [kept_as].
  - left. apply in_map_iff. eauto.
  - left. apply in_map_iff. destruct (HH p e below i a R T) as [I _]. eauto.
  - right. destruct (HH p e below i a R T) as (_ & q & c & I & _ & -> & J). apply in_flat_map. exists c. split; auto.
    apply in_map_iff. eauto.
Qed.
