(** Proofs about the HTTP requests of a resolution. *)
From Coq Require Import QArith Lia.
From Verif Require Import Base BaseFacts GoVal Policy Schema Metadata Chain Resolver SpecResolver TrustMark Refresher FloatTime Cache CacheFacts
  Requests SpecRequests RequestFacts Traffic SpecTraffic.
Local Open Scope nat_scope.
Local Open Scope string_scope.

Section Window.
  Variables (grace : Z) (factor : Q) (from upto : time).
  Hypothesis HF : (0 < from)%Z.
  Hypothesis HG : (0 <= grace)%Z.

  Definition stays (e : entry cached) : Prop :=
    exists s, en_val e = CStmt s /\ forall now, (now <= upto)%Z -> expired now e = false.

  (** The entry for [k] stays and at most [n] entries are in front of it. *)
  Definition kept (n : nat) (k : string) (l : list (entry cached)) : Prop :=
    exists l1 e l2, l = (l1 ++ e :: l2)%list /\ List.length l1 <= n /\ ~ In k (map en_key l1) /\ en_key e = k /\ stays e.

  Lemma kept_find n k l : kept n k l -> exists e, find_entry k l = Some e /\ stays e.
  Proof.
    intros (l1 & e & l2 & -> & _ & NI & <- & S). exists e. split; auto.
    unfold find_entry. induction l1 as [|x l1 IH]; cbn [app find map In] in *.
    - now rewrite String.eqb_refl.
    - destruct (String.eqb_spec (en_key x) (en_key e)); [tauto|]. apply IH. tauto.
  Qed.

  Lemma kept_mono n n' k l : n <= n' -> kept n k l -> kept n' k l.
  Proof. intros L (l1 & e & l2 & E & L1 & R). exists l1, e, l2. split; auto. split; [lia|auto]. Qed.

  Lemma kept_drop n k k' l : k' <> k -> kept n k l -> kept n k (drop_entry k' l).
  Proof.
    intros NE (l1 & e & l2 & -> & L & NI & <- & S). exists (drop_entry k' l1), e, (drop_entry k' l2).
    unfold drop_entry. rewrite filter_app. cbn [filter].
    destruct (String.eqb_spec (en_key e) k'); [congruence|]. cbn [negb].
    split; auto. split; [|split; [|auto]].
    - rewrite <- L. clear. induction l1 as [|x l1 IH]; cbn [filter List.length]; auto. destruct (negb _); cbn [List.length]; lia.
    - intros H. apply NI. apply in_map_iff in H. destruct H as (x & E & H). apply filter_In in H.
      apply in_map_iff. exists x. tauto.
  Qed.

  Lemma removelast_app' {A} (l1 : list A) e l2 : l2 <> [] -> removelast (l1 ++ e :: l2) = (l1 ++ e :: removelast l2)%list.
  Proof. intros N. rewrite removelast_app by discriminate. f_equal. destruct l2; [congruence|reflexivity]. Qed.

  Lemma kept_set n k k' now v ttl l : k' <> k -> (N.of_nat (S (S n)) <= max_size)%N -> kept n k l ->
    kept (S n) k (mem_set now k' v ttl l).
  Proof.
    intros NE M K. apply (kept_drop n k k' l NE) in K. unfold mem_set.
    destruct (_ && _); [apply (kept_mono n); auto|].
    destruct K as (l1 & e & l2 & -> & L & NI & E & S).
    set (x := Entry k' v (mem_exp now ttl)).
    assert (K0 : forall l2', kept (Datatypes.S n) k ((x :: l1) ++ e :: l2')%list).
    { intros l2'. exists (x :: l1), e, l2'. split; auto. split; [cbn; lia|]. split; [|auto].
      cbn [map In en_key x]. intros [H|H]; [now apply NE|tauto]. }
    destruct (N.ltb_spec max_size (N.of_nat (List.length (x :: l1 ++ e :: l2)))) as [B|B]; [|apply (K0 l2)].
    change (x :: l1 ++ e :: l2)%list with ((x :: l1) ++ e :: l2)%list in *.
    destruct l2 as [|y l2].
    - exfalso. rewrite app_length in B. cbn [List.length] in B. lia.
    - rewrite removelast_app' by discriminate. apply K0.
  Qed.

  Lemma kept_new n k now s ttl l : (1 <= ttl)%Z -> (0 < now)%Z -> (now + ttl < 2 ^ 63)%Z -> (upto <= now + ttl)%Z ->
    kept n k (mem_set now k (CStmt s) ttl l).
  Proof.
    intros T1 N0 R U. unfold mem_set.
    destruct (Z.ltb_spec ttl 1); [lia|]. rewrite Bool.andb_false_r. cbn [List.length].
    set (x := Entry k (CStmt s) (mem_exp now ttl)).
    assert (K : forall l', kept n k (x :: l')).
    { intros l'. exists [], x, l'. split; auto. split; [cbn; lia|]. split; [auto|]. split; auto.
      exists s. split; auto. intros now' L. unfold expired, x, mem_exp. cbn [en_exp].
      destruct (Z.eqb_spec ttl (-1)); [lia|]. unfold Refresher.wrap64. rewrite Z.mod_small by lia.
      destruct (Z.ltb_spec 0 (now + ttl + 2 ^ 63 - 2 ^ 63)); [|auto]. apply Z.ltb_ge. lia. }
    destruct (N.ltb _ _) eqn:B; [|apply K].
    destruct (drop_entry k l) as [|y l']; [cbn in B; discriminate B|]. cbn [removelast]. apply K.
  Qed.

  Definition all_last (l : list (entry cached)) : Prop :=
    forall e s, In e l -> en_val e = CStmt s -> lasts grace from upto s.

  Lemma in_removelast {A} (x : A) l : In x (removelast l) -> In x l.
  Proof.
    induction l as [|y l IH]; cbn [removelast]; auto. destruct l as [|z l]; [intros []|].
    intros [->|H]; [now left|right; auto].
  Qed.

  Lemma all_last_set now k s ttl l : lasts grace from upto s -> all_last l -> all_last (mem_set now k (CStmt s) ttl l).
  Proof.
    intros S A. unfold mem_set.
    assert (D : all_last (drop_entry k l)) by (intros e s' H; apply A; unfold drop_entry in H; apply filter_In in H; tauto).
    destruct (_ && _); auto.
    assert (C : all_last (Entry k (CStmt s) (mem_exp now ttl) :: drop_entry k l)).
    { intros e s' [<-|H] E; [injection E as <-; auto|exact (D e s' H E)]. }
    cbn zeta. destruct (N.ltb _ _); auto. intros e s' H. apply C. now apply in_removelast.
  Qed.

  Lemma find_entry_in k (l : list (entry cached)) e : find_entry k l = Some e -> In e l /\ en_key e = k.
  Proof. intros H. unfold find_entry in H. apply List.find_some in H. destruct H as [I E]. apply String.eqb_eq in E. auto. Qed.

  Lemma not_due now s : (from <= now)%Z -> (now <= upto)%Z -> lasts grace from upto s -> refresh_due grace factor now (stmt_msgpack s) = false.
  Proof.
    intros F U [L R]. unfold refresh_due. replace (st_exp (stmt_msgpack s)) with (st_exp s) by reflexivity.
    destruct (Z.leb_spec (until (st_exp s) now) grace) as [B|]; auto.
    unfold until, sat in B. assert (st_exp s - now < 2 ^ 63)%Z by lia. lia.
  Qed.

  Variables (net : request -> option stmt) (t : nat -> time * time * time).
  Hypothesis HW : within from upto t.
  Hypothesis HN : forall r s, net r = Some s -> lasts grace from upto s.

  Definition key (r : request) : string := stmt_key (fst (kept_as r)) (snd (kept_as r)).

  Lemma key_kept_as r r' : key r = key r' <-> kept_as r = kept_as r'.
  Proof.
    unfold key. split; [|now intros ->]. intros H. apply stmt_keys_injective in H.
    destruct (kept_as r), (kept_as r'). cbn in H. now destruct H as [-> ->].
  Qed.

  Lemma sent_once : forall rs i l (done : list string) n,
    (forall k, In k done -> kept n k l) -> all_last l -> (N.of_nat (n + List.length rs + 1) <= max_size)%N ->
    NoDup (map key (filter (gets_answer net) (sent grace factor net t i rs (Memory l)))) /\
    forall r, In r (filter (gets_answer net) (sent grace factor net t i rs (Memory l))) -> ~ In (key r) done.
  Proof.
    induction rs as [|r rs IH]; intros i l done n HK HA HM; cbn [sent].
    { cbn. split; [constructor|intros r []]. }
    destruct (t i) as [[now t1] t2] eqn:ET. destruct (HW i now t1 t2 ET) as (WN & W1 & W12 & W2).
    unfold get_statement, stmt_cache_get, cache_get. fold (key r).
    cbn [List.length] in HM.
    assert (KEEP : forall l', (forall k, In k done -> kept (S n) k l') -> all_last l' ->
      NoDup (map key (filter (gets_answer net) (sent grace factor net t (S i) rs (Memory l')))) /\
      forall r0, In r0 (filter (gets_answer net) (sent grace factor net t (S i) rs (Memory l'))) -> ~ In (key r0) done).
    { intros l' K A. apply (IH (S i) l' done (S n)); auto. lia. }
    assert (MISS : forall l', ~ In (key r) done -> (forall k, In k done -> kept n k l') -> all_last l' ->
      let out := ([r] ++ sent grace factor net t (S i) rs (obtain t1 t2 (fst (kept_as r)) (snd (kept_as r)) (net r) (Memory l')))%list in
      NoDup (map key (filter (gets_answer net) out)) /\ forall r0, In r0 (filter (gets_answer net) out) -> ~ In (key r0) done).
    { intros l' ND K A. cbn zeta. cbn [app filter]. unfold obtain. destruct (net r) as [s|] eqn:EN.
      - assert (GA : gets_answer net r = true) by (unfold gets_answer; now rewrite EN). rewrite GA.
        unfold stmt_cache_set, cache_set. fold (key r). pose proof (HN r s EN) as LS. destruct LS as [LS1 LS2].
        assert (EU : until (st_exp s) t1 = (st_exp s - t1)%Z) by (unfold until, sat; lia).
        rewrite EU.
        destruct (IH (S i) (mem_set t2 (key r) (CStmt s) (st_exp s - t1) l') (key r :: done) (S n)) as [N D].
        + intros k [<-|H]; [apply kept_new; lia|]. apply kept_set; auto; [|lia]. intros E. apply ND. now rewrite E.
        + apply all_last_set; auto. now apply (HN r).
        + lia.
        + split.
          * cbn [map]. constructor; auto. intros H. apply in_map_iff in H. destruct H as (r0 & E & H).
            apply (D r0 H). left. auto.
          * intros r0 [<-|H]; auto. intros I. apply (D r0 H). now right.
      - assert (GA : gets_answer net r = false) by (unfold gets_answer; now rewrite EN). rewrite GA.
        apply KEEP; auto. intros k H. apply (kept_mono n); auto. }
    assert (GOT : match option_map (fun s : stmt => (s, false)) (net r) with
                  | Some (s, true) => if refresh_due grace factor now s then [r] else []
                  | _ => [r] end = [r]) by (destruct (net r); reflexivity).
    unfold mem_get. destruct (find_entry (key r) l) as [e|] eqn:EF.
    - destruct (find_entry_in _ _ _ EF) as [IE KE]. destruct (expired now e) eqn:EX.
      + cbv beta iota; rewrite GOT; apply MISS.
        * intros H. apply HK in H. apply kept_find in H. destruct H as (e' & EF' & s & _ & NX).
          rewrite EF in EF'. injection EF' as <-. rewrite NX in EX; [discriminate|lia].
        * intros k H. apply kept_drop; auto. intros <-. apply HK in H. apply kept_find in H.
          destruct H as (e' & EF' & s & _ & NX). rewrite EF in EF'. injection EF' as <-. rewrite NX in EX; [discriminate|lia].
        * intros e' s H. apply HA. unfold drop_entry in H. apply filter_In in H. tauto.
      + destruct (en_val e) as [s|t0|cs|d] eqn:EV.
        * rewrite not_due; [|lia|lia|exact (HA e s IE EV)]. cbn [app]. apply KEEP; auto. intros k H. apply (kept_mono n); auto.
        * cbv beta iota; rewrite GOT; apply MISS; auto. intros H. apply HK in H. apply kept_find in H. destruct H as (e' & EF' & s & V & _). congruence.
        * cbv beta iota; rewrite GOT; apply MISS; auto. intros H. apply HK in H. apply kept_find in H. destruct H as (e' & EF' & s & V & _). congruence.
        * cbv beta iota; rewrite GOT; apply MISS; auto. intros H. apply HK in H. apply kept_find in H. destruct H as (e' & EF' & s & V & _). congruence.
    - cbv beta iota; rewrite GOT; apply MISS; auto. intros H. apply HK in H. apply kept_find in H. destruct H as (e' & EF' & _). congruence.
  Qed.
End Window.

Theorem answered_once grace factor from upto net t rs l :
  (0 < from)%Z -> (0 <= grace)%Z -> within from upto t -> lasting grace from upto net l ->
  (N.of_nat (List.length rs) < max_size)%N ->
  NoDup (map kept_as (filter (gets_answer net) (sent grace factor net t 0 rs (Memory l)))).
Proof.
  intros F G W [N A] M.
  destruct (sent_once grace factor from upto F G net t W N rs 0 l [] 0) as [D _]; auto.
  - intros k [].
  - cbn [Nat.add]. lia.
  - clear -D. induction (filter _ _) as [|r rs' IH]; cbn [map] in *; [constructor|].
    inversion D as [|? ? H1 H2]; subst. constructor; auto. intros H. apply H1. apply in_map_iff in H.
    destruct H as (r' & E & H). apply in_map_iff. exists r'. split; auto. now apply key_kept_as.
Qed.

(** ** How many there are *)

Lemma sent_incl grace factor net t : forall rs i c r, In r (sent grace factor net t i rs c) -> In r rs.
Proof.
  induction rs as [|r0 rs IH]; intros i c r; cbn [sent]; auto.
  destruct (t i) as [[now t1] t2]. destruct (get_statement _ _ _ _ _ _ _) as [got c'].
  rewrite in_app_iff. intros [H|H]; [left|right; eauto].
  destruct got as [[s [|]]|]; [destruct (refresh_due _ _ _ _); [|destruct H]| |]; destruct H as [H|[]]; auto.
Qed.

Lemma reached_config w tas types start p e below : reached w tas types start p e below ->
  exists q a ec, w_config w q a = Some ec /\ st_iss e = st_iss ec /\ st_hints e = st_hints ec.
Proof.
  intros H. destruct H as [e S|p e below i a ec s R T (C & _) US].
  - destruct S as (_ & s & m & C & _ & ->). exists [], start, s. auto.
  - exists (i :: p), a, ec. auto.
Qed.

Theorem traffic_linear U b grace factor from upto net t fuel w tas types start l :
  (0 < from)%Z -> (0 <= grace)%Z -> within from upto t -> lasting grace from upto net l ->
  federation_of U b w -> same_names w -> In start U ->
  let rs := resolve_requests fuel w tas types start in
  (N.of_nat (List.length rs) < max_size)%N ->
  List.length (filter (gets_answer net) (sent grace factor net t 0 rs (Memory l))) <= List.length U * (b + 1).
Proof.
  intros F G W L HU (name & hints & HS) IS rs M.
  pose proof (answered_once grace factor from upto net t rs l F G W L M) as ND.
  rewrite <- (map_length kept_as).
  set (K := (map (fun a => (a, a)) U ++ flat_map (fun a => map (fun h => (name a, h)) (firstn b (hints a))) U)%list).
  assert (LK : List.length K <= List.length U * (b + 1)).
  { unfold K. rewrite app_length, map_length. clear. induction U as [|a U IH]; cbn [flat_map List.length]; [lia|].
    rewrite app_length, map_length. pose proof (firstn_le_length b (hints a)). lia. }
  etransitivity; [|exact LK]. apply NoDup_incl_length; auto.
  intros k H. apply in_map_iff in H. destruct H as (r & <- & H). apply filter_In in H. destruct H as [H _].
  apply sent_incl in H. unfold rs in H. apply requests_sound in H. unfold K. rewrite in_app_iff.
  assert (HH : forall p e below i a, reached w tas types start p e below -> to_ask tas e below i a ->
    In a U /\ exists q c, In c U /\ w_config w q c <> None /\ st_iss e = name c /\ In a (firstn b (hints c))).
  { intros p e below i a R (_ & E & _). apply reached_config in R. destruct R as (q & c & ec & C & EI & EH).
    destruct (HU q c ec C) as (IC & IH & IB). destruct (HS q c ec C) as (N & HI). rewrite EH in E.
    apply nth_error_In in E. split; [now apply IH|]. exists q, c. split; auto. split; [congruence|].
    split; [congruence|]. rewrite <- HI. rewrite firstn_all2; auto. }
  destruct H as [N|p e below i a R T|p e below i a ec R T UC]; cbn [kept_as].
  - left. apply in_map_iff. eauto.
  - left. apply in_map_iff. destruct (HH p e below i a R T) as [I _]. eauto.
  - right. destruct (HH p e below i a R T) as (_ & q & c & I & _ & -> & J). apply in_flat_map. exists c. split; auto.
    apply in_map_iff. eauto.
Qed.

(** ** Requests that are not answered *)

Definition lacks (k : string) (c : cache cached) : Prop :=
  match c with Memory l => ~ In k (map en_key l) | Redis _ => False end.

Lemma lacks_find k l : ~ In k (map en_key l) -> @find_entry cached k l = None.
Proof.
  intros H. unfold find_entry. induction l as [|e l IH]; cbn [find map In] in *; auto.
  destruct (String.eqb_spec (en_key e) k); [tauto|auto].
Qed.

Lemma in_drop k k' l : In k (map en_key (@drop_entry cached k' l)) -> In k (map en_key l).
Proof.
  intros H. apply in_map_iff in H. destruct H as (e & E & H). unfold drop_entry in H. apply filter_In in H.
  apply in_map_iff. exists e. tauto.
Qed.

Lemma lacks_step k now t1 t2 r answer c : lacks k c -> key r <> k ->
  lacks k (snd (get_statement now t1 t2 (fst (kept_as r)) (snd (kept_as r)) answer c)).
Proof.
  destruct c as [l|]; [|intros []]. intros L NE. unfold get_statement, stmt_cache_get, cache_get, mem_get. fold (key r).
  assert (O : forall l', lacks k (Memory l') -> lacks k (obtain t1 t2 (fst (kept_as r)) (snd (kept_as r)) answer (Memory l'))).
  { intros l' L'. unfold obtain. destruct answer as [s|]; auto. unfold stmt_cache_set, cache_set. fold (key r).
    cbn [lacks]. unfold mem_set. destruct (_ && _); [intros H; apply in_drop in H; auto|]. cbn zeta.
    assert (C : ~ In k (map en_key (Entry (key r) (CStmt s) (mem_exp t2 (until (st_exp s) t1)) :: drop_entry (key r) l'))).
    { cbn [map In en_key]. intros [H|H]; [auto|apply in_drop in H; auto]. }
    destruct (N.ltb _ _); auto. intros H. apply C. apply in_map_iff in H. destruct H as (e & E & H).
    apply in_map_iff. exists e. split; auto. now apply in_removelast. }
  destruct (find_entry (key r) l) as [e|]; [|cbn [snd]; now apply O].
  destruct (expired now e).
  - cbn [snd]. apply O. cbn [lacks]. intros H. apply in_drop in H. auto.
  - destruct (en_val e); cbn [snd]; auto.
Qed.

Lemma unanswered_sent grace factor net t v : forall rs i c,
  lacks (stmt_key v v) c -> (forall r, In r rs -> kept_as r = (v, v) -> net r = None) ->
  filter (for_config_of v) (sent grace factor net t i rs c) = filter (for_config_of v) rs.
Proof.
  induction rs as [|r rs IH]; intros i c L N; cbn [sent]; auto.
  destruct (t i) as [[now t1] t2].
  assert (D : key r = stmt_key v v \/ key r <> stmt_key v v).
  { destruct (String.eqb_spec (key r) (stmt_key v v)); auto. }
  destruct D as [D|D].
  - assert (KA : kept_as r = (v, v)).
    { apply stmt_keys_injective in D. destruct (kept_as r). cbn in D. now destruct D as [-> ->]. }
    rewrite KA, (N r (or_introl eq_refl) KA). cbn [fst snd].
    destruct c as [l|]; [|destruct L]. unfold get_statement, stmt_cache_get, cache_get, mem_get.
    rewrite (lacks_find _ _ L). cbn [option_map obtain app filter].
    rewrite (IH (S i) (Memory l) L (fun r0 H => N r0 (or_intror H))). reflexivity.
  - pose proof (lacks_step _ now t1 t2 r (net r) c L D) as L'.
    destruct (get_statement _ _ _ _ _ _ _) as [got c'] eqn:EG. cbn [snd] in L'.
    rewrite filter_app, (IH (S i) c' L' (fun r0 H => N r0 (or_intror H))). cbn [filter].
    assert (FC : for_config_of v r = false).
    { destruct r as [p a|]; auto. cbn. apply String.eqb_neq. intros ->. now apply D. }
    rewrite FC. destruct got as [[s [|]]|]; [destruct (refresh_due _ _ _ _)| |]; cbn [filter app]; rewrite ?FC; reflexivity.
Qed.

(** ** A network that always answers the same is seen as it is *)

Definition tells (f : string * string -> option stmt) (c : cache cached) : Prop :=
  match c with
  | Memory l => forall e, In e l -> exists k s, en_key e = stmt_key (fst k) (snd k) /\ en_val e = CStmt s /\ f k = Some s
  | Redis _ => False
  end.

Lemma steady_seen f net w t : (forall k s, f k = Some s -> stmt_msgpack s = s) ->
  forall rs i c, tells f c -> (forall r, In r rs -> net r = f (kept_as r) /\ answer_in w r = f (kept_as r)) ->
  seen_through net t w i rs c.
Proof.
  intros ST. induction rs as [|r rs IH]; intros i c T N; cbn [seen_through]; auto.
  destruct (t i) as [[now t1] t2]. destruct (N r (or_introl eq_refl)) as [N1 N2].
  destruct c as [l|]; [|destruct T]. unfold get_statement, stmt_cache_get, cache_get, mem_get. fold (key r).
  assert (O : forall l', tells f (Memory l') -> tells f (obtain t1 t2 (fst (kept_as r)) (snd (kept_as r)) (net r) (Memory l'))).
  { intros l' T'. unfold obtain. destruct (net r) as [s|] eqn:EN; auto. unfold stmt_cache_set, cache_set.
    cbn [tells]. unfold mem_set.
    assert (DR : tells f (Memory (drop_entry (stmt_key (fst (kept_as r)) (snd (kept_as r))) l'))).
    { intros e H. apply T'. unfold drop_entry in H. apply filter_In in H. tauto. }
    destruct (_ && _); [exact DR|]. cbn zeta. 
    assert (C : tells f (Memory (Entry (stmt_key (fst (kept_as r)) (snd (kept_as r))) (CStmt s) (mem_exp t2 (until (st_exp s) t1))
                 :: drop_entry (stmt_key (fst (kept_as r)) (snd (kept_as r))) l'))).
    { intros e [<-|H]; [|now apply DR]. exists (kept_as r), s. auto. }
    destruct (N.ltb _ _); [|exact C]. intros e H. apply C. now apply in_removelast. }
  assert (MISS : forall l', tells f (Memory l') ->
    answer_in w r = option_map fst (option_map (fun s : stmt => (s, false)) (net r)) /\
    seen_through net t w (S i) rs (obtain t1 t2 (fst (kept_as r)) (snd (kept_as r)) (net r) (Memory l'))).
  { intros l' T'. split; [rewrite N1, N2; destruct (f (kept_as r)); reflexivity|].
    apply IH; auto. intros r0 H. apply N. now right. }
  destruct (find_entry (key r) l) as [e|] eqn:EF; [|now apply MISS].
  apply find_entry_in in EF. destruct EF as [IE KE].
  destruct (expired now e).
  { apply MISS. intros e' H. apply T. unfold drop_entry in H. apply filter_In in H. tauto. }
  destruct (T e IE) as (k & s & K & V & FK). rewrite V. cbn [option_map fst].
  assert (KK : k = kept_as r).
  { rewrite KE in K. unfold key in K. apply stmt_keys_injective in K. destruct k, (kept_as r). cbn in K. now destruct K as [-> ->]. }
  split.
  - rewrite (ST k s FK), N2, <- KK, FK. reflexivity.
  - apply IH; auto. intros r0 H. apply N. now right.
Qed.
