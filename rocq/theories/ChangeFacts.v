(** Proofs about federations that change while they are being resolved. *)
From Coq Require Import QArith Lia.
From Verif Require Import Base GoVal Policy Schema Metadata Chain Resolver SpecResolver ResolverFacts ResolverLaws SpecExact TypeFilterFacts TrustMark Refresher FloatTime Cache SpecCache CacheFacts SpecFresh FreshFacts PackFacts SpecChange.
Local Open Scope nat_scope.
Local Open Scope string_scope.

(** ** What the resolver sees is in circulation *)

Lemma gave_circulating net c0 lag h now sub iss s from upto : c0 = Memory [] \/ c0 = Redis [] -> (0 <= lag)%Z -> served_alive (served_until upto net) -> stored_alive lag h ->
  (from <= now)%Z -> gave (served_until upto net) c0 h now sub iss s ->
  exists s0, in_circulation net lag from upto sub iss s0 /\ (s = s0 \/ s = stmt_msgpack s0).
Proof.
  intros C0 L0 AL ((UR & TM) & SA) LF (P & TR & t1 & t2 & answer & b & A & G). apply get_statement_result in G. destruct b.
  - assert (X : exists h1 u h2 s0 a b, h = (h1 ++ u :: h2)%list /\ obtained u sub iss s0 a b /\ s = stmt_msgpack s0 /\ (now < st_exp s + (b - a) + 2 * ms)%Z).
    { destruct C0 as [-> | ->].
      - destruct (memory_served _ _ _ _ _ P UR (fun u sub iss s' a b I O => proj1 (TM u sub iss s' a b I O)) G) as (h1 & u & h2 & s0 & a & b & Eh & O & Es & _ & L).
        exists h1, u, h2, s0, a, b. repeat split; auto. unfold ms. lia.
      - destruct (redis_served _ _ _ _ _ P UR SA G) as (h1 & u & h2 & s0 & a & b & Eh & O & Es & _ & L).
        exists h1, u, h2, s0, a, b. auto. }
    destruct X as (h1 & u & h2 & s0 & a & b & Eh & O & Es & L). exists s0. split; [|now right].
    assert (I : In u h) by (rewrite Eh; apply in_or_app; right; now left).
    destruct (TR _ _ _ _ _ _ I O) as (_ & t & _ & U & N). destruct (TM _ _ _ _ _ _ I O) as [_ D].
    split; [exists t; auto|]. subst s. change (st_exp (stmt_msgpack s0)) with (st_exp s0) in L. lia.
  - destruct (A _ G) as (t & [T1 T2] & U & N). exists s. split; [|now left]. split; [exists t; auto|]. specialize (AL _ _ _ _ (conj U N)). unfold ms. lia.
Qed.

(** ** A path along the way *)

(** The resolver's copy of a document: at most its metadata is different, and it has no
    further entity types. *)
Definition like (s0 s : stmt) : Prop := (exists m, s = with_metadata s0 m) /\ incl (types_of s) (types_of s0).
Lemma like_packed s0 s : s = s0 \/ s = stmt_msgpack s0 -> like s0 s.
Proof.
  intros [-> | ->].
  - split; [exists (st_metadata s0); now destruct s0|apply incl_refl].
  - split; [eexists; reflexivity|rewrite types_pack; apply incl_refl].
Qed.
Lemma endpoint_packed s0 s : s = s0 \/ s = stmt_msgpack s0 -> fetch_endpoint s = fetch_endpoint s0.
Proof. intros [-> | ->]; [reflexivity|apply fetch_pack]. Qed.
Lemma constraints_like w c below below0 : Forall2 like below0 below -> constraints_met w c below0 -> constraints_met w c below.
Proof.
  intros F [P E N T].
  assert (B : forall e, In e below -> exists e0, In e0 below0 /\ like e0 e).
  { clear - F. induction F as [|e0 e b0 b L F IH]; intros x []; [subst; exists e0; split; [now left|auto]|].
    destruct (IH x H) as (y & I & L'). exists y. split; [now right|auto]. }
  constructor.
  - intros m M. specialize (P m M). assert (L : List.length below0 = List.length below) by (clear - F; induction F; cbn; congruence). lia.
  - intros n e x H I J. destruct (B e I) as (e0 & I0 & (m & ->) & _). cbn. now apply (E n e0 x).
  - intros n l e H PL I. destruct (B e I) as (e0 & I0 & (m & ->) & _). cbn. now apply (N n l e0).
  - intros l e t H I J. destruct (B e I) as (e0 & I0 & (m & ->) & S). apply (T l e0 t); auto.
Qed.

Section Way.
  Variables (w : world) (tas : list anchor) (from upto : Z) (C : string -> string -> stmt -> Prop) (route : list string).
  Hypothesis fit : fit_together w tas from upto C route.
  Hypothesis answering : all_answer w route.
  Hypothesis configs : forall p a s, w_config w p a = Some s -> exists s0, C a a s0 /\ (s = s0 \/ s = stmt_msgpack s0).
  Hypothesis fetched : forall p ep sub iss s, w_fetch w p ep sub iss = Some s -> exists s0, C sub iss s0 /\ (s = s0 \/ s = stmt_msgpack s0).
  Hypothesis clock : forall p b, (from <= w_now w p b <= upto)%Z.

  Lemma valid_like t s0 s : like s0 s -> valid_at t s0 -> valid_at t s.
  Proof. intros ((m & ->) & _) V. exact V. Qed.
  Lemma signed_like s0 s ks : like s0 s -> signed_by w s0 ks -> signed_by w s ks.
  Proof. intros ((m & ->) & _) V. exact V. Qed.

  Lemma way_up : forall rest done a e0 e below sub p,
    route = (rev done ++ a :: rest)%list ->
    C a a e0 -> like e0 e ->
    (exists below0, Forall2 (fun x b => C x x b) done below0 /\ Forall2 like below0 below) ->
    (done = [] /\ sub = None /\ rest <> [] \/ exists x done' s0 s, done = x :: done' /\ sub = Some s /\ C x a s0 /\ like s0 s) ->
    exists hs, path_up w tas p e below hs /\ signed_up w tas e sub hs /\ map (fun h => st_iss (h_ec h)) hs = rest /\
      (forall h, In h hs -> st_iss (h_sub h) = st_iss (h_ec h)) /\
      st_iss (top e hs) = last (a :: rest) "".
  Proof.
    destruct fit as [ONCE ANCHOR CONFIG STATEMENT HINT ENDPOINT KEYS KEYSB AKEYS CONSTR]. destruct answering as [AC AF].
    induction rest as [|b rest IH]; intros done a e0 e below sub p R CE LE (below0 & FB & LB) SUB.
    - destruct SUB as [(_ & _ & H)|(x & done' & s0 & s & -> & -> & CS & LS)]; [contradiction|].
      destruct (ANCHOR _ _ R) as [IA _]. assert (IR : In a route) by (rewrite R; apply in_app_iff; right; now left).
      destruct (CONFIG a e0 IR CE) as (E1 & E2 & _). pose proof LE as ((m & ->) & _).
      exists []. split; [constructor; cbn; now rewrite E1|]. cbn [rev] in R. rewrite <- app_assoc in R. cbn [app] in R.
      destruct (AKEYS _ _ _ _ _ R CE CS) as (ks & K1 & K2 & K3).
      split; [|cbn; repeat split; auto; intros h []]. eapply su_anchor; [exact K1|exact K2|exact (signed_like _ _ _ LS K3)].
    - assert (NX : next_on route a b) by (exists (rev done), rest; auto).
      assert (IR : In a route) by (rewrite R; apply in_app_iff; right; now left).
      assert (IB : In b route) by (rewrite R; apply in_app_iff; right; right; now left).
      destruct (CONFIG a e0 IR CE) as (E1 & E2 & _). pose proof LE as ((m & Em) & _).
      assert (HB : In b (st_hints e)) by (subst e; cbn; exact (HINT _ _ _ NX CE)).
      apply In_nth_error in HB. destruct HB as [i HB].
      destruct (w_config w (i :: p) b) as [ec|] eqn:WC; [|destruct (AC _ _ IB WC)].
      destruct (configs _ _ _ WC) as (ec0 & CEC & PEC). pose proof (like_packed _ _ PEC) as LEC.
      destruct (CONFIG b ec0 IB CEC) as (B1 & B2 & BV). pose proof LEC as ((mb & Eb) & _).
      destruct (w_fetch w (i :: p) (fetch_endpoint ec) a b) as [s|] eqn:WF; [|destruct (AF _ _ _ _ NX WF)].
      destruct (fetched _ _ _ _ _ WF) as (s0 & CS & PS). pose proof (like_packed _ _ PS) as LS. pose proof LS as ((ms' & Es) & _).
      destruct (STATEMENT _ _ _ NX CS) as (S1 & S2 & SV).
      assert (R' : route = (rev (a :: done) ++ b :: rest)%list) by (cbn [rev]; now rewrite <- app_assoc).
      destruct (IH (a :: done) b ec0 ec (e :: below) (Some s) (i :: p) R' CEC LEC) as (hs & PU & SU & HI & HS & TP).
      { exists (e0 :: below0). split; constructor; auto. }
      { right. exists a, done, s0, s. auto. }
      assert (ECI : st_iss ec = b) by (subst ec; exact B1). assert (EI : st_iss e = a) by (subst e; exact E1).
      assert (NEXT : next_on route a b) by exact NX.
      exists (Hop i ec s :: hs). split; [|split; [|split; [|split]]].
      + apply pu_hop.
        * rewrite EI. assert (SP : exists pre z, route = (pre ++ [z])%list /\ In a pre).
          { rewrite R. destruct (exists_last (l := b :: rest)) as (l' & z & EL); [discriminate|]. exists (rev done ++ a :: l')%list, z. rewrite EL. split; [now rewrite <- app_assoc|].
            apply in_app_iff. right. now left. }
          destruct SP as (pre & z & EP & IP). destruct (ANCHOR _ _ EP) as [_ H]. now apply H.
        * now rewrite ECI.
        * rewrite ECI. intros x [<- | IX].
          -- subst e. cbn. rewrite E2. intros ->. rewrite R in ONCE. apply NoDup_remove_2 in ONCE. apply ONCE. apply in_app_iff. right. now left.
          -- assert (Y : exists z, In z done /\ st_sub x = z).
             { clear - FB LB IX CONFIG R. assert (INC : forall z, In z done -> In z route) by (intros z I; rewrite R; apply in_app_iff; left; now apply in_rev in I).
               clear R. revert below LB IX. induction FB as [|z b0 d b0s CZ FB IH]; intros below LB IX; inversion LB; subst; [destruct IX|].
               destruct IX as [<- | IX].
               - exists z. split; [now left|]. match goal with L : like _ _ |- _ => destruct L as ((mm & ->) & _) end. cbn. apply (CONFIG z b0); auto. apply INC. now left.
               - destruct (IH (fun z I => INC z (or_intror I)) l' ) as (yy & I & E); auto. exists yy. split; [now right|auto]. }
             destruct Y as (z & IZ & ->). intros ->. rewrite R in ONCE. apply in_rev in IZ.
             assert (ND : NoDup ((rev done ++ [a]) ++ b :: rest)%list) by (rewrite <- app_assoc; exact ONCE).
             apply NoDup_remove_2 in ND. apply ND. apply in_app_iff. left. apply in_app_iff. now left.
        * now rewrite ECI.
        * subst ec. cbn. now rewrite B1, B2.
        * apply (valid_like _ ec0 ec LEC). apply BV, clock.
        * rewrite (endpoint_packed _ _ PEC). exact (ENDPOINT _ _ _ NX CEC).
        * rewrite ECI, EI. exact WF.
        * rewrite ECI. subst s. exact S1.
        * rewrite EI. subst s. exact S2.
        * apply (valid_like _ s0 s LS). apply SV, clock.
        * intros c Hc. apply (constraints_like w c (e :: below) (e0 :: below0)); [constructor; auto|].
          apply (CONSTR (rev done) a b rest s0 c (e0 :: below0)); auto; [subst s; exact Hc|]. rewrite rev_involutive. constructor; auto.
        * exact PU.
      + apply su_hop.
        * apply (signed_like _ _ _ LE). subst s. exact (KEYS _ _ _ _ NX CE CS).
        * intros s' ->. destruct SUB as [(_ & H & _)|(x & done' & s1 & s2 & -> & [= ->] & CS1 & LS1)]; [discriminate|].
          apply (signed_like _ _ _ LS1). subst s. apply (KEYSB x a b s1 s0); auto.
          exists (rev done'), (b :: rest). rewrite R. cbn [rev]. now rewrite <- app_assoc.
        * exact SU.
      + cbn [map h_ec]. now rewrite ECI, HI.
      + intros h [<- | Ih]; [cbn [h_sub h_ec]; rewrite ECI; subst s; exact S1|auto].
      + cbn [top h_ec]. rewrite TP. reflexivity.
  Qed.
End Way.

(** ** Resolution finds a chain along the way *)

Lemma issuers_along e hs : (forall h, In h hs -> st_iss (h_sub h) = st_iss (h_ec h)) ->
  map st_iss (chain_along e hs) = (st_iss e :: map (fun h => st_iss (h_ec h)) hs ++ [st_iss (top e hs)])%list.
Proof.
  intros H. unfold chain_along. cbn [map]. f_equal. rewrite map_app, map_map. cbn [map]. f_equal. apply map_ext_in. exact H.
Qed.

Section Found.
  Variables (net : answers) (c0 : cache cached) (lag from upto : Z) (w : world) (tas : list anchor) (types : list string) (start b : string) (rest : list string).
  Hypothesis empty : c0 = Memory [] \/ c0 = Redis [].
  Hypothesis lag0 : (0 <= lag)%Z.
  Hypothesis alive : served_alive (served_until upto net).
  Hypothesis sees0 : sees (served_until upto net) c0 (stored_alive lag) from w.
  Hypothesis ends : forall p k, (w_now w p k <= upto)%Z.
  Hypothesis named : start <> "".
  Hypothesis described : forall e, in_circulation net lag from upto start start e -> st_metadata e <> None.
  Hypothesis answering : all_answer w (start :: b :: rest).
  Hypothesis fit : fit_together w tas from upto (in_circulation net lag from upto) (start :: b :: rest).

  Lemma way_path : exists e hs, start_config w types start e /\ hs <> [] /\ path_up w tas [] e [] hs /\ signed_up w tas e None hs /\
    map st_iss (chain_along e hs) = (start :: b :: rest ++ [last (b :: rest) ""])%list.
  Proof.
    pose proof sees0 as (SC & SF & SN).
    assert (CC : forall p a s, w_config w p a = Some s -> exists s0, in_circulation net lag from upto a a s0 /\ (s = s0 \/ s = stmt_msgpack s0)).
    { intros p a s H. destruct (SC _ _ _ H) as (h & now & OK & L & G). eapply gave_circulating; eauto. }
    assert (CF : forall p ep sub iss s, w_fetch w p ep sub iss = Some s -> exists s0, in_circulation net lag from upto sub iss s0 /\ (s = s0 \/ s = stmt_msgpack s0)).
    { intros p ep sub iss s H. destruct (SF _ _ _ _ _ H) as (h & now & OK & L & G). eapply gave_circulating; eauto. }
    assert (CK : forall p k, (from <= w_now w p k <= upto)%Z) by (intros p k; split; auto).
    pose proof answering as [AC _].
    destruct (w_config w [] start) as [s|] eqn:WS; [|destruct (AC [] start (or_introl eq_refl) WS)].
    destruct (CC _ _ _ WS) as (s0 & C0 & PS).
    assert (M : exists m, st_metadata s = Some m).
    { pose proof (described s0 C0) as D. destruct PS as [-> | ->]; [|cbn]; destruct (st_metadata s0) as [m|]; cbn; eauto; contradiction. }
    destruct M as [m M].
    set (e := with_metadata s (Some (match types with [] => m | _ => nil_all_except m types end))).
    assert (LE : like s0 e).
    { pose proof (like_packed _ _ PS) as ((m0 & Es) & INC). split; [eexists; unfold e; rewrite Es; reflexivity|].
      intros t I. apply INC. unfold types_of in *. unfold e in I. cbn in I. rewrite M. destruct types; [exact I|now apply guess_keep in I]. }
    destruct (way_up w tas from upto (in_circulation net lag from upto) (start :: b :: rest) fit answering CC CF CK (b :: rest) [] start s0 e [] None [])
      as (hs & PU & SU & HI & HS & TP); auto.
    { exists []. split; constructor. }
    { left. repeat split; auto. discriminate. }
    exists e, hs. split; [split; [exact named|exists s, m; auto]|]. split; [intros ->; discriminate|]. split; [exact PU|]. split; [exact SU|].
    rewrite issuers_along by exact HS. rewrite HI, TP. destruct (ft_config _ _ _ _ _ _ fit start s0 (or_introl eq_refl) C0) as (E1 & _).
    assert (st_iss e = start) as -> by (destruct LE as ((mm & ->) & _); exact E1). reflexivity.
  Qed.
End Found.

Theorem way_found net c0 lag from upto w tas types start b rest fuel cs :
  c0 = Memory [] \/ c0 = Redis [] -> (0 <= lag)%Z -> served_alive (served_until upto net) ->
  sees (served_until upto net) c0 (stored_alive lag) from w -> (forall p k, (w_now w p k <= upto)%Z) ->
  start <> "" -> (forall e, in_circulation net lag from upto start start e -> st_metadata e <> None) ->
  all_answer w (start :: b :: rest) ->
  fit_together w tas from upto (in_circulation net lag from upto) (start :: b :: rest) ->
  resolve_chains fuel w tas types start = Done (Ok cs) ->
  exists c, In c cs /\ map st_iss c = (start :: b :: rest ++ [last (b :: rest) ""])%list.
Proof.
  intros H1 H2 H3 H4 H5 H6 H7 H8 H9 R.
  destruct (way_path net c0 lag from upto w tas types start b rest H1 H2 H3 H4 H5 H6 H7 H8 H9) as (e & hs & SC & N & PU & SU & I).
  exists (chain_along e hs). split; [|exact I]. eapply path_returned; eauto.
Qed.
Theorem way_found_valid net c0 lag from upto w tas types start b rest fuel cs :
  c0 = Memory [] \/ c0 = Redis [] -> (0 <= lag)%Z -> served_alive (served_until upto net) ->
  sees (served_until upto net) c0 (stored_alive lag) from w -> (forall p k, (w_now w p k <= upto)%Z) ->
  start <> "" -> (forall e, in_circulation net lag from upto start start e -> st_metadata e <> None) ->
  all_answer w (start :: b :: rest) ->
  fit_together w tas from upto (in_circulation net lag from upto) (start :: b :: rest) ->
  (forall c, trust_chain w tas types start c -> map st_iss c = (start :: b :: rest ++ [last (b :: rest) ""])%list -> exists m, chain_metadata c = Ok m) ->
  resolve_valid fuel w tas types start = Done (Ok cs) ->
  exists c, In c cs /\ map st_iss c = (start :: b :: rest ++ [last (b :: rest) ""])%list.
Proof.
  intros H1 H2 H3 H4 H5 H6 H7 H8 H9 HM R.
  destruct (way_path net c0 lag from upto w tas types start b rest H1 H2 H3 H4 H5 H6 H7 H8 H9) as (e & hs & SC & N & PU & SU & I).
  destruct (HM (chain_along e hs)) as [m M]; auto.
  { exists e. split; [exact SC|]. right. destruct hs as [|h hs]; [contradiction|]. exists h, hs. auto. }
  exists (chain_along e hs). split; [|exact I]. eapply path_returned_valid; eauto.
Qed.
