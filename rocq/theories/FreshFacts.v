(** Proofs about resolutions over time. *)
From Coq Require Import QArith.
From Verif Require Import Base GoVal Policy Schema Metadata Chain Resolver SpecResolver SpecChain ResolverFacts ResolverLaws TrustMark Refresher FloatTime Cache SpecCache CacheFacts CacheLaws SpecFresh.
Local Open Scope nat_scope.
Local Open Scope string_scope.

(** The request a statement of a chain answered. *)
Definition source (w : world) (s : stmt) : Prop :=
  exists p b, valid_at (w_now w p b) s /\
    ((st_sub s = st_iss s /\ w_config w p (st_iss s) = Some s) \/ exists ep, w_fetch w p ep (st_sub s) (st_iss s) = Some s).

Lemma path_sources w tas p e below hs :
  path_up w tas p e below hs -> (hs = [] -> source w e) ->
  forall s, In s (map h_sub hs ++ [top e hs])%list -> source w s.
Proof.
  induction 1 as [p e below A|p e below i ec s hs A N L C S V F Fe I Su V' Co P IH]; intros E s' Hs; cbn [map app top h_sub h_ec In] in Hs.
  - destruct Hs as [<-|[]]. auto.
  - destruct Hs as [<-|Hs].
    + exists (i :: p), true. split; [exact V'|]. right. exists (fetch_endpoint ec). now rewrite I, Su.
    + apply IH; [|exact Hs]. intros _. exists (i :: p), false. split; [exact V|]. left. auto.
Qed.

Lemma chain_sources w tas types start s r :
  returned w tas types start (s :: r) -> forall x, In x r -> source w x.
Proof.
  intros H x Hx. apply returned_root in H. destruct H as (e & _ & [[E _]|(h & hs & P & _ & E)]).
  - injection E as <- ->. destruct Hx.
  - unfold chain_along in E. injection E as <- ->. eapply path_sources; eauto. discriminate.
Qed.

(** What a call gives was offered by the network. *)
Lemma gave_offered net c0 h now sub iss s :
  entries c0 = [] -> gave net c0 h now sub iss s ->
  exists t s0, net t sub iss s0 /\ (s = s0 \/ s = stmt_msgpack s0).
Proof.
  intros E (P & T & t1 & t2 & answer & b & A & G). apply get_statement_result in G. destruct b.
  - destruct (served_own _ _ _ _ _ _ E P G) as (u & s0 & t1' & t2' & I & O & ->).
    destruct (T _ _ _ _ _ _ I O) as (_ & t & _ & N). exists t, s0. auto.
  - destruct (A _ G) as (t & _ & N). exists t, s. auto.
Qed.

Theorem chain_offered net c0 ok from w tas types start s r :
  entries c0 = [] -> sees net c0 ok from w -> returned w tas types start (s :: r) ->
  forall x, In x r -> exists t s0, net t (st_sub x) (st_iss x) s0 /\ (x = s0 \/ x = stmt_msgpack s0) /\
    (st_exp s0 = zero_time \/ (from <= st_exp s0)%Z).
Proof.
  intros E (SC & SF & SN) R x I. destruct (chain_sources _ _ _ _ _ _ R x I) as (p & b & (_ & V) & C).
  assert (G : exists h now, gave net c0 h now (st_sub x) (st_iss x) x).
  { destruct C as [(S & C)|(ep & C)].
    - destruct (SC _ _ _ C) as (h & now & _ & _ & G). exists h, now. now rewrite S.
    - destruct (SF _ _ _ _ _ C) as (h & now & _ & _ & G). exists h, now. exact G. }
  destruct G as (h & now & G). destruct (gave_offered _ _ _ _ _ _ _ E G) as (t & s0 & N & O).
  exists t, s0. split; [exact N|]. split; [exact O|].
  assert (X : st_exp x = st_exp s0) by (destruct O as [-> | ->]; reflexivity). rewrite <- X.
  destruct V as [V|V]; [now left|right]. specialize (SN p b). lia.
Qed.

Theorem chain_changed net c0 ok from w tas types start s r T sub iss New :
  entries c0 = [] -> sees net c0 ok from w -> returned w tas types start (s :: r) ->
  changed net T from sub iss New -> expiring net T sub iss ->
  forall x, In x r -> st_sub x = sub -> st_iss x = iss -> exists s0, New s0 /\ (x = s0 \/ x = stmt_msgpack s0).
Proof.
  intros E S R (CN & CO) X x I <- <-. destruct (chain_offered _ _ _ _ _ _ _ _ _ _ E S R x I) as (t & s0 & N & O & V).
  exists s0. split; [|exact O]. destruct (Z_lt_le_dec t T) as [L|L]; [|eapply CN; eauto].
  pose proof (CO _ _ L N) as Lt. destruct V as [V|V]; [now elim (X _ _ L N)|lia].
Qed.

(** *** The cache in memory *)

Lemma gave_changed net lag h now sub iss s T from New :
  timely lag h -> gave net (Memory []) h now sub iss s -> (T <= now)%Z -> (from <= now)%Z ->
  changed net T (from - lag)%Z sub iss New -> exists s0, New s0 /\ (s = s0 \/ s = stmt_msgpack s0).
Proof.
  intros (UR & TM) (P & TR & t1 & t2 & answer & b & A & G) LT LF (CN & CO). apply get_statement_result in G. destruct b.
  - destruct (memory_served _ _ _ _ _ P UR (fun u sub iss s' a b I O => proj1 (TM u sub iss s' a b I O)) G) as (h1 & u & h2 & s0 & a & b & Eh & O & Es & _ & L).
    exists s0. split; [|now right].
    assert (I : In u h) by (rewrite Eh; apply in_or_app; right; now left).
    destruct (TR _ _ _ _ _ _ I O) as (_ & t & _ & N). destruct (TM _ _ _ _ _ _ I O) as [_ D].
    destruct (Z_lt_le_dec t T) as [Lt|Lt]; [|eapply CN; eauto].
    pose proof (CO _ _ Lt N) as X. rewrite Es in L. change (st_exp (stmt_msgpack s0)) with (st_exp s0) in L. lia.
  - destruct (A _ G) as (t & B & N). exists s. split; [|now left]. apply (CN t); [lia|exact N].
Qed.

Theorem memory_changed net lag from w tas types start s r T sub iss New :
  sees net (Memory []) (timely lag) from w -> returned w tas types start (s :: r) ->
  (T <= from)%Z -> changed net T (from - lag)%Z sub iss New ->
  forall x, In x r -> st_sub x = sub -> st_iss x = iss -> exists s0, New s0 /\ (x = s0 \/ x = stmt_msgpack s0).
Proof.
  intros (SC & SF & SN) R LT C x I <- <-. destruct (chain_sources _ _ _ _ _ _ R x I) as (p & b & _ & [(S & Y)|(ep & Y)]).
  - destruct (SC _ _ _ Y) as (h & now & TM & F & G). rewrite S in C. exact (gave_changed _ _ _ _ _ _ _ _ _ _ TM G (Z.le_trans _ _ _ LT F) F C).
  - destruct (SF _ _ _ _ _ Y) as (h & now & TM & F & G). exact (gave_changed _ _ _ _ _ _ _ _ _ _ TM G (Z.le_trans _ _ _ LT F) F C).
Qed.

Theorem memory_revoked net lag from w tas types start s r T sub iss :
  sees net (Memory []) (timely lag) from w -> returned w tas types start (s :: r) ->
  (T <= from)%Z -> changed net T (from - lag)%Z sub iss (fun _ => False) ->
  forall x, In x r -> ~ (st_sub x = sub /\ st_iss x = iss).
Proof.
  intros S R LT C x I [A B]. now destruct (memory_changed _ _ _ _ _ _ _ _ _ _ _ _ _ S R LT C x I A B) as (_ & [] & _).
Qed.

(** The starting configuration: its expiration is not checked by the resolver, but the
    cache in memory does not give it after that. *)
Theorem memory_start net lag from w tas types start s r T New :
  sees net (Memory []) (timely lag) from w -> returned w tas types start (s :: r) ->
  (T <= from)%Z -> changed net T (from - lag)%Z start start New ->
  exists s0, New s0 /\ st_jwt s = st_jwt s0.
Proof.
  intros (SC & _ & _) R LT C. apply returned_root in R.
  assert (X : exists sc, w_config w [] start = Some sc /\ st_jwt s = st_jwt sc).
  { destruct R as (e & (_ & sc & m & Y & _ & ->) & [[E _]|(h & hs & _ & _ & E)]); unfold chain_along in E; injection E as -> _; exists sc; auto. }
  destruct X as (sc & Y & J). destruct (SC _ _ _ Y) as (h & now & TM & F & G).
  assert (LN : (T <= now)%Z) by lia. destruct (gave_changed _ _ _ _ _ _ _ _ _ _ TM G LN F C) as (s0 & N & O).
  exists s0. split; [exact N|]. rewrite J. destruct O as [-> | ->]; reflexivity.
Qed.

(** No chain at all for an entity that has stopped answering. *)
Theorem memory_gone net lag from w tas types start c T :
  sees net (Memory []) (timely lag) from w -> (T <= from)%Z ->
  changed net T (from - lag)%Z start start (fun _ => False) -> ~ returned w tas types start c.
Proof.
  intros S LT C R. destruct c as [|s r].
  - destruct (returned_one _ _ _ _ _ R) as [L|L]; cbn in L; lia.
  - now destruct (memory_start _ _ _ _ _ _ _ _ _ _ _ S R LT C) as (_ & [] & _).
Qed.
