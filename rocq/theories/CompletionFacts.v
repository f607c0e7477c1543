(** Proofs: every execution can be continued until the collection returns; entities with two
    superiors are looked at twice under every schedule. *)
From Coq Require Import Lia.
From Verif Require Import Base BaseFacts GoVal Policy Schema Metadata Chain Resolver FloatTime Json TrustMark Discovery SpecDiscovery DiscoveryFacts EvalFacts DiscoveryLaws
  SpecAsked AskedFacts SpecTree TreeFacts DiamondFacts.
Local Open Scope nat_scope.
Local Open Scope string_scope.
Local Open Scope list_scope.

Lemma exec_then w cs cs' : forall s s1, exec w cs s = Some s1 -> exec w (cs ++ cs') s = exec w cs' s1.
Proof.
  induction cs as [|c cs IH]; intros s s1 H; cbn [exec app] in *; [now injection H as -> |].
  destruct (step w c (fst s) (snd s)) as [s0|]; [now apply IH|discriminate].
Qed.
Lemma asked_then w cs cs' : forall s s1, exec w cs s = Some s1 -> asked_for_lists w (cs ++ cs') s = asked_for_lists w cs s ++ asked_for_lists w cs' s1.
Proof.
  induction cs as [|c cs IH]; intros s s1 H; cbn [exec asked_for_lists app] in *; [now injection H as -> |].
  destruct (step w c (fst s) (snd s)) as [s0|]; [|discriminate]. rewrite (IH s0 s1 H). now rewrite app_assoc.
Qed.

Lemma completes w ta : names_entities w -> finite_world w -> forall cs s, exec w cs (start ta) = Some s ->
  exists cs' s', exec w (cs ++ cs') (start ta) = Some s' /\ finished (snd s') = true.
Proof.
  intros N F. destruct (collection_terminates w ta N F) as [bound B].
  assert (H : forall k cs s, bound - List.length cs <= k -> exec w cs (start ta) = Some s ->
    exists cs' s', exec w (cs ++ cs') (start ta) = Some s' /\ finished (snd s') = true).
  { induction k as [|k IH]; intros cs s K X; destruct (B cs s X) as [L [D|(c & s1 & S1)]];
      try (exists [], s; rewrite app_nil_r; split; [exact X|exact D]).
    - assert (X1 : exec w (cs ++ [c]) (start ta) = Some s1) by (rewrite (exec_then w cs [c] _ s X); cbn [exec]; now rewrite S1).
      destruct (B _ _ X1) as [L1 _]. rewrite app_length in L1. cbn in L1. lia.
    - assert (X1 : exec w (cs ++ [c]) (start ta) = Some s1) by (rewrite (exec_then w cs [c] _ s X); cbn [exec]; now rewrite S1).
      destruct (B _ _ X1) as [L1 _]. rewrite app_length in L1. cbn in L1.
      destruct (IH (cs ++ [c]) s1) as (cs' & s' & X' & D); [rewrite app_length; cbn; lia|exact X1|].
      exists (c :: cs'), s'. rewrite <- app_assoc in X'. auto. }
  intros cs s. apply (H (bound - List.length cs)). lia.
Qed.

Lemma diamond_returns w ta b1 b2 c l l1 l2 i j k1 k2 : names_entities w -> finite_world w ->
  dw_listing w [] ta = Some l -> List.length l < max_workers -> i <> j ->
  nth_error l i = Some b1 -> nth_error l j = Some b2 ->
  snd (dw_entity w [S i] b1) = true -> snd (dw_entity w [S j] b2) = true ->
  dw_listing w [0; S i] b1 = Some l1 -> List.length l1 < max_workers -> nth_error l1 k1 = Some c -> snd (dw_entity w [S k1; 0; S i] c) = true ->
  dw_listing w [0; S j] b2 = Some l2 -> List.length l2 < max_workers -> nth_error l2 k2 = Some c -> snd (dw_entity w [S k2; 0; S j] c) = true ->
  NoDup [c; b2; b1; ta] ->
  exists cs s rest, exec w cs (start ta) = Some s /\ finished (snd s) = true /\ asked_for_lists w cs (start ta) = [ta; b1; b2; c; c] ++ rest.
Proof.
  intros N F D0 L0 IJ B1 B2 E1 E2 D1 L1 C1 F1 D2 L2 C2 F2 Di.
  destruct (diamond_twice w ta b1 b2 c l l1 l2 i j k1 k2 D0 L0 IJ B1 B2 E1 E2 D1 L1 C1 F1 D2 L2 C2 F2 Di) as (cs & s & X & A).
  destruct (completes w ta N F cs s X) as (cs' & s' & X' & D).
  exists (cs ++ cs'), s', (asked_for_lists w cs' s). split; [exact X'|]. split; [exact D|]. now rewrite (asked_then w cs cs' _ s X), A.
Qed.

Lemma two_in {A} (x y : A) l : x <> y -> In x l -> In y l -> 2 <= List.length l.
Proof. intros N I J. destruct l as [|a [|b l]]; cbn in *; [tauto| |lia]. destruct I as [-> |[]], J as [-> |[]]. congruence. Qed.
(** Under every schedule. *)
Lemma two_superiors w L ta cs s a1 a2 l1 l2 b : names_entities w ->
  (forall p a, dw_listing w p a = L a) -> (forall a l, L a = Some l -> NoDup l) ->
  exec w cs (start ta) = Some s -> finished (snd s) = true -> a1 <> a2 ->
  a1 = ta \/ (below (lists_always w) (asked_always w) ta a1 /\ asked_always w a1) ->
  a2 = ta \/ (below (lists_always w) (asked_always w) ta a2 /\ asked_always w a2) ->
  L a1 = Some l1 -> In b l1 -> L a2 = Some l2 -> In b l2 ->
  2 <= count_occ string_dec (looked_at w cs (start ta)) b.
Proof.
  intros N HL ND X D Ne A1 A2 E1 I1 E2 I2. rewrite (looked_superiors w L ta cs s b HL ND X D).
  apply (two_in a1 a2); [exact Ne| |]; apply filter_In.
  - split; [exact (asked_every w ta cs s a1 N X D A1)|]. rewrite E1. now apply mem_In.
  - split; [exact (asked_every w ta cs s a2 N X D A2)|]. rewrite E2. now apply mem_In.
Qed.
