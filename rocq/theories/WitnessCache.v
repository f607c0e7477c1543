(** Counterexamples and cases for the theorems in PropertiesCache.v. *)
From Coq Require Import QArith NArith Nnat.
From Verif Require Import Base GoVal Policy Schema Metadata Chain BaseFacts Resolver SpecResolver WitnessResolver TrustMark Refresher FloatTime Cache SpecCache CacheFacts CacheLaws.
Local Open Scope nat_scope.
Local Open Scope string_scope.
Local Open Scope list_scope.

(** *** C31, C74 *)
Definition at500 : nat -> time := fun _ => 500%Z.
Definition at5000 : nat -> time := fun _ => 5000%Z.
Lemma net0_chains : resolve_chains 5 net0 tas0 [] LEAF = Done (Ok [chain0 leaf0 None None []]).
Proof. vm_compute. reflexivity. Qed.

Lemma c31_case hash : resolve_cached hash 5 net0 tas0 [] LEAF at500 (Memory []) = (Done (Ok [chain0 leaf0 None None []]), Memory []).
Proof. rewrite memory_transparent; [now rewrite net0_chains|intros i; discriminate|reflexivity|reflexivity]. Qed.

(** All statements are valid, and nothing is cached. *)
Lemma c31_memory hash : exists w tas types start t fuel c,
  resolve_cached hash fuel w tas types start t (Memory []) = (Done (Ok [c]), Memory []) /\
  forall s i, In s c -> (t i + 1 < st_exp s)%Z.
Proof.
  exists net0, tas0, [], LEAF, at500, 5, (chain0 leaf0 None None []). split; [apply c31_case|].
  intros s i [<- | [<- | [<- | [<- | []]]]]; reflexivity.
Qed.

Lemma redis_again hash w' tas' fuel' t' : anchor_ids tas' = anchor_ids tas0 ->
  exists c, fst (resolve_cached hash 5 net0 tas0 [] LEAF at500 (Redis [])) = Done (Ok [chain0 leaf0 None None []]) /\
  snd (resolve_cached hash 5 net0 tas0 [] LEAF at500 (Redis [])) = c /\
  resolve_cached hash fuel' w' tas' [] LEAF t' c = (Done (Ok [map stmt_msgpack (chain0 leaf0 None None [])]), c).
Proof.
  intros IDS. pose proof (redis_first hash 5 net0 tas0 [] LEAF at500 [] eq_refl eq_refl eq_refl) as F. rewrite net0_chains in F.
  destruct (resolve_cached hash 5 net0 tas0 [] LEAF at500 (Redis [])) as [r c] eqn:E. cbn [fst] in F. subst r.
  exists c. split; [reflexivity|]. split; [reflexivity|].
  apply (redis_chains_forever hash 5 net0 tas0 [] LEAF at500 [] [chain0 leaf0 None None []] c fuel' w' tas' t'); auto; try discriminate.
Qed.

(** Chains with expired statements are served from redis. *)
Lemma c31_redis hash : exists w tas types start t fuel cs c t' ch s,
  resolve_cached hash fuel w tas types start t (Redis []) = (Done (Ok cs), c) /\
  (exists cs', resolve_cached hash fuel w tas types start t' c = (Done (Ok cs'), c) /\ In ch cs') /\
  In s ch /\ forall i, (st_exp s < t' i)%Z.
Proof.
  destruct (redis_again hash net0 tas0 5 at5000 eq_refl) as (c & F & S & R).
  exists net0, tas0, [], LEAF, at500, 5, [chain0 leaf0 None None []], c, at5000, (map stmt_msgpack (chain0 leaf0 None None [])), (stmt_msgpack leaf0).
  split; [rewrite (surjective_pairing (resolve_cached _ _ _ _ _ _ _ _)), F, S; reflexivity|]. split; [eexists; split; [exact R|now left]|]. split; [now left|reflexivity].
Qed.

(** The second resolver has other keys for the anchor. *)
Definition tas_other : list anchor := [Anchor TA (Some ["other"])].
Lemma c74_redis hash : exists w tas tas' types start t fuel cs c ch,
  anchor_ids tas' = anchor_ids tas /\
  resolve_cached hash fuel w tas types start t (Redis []) = (Done (Ok cs), c) /\
  (exists cs', resolve_cached hash fuel w tas' types start t c = (Done (Ok cs'), c) /\ In ch cs') /\
  ~ signed_chain w tas' ch.
Proof.
  destruct (redis_again hash net0 tas_other 5 at500 eq_refl) as (c & F & S & R).
  exists net0, tas0, tas_other, [], LEAF, at500, 5, [chain0 leaf0 None None []], c, (map stmt_msgpack (chain0 leaf0 None None [])).
  split; [reflexivity|]. split; [rewrite (surjective_pairing (resolve_cached _ _ _ _ _ _ _ _)), F, S; reflexivity|]. split; [eexists; split; [exact R|now left]|].
  intros H. inversion H as [|a b c0 _ H1]; subst. inversion H1 as [|a b c0 _ H2]; subst.
  inversion H2 as [s t ks (pre & ta & post & E & _ & _ & K) _ SB|a b c0 _ H3]; subst.
  - destruct pre as [|x [|]]; try discriminate. injection E as <- <-. destruct SB as (k & l & EK & V). cbn in EK. injection EK as <- <-.
    vm_compute in V. discriminate.
  - inversion H3.
Qed.

(** *** C52 *)
Lemma c52_witness : cache_key "a:b" "c" = cache_key "a" "b:c" /\ "a:b" <> "a".
Proof. split; [reflexivity|discriminate]. Qed.
Lemma c52_case : stmt_key "https://rp.example" "https://ta.example" =
  "entity_statement:aHR0cHM6Ly9ycC5leGFtcGxl:aHR0cHM6Ly90YS5leGFtcGxl".
Proof. vm_compute. reflexivity. Qed.

(** *** C53 *)
Definition hist53 : list (op string) :=
  [OSet 1000 "a" "x" 50; OSet 1010 "b" "y" 5; OGet 1020 "b"; OSet 1030 "a" "z" 100; OSweep 1040 (fun _ => true)]%Z.
Lemma c53_case : ordered hist53 1050%Z /\ in_range hist53 /\
  last_set "a" hist53 = Some (1030%Z, "z", 100%Z) /\ live 1030%Z 100%Z 1050%Z /\
  fst (cache_get 1050%Z "a" (after_ops hist53 (Memory []))) = Some "z" /\
  fst (cache_get 1050%Z "b" (after_ops hist53 (Memory []))) = None.
Proof.
  split; [|split; [|split; [|split; [|split]]]]; try reflexivity.
  - cbn [ordered hist53 In op_time]. intuition (subst; cbn [op_time]; lia).
  - intros t k v ttl J. cbn [hist53 In] in J. destruct J as [J | [J | [J | [J | [J | []]]]]]; try discriminate J; injection J; intros; subst; lia.
  - right. lia.
Qed.

(** Set with a duration of -1ns never expires. *)
Lemma c53_never : exists h now k v t ttl, ordered h now /\ in_range h /\ last_set k h = Some (t, v, ttl) /\
  (t + ttl < now)%Z /\ fst (cache_get now k (after_ops h (Memory []))) = Some (v : string).
Proof.
  exists [OSet 1000%Z "a" "x" (-1)%Z], 10000%Z, "a", "x", 1000%Z, (-1)%Z. split; [|split; [|split; [|split]]]; try reflexivity.
  - cbn [ordered In op_time]. split; [intros ? []|]. split; [lia|exact I].
  - intros t k v ttl [[= <- <- <- <-] | []]. lia.
Qed.

(** The hundred thousand and first key evicts the first. *)
Fixpoint key_n (n : nat) : string := match n with O => "" | S n' => String "a"%char (key_n n') end.
Lemma key_n_inj n : forall m, key_n n = key_n m -> n = m.
Proof. induction n as [|n IH]; intros [|m] E; try discriminate; [reflexivity|]. injection E as E. f_equal. auto. Qed.

Definition fill (n : nat) : op string := OSet 1%Z (key_n n) "v" 1000%Z.
Definition fill_entry (n : nat) : entry string := Entry (key_n n) "v" (Some 1001%Z).

Lemma fill_ops n : (N.of_nat n <= max_size)%N ->
  after_ops (map fill (seq 0 n)) (Memory []) = Memory (rev (map fill_entry (seq 0 n))).
Proof.
  induction n as [|n IH]; intros B; [reflexivity|]. rewrite seq_S, !map_app, rev_app_distr. cbn [map rev app plus].
  unfold after_ops. rewrite fold_left_app. fold (after_ops (map fill (seq 0 n)) (Memory [])). rewrite IH by lia.
  cbn [fold_left apply_op fill cache_set]. unfold mem_set. cbn [Z.eqb Z.ltb Z.compare negb andb Pos.compare Pos.compare_cont].
  assert (D : drop_entry (key_n n) (rev (map fill_entry (seq 0 n))) = rev (map fill_entry (seq 0 n))).
  { unfold drop_entry. assert (A : forall l : list (entry string), (forall e, In e l -> en_key e <> key_n n) ->
      filter (fun e => negb (String.eqb (en_key e) (key_n n))) l = l).
    { induction l as [|e l IHl]; intros H; [reflexivity|]. cbn [filter]. pose proof (H e (or_introl eq_refl)) as N.
      apply String.eqb_neq in N. rewrite N. cbn [negb]. f_equal. apply IHl. intros x J. apply H. now right. }
    apply A. intros e J. apply in_rev, in_map_iff in J. destruct J as (m & <- & J). apply in_seq in J. cbn [fill_entry en_key].
    intros E. apply key_n_inj in E. lia. }
  rewrite D. change (mem_exp 1%Z 1000%Z) with (Some 1001%Z). fold (fill_entry n).
  replace (max_size <? N.of_nat (List.length (fill_entry n :: rev (map fill_entry (seq 0 n)))))%N with false; [reflexivity|].
  symmetry. apply N.ltb_ge. cbn [List.length]. rewrite rev_length, map_length, seq_length. exact B.
Qed.

Lemma fill_last n : last_set "" (map fill (seq 0 (S n))) = Some (1%Z, "v", 1000%Z).
Proof.
  induction n as [|n IH]; [reflexivity|]. rewrite seq_S, map_app. unfold last_set. rewrite fold_left_app.
  fold (last_set "" (map fill (seq 0 (S n)))). rewrite IH. reflexivity.
Qed.

Lemma fill_ordered l : ordered (map fill l) 1%Z.
Proof.
  induction l as [|n l IH]; cbn [map ordered]; [exact I|]. split; [|split; [apply Z.le_refl|exact IH]].
  intros o J. apply in_map_iff in J. destruct J as (m & <- & _). apply Z.le_refl.
Qed.

Lemma evicts n : N.of_nat n = max_size -> fst (cache_get 1%Z "" (after_ops (map fill (seq 0 (S n))) (Memory []))) = None.
Proof.
  intros BN.
  assert (P : exists n', n = S n') by (destruct n; [discriminate BN|eauto]).
  rewrite seq_S, map_app. unfold after_ops. rewrite fold_left_app. fold (after_ops (map fill (seq 0 n)) (Memory [])).
  rewrite fill_ops by (rewrite BN; apply N.le_refl).
  cbn [map fold_left apply_op fill cache_set plus]. unfold mem_set. cbn [Z.eqb Z.ltb Z.compare negb andb Pos.compare Pos.compare_cont].
  set (l := drop_entry _ _).
  assert (D : l = rev (map fill_entry (seq 0 n))).
  { unfold l, drop_entry. assert (A : forall l : list (entry string), (forall e, In e l -> en_key e <> key_n n) ->
      filter (fun e => negb (String.eqb (en_key e) (key_n n))) l = l).
    { induction l0 as [|e l0 IHl]; intros H; [reflexivity|]. cbn [filter]. pose proof (H e (or_introl eq_refl)) as N.
      apply String.eqb_neq in N. rewrite N. cbn [negb]. f_equal. apply IHl. intros x J. apply H. now right. }
    apply A. intros e J. apply in_rev, in_map_iff in J. destruct J as (m & <- & J). apply in_seq in J. cbn [fill_entry en_key].
    intros E. apply key_n_inj in E. lia. }
  rewrite D. clear l D.
  replace (max_size <? N.of_nat (List.length (Entry (key_n n) "v" (mem_exp 1%Z 1000%Z) :: rev (map fill_entry (seq 0 n)))))%N with true.
  2:{ symmetry. apply N.ltb_lt. cbn [List.length]. rewrite rev_length, map_length, seq_length. rewrite <- BN. lia. }
  destruct P as [n' P]. rewrite P. cbn [seq map rev]. rewrite app_comm_cons, removelast_last.
  set (r := rev _). cbn [cache_get]. unfold mem_get.
  assert (F : find_entry "" (Entry (key_n (S n')) "v" (mem_exp 1%Z 1000%Z) :: r) = None).
  { apply find_none. cbn [map en_key]. intros [E | J]; [discriminate E|]. apply in_map_iff in J. destruct J as (e & E & J).
    unfold r in J. apply in_rev, in_map_iff in J. destruct J as (m & <- & J). apply in_seq in J. cbn [fill_entry en_key] in E.
    destruct m; [lia|discriminate E]. }
  rewrite F. reflexivity.
Qed.


Lemma c53_evicted : exists h now k v t ttl, ordered h now /\ in_range h /\ last_set k h = Some (t, v : string, ttl) /\
  live t ttl now /\ ttl <> (-1)%Z /\ fst (cache_get now k (after_ops h (Memory []))) = None.
Proof.
  assert (X : exists n, N.of_nat n = max_size) by (exists (N.to_nat max_size); apply N2Nat.id).
  destruct X as [n BN]. exists (map fill (seq 0 (S n))), 1%Z, "", "v", 1%Z, 1000%Z.
  split; [apply fill_ordered|]. split.
  { intros t k v ttl J. apply in_map_iff in J. destruct J as (m & [= <- <- <- <-] & _). lia. }
  split; [apply fill_last|]. split; [right; lia|]. split; [discriminate|]. now apply evicts.
Qed.

(** *** C54, C75 *)
Definition stmt54 (exp : time) : stmt := mk "kl" LEAF LEAF ["kl"] [] None None [] exp.
Definition uses54 : list use :=
  [UCall 500 500 501 LEAF LEAF (Some (stmt54 1000)); UOther 510 key_subordinate_listing "x" (COther "") 100;
   UCall 600 0 0 LEAF LEAF None; URefresh 700 701 LEAF LEAF (Some (stmt54 2000))]%Z.
Lemma c54_case : (forall u, In u uses54 -> proper u) /\ uses_in_range uses54 /\
  (forall u sub iss s t1 t2, In u uses54 -> obtained u sub iss s t1 t2 -> (t1 < st_exp s)%Z /\ until (st_exp s) t1 <> (-1)%Z) /\
  fst (stmt_cache_get 1500%Z LEAF LEAF (after_uses uses54 (Memory []))) = Some (stmt54 2000%Z) /\
  fst (stmt_cache_get 1500%Z LEAF LEAF (after_uses uses54 (Redis []))) = Some (stmt54 2000%Z).
Proof.
  split; [|split; [|split; [|split]]].
  - intros u [<- | [<- | [<- | [<- | []]]]]; cbn [proper]; try exact I. split; [cbn; tauto|discriminate].
  - split.
    + intros u sub iss s t1 t2 [<- | [<- | [<- | [<- | []]]]] [(now & E) | E]; try discriminate E; injection E; intros; subst; cbn; lia.
    + intros now ss sk v ttl [E | [E | [E | [E | []]]]]; try discriminate E. injection E; intros; subst; lia.
  - intros u sub iss s t1 t2 [<- | [<- | [<- | [<- | []]]]] [(now & E) | E]; try discriminate E; injection E; intros; subst; cbn; lia.
  - vm_compute. reflexivity.
  - vm_compute. reflexivity.
Qed.

(** A statement that expired 1ns before it was stored stays in memory for ever. *)
Lemma c54_memory now : exists sub iss s t1 t2,
  fst (stmt_cache_get now sub iss (after_uses [URefresh t1 t2 sub iss (Some s)] (Memory []))) = Some s /\
  (st_exp s < t1)%Z /\ (0 < t1)%Z /\ (t1 <= t2)%Z.
Proof. exists LEAF, LEAF, (stmt54 999%Z), 1000%Z, 1000%Z. split; [reflexivity|]. cbn. lia. Qed.
Lemma c54_redis now : exists sub iss s t1 t2,
  fst (stmt_cache_get now sub iss (after_uses [UCall t1 t1 t2 sub iss (Some s)] (Redis []))) = Some s /\
  (st_exp s + 100 < t1)%Z /\ (0 < t1)%Z /\ (t1 <= t2)%Z.
Proof. exists LEAF, LEAF, (stmt54 999%Z), 2000%Z, 2000%Z. split; [reflexivity|]. cbn. lia. Qed.

(** *** C55: half an hour of lifetime, one second after issuance *)
Definition stmt55 : stmt := Stmt "" LEAF LEAF 1000000000000%Z (1000000000000 + 1800 * second)%Z None [] None None None [] [] [] [] [].
Lemma c55_witness : exists now s, (st_iat s < now < st_exp s)%Z /\
  ~ refresh_documented (3600 * second) (1 # 2) now s /\ refresh_due (3600 * second) (1 # 2) now s = true.
Proof.
  exists (1000000000000 + second)%Z, stmt55. split; [vm_compute; split; reflexivity|]. split; [|vm_compute; reflexivity].
  intros [_ H]. vm_compute in H. now apply H.
Qed.
Lemma c55_case : exists now s, (st_iat s < st_exp s < st_iat s + 2 ^ 53)%Z /\ (st_iat s <= now < st_exp s)%Z /\
  refresh_documented (3600 * second) (1 # 2) now s.
Proof.
  exists (1000000000000 + 1700 * second)%Z, stmt55. split; [vm_compute; split; reflexivity|]. split; [vm_compute; split; [discriminate|reflexivity]|].
  split; vm_compute; discriminate.
Qed.
