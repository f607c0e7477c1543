(** Proofs about cached trees and the background refresh. *)
From Coq Require Import QArith Lqa Qabs Qround.
From Verif Require Import Base GoVal Policy Schema Metadata Chain BaseFacts Resolver ResolverFacts ResolverLaws TrustMark Refresher FloatTime FloatFacts Cache SpecCache CacheFacts SpecResolver.

(** ** Rounding is monotone *)
Local Open Scope Q_scope.

Lemma nearest_ge_floor x : (Qfloor x <= nearest x <= Qfloor x + 1)%Z.
Proof. unfold nearest. destruct (Qcompare _ _); [destruct (Z.even _)| |]; lia. Qed.

Lemma nearest_mono x y : x <= y -> (nearest x <= nearest y)%Z.
Proof.
  intros L. pose proof (Qfloor_resp_le x y L) as F.
  destruct (Z.eq_dec (Qfloor x) (Qfloor y)) as [E|N].
  - unfold nearest. rewrite <- E. set (k := Qfloor x).
    destruct (Qcompare_spec (x - inject_Z k) (1 # 2)) as [H|H|H], (Qcompare_spec (y - inject_Z k) (1 # 2)) as [H'|H'|H'];
      try (destruct (Z.even k)); try lia; exfalso; lra.
  - pose proof (nearest_ge_floor x). pose proof (nearest_ge_floor y). lia.
Qed.

Lemma pow2_div a b : pow2 a / pow2 b == pow2 (a - b).
Proof.
  assert (E : pow2 a == pow2 (a - b) * pow2 b) by (rewrite <- pow2_plus; now replace (a - b + b)%Z with a by lia).
  rewrite E. field. apply pow2_nz.
Qed.

Lemma nearest_eq x y : x == y -> nearest x = nearest y.
Proof. intros E. apply Z.le_antisymm; apply nearest_mono; lra. Qed.

Lemma nearest_pow2 n : (0 <= n)%Z -> nearest (pow2 n) = (2 ^ n)%Z.
Proof. intros H. rewrite (nearest_eq _ (inject_Z (2 ^ n)) (pow2_Z n H)). apply nearest_Z. Qed.

Lemma rnd_pos_bounds x : 0 < x -> pow2 (magnitude x) <= rnd x <= pow2 (magnitude x + 1).
Proof.
  intros P. assert (NZ : ~ x == 0) by lra. rewrite (rnd_nz x NZ). destruct (magnitude_spec x NZ) as [M1 M2].
  rewrite Qabs_pos in M1, M2 by lra. set (g := magnitude x) in *.
  pose proof (pow2_pos (g - 52)) as P0.
  assert (L : pow2 52 <= x / pow2 (g - 52)).
  { apply Qle_shift_div_l; [exact P0|]. rewrite <- pow2_plus. now replace (52 + (g - 52))%Z with g by lia. }
  assert (U : x / pow2 (g - 52) <= pow2 53).
  { apply Qle_shift_div_r; [exact P0|]. rewrite <- pow2_plus. replace (53 + (g - 52))%Z with (g + 1)%Z by lia. lra. }
  apply nearest_mono in L. apply nearest_mono in U. rewrite nearest_pow2 in L by lia. rewrite nearest_pow2 in U by lia.
  set (n := nearest _) in *. split.
  - setoid_replace (pow2 g) with (inject_Z (2 ^ 52) * pow2 (g - 52)).
    + apply Qmult_le_compat_r; [|lra]. now rewrite <- Zle_Qle.
    + rewrite <- pow2_Z by lia. rewrite <- pow2_plus. now replace (52 + (g - 52))%Z with g by lia.
  - setoid_replace (pow2 (g + 1)) with (inject_Z (2 ^ 53) * pow2 (g - 52)).
    + apply Qmult_le_compat_r; [|lra]. now rewrite <- Zle_Qle.
    + rewrite <- pow2_Z by lia. rewrite <- pow2_plus. now replace (53 + (g - 52))%Z with (g + 1)%Z by lia.
Qed.

Lemma rnd_mono_pos x y : 0 < x -> x <= y -> rnd x <= rnd y.
Proof.
  intros P L. assert (Py : 0 < y) by lra. assert (NX : ~ x == 0) by lra. assert (NY : ~ y == 0) by lra.
  destruct (magnitude_spec x NX) as [M1 M2], (magnitude_spec y NY) as [M3 M4].
  rewrite Qabs_pos in M1, M2, M3, M4 by lra.
  assert (G : (magnitude x <= magnitude y)%Z).
  { assert (A : pow2 (magnitude x) < pow2 (magnitude y + 1)) by lra. apply pow2_lt_inv in A. lia. }
  destruct (Z.eq_dec (magnitude x) (magnitude y)) as [E|N].
  - rewrite (rnd_nz x NX), (rnd_nz y NY), <- E. apply Qmult_le_compat_r; [|apply Qlt_le_weak, pow2_pos].
    rewrite <- Zle_Qle. apply nearest_mono. apply Qmult_le_compat_r; [exact L|]. apply Qlt_le_weak, Qinv_lt_0_compat, pow2_pos.
  - destruct (rnd_pos_bounds x P) as [_ B1]. destruct (rnd_pos_bounds y Py) as [B2 _].
    assert (pow2 (magnitude x + 1) <= pow2 (magnitude y)) by (apply pow2_le; lia). lra.
Qed.

Lemma rnd_nonpos x : x <= 0 -> rnd x <= 0.
Proof.
  intros H. destruct (Qeq_dec x 0) as [E|NE]; [rewrite (rnd_z x E); lra|].
  rewrite (rnd_nz x NE). pose proof (pow2_pos (magnitude x - 52)) as P.
  assert (N : (nearest (x / pow2 (magnitude x - 52)) <= 0)%Z).
  { change 0%Z with (nearest (inject_Z 0)). apply nearest_mono. apply Qle_shift_div_r; [exact P|]. change (inject_Z 0) with 0. lra. }
  rewrite Zle_Qle in N. change (inject_Z 0) with 0 in N. setoid_replace 0 with (0 * pow2 (magnitude x - 52)) by ring.
  apply Qmult_le_compat_r; [exact N|lra].
Qed.

Lemma rnd_pos x : 0 < x -> 0 < rnd x.
Proof. intros P. destruct (rnd_pos_bounds x P) as [B _]. pose proof (pow2_pos (magnitude x)). lra. Qed.

Lemma pow2_succ e : pow2 (e + 1) == 2 * pow2 e.
Proof. rewrite pow2_plus. change (pow2 1) with 2. ring. Qed.

Lemma rnd_double x : rnd (2 * x) == 2 * rnd x.
Proof.
  destruct (Qeq_dec x 0) as [E|NE].
  - rewrite (rnd_z x E). rewrite rnd_z; [ring|lra].
  - assert (N2 : ~ 2 * x == 0) by lra. destruct (magnitude_spec x NE) as [M1 M2].
    assert (G : magnitude (2 * x) = (magnitude x + 1)%Z).
    { apply magnitude_unique. rewrite Qabs_Qmult. change (Qabs 2) with 2. rewrite !pow2_succ.
      rewrite pow2_succ in M2. lra. }
    rewrite (rnd_nz _ N2), (rnd_nz _ NE), G.
    replace (magnitude x + 1 - 52)%Z with (magnitude x - 52 + 1)%Z by lia.
    rewrite (nearest_eq (2 * x / pow2 (magnitude x - 52 + 1)) (x / pow2 (magnitude x - 52))).
    + rewrite pow2_succ. ring.
    + rewrite pow2_succ. field. apply pow2_nz.
Qed.

Lemma rnd_half : rnd (1 # 2) == 1 # 2.
Proof. apply (rnd_exact _ 1 (-1)); [reflexivity|reflexivity]. Qed.

Lemma ratio_le r t : 0 < t -> 2 * r <= t -> rnd (rnd r / rnd t) <= 1 # 2.
Proof.
  intros P L. pose proof (rnd_pos t P) as PT. destruct (Qlt_le_dec 0 r) as [PR|NR].
  - assert (H : 2 * rnd r <= rnd t) by (rewrite <- rnd_double; apply rnd_mono_pos; lra).
    rewrite <- rnd_half. pose proof (rnd_pos r PR). apply rnd_mono_pos.
    + apply Qlt_shift_div_l; [exact PT|]. lra.
    + apply Qle_shift_div_r; [exact PT|]. lra.
  - pose proof (rnd_nonpos r NR). assert (rnd (rnd r / rnd t) <= 0); [|lra]. apply rnd_nonpos. apply Qle_shift_div_r; [exact PT|]. lra.
Qed.

Lemma rnd_Z n : (Z.abs n < 2 ^ 53)%Z -> rnd (inject_Z n) == inject_Z n.
Proof. intros H. apply (rnd_exact _ n 0); [|exact H]. change (pow2 0) with 1. ring. Qed.

Lemma rnd_above x : (1 # 2) + pow2 (-54) < x -> 1 # 2 < rnd x.
Proof.
  intros H. pose proof (pow2_pos (-54)) as P54.
  destruct (Qlt_le_dec x 1) as [L1|G1].
  - assert (PX : 0 < x) by lra. assert (NX : ~ x == 0) by lra.
    assert (G : magnitude x = (-1)%Z).
    { apply magnitude_unique. rewrite Qabs_pos by lra. change (pow2 (-1)) with (1 # 2). change (pow2 (-1 + 1)) with 1. lra. }
    rewrite (rnd_nz x NX), G. change (-1 - 52)%Z with (-53)%Z.
    assert (N : (2 ^ 52 + 1 <= nearest (x / pow2 (-53)))%Z).
    { rewrite <- (nearest_unique (inject_Z (2 ^ 52) + (3 # 4)) (2 ^ 52 + 1)).
      2:{ rewrite inject_Z_plus. setoid_replace (inject_Z (2 ^ 52) + inject_Z 1 - (inject_Z (2 ^ 52) + (3 # 4))) with (1 # 4) by (change (inject_Z 1) with 1; ring). reflexivity. }
      destruct (Qlt_le_dec (x / pow2 (-53)) (inject_Z (2 ^ 52) + (3 # 4))) as [LT|GE]; [|now apply nearest_mono].
      assert (E : nearest (x / pow2 (-53)) = (2 ^ 52 + 1)%Z).
      { apply nearest_unique.
        assert (LB : inject_Z (2 ^ 52) + (1 # 2) < x / pow2 (-53)).
        { apply Qlt_shift_div_l; [apply pow2_pos|].
          assert (EQ : ((inject_Z (2 ^ 52) + (1 # 2)) * pow2 (-53)) == ((1 # 2) + pow2 (-54))) by (vm_compute; reflexivity).
          apply Qle_lt_trans with ((1 # 2) + pow2 (-54)); [apply Qle_lteq; right; exact EQ|exact H]. }
        apply Qabs_Qlt_condition. rewrite inject_Z_plus. change (inject_Z 1) with 1. lra. }
      rewrite E. rewrite (nearest_unique (inject_Z (2 ^ 52) + (3 # 4)) (2 ^ 52 + 1)); [lia|].
      rewrite inject_Z_plus. setoid_replace (inject_Z (2 ^ 52) + inject_Z 1 - (inject_Z (2 ^ 52) + (3 # 4))) with (1 # 4) by (change (inject_Z 1) with 1; ring). reflexivity. }
    rewrite Zle_Qle in N. pose proof (pow2_pos (-53)) as P53.
    apply Qlt_le_trans with (inject_Z (2 ^ 52 + 1) * pow2 (-53)); [vm_compute; reflexivity|]. apply Qmult_le_compat_r; [exact N|lra].
  - assert (A : rnd 1 <= rnd x) by (apply rnd_mono_pos; lra).
    assert (E : rnd 1 == 1) by (apply (rnd_exact _ 1 0); reflexivity). lra.
Qed.

Lemma ratio_gt r t : (0 < t < 2 ^ 53)%Z -> (t < 2 * r)%Z -> (r < 2 ^ 53)%Z ->
  1 # 2 < rnd (rnd (inject_Z r) / rnd (inject_Z t)).
Proof.
  intros [P B] L BR. apply rnd_above. rewrite (rnd_Z r), (rnd_Z t) by lia.
  assert (PT : 0 < inject_Z t) by (change 0 with (inject_Z 0); now rewrite <- Zlt_Qlt).
  apply Qlt_shift_div_l; [exact PT|].
  assert (B' : inject_Z t < inject_Z (2 ^ 53)) by now rewrite <- Zlt_Qlt.
  assert (L' : inject_Z t + 1 <= 2 * inject_Z r).
  { change 1 with (inject_Z 1). rewrite <- inject_Z_plus. change 2 with (inject_Z 2). rewrite <- inject_Z_mult, <- Zle_Qle. lia. }
  assert (E : pow2 (-54) * inject_Z (2 ^ 53) == 1 # 2) by (vm_compute; reflexivity).
  assert (M : pow2 (-54) * inject_Z t < 1 # 2).
  { rewrite <- E. setoid_replace (pow2 (-54) * inject_Z t) with (inject_Z t * pow2 (-54)) by ring.
    setoid_replace (pow2 (-54) * inject_Z (2 ^ 53)) with (inject_Z (2 ^ 53) * pow2 (-54)) by ring.
    apply Qmult_lt_compat_r; [reflexivity|exact B']. }
  lra.
Qed.

(** ** The background refresh *)

Theorem refresh_within_grace grace factor now s : refresh_due grace factor now s = true -> (until (st_exp s) now <= grace)%Z.
Proof. unfold refresh_due. intros H. apply andb_prop in H. destruct H as [H _]. now apply Z.leb_le. Qed.

Theorem refresh_inverted grace factor now s :
  1 # 2 <= factor -> (st_iat s < st_exp s < st_iat s + 2 ^ 63)%Z -> (st_iat s <= now < st_exp s)%Z ->
  refresh_documented grace factor now s -> refresh_due grace factor now s = false.
Proof.
  intros F B N [_ D]. unfold refresh_due. apply andb_false_iff. right.
  assert (ET : sat (st_exp s - st_iat s) = (st_exp s - st_iat s)%Z) by (unfold sat; lia).
  assert (ER : until (st_exp s) now = (st_exp s - now)%Z) by (unfold until, sat; lia).
  rewrite ET, ER. destruct (Z.eqb_spec (st_exp s - st_iat s) 0); [lia|]. apply negb_false_iff, Qle_bool_iff.
  assert (PT : 0 < inject_Z (st_exp s - st_iat s)) by (change 0 with (inject_Z 0); rewrite <- Zlt_Qlt; lia).
  apply Qle_trans with (1 # 2); [|exact F]. apply ratio_le; [exact PT|].
  assert (H : (1 # 2) * inject_Z (st_exp s - st_iat s) <= inject_Z (now - st_iat s)).
  { apply Qle_trans with (factor * inject_Z (st_exp s - st_iat s)); [|exact D]. apply Qmult_le_compat_r; lra. }
  assert (S : inject_Z (st_exp s - st_iat s) == inject_Z (st_exp s - now) + inject_Z (now - st_iat s))
    by (rewrite <- inject_Z_plus; now replace (st_exp s - now + (now - st_iat s))%Z with (st_exp s - st_iat s)%Z by lia).
  lra.
Qed.

Theorem refresh_default grace now s :
  (st_iat s < st_exp s < st_iat s + 2 ^ 53)%Z -> (st_iat s <= now < st_exp s)%Z ->
  (refresh_due grace (1 # 2) now s = true <->
   (st_exp s - now <= grace)%Z /\ (st_exp s - st_iat s < 2 * (st_exp s - now))%Z).
Proof.
  intros B N. unfold refresh_due.
  assert (ET : sat (st_exp s - st_iat s) = (st_exp s - st_iat s)%Z) by (unfold sat; lia).
  assert (ER : until (st_exp s) now = (st_exp s - now)%Z) by (unfold until, sat; lia).
  rewrite ET, ER. destruct (Z.eqb_spec (st_exp s - st_iat s) 0); [lia|].
  rewrite andb_true_iff, Z.leb_le, negb_true_iff. split; intros [H1 H2]; (split; [exact H1|]).
  - destruct (Z.lt_ge_cases (st_exp s - st_iat s) (2 * (st_exp s - now))) as [L|G]; [exact L|]. exfalso.
    rewrite <- not_true_iff_false in H2. apply H2, Qle_bool_iff. apply ratio_le.
    + change 0 with (inject_Z 0). rewrite <- Zlt_Qlt. lia.
    + change 2 with (inject_Z 2). rewrite <- inject_Z_mult, <- Zle_Qle. lia.
  - apply not_true_iff_false. intros L. apply Qle_bool_iff in L.
    pose proof (ratio_gt (st_exp s - now) (st_exp s - st_iat s) ltac:(lia) H2 ltac:(lia)). lra.
Qed.

(** ** Cached trees and chains *)
Local Close Scope Q_scope.
Local Open Scope nat_scope.
Local Open Scope list_scope.

Lemma hints_loop_le step rec : forall hs i x ts x', hints_loop step rec i hs x = Some (ts, x') -> (x' <= x)%Z.
Proof.
  induction hs as [|a hs IH]; intros i x ts x'; cbn [hints_loop].
  - intros [= _ <-]. lia.
  - destruct (step i a) as [[ec s]|].
    + destruct (rec i a ec s); [|discriminate].
      destruct (hints_loop step rec (S i) hs _) as [[ts' x'']|] eqn:EL; [|discriminate].
      intros [= _ <-]. apply IH in EL. unfold before in EL. destruct (Z.ltb_spec (st_exp s) x) as [L|L]. { exact (Z.le_trans _ _ _ EL (Z.lt_le_incl _ _ L)). } exact EL.
    + destruct (hints_loop step rec (S i) hs x) as [[ts' x'']|] eqn:EL; [|discriminate].
      intros [= _ <-]. eauto.
Qed.

Lemma resolve_exp_le fuel w tas p d types ids e sub t : resolve fuel w tas p d types ids e sub = Some t -> (t_exp t <= zero_time)%Z.
Proof.
  destruct fuel as [|f]; [discriminate|]. cbn [resolve].
  assert (L : ((if before (st_exp e) zero_time then st_exp e else zero_time) <= zero_time)%Z).
  { unfold before. destruct (Z.ltb_spec (st_exp e) zero_time); lia. }
  destruct (mem _ _); [intros [= <-]; exact L|]. destruct (st_hints e) as [|h hs]; [intros [= <-]; exact L|].
  destruct (hints_loop _ _ 0 _ _) as [[ts x']|] eqn:EL; [|discriminate]. intros [= <-]. apply hints_loop_le in EL. cbn [t_exp]. exact (Z.le_trans _ _ _ EL L).
Qed.

Lemma resolve_tree_exp_le fuel w tas types start t : resolve_tree fuel w tas types start = Done (Ok t) -> (t_exp t <= zero_time)%Z.
Proof.
  unfold resolve_tree. destruct (String.eqb start ""); [intros [= <-]; apply Z.le_refl|].
  destruct (w_config w [] start) as [s|]; [|intros [= <-]; apply Z.le_refl].
  destruct (st_metadata s) as [m|]; [|discriminate].
  destruct (resolve fuel _ _ _ _ _ _ _ _) as [t'|] eqn:ER; [|discriminate]. intros [= <-].
  now apply resolve_exp_le in ER.
Qed.

Lemma verify_sigs_exp w tas t b t' : verify_sigs w tas t = Ok (b, t') -> t_exp t' = t_exp t.
Proof.
  destruct t as [e sub auth x]. cbn [verify_sigs].
  match goal with |- match sub with Some s => _ | None => ?R end = _ -> _ => set (rest := R) end.
  assert (HR : rest = Ok (b, t') -> t_exp t' = x).
  { unfold rest. destruct auth as [l|]; [|intros [= _ <-]; reflexivity].
    match goal with |- bind ?X _ = _ -> _ => destruct X as [l'| |] end; cbn [bind]; try discriminate. intros [= _ <-]. reflexivity. }
  clearbody rest. destruct sub as [s|]; [|exact HR]. destruct e as [en|].
  - destruct (anchor_keys tas en s); [|exact HR]. intros [= _ <-]. reflexivity.
  - destruct tas; [exact HR|discriminate].
Qed.

Lemma until_zero x now : (x <= zero_time)%Z -> (zero_time + 2 <= now)%Z -> (until x now < -1)%Z.
Proof. unfold until, sat, zero_time. lia. Qed.

Section Trees.
  Variable hash : string -> list string -> list string -> string.

  Lemma drop_absent k (l : list (entry cached)) : find_entry k l = None -> drop_entry k l = l.
  Proof.
    intros H. apply find_none in H. unfold drop_entry. induction l as [|e l IH]; [reflexivity|]. cbn [filter map] in *.
    destruct (String.eqb_spec (en_key e) k) as [E|N]; [elim H; now left|]. cbn [negb]. f_equal. apply IH. intros I. apply H. now right.
  Qed.

  Lemma mem_set_negative now k v ttl (l : list (entry cached)) : (ttl < -1)%Z -> mem_set now k v ttl l = drop_entry k l.
  Proof.
    intros H. unfold mem_set. destruct (Z.eqb_spec ttl (-1)); [lia|]. destruct (Z.ltb_spec ttl 1); [reflexivity|lia].
  Qed.

  (** The in-memory cache never stores a tree or chains: resolution is as without cache, and
      the cache is as before. *)
  Theorem memory_transparent fuel w tas types start t l :
    (forall i, (zero_time + 2 <= t i)%Z) ->
    find_entry (tree_key hash start tas types) l = None -> find_entry (chains_key hash start tas types) l = None ->
    resolve_cached hash fuel w tas types start t (Memory l) = (resolve_chains fuel w tas types start, Memory l).
  Proof.
    intros T FT FC. unfold resolve_cached, resolve_chains. cbn [cache_get]. unfold mem_get. rewrite FC. cbn [cache_get]. unfold mem_get. rewrite FT.
    destruct (resolve_tree fuel w tas types start) as [[tr| |]|] eqn:ER; cbn [bind]; try reflexivity.
    pose proof (resolve_tree_exp_le _ _ _ _ _ _ ER) as LE.
    assert (C2 : match t_entity tr with
                 | Some _ => cache_set (t 2) (tree_key hash start tas types) (CTree tr) (until (t_exp tr) (t 2)) (Memory l)
                 | None => Memory l end = Memory l).
    { destruct (t_entity tr); [|reflexivity]. cbn [cache_set]. rewrite mem_set_negative by (apply until_zero; auto). now rewrite drop_absent. }
    rewrite C2. destruct (verify_sigs w tas tr) as [[b tr']| |] eqn:EV; try reflexivity. cbn [bind].
    pose proof (verify_sigs_exp _ _ _ _ _ EV) as EX. cbn [cache_set]. rewrite mem_set_negative by (apply until_zero; [lia|auto]).
    rewrite drop_absent by exact FT. cbn [cache_get]. unfold mem_get. rewrite FC.
    destruct (tree_chains tr') as [|c cs] eqn:EC; [reflexivity|]. cbn [cache_set]. rewrite mem_set_negative by (apply until_zero; [lia|auto]).
    now rewrite drop_absent.
  Qed.

  Lemma tree_key_apart s tas ty s' tas' ty' : tree_key hash s tas ty <> chains_key hash s' tas' ty'.
  Proof. intros E. apply keys_injective in E; [|cbn; tauto|cbn; tauto]. destruct E as [E _]. discriminate E. Qed.

  Lemma red_find_set now now' k k' v ttl (l : list (entry cached)) :
    red_find now' k (red_set now k' v ttl l) =
    if String.eqb k' k then red_find now' k (red_set now k' v ttl l) else red_find now' k l.
  Proof.
    destruct (String.eqb k' k) eqn:E; [reflexivity|]. unfold red_find, red_set, find_entry. cbn [find en_key]. rewrite E.
    fold (find_entry k (drop_entry k' l)). fold (find_entry k l). rewrite find_drop_other; [reflexivity|]. now apply String.eqb_neq.
  Qed.

  Lemma red_set_forever now now' k v ttl (l : list (entry cached)) : (ttl < -1)%Z ->
    red_find now' k (red_set now k v ttl l) = Some (Entry k v None).
  Proof.
    intros H. unfold red_find, red_set, find_entry. cbn [find en_key]. rewrite String.eqb_refl.
    destruct (Z.ltb_spec 0 ttl); [lia|]. destruct (Z.eqb_spec ttl (-1)); [lia|]. reflexivity.
  Qed.

  (** Redis keeps the chains of a successful resolution without expiration: every later
      resolution with anchors of the same names returns them. *)
  Theorem redis_chains_forever fuel w tas types start t l cs c' fuel' w' tas' t' :
    (forall i, (zero_time + 2 <= t i)%Z) -> anchor_ids tas' = anchor_ids tas ->
    red_find (t 0) (chains_key hash start tas types) l = None -> red_find (t 1) (tree_key hash start tas types) l = None ->
    red_find (t 4) (chains_key hash start tas types) l = None ->
    resolve_cached hash fuel w tas types start t (Redis l) = (Done (Ok cs), c') -> cs <> [] ->
    resolve_cached hash fuel' w' tas' types start t' c' = (Done (Ok (map (map stmt_msgpack) cs)), c').
  Proof.
    intros T IDS F0 F1 F4 H NE. unfold resolve_cached in H. cbn [cache_get] in H. rewrite F0 in H. cbn [option_map cache_get] in H.
    rewrite F1 in H. cbn [option_map] in H.
    destruct (resolve_tree fuel w tas types start) as [[tr| |]|] eqn:ER; try discriminate H.
    pose proof (resolve_tree_exp_le _ _ _ _ _ _ ER) as LE.
    set (tk := tree_key hash start tas types) in *. set (ck := chains_key hash start tas types) in *.
    assert (C2 : exists l2, match t_entity tr with
                 | Some _ => cache_set (t 2) tk (CTree tr) (until (t_exp tr) (t 2)) (Redis l)
                 | None => Redis l end = Redis l2 /\ red_find (t 4) ck l2 = None).
    { destruct (t_entity tr); [|now exists l]. cbn [cache_set]. eexists. split; [reflexivity|]. rewrite red_find_set.
      destruct (String.eqb_spec tk ck) as [E|N]; [now apply tree_key_apart in E|exact F4]. }
    destruct C2 as (l2 & C2 & F2). rewrite C2 in H.
    destruct (verify_sigs w tas tr) as [[b tr']| |] eqn:EV; try discriminate H. pose proof (verify_sigs_exp _ _ _ _ _ EV) as EX.
    cbn [cache_set cache_get] in H. rewrite red_find_set in H.
    destruct (String.eqb_spec tk ck) as [E|N]; [now apply tree_key_apart in E|]. rewrite F2 in H. cbn [option_map] in H.
    destruct (tree_chains tr') as [|c r] eqn:EC; [injection H as <- _; now elim NE|]. injection H as <- <-.
    unfold resolve_cached. assert (K : chains_key hash start tas' types = ck) by (unfold ck, chains_key; now rewrite IDS).
    rewrite K. cbn [cache_get]. rewrite red_set_forever by (apply until_zero; [lia|auto]). reflexivity.
  Qed.

  (** The first resolution is as without cache. *)
  Lemma redis_first fuel w tas types start t l :
    red_find (t 0) (chains_key hash start tas types) l = None -> red_find (t 1) (tree_key hash start tas types) l = None ->
    red_find (t 4) (chains_key hash start tas types) l = None ->
    fst (resolve_cached hash fuel w tas types start t (Redis l)) = resolve_chains fuel w tas types start.
  Proof.
    intros F0 F1 F4. unfold resolve_cached, resolve_chains. cbn [cache_get]. rewrite F0. cbn [option_map cache_get].
    rewrite F1. cbn [option_map]. destruct (resolve_tree fuel w tas types start) as [[tr| |]|] eqn:ER; try reflexivity.
    set (tk := tree_key hash start tas types) in *. set (ck := chains_key hash start tas types) in *.
    assert (C2 : exists l2, match t_entity tr with
                 | Some _ => cache_set (t 2) tk (CTree tr) (until (t_exp tr) (t 2)) (Redis l)
                 | None => Redis l end = Redis l2 /\ red_find (t 4) ck l2 = None).
    { destruct (t_entity tr); [|now exists l]. cbn [cache_set]. eexists. split; [reflexivity|]. rewrite red_find_set.
      destruct (String.eqb_spec tk ck) as [E|N]; [now apply tree_key_apart in E|exact F4]. }
    destruct C2 as (l2 & C2 & F2). rewrite C2. cbn [bind].
    destruct (verify_sigs w tas tr) as [[b tr']| |] eqn:EV; try reflexivity. cbn [bind cache_set cache_get]. rewrite red_find_set.
    destruct (String.eqb_spec tk ck) as [E|N]; [now apply tree_key_apart in E|]. rewrite F2. cbn [option_map].
    destruct (tree_chains tr'); reflexivity.
  Qed.

  Theorem memory_returned fuel w tas types start t l cs c' c :
    (forall i, (zero_time + 2 <= t i)%Z) ->
    find_entry (tree_key hash start tas types) l = None -> find_entry (chains_key hash start tas types) l = None ->
    resolve_cached hash fuel w tas types start t (Memory l) = (Done (Ok cs), c') -> In c cs ->
    returned w tas types start c /\ c' = Memory l.
  Proof.
    intros T FT FC H I. rewrite memory_transparent in H by assumption. injection H as H <-. split; [|reflexivity].
    exists fuel, cs. split; [now left|exact I].
  Qed.
End Trees.
