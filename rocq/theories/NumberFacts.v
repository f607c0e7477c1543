(** Lemmas about Numbers.v. *)
From Coq Require Import QArith Qabs Qround Qpower Lia Lqa.
From Verif Require Import Base BaseFacts GoVal Policy Schema Metadata Chain FloatTime FloatFacts CacheLaws Numbers SpecNumbers.
Local Open Scope Q_scope.

Lemma round64_z x : x == 0 -> round64 x = 0.
Proof. intros E. unfold round64. apply Qeq_bool_iff in E. now rewrite E. Qed.
Lemma round64_nz x : ~ x == 0 -> let e := Z.max (magnitude x - 52) (-1074) in round64 x = inject_Z (nearest (x / pow2 e)) * pow2 e.
Proof. intros NZ. unfold round64. destruct (Qeq_bool x 0) eqn:E; [|reflexivity]. apply Qeq_bool_iff in E. contradiction. Qed.
#[export] Instance round64_proper : Proper (Qeq ==> Qeq) round64.
Proof.
  intros x y E. destruct (Qeq_dec x 0) as [Z|NZ].
  - rewrite (round64_z x Z), round64_z; [reflexivity|]. now rewrite <- E.
  - rewrite (round64_nz x NZ), round64_nz by (now rewrite <- E). rewrite (magnitude_eq x y NZ E). now rewrite E.
Qed.
Lemma pow2_half e : (1 # 2) * pow2 e == pow2 (e - 1).
Proof. replace e with (1 + (e - 1))%Z at 1 by lia. rewrite pow2_plus. change (pow2 1) with 2. field. Qed.
Lemma round64_close x : close (round64 x) x.
Proof.
  unfold close. change (Qpower 2 (-53)) with (pow2 (-53)). change (Qpower 2 (-1075)) with (pow2 (-1075)).
  destruct (Qeq_dec x 0) as [Z|NZ].
  - rewrite (round64_z x Z). rewrite Z. change (Qabs (0 - 0)) with 0. change (Qabs 0) with 0. pose proof (pow2_pos (-1075)). lra.
  - rewrite (round64_nz x NZ). cbv zeta. destruct (magnitude_spec x NZ) as [M1 M2]. set (e := Z.max (magnitude x - 52) (-1074)).
    set (u := pow2 e). pose proof (pow2_pos e) as U. fold u in U. pose proof (pow2_nz e) as UN. fold u in UN.
    setoid_replace (inject_Z (nearest (x / u)) * u - x) with ((inject_Z (nearest (x / u)) - x / u) * u) by (field; exact UN).
    rewrite Qabs_Qmult, (Qabs_pos u) by lra.
    apply Qle_trans with ((1 # 2) * u).
    + apply Qmult_le_compat_r; [apply nearest_err|lra].
    + unfold u. rewrite pow2_half. unfold e. destruct (Z.max_spec (magnitude x - 52) (-1074)) as [[L ->]|[L ->]].
      * change (-1074 - 1)%Z with (-1075)%Z. pose proof (Qmult_le_0_compat (Qabs x) (pow2 (-53)) (Qabs_nonneg x) (Qlt_le_weak _ _ (pow2_pos (-53)))). lra.
      * replace (magnitude x - 52 - 1)%Z with (magnitude x + -53)%Z by lia. rewrite pow2_plus.
        pose proof (Qmult_le_compat_r _ _ (pow2 (-53)) M1 (Qlt_le_weak _ _ (pow2_pos (-53)))) as K. pose proof (pow2_pos (-1075)). lra.
Qed.
Lemma round64_exact x m e : x == inject_Z m * pow2 e -> (Z.abs m < 2 ^ 53)%Z -> (-1074 <= e)%Z -> round64 x == x.
Proof.
  intros E H He. destruct (Qeq_dec x 0) as [Z|NZ]; [rewrite (round64_z x Z); now symmetry|].
  rewrite (round64_nz x NZ). destruct (magnitude_spec x NZ) as [M1 M2]. cbv zeta.
  set (g := magnitude x) in *.
  assert (L : (g - 52 <= e)%Z).
  { assert (A : pow2 g < pow2 (e + 53)).
    { eapply Qle_lt_trans; [exact M1|]. rewrite E, Qabs_Qmult, (Qabs_pos (pow2 e)) by (apply Qlt_le_weak, pow2_pos).
      replace (e + 53)%Z with (53 + e)%Z by lia. rewrite pow2_plus. apply Qmult_lt_r; [apply pow2_pos|].
      rewrite (pow2_Z 53) by lia. change (Qabs (inject_Z m)) with (inject_Z (Z.abs m)).
      rewrite <- Zlt_Qlt. exact H. }
    apply pow2_lt_inv in A. lia. }
  set (d := Z.max (g - 52) (-1074)). assert (Hd : (d <= e)%Z) by (unfold d; lia).
  assert (K : x / pow2 d == inject_Z (m * 2 ^ (e - d))).
  { rewrite inject_Z_mult, <- pow2_Z by lia. rewrite E.
    setoid_replace (pow2 e) with (pow2 (e - d) * pow2 d) by (rewrite <- pow2_plus; now replace (e - d + d)%Z with e by lia).
    field. apply pow2_nz. }
  rewrite K, nearest_Z, <- K. field. apply pow2_nz.
Qed.

(** ** Reading integers *)
Lemma lit_int_value l : l_frac l = None -> l_exp l = None -> lit_value l == inject_Z (if l_neg l then - Z.of_N (l_int l) else Z.of_N (l_int l)).
Proof.
  intros F E. unfold lit_value. rewrite F, E. cbn [frac_value]. change (Qpower 10 0) with 1. destruct (l_neg l); [rewrite inject_Z_opp|]; ring.
Qed.
Lemma read_int_spec l z : read_int l = Ok z <-> l_frac l = None /\ l_exp l = None /\ lit_value l == inject_Z z /\ int64_range z.
Proof.
  unfold read_int, int64_range. split.
  - destruct (l_frac l) eqn:F; [discriminate|]. destruct (l_exp l) eqn:E; [discriminate|]. cbv zeta.
    set (w := if l_neg l then _ else _). destruct (Z.leb_spec (- 2 ^ 63) w); [|discriminate]. destruct (Z.ltb_spec w (2 ^ 63)); [|discriminate].
    cbn [andb]. intros [= <-]. repeat split; auto. unfold w. rewrite lit_int_value by assumption. reflexivity.
  - intros (F & E & V & R). rewrite lit_int_value in V by assumption. rewrite F, E. cbv zeta. apply (proj1 (inject_Z_injective _ _)) in V. rewrite V.
    destruct (Z.leb_spec (- 2 ^ 63) z); [|lia]. destruct (Z.ltb_spec z (2 ^ 63)); [reflexivity|lia].
Qed.
Lemma int_literal_value z : lit_value (int_literal z) == inject_Z z.
Proof.
  rewrite lit_int_value by reflexivity. cbn [int_literal l_neg l_int]. rewrite Z2N.id by lia. apply (proj2 (inject_Z_injective _ _)).
  destruct (Z.ltb_spec z 0); lia.
Qed.
Lemma int_there z : int64_range z -> read_int (int_literal z) = Ok z /\ write_int z = int_literal z.
Proof. intros R. split; [|reflexivity]. apply read_int_spec. repeat split; try reflexivity; [apply int_literal_value|apply R|apply R]. Qed.

(** ** Reading floats *)
Lemma round64_err x : Qabs (round64 x - x) <= Qabs x * pow2 (-53) + pow2 (-1075).
Proof. apply (round64_close x). Qed.
Lemma overflows_spec x : overflows x = true <-> pow2 1024 <= Qabs x.
Proof. apply Qle_bool_iff. Qed.
Lemma read_float_ok l x : read_float l = Ok x -> x = round64 (lit_value l) /\ ~ pow2 1024 <= Qabs x.
Proof.
  unfold read_float. cbv zeta. destruct (overflows _) eqn:O; [discriminate|]. intros [= <-]. split; [reflexivity|]. intros H. apply overflows_spec in H. congruence.
Qed.
Lemma read_float_close l x : read_float l = Ok x -> close x (lit_value l).
Proof. intros H. apply read_float_ok in H. destruct H as [-> _]. apply round64_close. Qed.
Lemma no_overflow x : Qabs x < pow2 1023 -> overflows (round64 x) = false.
Proof.
  intros H. destruct (overflows (round64 x)) eqn:O; [|reflexivity]. apply overflows_spec in O. pose proof (round64_err x) as E. exfalso.
  assert (A : Qabs (round64 x) <= Qabs (round64 x - x) + Qabs x).
  { setoid_replace (round64 x) with (round64 x - x + x) at 1 by ring. apply Qabs_triangle. }
  assert (B : pow2 (-53) <= 1 # 2) by (unfold pow2; vm_compute; discriminate).
  assert (C : Qabs x * pow2 (-53) <= Qabs x * (1 # 2)).
  { rewrite !(Qmult_comm (Qabs x)). apply Qmult_le_compat_r; [exact B|apply Qabs_nonneg]. }
  assert (D : pow2 1024 == 2 * pow2 1023) by (change 1024%Z with (1 + 1023)%Z; rewrite pow2_plus; reflexivity).
  assert (F : pow2 (-1075) < (1 # 2) * pow2 1023) by (rewrite pow2_half; apply Qlt_le_trans with (pow2 0); [reflexivity|apply pow2_le; lia]).
  lra.
Qed.
Lemma short_bound x : short x -> Qabs x < pow2 1023.
Proof.
  intros (m & e & E & H & L & R). rewrite E, Qabs_Qmult. change (Qpower 2 e) with (pow2 e). rewrite (Qabs_pos (pow2 e)) by (apply Qlt_le_weak, pow2_pos).
  apply Qlt_le_trans with (pow2 53 * pow2 e); [|rewrite <- pow2_plus; apply pow2_le; lia].
  apply Qmult_lt_r; [apply pow2_pos|]. rewrite (pow2_Z 53) by lia. change (Qabs (inject_Z m)) with (inject_Z (Z.abs m)). rewrite <- Zlt_Qlt. exact H.
Qed.
Lemma read_float_short l : short (lit_value l) -> exists x, read_float l = Ok x /\ x == lit_value l.
Proof.
  intros S. exists (round64 (lit_value l)). unfold read_float. cbv zeta. rewrite (no_overflow _ (short_bound _ S)). split; [reflexivity|].
  destruct S as (m & e & E & H & L & _). apply (round64_exact _ m e); auto.
Qed.
Lemma short_int z : (Z.abs z < 2 ^ 53)%Z -> short (inject_Z z).
Proof. intros H. exists z, 0%Z. split; [change (Qpower 2 0) with 1; ring|lia]. Qed.
(** What is written is read as it was. *)
Lemma written_short l x l' : short (lit_value l) -> read_float l = Ok x -> writes_float x l' -> exists x', read_float l' = Ok x' /\ x' == lit_value l.
Proof. intros S R (y & W & E). exists y. split; [exact W|]. destruct (read_float_short l S) as (z & F & V). rewrite R in F. injection F as <-. now rewrite E. Qed.

(** When a number does not fit. *)
Lemma nearest_large y : inject_Z (2 ^ 53) <= Qabs (inject_Z (nearest y)) <-> inject_Z (2 ^ 53) - (1 # 2) <= Qabs y.
Proof.
  pose proof (nearest_err y) as E. set (n := nearest y) in *. set (B := inject_Z (2 ^ 53)).
  assert (T1 : Qabs (inject_Z n) <= Qabs (inject_Z n - y) + Qabs y) by (setoid_replace (inject_Z n) with (inject_Z n - y + y) at 1 by ring; apply Qabs_triangle).
  assert (T2 : Qabs y <= Qabs (inject_Z n - y) + Qabs (inject_Z n)).
  { setoid_replace y with (- (inject_Z n - y) + inject_Z n) at 1 by ring. rewrite <- (Qabs_opp (inject_Z n - y)). apply Qabs_triangle. }
  split; [intros H; lra|]. intros H. destruct (Qlt_le_dec (B - (1 # 2)) (Qabs y)) as [L|L].
  - change (Qabs (inject_Z n)) with (inject_Z (Z.abs n)) in *. assert (K : inject_Z (2 ^ 53 - 1) < inject_Z (Z.abs n)).
    { replace (2 ^ 53 - 1)%Z with (2 ^ 53 + -1)%Z by lia. rewrite inject_Z_plus. fold B. change (inject_Z (-1)) with (-1 # 1). lra. }
    rewrite <- Zlt_Qlt in K. unfold B. rewrite <- Zle_Qle. lia.
  - assert (A : Qabs y == B - (1 # 2)) by lra. unfold n, B in *. revert A. apply (Qabs_case y (fun a => a == inject_Z (2 ^ 53) - (1 # 2) -> inject_Z (2 ^ 53) <= Qabs (inject_Z (nearest y)))).
    + intros _ A. rewrite (nearest_eq _ _ A). vm_compute. discriminate.
    + intros _ A. assert (A' : y == - (inject_Z (2 ^ 53) - (1 # 2))) by (rewrite <- A; ring). rewrite (nearest_eq _ _ A'). vm_compute. discriminate.
Qed.
Lemma round64_large x : pow2 1024 <= Qabs (round64 x) <-> pow2 1024 - pow2 970 <= Qabs x.
Proof.
  assert (P : pow2 1024 == 2 * pow2 1023) by (change 1024%Z with (1 + 1023)%Z; rewrite pow2_plus; reflexivity).
  assert (P9 : pow2 970 <= pow2 1023) by (apply pow2_le; lia). pose proof (pow2_pos 1023) as P0. pose proof (pow2_pos 970) as P8.
  assert (P97 : pow2 970 < pow2 1023) by (apply Qlt_le_trans with (pow2 970 * 2); [lra|]; change 1023%Z with (970 + 53)%Z; rewrite pow2_plus, (Qmult_comm (pow2 970) 2), (Qmult_comm (pow2 970)); apply Qmult_le_compat_r; [unfold pow2; vm_compute; discriminate|lra]).
  destruct (Qlt_le_dec (Qabs x) (pow2 1023)) as [S|S].
  { split; [|lra]. intros H. apply overflows_spec in H. rewrite (no_overflow _ S) in H. discriminate. }
  assert (NZ : ~ x == 0) by (intros Z; rewrite Z in S; change (Qabs 0) with 0 in S; lra).
  rewrite (round64_nz x NZ). cbv zeta. destruct (magnitude_spec x NZ) as [M1 M2].
  assert (G : (1023 <= magnitude x)%Z) by (assert (A : pow2 1023 < pow2 (magnitude x + 1)) by lra; apply pow2_lt_inv in A; lia).
  rewrite Z.max_l by lia. set (g := magnitude x) in *. pose proof (pow2_pos (g - 52)) as U. pose proof (pow2_nz (g - 52)) as UN.
  rewrite Qabs_Qmult, (Qabs_pos (pow2 (g - 52))) by lra.
  destruct (Z.eq_dec g 1023) as [E|E].
  - rewrite E in *. change (1023 - 52)%Z with 971%Z in *. assert (D : pow2 1024 == inject_Z (2 ^ 53) * pow2 971) by (change 1024%Z with (53 + 971)%Z; rewrite pow2_plus, (pow2_Z 53) by lia; reflexivity).
    assert (D9 : pow2 970 == (1 # 2) * pow2 971) by (rewrite pow2_half; reflexivity).
    assert (Y : Qabs x == Qabs (x / pow2 971) * pow2 971) by (rewrite <- (Qabs_pos (pow2 971)) at 2 by lra; rewrite <- Qabs_Qmult; apply Qabs_wd; field; exact UN).
    rewrite D, D9, Y. split; intros H.
    + apply Qmult_le_r in H; [|exact U]. apply nearest_large in H. setoid_replace (inject_Z (2 ^ 53) * pow2 971 - (1 # 2) * pow2 971) with ((inject_Z (2 ^ 53) - (1 # 2)) * pow2 971) by ring. apply Qmult_le_compat_r; [exact H|lra].
    + apply Qmult_le_compat_r; [|lra]. apply nearest_large. apply (Qmult_le_r _ _ (pow2 971) U). setoid_replace ((inject_Z (2 ^ 53) - (1 # 2)) * pow2 971) with (inject_Z (2 ^ 53) * pow2 971 - (1 # 2) * pow2 971) by ring. exact H.
  - assert (G2 : (1024 <= g)%Z) by lia. assert (L : pow2 1024 <= pow2 g) by (apply pow2_le; lia). split; [intros _; lra|]. intros _.
    assert (K : inject_Z (2 ^ 52) <= Qabs (inject_Z (nearest (x / pow2 (g - 52))))).
    { pose proof (nearest_err (x / pow2 (g - 52))) as Er. set (y := x / pow2 (g - 52)) in *. set (n := nearest y) in *.
      assert (Y : Qabs x == Qabs y * pow2 (g - 52)) by (rewrite <- (Qabs_pos (pow2 (g - 52))) at 1 by lra; rewrite <- Qabs_Qmult; apply Qabs_wd; unfold y; field; exact UN).
      assert (Yl : inject_Z (2 ^ 52) <= Qabs y).
      { apply (Qmult_le_r _ _ (pow2 (g - 52)) U). rewrite <- Y. rewrite <- (pow2_Z 52) by lia. rewrite <- pow2_plus. replace (52 + (g - 52))%Z with g by lia. exact M1. }
      assert (T2 : Qabs y <= Qabs (inject_Z n - y) + Qabs (inject_Z n)).
      { setoid_replace y with (- (inject_Z n - y) + inject_Z n) at 1 by ring. rewrite <- (Qabs_opp (inject_Z n - y)). apply Qabs_triangle. }
      change (Qabs (inject_Z n)) with (inject_Z (Z.abs n)) in *. assert (Kz : inject_Z (2 ^ 52 - 1) < inject_Z (Z.abs n)).
      { replace (2 ^ 52 - 1)%Z with (2 ^ 52 + -1)%Z by lia. rewrite inject_Z_plus. change (inject_Z (-1)) with (-1 # 1). lra. }
      rewrite <- Zlt_Qlt in Kz. rewrite <- Zle_Qle. lia. }
    apply Qle_trans with (inject_Z (2 ^ 52) * pow2 (g - 52)); [|apply Qmult_le_compat_r; [exact K|lra]].
    rewrite <- (pow2_Z 52) by lia. rewrite <- pow2_plus. replace (52 + (g - 52))%Z with g by lia. exact L.
Qed.
Lemma read_float_fails l : read_float l = Err <-> Qpower 2 1024 - Qpower 2 970 <= Qabs (lit_value l).
Proof.
  change (Qpower 2 1024) with (pow2 1024). change (Qpower 2 970) with (pow2 970). rewrite <- round64_large, <- overflows_spec.
  unfold read_float. cbv zeta. destruct (overflows _); split; intros H; auto; discriminate.
Qed.

(** ** Time stamps *)
Lemma to_int64_in p x : (- 2 ^ 63 <= trunc x < 2 ^ 63)%Z -> to_int64 p x = trunc x.
Proof.
  intros [A B]. unfold to_int64. cbv zeta. destruct (Z.leb_spec (- 2 ^ 63) (trunc x)); [|lia]. destruct (Z.ltb_spec (trunc x) (2 ^ 63)); [reflexivity|lia].
Qed.
Lemma trunc_abs x n : Qabs x < inject_Z n -> (Z.abs (trunc x) < n + 1)%Z.
Proof.
  intros H. pose proof (trunc_err x) as E. apply Qabs_Qlt_condition in H, E. destruct H as [H1 H2], E as [E1 E2].
  assert (A : inject_Z (trunc x) < inject_Z (n + 1)) by (rewrite inject_Z_plus; change (inject_Z 1) with 1; lra).
  assert (B : inject_Z (- (n + 1)) < inject_Z (trunc x)) by (rewrite inject_Z_opp, inject_Z_plus; change (inject_Z 1) with 1; lra).
  rewrite <- Zlt_Qlt in A, B. lia.
Qed.
(** The nanoseconds of a time stamp. *)
Lemma nanos_bound f : let n := trunc (rnd ((f - inject_Z (trunc f)) * inject_Z 1000000000)) in
  (Z.abs n <= 2 ^ 30)%Z /\ Qabs (inject_Z n - (f - inject_Z (trunc f)) * inject_Z 1000000000) < 1 + (1 # 1000).
Proof.
  cbv zeta. set (g := (f - inject_Z (trunc f)) * inject_Z 1000000000).
  assert (G : Qabs g < inject_Z 1000000000).
  { pose proof (trunc_err f) as E. unfold g. rewrite Qabs_Qmult. change (Qabs (inject_Z 1000000000)) with (inject_Z 1000000000).
    setoid_replace (f - inject_Z (trunc f)) with (- (inject_Z (trunc f) - f)) by ring. rewrite Qabs_opp.
    setoid_replace (inject_Z 1000000000) with (1 * inject_Z 1000000000) at 2 by ring. apply Qmult_lt_r; [reflexivity|exact E]. }
  assert (R : Qabs (rnd g - g) <= pow2 (29 - 53)) by (apply rnd_err; eapply Qlt_trans; [exact G|reflexivity]).
  assert (P : pow2 (29 - 53) < 1 # 1000) by reflexivity.
  pose proof (trunc_err (rnd g)) as T. apply Qabs_Qlt_condition in T, G. apply Qabs_Qle_condition in R. destruct T as [T1 T2], G as [G1 G2], R as [R1 R2]. split.
  - assert (A : inject_Z (trunc (rnd g)) < inject_Z (1000000000 + 2)) by (rewrite inject_Z_plus; change (inject_Z 2) with 2; lra).
    assert (B : inject_Z (- (1000000000 + 2)) < inject_Z (trunc (rnd g))) by (rewrite inject_Z_opp, inject_Z_plus; change (inject_Z 2) with 2; lra).
    rewrite <- Zlt_Qlt in A, B. change (2 ^ 30)%Z with 1073741824%Z. lia.
  - apply Qabs_Qlt_condition. split; lra.
Qed.
Lemma div_billion n : (Z.abs n <= 2 ^ 30)%Z -> (-2 <= n / 1000000000 <= 1)%Z.
Proof.
  change (2 ^ 30)%Z with 1073741824%Z. intros H. split; [apply Z.div_le_lower_bound; lia|]. apply Z.lt_succ_r. apply Z.div_lt_upper_bound; lia.
Qed.
(** As long as the seconds fit, the model of the other files applies. *)
Lemma read_stamp_in p l f : read_float l = Ok f -> Qabs f < inject_Z (2 ^ 62 + 2 ^ 20) -> read_stamp p l = Ok (decode_time f).
Proof.
  intros R H. unfold read_stamp. rewrite R. cbn [bind]. cbv zeta. f_equal. unfold decode_time. cbv zeta.
  destruct (nanos_bound f) as [N _]. cbv zeta in N. set (n := trunc (rnd ((f - inject_Z (trunc f)) * inject_Z 1000000000))) in *.
  apply trunc_abs in H. set (s := trunc f) in *.
  change (2 ^ 62 + 2 ^ 20 + 1)%Z with 4611686018428436481%Z in H. pose proof (div_billion n N) as D. change (2 ^ 30)%Z with 1073741824%Z in N.
  rewrite !to_int64_in; rewrite ?trunc_Z; try (fold n; change (2 ^ 63)%Z with 9223372036854775808%Z; lia).
  fold n. unfold time_unix, epoch_seconds. rewrite wrap64_id by (change (2 ^ 63)%Z with 9223372036854775808%Z; lia).
  pose proof (Z.div_mod n 1000000000 ltac:(lia)) as M. lia.
Qed.
Lemma decode_time_err f : Qabs (inject_Z (decode_time f) - f * inject_Z 1000000000) < 1 + (1 # 1000).
Proof.
  unfold decode_time. destruct (nanos_bound f) as [_ N]. cbv zeta in N. rewrite inject_Z_plus, inject_Z_mult.
  set (n := inject_Z (trunc (rnd _))) in *. setoid_replace (inject_Z (trunc f) * inject_Z 1000000000 + n - f * inject_Z 1000000000)
    with (n - (f - inject_Z (trunc f)) * inject_Z 1000000000) by ring. exact N.
Qed.
Lemma read_stamp_near p l : Qabs (lit_value l) < Qpower 2 62 ->
  exists t, read_stamp p l = Ok t /\ Qabs (inject_Z t - instant (lit_value l)) <= tolerance (lit_value l).
Proof.
  change (Qpower 2 62) with (pow2 62). intros H. set (v := lit_value l) in *. set (f := round64 v).
  assert (O : overflows f = false) by (apply no_overflow; eapply Qlt_le_trans; [exact H|]; apply pow2_le; lia).
  assert (R : read_float l = Ok f) by (unfold read_float; fold v; cbv zeta; fold f; now rewrite O).
  pose proof (round64_err v) as E. fold f in E.
  assert (T : Qabs f <= Qabs (f - v) + Qabs v) by (setoid_replace f with (f - v + v) at 1 by ring; apply Qabs_triangle).
  assert (B1 : Qabs v * pow2 (-53) <= pow2 9).
  { change 9%Z with (62 + -53)%Z. rewrite pow2_plus. apply Qmult_le_compat_r; [lra|apply Qlt_le_weak, pow2_pos]. }
  assert (B2 : pow2 (-1075) <= pow2 (-100)) by (apply pow2_le; lia). assert (B3 : pow2 (-100) * inject_Z 1000000000 < 1 # 1000) by reflexivity. assert (B4 : pow2 (-100) < 1) by reflexivity.
  exists (decode_time f). split.
  - apply read_stamp_in; [exact R|]. rewrite inject_Z_plus, <- !pow2_Z by lia. assert (B5 : pow2 9 + 1 < pow2 20) by reflexivity. lra.
  - pose proof (decode_time_err f) as D. unfold instant, tolerance. change (Qpower 2 (-53)) with (pow2 (-53)). fold v.
    assert (S : Qabs (f * inject_Z 1000000000 - v * inject_Z 1000000000) <= (Qabs v * pow2 (-53) + pow2 (-1075)) * inject_Z 1000000000).
    { setoid_replace (f * inject_Z 1000000000 - v * inject_Z 1000000000) with ((f - v) * inject_Z 1000000000) by ring. rewrite Qabs_Qmult. change (Qabs (inject_Z 1000000000)) with (inject_Z 1000000000).
      apply Qmult_le_compat_r; [exact E|]. discriminate. }
    assert (B6 : pow2 (-1075) * inject_Z 1000000000 <= pow2 (-100) * inject_Z 1000000000) by (apply Qmult_le_compat_r; [exact B2|discriminate]).
    setoid_replace (inject_Z (decode_time f) - v * inject_Z 1000000000) with (inject_Z (decode_time f) - f * inject_Z 1000000000 + (f * inject_Z 1000000000 - v * inject_Z 1000000000)) by ring.
    eapply Qle_trans; [apply Qabs_triangle|]. setoid_replace (Qabs v * inject_Z 1000000000 * pow2 (-53) + 2) with (Qabs v * pow2 (-53) * inject_Z 1000000000 + 2) by ring.
    setoid_replace ((Qabs v * pow2 (-53) + pow2 (-1075)) * inject_Z 1000000000) with (Qabs v * pow2 (-53) * inject_Z 1000000000 + pow2 (-1075) * inject_Z 1000000000) in S by ring. lra.
Qed.
(** Whole seconds are exact. *)
Lemma read_stamp_seconds p l z : lit_value l == inject_Z z -> (Z.abs z < 2 ^ 53)%Z -> read_stamp p l = Ok (z * 1000000000)%Z.
Proof.
  intros V H. destruct (read_float_short l) as (f & R & F); [destruct (short_int z H) as (m & e & E & K); exists m, e; split; [now rewrite V|exact K]|].
  assert (F' : f == inject_Z z) by (now rewrite F).
  rewrite (read_stamp_in p l f R).
  - f_equal. rewrite (decode_time_eq _ _ F'). unfold decode_time. rewrite trunc_Z. rewrite (rnd_z ((inject_Z z - inject_Z z) * inject_Z 1000000000)) by ring. change (trunc 0) with 0%Z. lia.
  - rewrite F'. change (Qabs (inject_Z z)) with (inject_Z (Z.abs z)). rewrite <- Zlt_Qlt. change (2 ^ 53)%Z with 9007199254740992%Z in H. change (2 ^ 62 + 2 ^ 20)%Z with 4611686018428436480%Z. lia.
Qed.
Lemma verify_time_iff now i e : i <> zero_time -> e <> zero_time -> (verify_time now i e = Ok tt <-> (i <= now <= e)%Z).
Proof.
  intros Ni Ne. unfold verify_time, is_zero_time, after, before. apply Z.eqb_neq in Ni, Ne. rewrite Ni, Ne. cbn [negb andb].
  destruct (Z.ltb_spec now i); [split; [discriminate|lia]|]. destruct (Z.ltb_spec e now); [split; [discriminate|lia]|]. split; [lia|reflexivity].
Qed.
Lemma window_seconds p now iat exp i e : lit_value iat == inject_Z i -> lit_value exp == inject_Z e -> (0 <= i < 2 ^ 53)%Z -> (0 <= e < 2 ^ 53)%Z ->
  (window_of p now iat exp = Ok tt <-> (i * 1000000000 <= now <= e * 1000000000)%Z).
Proof.
  intros Vi Ve Hi He. unfold window_of. rewrite (read_stamp_seconds p iat i Vi) by lia. rewrite (read_stamp_seconds p exp e Ve) by lia. cbn [bind].
  apply verify_time_iff; unfold zero_time; lia.
Qed.
Lemma stamp_nonneg l t : 0 <= lit_value l < Qpower 2 62 -> Qabs (inject_Z t - instant (lit_value l)) <= tolerance (lit_value l) -> t <> zero_time.
Proof.
  intros [A B] H E. subst t. unfold instant, tolerance in H. change (Qpower 2 (-53)) with (pow2 (-53)) in H. rewrite (Qabs_pos (lit_value l)) in H by exact A.
  set (v := lit_value l) in *. apply Qabs_Qle_condition in H. destruct H as [H _].
  assert (K : v * inject_Z 1000000000 * pow2 (-53) <= v * inject_Z 1000000000).
  { rewrite <- (Qmult_1_r (v * inject_Z 1000000000)) at 2. rewrite !(Qmult_comm (v * inject_Z 1000000000)). apply Qmult_le_compat_r; [unfold pow2; vm_compute; discriminate|].
    apply Qmult_le_0_compat; [exact A|discriminate]. }
  assert (Z : inject_Z zero_time < -3 # 1) by reflexivity. lra.
Qed.
Lemma window_near p now iat exp : 0 <= lit_value iat < Qpower 2 62 -> 0 <= lit_value exp < Qpower 2 62 ->
  (instant (lit_value iat) + tolerance (lit_value iat) <= inject_Z now <= instant (lit_value exp) - tolerance (lit_value exp) -> window_of p now iat exp = Ok tt) /\
  (window_of p now iat exp = Ok tt -> instant (lit_value iat) - tolerance (lit_value iat) <= inject_Z now <= instant (lit_value exp) + tolerance (lit_value exp)).
Proof.
  intros Hi He. assert (Ai : Qabs (lit_value iat) < Qpower 2 62) by (rewrite Qabs_pos; apply Hi). assert (Ae : Qabs (lit_value exp) < Qpower 2 62) by (rewrite Qabs_pos; apply He).
  destruct (read_stamp_near p iat Ai) as (i & Ri & Ni). destruct (read_stamp_near p exp Ae) as (e & Re & Ne).
  unfold window_of. rewrite Ri, Re. cbn [bind]. pose proof (verify_time_iff now i e (stamp_nonneg iat i Hi Ni) (stamp_nonneg exp e He Ne)) as W.
  apply Qabs_Qle_condition in Ni, Ne. destruct Ni as [I1 I2], Ne as [E1 E2]. rewrite W, !Zle_Qle. split; intros [A B]; lra.
Qed.

(** ** Time stamps that do not fit *)
Lemma round64_at_least v k : (0 <= k)%Z -> pow2 k <= v -> pow2 k <= round64 v.
Proof.
  intros K H. pose proof (pow2_pos k) as P. assert (NZ : ~ v == 0) by (intros Z; rewrite Z in H; lra).
  rewrite (round64_nz v NZ). cbv zeta. destruct (magnitude_spec v NZ) as [M1 M2]. rewrite (Qabs_pos v) in M1, M2 by lra.
  assert (G : (k <= magnitude v)%Z) by (assert (A : pow2 k < pow2 (magnitude v + 1)) by lra; apply pow2_lt_inv in A; lia).
  rewrite Z.max_l by lia. set (g := magnitude v) in *.
  assert (Y : pow2 52 <= v / pow2 (g - 52)).
  { apply Qle_shift_div_l; [apply pow2_pos|]. rewrite <- pow2_plus. replace (52 + (g - 52))%Z with g by lia. exact M1. }
  apply nearest_mono in Y. rewrite nearest_pow2 in Y by lia. apply Qle_trans with (pow2 g); [now apply pow2_le|].
  replace g with (52 + (g - 52))%Z at 1 by lia. rewrite pow2_plus. apply Qmult_le_compat_r; [|apply Qlt_le_weak, pow2_pos].
  rewrite (pow2_Z 52) by lia. rewrite <- Zle_Qle. exact Y.
Qed.
Lemma read_stamp_far p l t : Qpower 2 63 <= lit_value l -> read_stamp p l = Ok t -> (t < - 2 ^ 62 * 1000000000)%Z.
Proof.
  change (Qpower 2 63) with (pow2 63). intros H. unfold read_stamp. destruct (read_float l) as [f| |] eqn:R; try discriminate. cbn [bind]. cbv zeta. intros [= <-].
  apply read_float_ok in R. destruct R as [-> _]. set (f := round64 (lit_value l)). assert (F : pow2 63 <= f) by (apply round64_at_least; [lia|exact H]).
  destruct (nanos_bound f) as [N _]. cbv zeta in N. set (n := trunc (rnd ((f - inject_Z (trunc f)) * inject_Z 1000000000))) in *.
  pose proof (div_billion n N) as D. change (2 ^ 30)%Z with 1073741824%Z in N.
  assert (S : (2 ^ 63 <= trunc f)%Z).
  { unfold trunc. assert (P : Qle_bool 0 f = true) by (apply Qle_bool_iff; pose proof (pow2_pos 63); lra). rewrite P.
    rewrite (pow2_Z 63) in F by lia. apply Qfloor_resp_le in F. rewrite Qfloor_Z in F. exact F. }
  rewrite (to_int64_in p (rnd _)) by (fold n; change (2 ^ 63)%Z with 9223372036854775808%Z; lia). fold n.
  assert (O : to_int64 p (inject_Z (trunc f)) = match p with Amd64 => (- 2 ^ 63)%Z | Arm64 => (2 ^ 63 - 1)%Z end).
  { unfold to_int64. rewrite trunc_Z. cbv zeta. destruct (Z.ltb_spec (trunc f) (2 ^ 63)); [lia|]. rewrite andb_false_r. destruct p; [reflexivity|].
    assert (P : Qle_bool 0 (inject_Z (trunc f)) = true) by (apply Qle_bool_iff; change 0 with (inject_Z 0); rewrite <- Zle_Qle; lia). now rewrite P. }
  rewrite O. unfold time_unix, epoch_seconds. pose proof (Z.mod_pos_bound n 1000000000 ltac:(lia)) as M. set (q := (n / 1000000000)%Z) in *. set (r := (n mod 1000000000)%Z) in *.
  change (2 ^ 62)%Z with 4611686018427387904%Z. destruct p; unfold wrap64; change (2 ^ 63)%Z with 9223372036854775808%Z; change (2 ^ 64)%Z with 18446744073709551616%Z.
  - assert (D2 : (q = -2 \/ q = -1 \/ q = 0 \/ q = 1)%Z) by lia. destruct D2 as [-> |[-> |[-> | ->]]].
    all: match goal with |- context [Z.modulo ?a ?b] => let v := eval vm_compute in (Z.modulo a b) in change (Z.modulo a b) with v end; lia.
  - assert (D2 : (q = -2 \/ q = -1 \/ q = 0 \/ q = 1)%Z) by lia. destruct D2 as [-> |[-> |[-> | ->]]].
    all: match goal with |- context [Z.modulo ?a ?b] => let v := eval vm_compute in (Z.modulo a b) in change (Z.modulo a b) with v end; lia.
Qed.
Lemma far_iat p now iat exp e : Qpower 2 63 <= lit_value iat < Qpower 2 1023 -> lit_value exp == inject_Z e -> (0 <= e < 2 ^ 53)%Z -> (0 <= now)%Z ->
  (window_of p now iat exp = Ok tt <-> (now <= e * 1000000000)%Z).
Proof.
  intros [Hi Hj] Ve He Hn. unfold window_of.
  assert (R : exists i, read_stamp p iat = Ok i).
  { unfold read_stamp, read_float. cbv zeta. rewrite no_overflow; [cbn [bind]; eauto|]. rewrite Qabs_pos; [exact Hj|]. pose proof (pow2_pos 63). unfold pow2 in *. lra. }
  destruct R as (i & R). rewrite R. apply read_stamp_far in R; [|exact Hi]. rewrite (read_stamp_seconds p exp e Ve) by lia. cbn [bind].
  change (2 ^ 62)%Z with 4611686018427387904%Z in R. rewrite verify_time_iff by (unfold zero_time; lia). lia.
Qed.
Lemma far_exp p now iat exp : Qpower 2 63 <= lit_value exp -> (0 <= now)%Z -> window_of p now iat exp <> Ok tt.
Proof.
  intros He Hn. unfold window_of. destruct (read_stamp p iat) as [i| |]; try discriminate. cbn [bind]. destruct (read_stamp p exp) as [e| |] eqn:R; try discriminate. cbn [bind].
  apply read_stamp_far in R; [|exact He]. change (2 ^ 62)%Z with 4611686018427387904%Z in R. unfold verify_time, is_zero_time, before.
  destruct (_ && after i now)%bool; [discriminate|]. destruct (Z.eqb_spec e zero_time) as [E|E]; [unfold zero_time in E; lia|]. destruct (Z.ltb_spec e now); [discriminate|lia].
Qed.
Lemma claim_short l : short (lit_value l) ->
  exists x, read_float l = Ok x /\ x == lit_value l /\ forall l', writes_float x l' -> exists x', read_float l' = Ok x' /\ x' == lit_value l.
Proof. intros S. destruct (read_float_short l S) as (x & R & V). exists x. repeat split; auto. intros l'. now apply written_short. Qed.
Lemma claim_int z : (Z.abs z < 2 ^ 53)%Z -> short (lit_value (int_literal z)) /\ lit_value (int_literal z) == inject_Z z.
Proof.
  intros H. split; [|apply int_literal_value]. destruct (short_int z H) as (m & e & E & K). exists m, e. split; [|exact K]. now rewrite int_literal_value.
Qed.

Theorem numbers_refused l : (read_int l = Err <-> forall z, read_int l <> Ok z) /\ (read_float l = Err <-> forall x, read_float l <> Ok x).
Proof.
  assert (K : forall A (r : res A), r <> Panic -> (r = Err <-> forall a, r <> Ok a)).
  { intros A [a| |] N; split; try discriminate; try reflexivity; intros H; [now destruct (H a)|now destruct N]. }
  split; apply K.
  - unfold read_int. destruct (l_frac l), (l_exp l); try discriminate. cbv zeta. destruct (_ && _)%bool; discriminate.
  - unfold read_float. cbv zeta. destruct (overflows _); discriminate.
Qed.
