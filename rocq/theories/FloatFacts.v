From Coq Require Import QArith Qabs Qround Qpower Lqa Lia Setoid Morphisms.
From Verif Require Import Base GoVal Policy Schema Metadata Chain FloatTime.
Local Open Scope Q_scope.

Lemma pow2_pos e : 0 < pow2 e.
Proof. unfold pow2. apply Qpower_0_lt. reflexivity. Qed.
Lemma pow2_nz e : ~ pow2 e == 0.
Proof. intros H. pose proof (pow2_pos e). rewrite H in H0. now apply Qlt_irrefl in H0. Qed.
Lemma pow2_plus a b : pow2 (a + b) == pow2 a * pow2 b.
Proof. unfold pow2. apply Qpower_plus. intros H. discriminate. Qed.
Lemma pow2_Z n : (0 <= n)%Z -> pow2 n == inject_Z (2 ^ n).
Proof.
  intros H. unfold pow2. change 2 with (inject_Z 2). symmetry. apply Zpower_Qpower. exact H.
Qed.
Lemma pow2_le a b : (a <= b)%Z -> pow2 a <= pow2 b.
Proof.
  intros H. replace b with (a + (b - a))%Z by lia. rewrite pow2_plus.
  rewrite <- (Qmult_1_r (pow2 a)) at 1. apply Qmult_le_l; [apply pow2_pos|].
  rewrite pow2_Z by lia. change 1 with (inject_Z 1). rewrite <- Zle_Qle. apply (Z.pow_le_mono_r 2 0 (b - a)); lia.
Qed.
Lemma pow2_lt_inv a b : pow2 a < pow2 b -> (a < b)%Z.
Proof.
  intros H. destruct (Z_lt_le_dec a b) as [|L]; auto. apply pow2_le in L.
  exfalso. eapply Qlt_not_le; eauto.
Qed.

(** ** nearest *)
Lemma nearest_err x : Qabs (inject_Z (nearest x) - x) <= 1 # 2.
Proof.
  unfold nearest. pose proof (Qfloor_le x) as H1. pose proof (Qlt_floor x) as H2.
  set (k := Qfloor x) in *. rewrite inject_Z_plus in H2. change (inject_Z 1) with 1 in H2.
  apply Qabs_Qle_condition.
  destruct (Qcompare_spec (x - inject_Z k) (1 # 2)) as [E|E|E].
  - destruct (Z.even k); [|rewrite inject_Z_plus; change (inject_Z 1) with 1]; split; lra.
  - split; lra.
  - rewrite inject_Z_plus. change (inject_Z 1) with 1. split; lra.
Qed.

Lemma nearest_unique x n : Qabs (inject_Z n - x) < 1 # 2 -> nearest x = n.
Proof.
  intros H. apply Qabs_Qlt_condition in H. destruct H as [H1 H2].
  pose proof (nearest_err x) as E. apply Qabs_Qle_condition in E. destruct E as [E1 E2].
  assert (A : inject_Z (nearest x) < inject_Z (n + 1)) by (rewrite inject_Z_plus; change (inject_Z 1) with 1; lra).
  assert (B : inject_Z n < inject_Z (nearest x + 1)) by (rewrite inject_Z_plus; change (inject_Z 1) with 1; lra).
  rewrite <- Zlt_Qlt in A, B. lia.
Qed.

#[export] Instance nearest_proper : Proper (Qeq ==> eq) nearest.
Proof.
  intros x y E. unfold nearest. assert (F : Qfloor x = Qfloor y) by now rewrite E.
  rewrite F. rewrite E. reflexivity.
Qed.

Lemma nearest_Z n : nearest (inject_Z n) = n.
Proof. apply nearest_unique. setoid_replace (inject_Z n - inject_Z n) with 0 by ring. reflexivity. Qed.

(** ** magnitude *)
Lemma magnitude_spec x : ~ x == 0 -> pow2 (magnitude x) <= Qabs x < pow2 (magnitude x + 1).
Proof.
  intros NZ. destruct x as [n d]. unfold magnitude. cbn [Qnum Qden].
  assert (Hn : (0 < Z.abs n)%Z).
  { destruct (Z.eq_dec n 0) as [->|]; [exfalso; apply NZ; reflexivity|lia]. }
  destruct (Z.log2_spec (Z.abs n) Hn) as [N1 N2].
  destruct (Z.log2_spec (Zpos d) eq_refl) as [D1 D2].
  pose proof (Z.log2_nonneg (Z.abs n)) as LN. pose proof (Z.log2_nonneg (Zpos d)) as LD.
  set (a := Z.log2 (Z.abs n)) in *. set (b := Z.log2 (Zpos d)) in *.
  assert (EA : Qabs (n # d) == inject_Z (Z.abs n) / inject_Z (Zpos d)).
  { unfold Qabs. rewrite (Qmake_Qdiv (Z.abs n) d). reflexivity. }
  assert (Dpos : 0 < inject_Z (Zpos d)) by reflexivity.
  assert (P1 : pow2 a <= inject_Z (Z.abs n)) by (rewrite pow2_Z by lia; rewrite <- Zle_Qle; exact N1).
  assert (P2 : inject_Z (Z.abs n) < pow2 (a + 1)) by (rewrite pow2_Z by lia; rewrite <- Zlt_Qlt; exact N2).
  assert (Q1 : pow2 b <= inject_Z (Zpos d)) by (rewrite pow2_Z by lia; rewrite <- Zle_Qle; exact D1).
  assert (Q2 : inject_Z (Zpos d) < pow2 (b + 1)) by (rewrite pow2_Z by lia; rewrite <- Zlt_Qlt; exact D2).
  assert (U : Qabs (n # d) < pow2 (a - b + 1)).
  { rewrite EA. apply Qlt_shift_div_r; auto.
    apply Qlt_le_trans with (pow2 (a + 1)); auto.
    replace (a + 1)%Z with ((a - b + 1) + b)%Z by lia. rewrite pow2_plus. apply Qmult_le_l; auto. apply pow2_pos. }
  assert (L : pow2 (a - b - 1) <= Qabs (n # d)).
  { rewrite EA. apply Qle_shift_div_l; auto.
    apply Qle_trans with (pow2 a); auto.
    replace a with ((a - b - 1) + (b + 1))%Z at 2 by lia. rewrite (pow2_plus (a - b - 1)).
    apply Qmult_le_l; [apply pow2_pos|]. now apply Qlt_le_weak. }
  destruct (Qle_bool (pow2 (a - b)) (Qabs (n # d))) eqn:E.
  - apply Qle_bool_iff in E. split; auto.
  - split; auto. replace (a - b - 1 + 1)%Z with (a - b)%Z by lia.
    apply Qnot_le_lt. intros K. apply Qle_bool_iff in K. congruence.
Qed.

Lemma magnitude_unique x e : pow2 e <= Qabs x < pow2 (e + 1) -> magnitude x = e.
Proof.
  intros [H1 H2]. assert (NZ : ~ x == 0).
  { intros E. rewrite E in H1. change (Qabs 0) with 0 in H1. pose proof (pow2_pos e). lra. }
  destruct (magnitude_spec x NZ) as [M1 M2].
  assert (A : pow2 e < pow2 (magnitude x + 1)) by lra. assert (B : pow2 (magnitude x) < pow2 (e + 1)) by lra.
  apply pow2_lt_inv in A, B. lia.
Qed.

Lemma magnitude_eq x y : ~ x == 0 -> x == y -> magnitude x = magnitude y.
Proof.
  intros NZ E. assert (NZ' : ~ y == 0) by (now rewrite <- E).
  symmetry. apply magnitude_unique. destruct (magnitude_spec x NZ) as [H1 H2]. rewrite <- E. auto.
Qed.

(** ** rounding *)
Lemma rnd_nz x : ~ x == 0 ->
  rnd x = inject_Z (nearest (x / pow2 (magnitude x - 52))) * pow2 (magnitude x - 52).
Proof.
  intros NZ. unfold rnd. destruct (Qeq_bool x 0) eqn:E; [|reflexivity].
  apply Qeq_bool_iff in E. contradiction.
Qed.

Lemma rnd_z x : x == 0 -> rnd x = 0.
Proof. intros E. unfold rnd. apply Qeq_bool_iff in E. now rewrite E. Qed.

#[export] Instance rnd_proper : Proper (Qeq ==> Qeq) rnd.
Proof.
  intros x y E. destruct (Qeq_dec x 0) as [Z|NZ].
  - rewrite (rnd_z x Z), rnd_z; [reflexivity|]. now rewrite <- E.
  - rewrite (rnd_nz x NZ), rnd_nz by (now rewrite <- E). rewrite (magnitude_eq x y NZ E). now rewrite E.
Qed.

Lemma rnd_err x e : Qabs x < pow2 (e + 1) -> Qabs (rnd x - x) <= pow2 (e - 53).
Proof.
  intros H. destruct (Qeq_dec x 0) as [Z|NZ].
  - rewrite (rnd_z x Z). setoid_replace (0 - x) with 0 by (rewrite Z; ring). apply Qlt_le_weak, pow2_pos.
  - rewrite (rnd_nz x NZ). destruct (magnitude_spec x NZ) as [M1 M2].
    assert (L : (magnitude x <= e)%Z).
    { assert (A : pow2 (magnitude x) < pow2 (e + 1)) by lra. apply pow2_lt_inv in A. lia. }
    set (u := pow2 (magnitude x - 52)). pose proof (pow2_pos (magnitude x - 52)) as U. fold u in U.
    pose proof (pow2_nz (magnitude x - 52)) as UN. fold u in UN.
    setoid_replace (inject_Z (nearest (x / u)) * u - x) with ((inject_Z (nearest (x / u)) - x / u) * u) by (field; exact UN).
    rewrite Qabs_Qmult, (Qabs_pos u) by lra.
    apply Qle_trans with ((1 # 2) * u).
    + apply Qmult_le_compat_r; [apply nearest_err|lra].
    + setoid_replace ((1 # 2) * u) with (pow2 (magnitude x - 53)).
      * apply pow2_le. lia.
      * unfold u. replace (magnitude x - 52)%Z with (1 + (magnitude x - 53))%Z by lia. rewrite pow2_plus.
        change (pow2 1) with 2. field.
Qed.

(** A number with at most 53 significant bits is not changed. *)
Lemma rnd_exact x m e : x == inject_Z m * pow2 e -> (Z.abs m < 2 ^ 53)%Z -> rnd x == x.
Proof.
  intros E H. destruct (Qeq_dec x 0) as [Z|NZ]; [rewrite (rnd_z x Z); now symmetry|].
  rewrite (rnd_nz x NZ). destruct (magnitude_spec x NZ) as [M1 M2].
  set (g := magnitude x) in *.
  assert (L : (g - 52 <= e)%Z).
  { assert (A : pow2 g < pow2 (e + 53)).
    { eapply Qle_lt_trans; [exact M1|]. rewrite E, Qabs_Qmult, (Qabs_pos (pow2 e)) by (apply Qlt_le_weak, pow2_pos).
      replace (e + 53)%Z with (53 + e)%Z by lia. rewrite pow2_plus. apply Qmult_lt_r; [apply pow2_pos|].
      rewrite (pow2_Z 53) by lia. change (Qabs (inject_Z m)) with (inject_Z (Z.abs m)).
      rewrite <- Zlt_Qlt. exact H. }
    apply pow2_lt_inv in A. lia. }
  assert (K : x / pow2 (g - 52) == inject_Z (m * 2 ^ (e - (g - 52)))).
  { rewrite inject_Z_mult, <- pow2_Z by lia. rewrite E.
    setoid_replace (pow2 e) with (pow2 (e - (g - 52)) * pow2 (g - 52))
      by (rewrite <- pow2_plus; now replace (e - (g - 52) + (g - 52))%Z with e by lia).
    field. apply pow2_nz. }
  rewrite K, nearest_Z, <- K. field. apply pow2_nz.
Qed.

(** ** truncation *)
#[export] Instance trunc_proper : Proper (Qeq ==> eq) trunc.
Proof.
  intros x y E. unfold trunc. replace (Qle_bool 0 y) with (Qle_bool 0 x).
  - destruct (Qle_bool 0 x); rewrite E; reflexivity.
  - destruct (Qle_bool 0 x) eqn:A, (Qle_bool 0 y) eqn:B; auto.
    + apply Qle_bool_iff in A. rewrite E in A. apply Qle_bool_iff in A. congruence.
    + apply Qle_bool_iff in B. rewrite <- E in B. apply Qle_bool_iff in B. congruence.
Qed.

Lemma trunc_Z n : trunc (inject_Z n) = n.
Proof.
  unfold trunc. destruct (Qle_bool 0 (inject_Z n)); [apply Qfloor_Z|].
  rewrite <- inject_Z_opp, Qfloor_Z. lia.
Qed.

Lemma trunc_err x : Qabs (inject_Z (trunc x) - x) < 1.
Proof.
  apply Qabs_Qlt_condition. unfold trunc. destruct (Qle_bool 0 x).
  - pose proof (Qfloor_le x). pose proof (Qlt_floor x) as H2. rewrite inject_Z_plus in H2. change (inject_Z 1) with 1 in H2.
    split; lra.
  - pose proof (Qfloor_le (- x)). pose proof (Qlt_floor (- x)) as H2. rewrite inject_Z_plus in H2. change (inject_Z 1) with 1 in H2.
    rewrite inject_Z_opp. split; lra.
Qed.

(** ** time stamps *)
Lemma wrap64_id n : (- 2 ^ 63 <= n < 2 ^ 63)%Z -> wrap64 n = n.
Proof. intros H. unfold wrap64. rewrite Z.mod_small; lia. Qed.

Lemma decode_time_eq x y : x == y -> decode_time x = decode_time y.
Proof.
  intros E. unfold decode_time. assert (T : trunc x = trunc y) by now apply trunc_proper.
  rewrite T. f_equal. apply trunc_proper. apply rnd_proper. rewrite E. reflexivity.
Qed.

Definition exact_seconds : Z := 4611686018.

Lemma exact_value s : (Z.abs s <= exact_seconds)%Z ->
  rnd (rnd (inject_Z (s * 1000000000)) / inject_Z 1000000000) == inject_Z s.
Proof.
  unfold exact_seconds. intros H.
  assert (E1 : rnd (inject_Z (s * 1000000000)) == inject_Z (s * 1000000000)).
  { apply (rnd_exact _ (s * 1953125) 9).
    - rewrite (pow2_Z 9) by lia. rewrite <- inject_Z_mult. rewrite <- Z.mul_assoc. reflexivity.
    - change (2 ^ 53)%Z with 9007199254740992%Z. lia. }
  rewrite E1. assert (E2 : inject_Z (s * 1000000000) / inject_Z 1000000000 == inject_Z s).
  { rewrite inject_Z_mult. field. }
  rewrite E2. apply (rnd_exact _ s 0).
  - change (pow2 0) with 1. ring.
  - change (2 ^ 53)%Z with 9007199254740992%Z. lia.
Qed.

Theorem seconds_roundtrip s :
  (Z.abs s <= exact_seconds)%Z -> decode_time (encode_time (s * 1000000000)%Z) = (s * 1000000000)%Z.
Proof.
  intros H. unfold encode_time.
  assert (NZ : is_zero_time (s * 1000000000)%Z = false).
  { apply Z.eqb_neq. unfold zero_time, exact_seconds in *. lia. }
  rewrite NZ. rewrite wrap64_id by (unfold exact_seconds in H; change (2 ^ 63)%Z with 9223372036854775808%Z; lia).
  set (f := rnd _). assert (F : f == inject_Z s) by (apply exact_value; exact H).
  rewrite (decode_time_eq _ _ F). unfold decode_time. rewrite trunc_Z.
  rewrite (rnd_z ((inject_Z s - inject_Z s) * inject_Z 1000000000)) by ring. change (trunc 0) with 0%Z. lia.
Qed.

Theorem duration_roundtrip s :
  (Z.abs s <= exact_seconds)%Z -> decode_duration (encode_duration (s * 1000000000)%Z) = (s * 1000000000)%Z.
Proof.
  intros H. unfold encode_duration, decode_duration. 
  rewrite (trunc_proper _ _ (exact_value s H)), trunc_Z.
  apply wrap64_id. unfold exact_seconds in H. change (2 ^ 63)%Z with 9223372036854775808%Z. lia.
Qed.

Ltac consts :=
  repeat match goal with
         | |- context [inject_Z (Zpos ?p)] => change (inject_Z (Zpos p)) with (Zpos p # 1)
         | |- context [inject_Z (- Zpos ?p)] => change (inject_Z (- Zpos p)) with (Zneg p # 1)
         | |- context [inject_Z (Zneg ?p)] => change (inject_Z (Zneg p)) with (Zneg p # 1)
         | H : context [inject_Z (Zpos ?p)] |- _ => change (inject_Z (Zpos p)) with (Zpos p # 1) in H
         | H : context [inject_Z (- Zpos ?p)] |- _ => change (inject_Z (- Zpos p)) with (Zneg p # 1) in H
         end.

(** Any instant in the range of UnixNano comes back within 1500 ns. *)
Theorem time_roundtrip_close t :
  (- 2 ^ 63 <= t < 2 ^ 63)%Z -> (Z.abs (decode_time (encode_time t) - t) <= 1500)%Z.
Proof.
  intros R. unfold encode_time.
  assert (NZ : is_zero_time t = false).
  { apply Z.eqb_neq. unfold zero_time. change (2 ^ 63)%Z with 9223372036854775808%Z in R. lia. }
  rewrite NZ, wrap64_id by exact R. clear NZ.
  set (a := rnd (inject_Z t)). set (f := rnd (a / inject_Z 1000000000)).
  assert (Ht : Qabs (inject_Z t) < pow2 (63 + 1)).
  { rewrite pow2_Z by lia. change (Qabs (inject_Z t)) with (inject_Z (Z.abs t)). rewrite <- Zlt_Qlt.
    change (2 ^ (63 + 1))%Z with 18446744073709551616%Z. change (2 ^ 63)%Z with 9223372036854775808%Z in R. lia. }
  assert (Ht' : Qabs (inject_Z t) <= pow2 63).
  { rewrite pow2_Z by lia. change (Qabs (inject_Z t)) with (inject_Z (Z.abs t)). rewrite <- Zle_Qle. lia. }
  assert (Ea : Qabs (a - inject_Z t) <= inject_Z 512).
  { destruct (Z.eq_dec (Z.abs t) (2 ^ 63)) as [E|NE].
    - assert (t = - 2 ^ 63)%Z by lia.
      assert (X : a == inject_Z t).
      { apply (rnd_exact _ (-1) 63); [|reflexivity]. subst t. reflexivity. }
      rewrite X. setoid_replace (inject_Z t - inject_Z t) with 0 by ring. discriminate.
    - assert (H62 : Qabs (inject_Z t) < pow2 (62 + 1)).
      { rewrite pow2_Z by lia. change (Qabs (inject_Z t)) with (inject_Z (Z.abs t)). rewrite <- Zlt_Qlt.
        change (62 + 1)%Z with 63%Z. lia. }
      eapply Qle_trans; [apply rnd_err; exact H62|]. change (62 - 53)%Z with 9%Z. rewrite pow2_Z by lia. apply Qle_refl. }
  apply Qabs_Qle_condition in Ea. apply Qabs_Qle_condition in Ht'. destruct Ea as [Ea1 Ea2], Ht' as [Ht1 Ht2].
  rewrite (pow2_Z 63) in Ht1, Ht2 by lia. change (2 ^ 63)%Z with 9223372036854775808%Z in *.
  set (b := a / inject_Z 1000000000).
  assert (Eb : b * inject_Z 1000000000 == a) by (unfold b; field; discriminate).
  assert (Hb : Qabs b < pow2 (33 + 1)).
  { rewrite pow2_Z by lia. change (2 ^ (33 + 1))%Z with 17179869184%Z. apply Qabs_Qlt_condition. consts; split; lra. }
  pose proof (rnd_err b 33 Hb) as Ef. change (rnd b) with f in Ef. change (33 - 53)%Z with (-20)%Z in Ef.
  change (pow2 (-20)) with (1 # 1048576) in Ef.
  apply Qabs_Qle_condition in Ef. destruct Ef as [Ef1 Ef2].
  unfold decode_time. set (sec := trunc f). set (g := (f - inject_Z sec) * inject_Z 1000000000).
  pose proof (trunc_err f) as Es. fold sec in Es. apply Qabs_Qlt_condition in Es. destruct Es as [Es1 Es2].
  assert (Hg : Qabs g < pow2 (29 + 1)).
  { rewrite pow2_Z by lia. change (2 ^ (29 + 1))%Z with 1073741824%Z. unfold g. apply Qabs_Qlt_condition. consts; split; lra. }
  pose proof (rnd_err g 29 Hg) as Eg. change (29 - 53)%Z with (-24)%Z in Eg. change (pow2 (-24)) with (1 # 16777216) in Eg.
  set (h := rnd g) in *. apply Qabs_Qle_condition in Eg. destruct Eg as [Eg1 Eg2].
  pose proof (trunc_err h) as Eh. apply Qabs_Qlt_condition in Eh. destruct Eh as [Eh1 Eh2].
  assert (U : inject_Z (sec * 1000000000 + trunc h - t) < inject_Z 1500).
  { unfold Z.sub. rewrite !inject_Z_plus, inject_Z_opp, inject_Z_mult. unfold g in *. consts. lra. }
  assert (L : inject_Z (-1500) < inject_Z (sec * 1000000000 + trunc h - t)).
  { unfold Z.sub. rewrite !inject_Z_plus, inject_Z_opp, inject_Z_mult. unfold g in *. consts. lra. }
  rewrite <- Zlt_Qlt in U, L. lia.
Qed.
