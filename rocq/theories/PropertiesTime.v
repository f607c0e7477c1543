(** Properties of time stamps, validity windows and durations. *)
From Verif Require Import Base GoVal Policy Schema Metadata Chain FloatTime SpecTime FloatFacts TimeFacts WitnessTime.
Local Open Scope string_scope.

(** ** C48 Time window checks are exact *)

(** Missing: a time stamp that is present but equal to Go's zero time (C48_refuted); it is
    treated as absent, and C48_absent says that this is the only deviation. *)
Theorem C48_window_partial : forall now iat exp,
  iat <> Some zero_time -> exp <> Some zero_time ->
  (verify_time_ptr now iat exp = Ok tt <-> in_window now iat exp).
Proof. exact verify_time_nonzero. Qed.
Print Assumptions C48_window_partial.

Theorem C48_absent : forall now iat exp,
  verify_time_ptr now iat exp = Ok tt <-> in_window now (present iat) (present exp).
Proof. exact verify_time_present. Qed.
Print Assumptions C48_absent.

(** Also for the values of an entity statement, which has no absent time stamps. *)
Theorem C48_values : forall now iat exp,
  verify_time now iat exp = Ok tt <-> in_window now (present (Some iat)) (present (Some exp)).
Proof. exact verify_time_values. Qed.
Print Assumptions C48_values.

Example C48_case : verify_time_ptr (seconds 50) (Some (seconds 50)) (Some (seconds 50)) = Ok tt /\
  verify_time_ptr (seconds 50 + 1)%Z (Some (seconds 50)) (Some (seconds 50)) = Err /\
  verify_time_ptr (seconds 50 - 1)%Z (Some (seconds 50)) None = Err.
Proof. exact c48_case. Qed.

Theorem C48_refuted : exists now exp, verify_time_ptr now None exp = Ok tt /\ ~ in_window now None exp.
Proof. exact c48_witness. Qed.
Print Assumptions C48_refuted.

(** ** C49 Statements without expiration are rejected *)

(** False: they never expire. *)
Theorem C49_refuted : exists s, st_exp s = zero_time /\ forall now, (st_iat s <= now)%Z -> time_valid now s = true.
Proof. exact c49_witness. Qed.
Print Assumptions C49_refuted.

(** What holds: exactly the statements within the window of their present time stamps are
    valid. *)
Theorem C49_present_partial : forall now s,
  time_valid now s = true <-> in_window now (present (Some (st_iat s))) (present (Some (st_exp s))).
Proof. exact time_valid_window. Qed.
Print Assumptions C49_present_partial.

Example C49_case : st_exp with_exp <> zero_time /\ time_valid (seconds 150) with_exp = true /\
  time_valid (seconds 201) with_exp = false.
Proof. exact c49_case. Qed.

(** ** C50 Time stamps survive JSON *)

(** Proved for 1823 to 2116. Missing: the zero time and instants outside this range. *)
Theorem C50_seconds_partial : forall s, (Z.abs s <= 4611686018)%Z -> json_time (seconds s) = seconds s.
Proof. exact seconds_roundtrip. Qed.
Print Assumptions C50_seconds_partial.

(** Instants with fractions of seconds, 1677 to 2262: not equal, but close. *)
Theorem C50_close_partial : forall t, (- 2 ^ 63 <= t < 2 ^ 63)%Z -> (Z.abs (json_time t - t) <= 1500)%Z.
Proof. exact time_roundtrip_close. Qed.
Print Assumptions C50_close_partial.

Example C50_case : (Z.abs 1763337600 <= 4611686018)%Z /\ json_time (seconds 1763337600) = seconds 1763337600.
Proof. exact c50_case. Qed.

Theorem C50_zero_refuted : json_time zero_time = 0%Z /\ zero_time <> 0%Z /\ exists s, zero_time = seconds s.
Proof. exact c50_zero. Qed.
Print Assumptions C50_zero_refuted.

(** The bound 4611686018 is sharp: the next second comes back 953 ns late. *)
Theorem C50_rounding_refuted : json_time (seconds 4611686019) = (seconds 4611686019 + 953)%Z.
Proof. exact c50_late. Qed.
Print Assumptions C50_rounding_refuted.

(** A time stamp in the year 2262 comes back as one before 1970. *)
Theorem C50_overflow_refuted : (json_time (seconds 9223372037) < 0)%Z.
Proof. exact c50_overflow. Qed.
Print Assumptions C50_overflow_refuted.

(** ** C51 Durations survive JSON *)

(** Missing: durations that are not whole seconds, and those of more than 146 years. *)
Theorem C51_seconds_partial : forall s, (Z.abs s <= 4611686018)%Z -> json_duration (seconds s) = seconds s.
Proof. exact duration_roundtrip. Qed.
Print Assumptions C51_seconds_partial.

Example C51_case : json_duration (seconds 86400) = seconds 86400.
Proof. exact c51_case. Qed.

Theorem C51_refuted : exists d, (0 < d)%Z /\ json_duration d = 0%Z.
Proof. exact c51_witness. Qed.
Print Assumptions C51_refuted.

Theorem C51_rounding_refuted : exists s, (s < 2 ^ 63 / 1000000000)%Z /\ json_duration (seconds s) <> seconds s.
Proof. exact c51_late. Qed.
Print Assumptions C51_rounding_refuted.
