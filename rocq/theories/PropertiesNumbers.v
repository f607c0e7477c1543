(** Numbers in documents: theorems (C133, C134). *)
From Coq Require Import QArith Qabs.
From Verif Require Import Base GoVal Policy Schema Metadata Chain FloatTime Numbers SpecNumbers NumberFacts WitnessNumbers.
Local Open Scope Q_scope.

(** ** C133 Numbers in documents keep their value *)

(** Integer attributes (default_max_age, max_path_length, ...) read exactly the literals without
    point and exponent, exactly, and write what they have read. *)
Theorem C133_int_partial : forall l z, read_int l = Ok z <-> l_frac l = None /\ l_exp l = None /\ lit_value l == inject_Z z /\ int64_range z.
Proof. exact read_int_spec. Qed.
Print Assumptions C133_int_partial.

(** Other numbers are refused with an error. *)
Theorem C133_refused : forall l, (read_int l = Err <-> forall z, read_int l <> Ok z) /\ (read_float l = Err <-> forall x, read_float l <> Ok x).
Proof. exact numbers_refused. Qed.
Print Assumptions C133_refused.

Theorem C133_int_there : forall z, int64_range z -> read_int (int_literal z) = Ok z /\ write_int z = int_literal z.
Proof. exact int_there. Qed.
Print Assumptions C133_int_there.

Example C133_int_case : read_int (int_literal (-9223372036854775808)) = Ok (-9223372036854775808)%Z /\ read_int (int_literal 9223372036854775808) = Err /\ read_int hundred_exp = Err.
Proof. exact c133_int_case. Qed.

(** The same number written 1.0 is an error. *)
Theorem C133_int_refuted : exists l z, lit_value l == inject_Z z /\ int64_range z /\ read_int l = Err.
Proof. exact c133_int_refuted. Qed.
Print Assumptions C133_int_refuted.

(** Additional claims: numbers with at most 53 significant bits come back, also after being
    written and read again. *)
Theorem C133_claim_partial : forall l, short (lit_value l) ->
  exists x, read_float l = Ok x /\ x == lit_value l /\ forall l', writes_float x l' -> exists x', read_float l' = Ok x' /\ x' == lit_value l.
Proof. exact claim_short. Qed.
Print Assumptions C133_claim_partial.

Theorem C133_claim_int : forall z, (Z.abs z < 2 ^ 53)%Z -> short (lit_value (int_literal z)) /\ lit_value (int_literal z) == inject_Z z.
Proof. exact claim_int. Qed.
Print Assumptions C133_claim_int.

Example C133_claim_case : short (lit_value hundred_exp) /\ (exists x, read_float hundred_exp = Ok x /\ x == 100) /\ writes_float 100 (int_literal 100).
Proof. exact c133_claim_case. Qed.

(** Others do not: 9007199254740993 becomes 9007199254740992. *)
Theorem C133_claim_refuted : exists l x, lit_value l == inject_Z 9007199254740993 /\ read_float l = Ok x /\ x == inject_Z 9007199254740992.
Proof. exact c133_claim_refuted. Qed.
Print Assumptions C133_claim_refuted.

(** They are changed by at most one part in 2^53. *)
Theorem C133_close : forall l x, read_float l = Ok x -> close x (lit_value l).
Proof. exact read_float_close. Qed.
Print Assumptions C133_close.

Example C133_close_case : exists x, read_float tenth = Ok x /\ ~ x == lit_value tenth /\ close x (lit_value tenth).
Proof. exact c133_close_case. Qed.

(** A document is rejected for a number exactly if that does not fit a float64. *)
Theorem C133_fails : forall l, read_float l = Err <-> Qpower 2 1024 - Qpower 2 970 <= Qabs (lit_value l).
Proof. exact read_float_fails. Qed.
Print Assumptions C133_fails.

Example C133_fails_case : read_float huge = Err.
Proof. exact c133_fails_case. Qed.

(** ** C134 A document is accepted only between the instants its claims state *)

(** For numbers of seconds below 2^62, up to the tolerance of the float64 format ... *)
Theorem C134_window_partial : forall p now iat exp, 0 <= lit_value iat < Qpower 2 62 -> 0 <= lit_value exp < Qpower 2 62 ->
  (instant (lit_value iat) + tolerance (lit_value iat) <= inject_Z now <= instant (lit_value exp) - tolerance (lit_value exp) -> window_of p now iat exp = Ok tt) /\
  (window_of p now iat exp = Ok tt -> instant (lit_value iat) - tolerance (lit_value iat) <= inject_Z now <= instant (lit_value exp) + tolerance (lit_value exp)).
Proof. exact window_near. Qed.
Print Assumptions C134_window_partial.

(** ... and exactly for whole seconds below 2^53, however they are written. *)
Theorem C134_seconds : forall p now iat exp i e, lit_value iat == inject_Z i -> lit_value exp == inject_Z e -> (0 <= i < 2 ^ 53)%Z -> (0 <= e < 2 ^ 53)%Z ->
  (window_of p now iat exp = Ok tt <-> (i * 1000000000 <= now <= e * 1000000000)%Z).
Proof. exact window_seconds. Qed.
Print Assumptions C134_seconds.

Example C134_case : 0 <= lit_value year_2026 < Qpower 2 62 /\ 0 <= lit_value tomorrow < Qpower 2 62 /\
  window_of Amd64 1763337600000000000%Z year_2026 tomorrow = Ok tt /\ window_of Amd64 1763424000600000000%Z year_2026 tomorrow = Err.
Proof. exact c134_case. Qed.

(** The time stamps of the other theorems are these, for numbers of seconds up to 2^62. *)
Theorem C134_model : forall p l f, read_float l = Ok f -> Qabs f < inject_Z (2 ^ 62 + 2 ^ 20) -> read_stamp p l = Ok (decode_time f).
Proof. exact read_stamp_in. Qed.
Print Assumptions C134_model.

(** An issuance in the far future is accepted: int64 overflows, and the stamp is in the past. *)
Theorem C134_refuted : exists iat exp, forall p now, (0 <= now <= 1763424000 * 1000000000)%Z -> inject_Z now < instant (lit_value iat) /\ window_of p now iat exp = Ok tt.
Proof. exact c134_refuted. Qed.
Print Assumptions C134_refuted.

(** This is so for every such claim ... *)
Theorem C134_far_iat : forall p now iat exp e, Qpower 2 63 <= lit_value iat < Qpower 2 1023 -> lit_value exp == inject_Z e -> (0 <= e < 2 ^ 53)%Z -> (0 <= now)%Z ->
  (window_of p now iat exp = Ok tt <-> (now <= e * 1000000000)%Z).
Proof. exact far_iat. Qed.
Print Assumptions C134_far_iat.

(** ... and a document that expires in the far future is never accepted. *)
Theorem C134_far_exp : forall p now iat exp, Qpower 2 63 <= lit_value exp -> (0 <= now)%Z -> window_of p now iat exp <> Ok tt.
Proof. exact far_exp. Qed.
Print Assumptions C134_far_exp.

Theorem C134_exp_refuted : exists iat exp, forall p now, (0 <= now <= 2 ^ 63)%Z ->
  instant (lit_value iat) <= inject_Z now <= instant (lit_value exp) /\ window_of p now iat exp <> Ok tt.
Proof. exact c134_exp_refuted. Qed.
Print Assumptions C134_exp_refuted.
