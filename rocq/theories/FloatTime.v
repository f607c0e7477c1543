(** Time stamps and durations in JSON: unixtime/unixtime.go. Go's float64 is modelled by
    exact rationals and rounding to 53 significant bits, nearest, ties to even. Overflow,
    subnormal numbers, infinities and NaN are not modelled: all values here are 0 or between
    10^-9 and 2^64 in magnitude. encoding/json prints a float64 so that parsing the text
    gives the same float64 back, so a JSON number is modelled by that value. *)
From Coq Require Import QArith Qabs Qround.
From Verif Require Import Base GoVal Policy Schema Metadata Chain.
Local Open Scope Q_scope.

(** Nearest integer, ties to even. Used at unixtime/unixtime.go:18-35. *)
Definition nearest (x : Q) : Z :=
  let k := Qfloor x in
  match Qcompare (x - inject_Z k) (1 # 2) with
  | Lt => k
  | Gt => (k + 1)%Z
  | Eq => if Z.even k then k else (k + 1)%Z
  end.

Definition pow2 (e : Z) : Q := Qpower 2 e.

(** The exponent [e] with 2^e <= |x| < 2^(e+1), x <> 0. Used at unixtime/unixtime.go:18-35. *)
Definition magnitude (x : Q) : Z :=
  let e := (Z.log2 (Z.abs (Qnum x)) - Z.log2 (Zpos (Qden x)))%Z in
  if Qle_bool (pow2 e) (Qabs x) then e else (e - 1)%Z.

(** Rounding to float64. Used at unixtime/unixtime.go:18-35. *)
Definition rnd (x : Q) : Q :=
  if Qeq_bool x 0 then 0
  else let e := (magnitude x - 52)%Z in inject_Z (nearest (x / pow2 e)) * pow2 e.

(** int64(f): truncation towards zero. Used at unixtime/unixtime.go:18-35. *)
Definition trunc (x : Q) : Z := if Qle_bool 0 x then Qfloor x else (- Qfloor (- x))%Z.

(** Two's complement wrap-around of int64 arithmetic. Used at unixtime/unixtime.go:54-91. *)
Definition wrap64 (n : Z) : Z := ((n + 2 ^ 63) mod 2 ^ 64 - 2 ^ 63)%Z.

(** Unixtime.MarshalJSON: unixtime/unixtime.go:29-34 *)
Definition encode_time (t : time) : Q :=
  if is_zero_time t then 0 else rnd (rnd (inject_Z (wrap64 t)) / inject_Z 1000000000).

(** Unixtime.UnmarshalJSON: unixtime/unixtime.go:18-26. (math.Modf is exact.) *)
Definition decode_time (f : Q) : time :=
  let sec := trunc f in
  (sec * 1000000000 + trunc (rnd ((f - inject_Z sec) * inject_Z 1000000000)))%Z.

(** DurationInSeconds.MarshalJSON, UnmarshalJSON: unixtime/unixtime.go:64-71,84-86; a
    time.Duration is a number of nanoseconds in int64. *)
Definition encode_duration (d : Z) : Q := rnd (rnd (inject_Z d) / inject_Z 1000000000).
Definition decode_duration (f : Q) : Z := wrap64 (trunc f * 1000000000).

(** NewDurationInSeconds: unixtime/unixtime.go:53-55 *)
Definition new_duration (seconds : Q) : Z := trunc (rnd (seconds * inject_Z 1000000000)%Q).

(** VerifyTime with pointers, nil is None: unixtime/unixtime.go:41-50 *)
Definition verify_time_ptr (now : time) (iat exp : option time) : res unit :=
  if match iat with Some t => negb (is_zero_time t) && after t now | None => false end then Err
  else if match exp with Some t => negb (is_zero_time t) && before t now | None => false end then Err
  else Ok tt.
