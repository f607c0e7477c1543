(** Numbers as they are written in documents, and what the library makes of them. The other
    files take a number to be the float64 it is read as (Json.v); here it is the literal. *)
From Coq Require Import QArith Qabs Qround.
From Verif Require Import Base GoVal Policy Schema Metadata Chain FloatTime.
Local Open Scope Q_scope.

(** A number literal of JSON (RFC 8259, section 6): sign, integer part, the digits after the
    decimal point (how many, and the number they form), exponent.
    Used at unixtime/unixtime.go:18-27. *)
Record literal := Literal { l_neg : bool; l_int : N; l_frac : option (positive * N); l_exp : option Z }.

(** The number a literal denotes. Used at unixtime/unixtime.go:18-27. *)
Definition frac_value (f : option (positive * N)) : Q :=
  match f with None => 0 | Some (k, n) => inject_Z (Z.of_N n) / Qpower 10 (Zpos k) end.
Definition lit_value (l : literal) : Q :=
  (if l_neg l then -1 else 1) * (inject_Z (Z.of_N (l_int l)) + frac_value (l_frac l)) *
  Qpower 10 (match l_exp l with Some e => e | None => 0%Z end).

(** float64 in full: rounding to nearest with the smallest exponent -1074; a number that rounds
    to 2^1024 or more does not fit (strconv.ParseFloat: ErrRange).
    Used at unixtime/unixtime.go:18-27. *)
Definition round64 (x : Q) : Q :=
  if Qeq_bool x 0 then 0
  else let e := Z.max (magnitude x - 52) (-1074) in inject_Z (nearest (x / pow2 e)) * pow2 e.
Definition overflows (x : Q) : bool := Qle_bool (pow2 1024) (Qabs x).

(** Decoding into int64 or int (metadata_generated.go:185,194-195, entitystatement.go:199,
    authcode.go:28): encoding/json passes the literal to strconv.ParseInt, which accepts digits only. *)
Definition read_int (l : literal) : res Z :=
  match l_frac l, l_exp l with
  | None, None =>
      let z := if l_neg l then (- Z.of_N (l_int l))%Z else Z.of_N (l_int l) in
      if ((- 2 ^ 63 <=? z) && (z <? 2 ^ 63))%Z%bool then Ok z else Err
  | _, _ => Err
  end.
(** json.Marshal of an int64. Used at unixtime/unixtime.go:29-35. *)
Definition write_int (z : Z) : literal := Literal (z <? 0)%Z (Z.to_N (Z.abs z)) None None.

(** Decoding into float64 and, as a float64, into interface{}: additional claims
    (entitystatement.go:136-153) and operands of policies. *)
Definition read_float (l : literal) : res Q := let x := round64 (lit_value l) in if overflows x then Err else Ok x.
(** json.Marshal of a float64 writes a literal that is read as the same float64.
    Used at unixtime/unixtime.go:84-87. *)
Definition writes_float (x : Q) (l : literal) : Prop := exists y, read_float l = Ok y /\ y == x.

(** int64(f). The result for numbers out of range depends on the processor.
    Used at unixtime/unixtime.go:18-35. *)
Inductive platform := Amd64 | Arm64.
Definition to_int64 (p : platform) (x : Q) : Z :=
  let n := trunc x in
  if ((- 2 ^ 63 <=? n) && (n <? 2 ^ 63))%Z%bool then n
  else match p with
       | Amd64 => (- 2 ^ 63)%Z
       | Arm64 => if Qle_bool 0 x then (2 ^ 63 - 1)%Z else (- 2 ^ 63)%Z
       end.
(** Seconds from the year 1, from which time.Time counts, to 1970.
    Used at unixtime/unixtime.go:18-27. *)
Definition epoch_seconds : Z := 62135596800.
(** time.Unix: the seconds are moved to the year 1 in int64. Times are compared by the result.
    Used at unixtime/unixtime.go:18-27. *)
Definition time_unix (sec nsec : Z) : time :=
  let s := (sec + nsec / 1000000000)%Z in
  ((wrap64 (s + epoch_seconds) - epoch_seconds) * 1000000000 + nsec mod 1000000000)%Z.
(** Unixtime.UnmarshalJSON: unixtime/unixtime.go:18-26 *)
Definition read_stamp (p : platform) (l : literal) : res time :=
  f <- read_float l ;;
  let sec := trunc f in
  Ok (time_unix (to_int64 p (inject_Z sec)) (to_int64 p (rnd ((f - inject_Z sec) * inject_Z 1000000000)))).
(** The time window of a document: UnmarshalJSON of the two claims, then VerifyTime
    (entitystatement.go:90-92, unixtime/unixtime.go:41-51). *)
Definition window_of (p : platform) (now : time) (iat exp : literal) : res unit :=
  i <- read_stamp p iat ;; e <- read_stamp p exp ;; verify_time now i e.
