(** Specification vocabulary: numbers in documents (C133, C134). *)
From Coq Require Import QArith Qabs.
From Verif Require Import Base Numbers.
Local Open Scope Q_scope.

(** What can be an integer attribute. *)
Definition int64_range (z : Z) : Prop := (- 2 ^ 63 <= z < 2 ^ 63)%Z.
(** The literal of an integer. *)
Definition int_literal (z : Z) : literal := Literal (z <? 0)%Z (Z.to_N (Z.abs z)) None None.
(** Numbers with at most 53 significant bits, and not extremely large or small; all integers up
    to 2^53 are such numbers, and halves, quarters and so on of them. *)
Definition short (x : Q) : Prop := exists m e, x == inject_Z m * Qpower 2 e /\ (Z.abs m < 2 ^ 53 /\ -1074 <= e <= 970)%Z.
(** The float64 format is exact up to one part in 2^53. *)
Definition close (x y : Q) : Prop := Qabs (x - y) <= Qabs y * Qpower 2 (-53) + Qpower 2 (-1075).
(** The instant of a number of seconds in nanoseconds, and how precise it is read. *)
Definition instant (v : Q) : Q := v * inject_Z 1000000000.
Definition tolerance (v : Q) : Q := Qabs v * inject_Z 1000000000 * Qpower 2 (-53) + 2.
