(** Specification vocabulary: lengths of time in nanoseconds, the unit of every time in the model. *)
From Coq Require Import ZArith.

(** One millisecond, second, minute and hour. *)
Definition a_millisecond : Z := 1000000%Z.
Definition a_second : Z := 1000000000%Z.
Definition a_minute : Z := (60 * a_second)%Z.
Definition an_hour : Z := (60 * a_minute)%Z.
