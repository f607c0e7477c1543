(** Specification vocabulary for time stamps. *)
From Verif Require Import Base GoVal Policy Schema Metadata Chain FloatTime.

(** [now] is within the window given by two optional limits. *)
Definition in_window (now : time) (iat exp : option time) : Prop :=
  (forall t, iat = Some t -> (t <= now)%Z) /\ (forall t, exp = Some t -> (now <= t)%Z).

(** The zero time.Time stands for an absent time stamp. *)
Definition present (t : option time) : option time :=
  match t with Some x => if Z.eqb x zero_time then None else Some x | None => None end.

(** The instant [s] seconds after the epoch. *)
Definition seconds (s : Z) : Z := (s * 1000000000)%Z.

(** Sent through JSON once. *)
Definition json_time (t : time) : time := decode_time (encode_time t).
Definition json_duration (d : Z) : Z := decode_duration (encode_duration d).
