(** Specification vocabulary for the HTTP requests of a resolution. *)
From Coq Require Import QArith.
From Verif Require Import Base GoVal Policy Schema Metadata Chain Resolver SpecResolver TrustMark Refresher FloatTime Cache Requests SpecRequests Traffic.
Local Open Scope nat_scope.
Local Open Scope string_scope.

(** The request [r] is answered with a statement. *)
Definition gets_answer (net : request -> option stmt) (r : request) : bool :=
  match net r with Some _ => true | None => false end.

(** All the clock readings are between [from] and [upto]; those of one storing are in order. *)
Definition within (from upto : time) (t : nat -> time * time * time) : Prop :=
  forall i now t1 t2, t i = (now, t1, t2) ->
    (from <= now <= upto)%Z /\ (from <= t1)%Z /\ (t1 <= t2)%Z /\ (t2 <= upto)%Z.

(** The statement is valid beyond [upto] by more than the grace period (and not until 2262,
    when the number of nanoseconds exceeds int64). *)
Definition lasts (grace : Z) (from upto : time) (s : stmt) : Prop :=
  (upto + grace < st_exp s)%Z /\ (st_exp s + (upto - from) < 2 ^ 63)%Z.

(** Everything the network answers, and every statement in the cache, is such a statement. *)
Definition lasting (grace : Z) (from upto : time) (net : request -> option stmt) (l : list (entry cached)) : Prop :=
  (forall r s, net r = Some s -> lasts grace from upto s) /\
  (forall e s, In e l -> en_val e = CStmt s -> lasts grace from upto s).

(** Whenever an entity answers, it names itself and its superiors in the same way. *)
Definition same_names (w : world) : Prop :=
  exists (name : string -> string) (superiors : string -> list string),
    forall p a ec, w_config w p a = Some ec -> st_iss ec = name a /\ st_hints ec = superiors a.

(** What the resolver sees in [w] is what these calls give it: the answer of the network, or
    what the cache has kept of it. *)
Definition answer_in (w : world) (r : request) : option stmt :=
  match r with ForConfig p a => w_config w p a | ForStatement p ep sub iss => w_fetch w p ep sub iss end.
Fixpoint seen_through (net : request -> option stmt) (t : nat -> time * time * time) (w : world)
         (i : nat) (rs : list request) (c : cache cached) : Prop :=
  match rs with
  | [] => True
  | r :: rs' =>
      let '(now, t1, t2) := t i in
      let '(got, c') := get_statement now t1 t2 (fst (kept_as r)) (snd (kept_as r)) (net r) c in
      answer_in w r = option_map fst got /\ seen_through net t w (S i) rs' c'
  end.
