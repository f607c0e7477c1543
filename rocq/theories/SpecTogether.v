(** Specification vocabulary for calls that run at the same time. *)
From Coq Require Import QArith.
From Verif Require Import Base GoVal Policy Schema Metadata Chain Resolver TrustMark Refresher FloatTime Cache SpecCache Together.
Local Open Scope nat_scope.
Local Open Scope string_scope.

(** The statement, as it was served or as it comes out of the cache. *)
Definition same_document (s0 s : stmt) : Prop := s = s0 \/ s = stmt_msgpack s0.

(** The rest of the library uses its own keys. *)
Definition own_keys (acts : list (time * act)) : Prop :=
  forall now ss sk v ttl, In (now, Other ss sk v ttl) acts -> In ss subsystem_names /\ ss <> "entity_statement".

(** The clock does not go back. *)
Fixpoint in_time (acts : list (time * act)) : Prop :=
  match acts with
  | [] => True
  | (t, _) :: acts' => (forall t' a', In (t', a') acts' -> (t <= t')%Z) /\ in_time acts'
  end.

(** [iss] never again serves an older statement about [sub] than it has served. *)
Definition never_back (net : time -> string -> string -> option stmt) (sub iss : string) : Prop :=
  forall t t' s s', (t <= t')%Z -> net t sub iss = Some s -> net t' sub iss = Some s' -> (st_iat s <= st_iat s')%Z.

(** [P] holds after every step. *)
Fixpoint throughout (P : list job -> Prop) (grace : Z) (factor : Q) (net : time -> string -> string -> option stmt)
         (acts : list (time * act)) (st : tstate) : Prop :=
  P (snd st) /\
  match acts with
  | [] => True
  | (now, a) :: acts' =>
      match act_at grace factor net now a st with
      | Some (st', _) => throughout P grace factor net acts' st'
      | None => True
      end
  end.

(** A goroutine with an answer about [sub] that is not yet stored; a goroutine whose caller
    waits. *)
Definition holds_answer (sub iss : string) (j : job) : Prop :=
  jb_sub j = sub /\ jb_iss j = iss /\ match jb_at j with Holding _ _ | Storing _ _ _ => True | _ => False end.
Definition waited_for (j : job) : Prop :=
  match jb_at j with
  | Looking | Asking false | Holding false _ | Storing false _ _ => True
  | _ => False
  end.
(** At most one of the goroutines is such. *)
Definition at_most_one (Q : job -> Prop) (js : list job) : Prop :=
  forall i i' j j', nth_error js i = Some j -> nth_error js i' = Some j' -> Q j -> Q j' -> i = i'.

(** No outcome for [sub] is older than one before it. *)
Definition goes_forward (sub iss : string) (os : list outcome) : Prop :=
  forall os1 s os2 s' os3, os = (os1 ++ Outcome sub iss (Some s) :: os2 ++ Outcome sub iss (Some s') :: os3)%list ->
    (st_iat s <= st_iat s')%Z.

(** The same result, up to what the cache changes in a statement (which attributes of its
    metadata count as set, C123). *)
Definition alike_but_cached (r r' : run chains) : Prop :=
  match r, r' with
  | Done (Ok cs), Done (Ok cs') => map (map stmt_msgpack) cs = map (map stmt_msgpack) cs'
  | _, _ => r = r'
  end.

(** How often the goroutine [i] makes a step. *)
Definition steps_of (i : nat) (acts : list (time * act)) : nat :=
  List.length (filter (fun x => match snd x with Go k => Nat.eqb k i | _ => false end) acts).
