(** Specification vocabulary for the requests and the delays of calls that run at the same
    time. *)
From Coq Require Import QArith.
From Verif Require Import Base GoVal Policy Schema Metadata Chain Resolver TrustMark Refresher FloatTime Cache SpecCache Together SpecTogether.
Local Open Scope nat_scope.
Local Open Scope string_scope.

(** The requests that are sent during [acts], with the subject and the issuer asked about. *)
Fixpoint requests_sent (grace : Z) (factor : Q) (net : time -> string -> string -> option stmt)
         (acts : list (time * act)) (st : tstate) : list (string * string) :=
  match acts with
  | [] => []
  | (now, a) :: acts' =>
      (match a with
       | Go i => match nth_error (snd st) i with Some (Job sub iss (Asking _)) => [(sub, iss)] | _ => [] end
       | _ => []
       end ++
       match act_at grace factor net now a st with
       | Some (st', _) => requests_sent grace factor net acts' st'
       | None => []
       end)%list
  end.

(** The calls that are begun, with the subject and the issuer asked about. *)
Definition calls_begun (acts : list (time * act)) : list (string * string) :=
  flat_map (fun x => match snd x with Call sub iss => [(sub, iss)] | _ => [] end) acts.

(** How often [q] is in the list. *)
Definition times_in (q : string * string) (l : list (string * string)) : nat :=
  List.length (filter (fun x => String.eqb (fst x) (fst q) && String.eqb (snd x) (snd q)) l).

(** The cache has [s], until [x]. *)
Definition cached_until (c : cache cached) (sub iss : string) (s : stmt) (x : option Z) : Prop :=
  find_entry (stmt_key sub iss) (match c with Memory l => l | Redis l => l end) = Some (Entry (stmt_key sub iss) (CStmt s) x).
(** Not yet expired then. *)
Definition still_there (c : cache cached) (x : option Z) (now : time) : Prop :=
  match x, c with
  | None, _ => True
  | Some x, Memory _ => (now <= x)%Z
  | Some x, Redis _ => (now / ms <= x)%Z
  end.
(** The cache has room for what happens, and a redis server does not drop the entry. *)
Definition undisturbed (c : cache cached) (sub iss : string) (acts : list (time * act)) : Prop :=
  match c with
  | Memory l => (N.of_nat (List.length l + List.length acts) <= max_size)%N
  | Redis l => forall now which, In (now, Sweep which) acts -> which (stmt_key sub iss) = false
  end.

(** Between two steps of a goroutine less than [d] passes. *)
Definition prompt (d : Z) (acts : list (time * act)) : Prop :=
  forall acts1 t i acts2 t' acts3, acts = (acts1 ++ (t, Go i) :: acts2 ++ (t', Go i) :: acts3)%list ->
    (forall t'', ~ In (t'', Go i) acts2) -> (t' <= t + d)%Z.
