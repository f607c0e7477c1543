(** The HTTP requests that the requests of a resolution lead to when the answers are kept in
    the statement cache: trustresolver.go:504-571. *)
From Coq Require Import QArith.
From Verif Require Import Base GoVal Policy Schema Metadata Chain Resolver TrustMark Refresher FloatTime Cache Requests.
Local Open Scope nat_scope.
Local Open Scope string_scope.

(** The subject and the issuer under which the answer is kept: trustresolver.go:526-532 and
    588-594. The fetch endpoint is not part of the key. *)
Definition kept_as (r : request) : string * string :=
  match r with ForConfig _ a => (a, a) | ForStatement _ _ sub iss => (sub, iss) end.

(** getEntityStatementOrConfiguration, trustresolver.go:534-571, for one request after the
    other: the HTTP requests, where [net] is what they are answered with, [t] gives the clock
    readings of each call (in the cache, for the remaining lifetime, when storing), and
    [grace] and [factor] are ResolverCacheGracePeriod and
    ResolverCacheLifetimeElapsedGraceFactor. A refresh in the background is an HTTP request
    too; when it ends and what it changes in the cache is not modelled here. *)
Fixpoint sent (grace : Z) (factor : Q) (net : request -> option stmt) (t : nat -> time * time * time)
         (i : nat) (rs : list request) (c : cache cached) : list request :=
  match rs with
  | [] => []
  | r :: rs' =>
      let '(now, t1, t2) := t i in
      let '(got, c') := get_statement now t1 t2 (fst (kept_as r)) (snd (kept_as r)) (net r) c in
      (match got with
       | Some (s, true) => if refresh_due grace factor now s then [r] else []
       | _ => [r]
       end ++ sent grace factor net t (S i) rs' c')%list
  end.
