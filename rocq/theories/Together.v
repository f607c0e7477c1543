(** Calls of GetEntityConfiguration and FetchEntityStatement that run at the same time, with
    their refreshes in the background: trustresolver.go:504-571. *)
From Coq Require Import QArith.
From Verif Require Import Base GoVal Policy Schema Metadata Chain Resolver TrustMark Refresher FloatTime Cache.
Local Open Scope nat_scope.
Local Open Scope string_scope.

(** Where a goroutine is. [back]: it was started to refresh the statement in the background
    (trustresolver.go:540-554), so that nobody waits for its result. *)
Inductive phase :=
| Looking                                  (* about to look into the cache: trustresolver.go:538 *)
| Checking (s : stmt)                      (* started after a hit with [s]: trustresolver.go:540-543 *)
| Asking (back : bool)                     (* about to ask the server: trustresolver.go:563 *)
| Holding (back : bool) (s : stmt)         (* has the answer, about to read the clock: trustresolver.go:569,506 *)
| Storing (back : bool) (s : stmt) (ttl : Z) (* about to store it: trustresolver.go:505 *)
| Over.
(** A goroutine in a call for the statement of [jb_iss] about [jb_sub]. Used at
    trustresolver.go:534-571. *)
Record job := Job { jb_sub : string; jb_iss : string; jb_at : phase }.

(** What a caller gets: the statement, or none (an error). Used at trustresolver.go:534-571. *)
Record outcome := Outcome { oc_sub : string; oc_iss : string; oc_stmt : option stmt }.

(** The next step of a goroutine at the time [now]; accesses to the cache are atomic
    (gocache locks a mutex, redis executes one command after the other). The result has what
    is left of the goroutine, the goroutines it starts, the cache, and what the caller gets
    if the call returns. trustresolver.go:534-571; entityStmtCacheGet and entityStmtCacheSet
    are those of Cache.v, with the two clock readings of the latter apart. *)
Definition work (grace : Z) (factor : Q) (net : time -> string -> string -> option stmt) (now : time) (j : job) (c : cache cached)
  : phase * list job * cache cached * option outcome :=
  let '(Job sub iss p) := j in
  match p with
  | Looking =>
      match stmt_cache_get now sub iss c with
      | (Some s, c') => (Over, [Job sub iss (Checking s)], c', Some (Outcome sub iss (Some s)))
      | (None, c') => (Asking false, [], c', None)
      end
  | Checking s => (if refresh_due grace factor now s then Asking true else Over, [], c, None)
  | Asking back =>
      match net now sub iss with
      | Some s => (Holding back s, [], c, None)
      | None => (Over, [], c, if back then None else Some (Outcome sub iss None))
      end
  | Holding back s => (Storing back s (until (st_exp s) now), [], c, None)
  | Storing back s ttl =>
      (Over, [], cache_set now (stmt_key sub iss) (CStmt s) ttl c, if back then None else Some (Outcome sub iss (Some s)))
  | Over => (Over, [], c, None)
  end.

(** What happens next in the program: a goroutine calls GetEntityConfiguration (with the same
    identifier twice) or FetchEntityStatement, a goroutine makes a step, another part of the
    library uses the cache, the cache removes entries. Used at trustresolver.go:504-571,
    cache/cache.go:27-35. *)
Inductive act :=
| Call (sub iss : string)
| Go (i : nat)
| Other (subsystem subkey : string) (v : cached) (ttl : Z)
| Sweep (which : string -> bool).

Fixpoint put {A} (i : nat) (x : A) (l : list A) : list A :=
  match l, i with
  | [], _ => []
  | _ :: l', 0 => x :: l'
  | y :: l', S i' => y :: put i' x l'
  end.

(** The cache and all the goroutines so far. Used at trustresolver.go:504-571. *)
Definition tstate := (cache cached * list job)%type.
Definition act_at (grace : Z) (factor : Q) (net : time -> string -> string -> option stmt) (now : time) (a : act) (st : tstate)
  : option (tstate * option outcome) :=
  let '(c, js) := st in
  match a with
  | Call sub iss => Some ((c, js ++ [Job sub iss Looking])%list, None)
  | Go i =>
      match nth_error js i with
      | None => None
      | Some j =>
          let '(p, new, c', o) := work grace factor net now j c in
          Some ((c', put i (Job (jb_sub j) (jb_iss j) p) js ++ new)%list, o)
      end
  | Other subsystem subkey v ttl => Some ((cache_set now (cache_key subsystem subkey) v ttl c, js), None)
  | Sweep which => Some ((cache_sweep now which c, js), None)
  end.

(** A schedule: what happens when. The outcomes are in the order in which the calls return.
    Used at trustresolver.go:504-571. *)
Fixpoint together (grace : Z) (factor : Q) (net : time -> string -> string -> option stmt) (acts : list (time * act)) (st : tstate)
  : option (tstate * list outcome) :=
  match acts with
  | [] => Some (st, [])
  | (now, a) :: acts' =>
      match act_at grace factor net now a st with
      | None => None
      | Some (st', o) =>
          match together grace factor net acts' st' with
          | None => None
          | Some (st'', os) => Some (st'', match o with Some x => x :: os | None => os end)
          end
      end
  end.
