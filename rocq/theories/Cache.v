(** Caching: cache/cache.go, cache/redis.go, and its users in trustresolver.go. *)
From Coq Require Import QArith.
From Verif Require Import Base GoVal Policy Schema Metadata Chain Resolver TrustMark Refresher FloatTime.
Local Open Scope nat_scope.
Local Open Scope string_scope.

(** ** Keys *)

(** base64.URLEncoding.EncodeToString: groups of three bytes become four characters,
    the last group is padded. Used at cache/cache.go:89-92. *)
Definition b64_alphabet : string := "ABCDEFGHIJKLMNOPQRSTUVWXYZabcdefghijklmnopqrstuvwxyz0123456789-_".
Definition b64_char (n : N) : ascii :=
  match String.get (N.to_nat n) b64_alphabet with Some c => c | None => "="%char end.
Definition b64_number (a b c : ascii) : N := (N_of_ascii a * 65536 + N_of_ascii b * 256 + N_of_ascii c)%N.
Fixpoint b64 (s : string) : string :=
  match s with
  | EmptyString => ""
  | String a EmptyString =>
      let n := b64_number a zero zero in
      String (b64_char (n / 262144)) (String (b64_char ((n / 4096) mod 64)) "==")
  | String a (String b EmptyString) =>
      let n := b64_number a b zero in
      String (b64_char (n / 262144)) (String (b64_char ((n / 4096) mod 64)) (String (b64_char ((n / 64) mod 64)) "="))
  | String a (String b (String c r)) =>
      let n := b64_number a b c in
      String (b64_char (n / 262144)) (String (b64_char ((n / 4096) mod 64))
        (String (b64_char ((n / 64) mod 64)) (String (b64_char (n mod 64)) (b64 r))))
  end.

(** The subsystem names: cache/cache.go:73-81 *)
Definition key_entity_statement := "entity_statement".
Definition key_op_metadata := "op_metadata".
Definition key_entity_configuration := "entity_configuration".
Definition key_trust_tree := "trust_tree".
Definition key_trust_tree_chains := "trust_tree_chains".
Definition key_resolved_metadata := "trustchain_resolved_metadata".
Definition key_subordinate_listing := "subordinate_listing".
Definition subsystems : list string :=
  [key_entity_statement; key_op_metadata; key_entity_configuration; key_trust_tree; key_trust_tree_chains;
   key_resolved_metadata; key_subordinate_listing].

(** Key: cache/cache.go:84-86 *)
Definition cache_key (subsystem subkey : string) : string := subsystem ++ ":" ++ subkey.
(** EntityStmtCacheKey: cache/cache.go:89-92 *)
Definition stmt_key (sub iss : string) : string := cache_key key_entity_statement (b64 sub ++ ":" ++ b64 iss).

(** ** The two caches *)

(** An entry and when it expires (None: never). Used at cache/cache.go:23-59. *)
Record entry (V : Type) := Entry { en_key : string; en_val : V; en_exp : option Z }.
Arguments Entry {V}. Arguments en_key {V}. Arguments en_val {V}. Arguments en_exp {V}.

Section Caches.
  Context {V : Type}.

  Definition find_entry (k : string) (l : list (entry V)) : option (entry V) :=
    find (fun e => String.eqb (en_key e) k) l.
  Definition drop_entry (k : string) (l : list (entry V)) : list (entry V) :=
    filter (fun e => negb (String.eqb (en_key e) k)) l.

  (** The in-memory cache is github.com/TwiN/gocache/v2 v2.2.2, created by
      cache/cache.go:28-36; its source is not in /repo. Modelled from its documentation and
      source: entries in a list, the one set last in front; at most DefaultMaxSize entries,
      the last of the list is evicted; SetWithTTL with a duration below 1ns other than
      NoExpiration (-1) deletes the entry; the expiration is an int64 number of nanoseconds
      and only applies when positive; an entry has expired when the clock is past it. *)
  Definition max_size : N := 100000.
  Definition expired (now : time) (e : entry V) : bool :=
    match en_exp e with Some x => Z.ltb x now | None => false end.
  Definition mem_exp (now : time) (ttl : Z) : option Z :=
    let x := if Z.eqb ttl (-1) then (-1)%Z else Refresher.wrap64 (now + ttl) in
    if Z.ltb 0 x then Some x else None.
  Definition mem_set (now : time) (k : string) (v : V) (ttl : Z) (l : list (entry V)) : list (entry V) :=
    if negb (Z.eqb ttl (-1)) && Z.ltb ttl 1 then drop_entry k l
    else let l' := Entry k v (mem_exp now ttl) :: drop_entry k l in
         if N.ltb max_size (N.of_nat (List.length l')) then removelast l' else l'.
  Definition mem_get (now : time) (k : string) (l : list (entry V)) : option V * list (entry V) :=
    match find_entry k l with
    | None => (None, l)
    | Some e => if expired now e then (None, drop_entry k l) else (Some (en_val e), l)
    end.

  (** The redis cache is github.com/redis/go-redis/v9 in front of a redis server, neither in
      /repo. Set with a positive duration sends EX or PX (whole milliseconds, at least
      one), with -1 KEEPTTL, otherwise no expiration. The server compares its clock in
      milliseconds. Used at cache/redis.go:12-37. *)
  Definition ms : Z := 1000000%Z.
  Definition red_expired (now : time) (e : entry V) : bool :=
    match en_exp e with Some x => Z.ltb x (now / ms) | None => false end.
  Definition red_find (now : time) (k : string) (l : list (entry V)) : option (entry V) :=
    match find_entry k l with
    | Some e => if red_expired now e then None else Some e
    | None => None
    end.
  Definition red_set (now : time) (k : string) (v : V) (ttl : Z) (l : list (entry V)) : list (entry V) :=
    let x := if Z.ltb 0 ttl then Some (now / ms + (if Z.ltb ttl ms then 1 else ttl / ms))%Z
             else if Z.eqb ttl (-1) then match red_find now k l with Some e => en_exp e | None => None end
             else None in
    Entry k v x :: drop_entry k l.

  (** The cache in use: cache/cache.go:61-70, cache/redis.go:41-55. *)
  Inductive cache := Memory (l : list (entry V)) | Redis (l : list (entry V)).

  (** Get, Set: cache/cache.go:39-58,95-102, cache/redis.go:18-38. Values are stored as msgpack;
      what encoding and decoding changes is modelled where they are used. Errors of redis
      and of the encoding are not modelled. *)
  Definition cache_get (now : time) (k : string) (c : cache) : option V * cache :=
    match c with
    | Memory l => let (r, l') := mem_get now k l in (r, Memory l')
    | Redis l => (option_map en_val (red_find now k l), c)
    end.
  Definition cache_set (now : time) (k : string) (v : V) (ttl : Z) (c : cache) : cache :=
    match c with
    | Memory l => Memory (mem_set now k v ttl l)
    | Redis l => Redis (red_set now k v ttl l)
    end.
  (** What happens by itself: gocache's janitor removes some of the expired entries; a redis
      server may remove any entry. Used at cache/cache.go:27-35, cache/redis.go:12-37. *)
  Definition cache_sweep (now : time) (which : string -> bool) (c : cache) : cache :=
    match c with
    | Memory l => Memory (filter (fun e => negb (which (en_key e) && expired now e)) l)
    | Redis l => Redis (filter (fun e => negb (which (en_key e))) l)
    end.
End Caches.
Arguments cache V : clear implicits.

(** ** What is cached: cached statements, trees, chains; anything else is opaque.
    Used at trustresolver.go:256-302,504-524. *)
Inductive cached := CStmt (s : stmt) | CTree (t : tree) | CChains (cs : chains) | COther (data : string).

(** Encoding and decoding of statements and trees: entitystatement.go:43-64,
    trustresolver.go:304-313 (only exported fields are encoded). Of a statement only the
    bookkeeping in the metadata changes. *)
Definition stmt_msgpack (s : stmt) : stmt := with_metadata s (option_map md_msgpack (st_metadata s)).
Fixpoint tree_msgpack (t : tree) : tree :=
  match t with
  | Tree e s a _ => Tree (option_map stmt_msgpack e) (option_map stmt_msgpack s)
                         (match a with Some l => Some (map tree_msgpack l) | None => None end) zero_time
  end.

(** ** Entity statements *)

(** entityStmtCacheSet: trustresolver.go:504-510. The clock is read by time.Until ([t1])
    and again by the cache ([t2]). *)
Definition stmt_cache_set (t1 t2 : time) (sub iss : string) (s : stmt) (c : cache cached) : cache cached :=
  cache_set t2 (stmt_key sub iss) (CStmt s) (until (st_exp s) t1) c.

(** entityStmtCacheGet: trustresolver.go:511-522 *)
Definition stmt_cache_get (now : time) (sub iss : string) (c : cache cached) : option stmt * cache cached :=
  match cache_get now (stmt_key sub iss) c with
  | (Some (CStmt s), c') => (Some (stmt_msgpack s), c')
  | (_, c') => (None, c')
  end.

(** obtainAndSetEntityStatementOrConfiguration: trustresolver.go:560-571. [answer] is what
    the obtainer function returns. *)
Definition obtain (t1 t2 : time) (sub iss : string) (answer : option stmt) (c : cache cached) : cache cached :=
  match answer with Some s => stmt_cache_set t1 t2 sub iss s c | None => c end.

(** getEntityStatementOrConfiguration: trustresolver.go:534-558 without the background
    refresh; the result and whether it is from the cache. *)
Definition get_statement (now t1 t2 : time) (sub iss : string) (answer : option stmt) (c : cache cached)
  : option (stmt * bool) * cache cached :=
  match stmt_cache_get now sub iss c with
  | (Some s, c') => (Some (s, true), c')
  | (None, c') => (option_map (fun s => (s, false)) answer, obtain t1 t2 sub iss answer c')
  end.

(** The condition for the background refresh: trustresolver.go:541-543. Time.Sub saturates;
    the division is one of float64 values (x/0 is an infinity or, for 0/0, not a number). *)
Definition refresh_due (grace : Z) (factor : Q) (now : time) (s : stmt) : bool :=
  let remaining := until (st_exp s) now in
  let total := sat (st_exp s - st_iat s) in
  Z.leb remaining grace &&
  (if Z.eqb total 0 then Z.ltb 0 remaining
   else negb (Qle_bool (rnd (rnd (inject_Z remaining) / rnd (inject_Z total))) factor)).

(** The background refresh: trustresolver.go:540-554 *)
Definition background (grace : Z) (factor : Q) (now t1 t2 : time) (sub iss : string) (s : stmt)
           (answer : option stmt) (c : cache cached) : cache cached :=
  if refresh_due grace factor now s then obtain t1 t2 sub iss answer c else c.

(** ** Trust trees and chains *)

Section Trees.
  (** TrustResolver.hash: trustresolver.go:149-169: SHA3-256 of the starting entity, the
      identifiers of the anchors, and the types. *)
  Variable hash : string -> list string -> list string -> string.

  Definition tree_key (start : string) (tas : list anchor) (types : list string) : string :=
    cache_key key_trust_tree (hash start (anchor_ids tas) types).
  Definition chains_key (start : string) (tas : list anchor) (types : list string) : string :=
    cache_key key_trust_tree_chains (hash start (anchor_ids tas) types).

  (** ResolveToValidChainsWithoutVerifyingMetadata: trustresolver.go:185-198 with Resolve
      (:201-227), VerifySignatures (:230-235), Chains (:238-256) and the cache (:258-301). [t]
      gives the clock at the cache accesses in program order; the statement cache is part of
      the world [w] (its keys are different). *)
  Definition resolve_cached (fuel : nat) (w : world) (tas : list anchor) (types : list string) (start : string)
             (t : nat -> time) (c : cache cached) : run chains * cache cached :=
    let ck := chains_key start tas types in
    let tk := tree_key start tas types in
    match cache_get (t 0) ck c with
    | (Some (CChains cs), c0) => (Done (Ok (map (map stmt_msgpack) cs)), c0)
    | (_, c0) =>
        let '(r, c2) :=
          match cache_get (t 1) tk c0 with
          | (Some (CTree tr), c1) => (Done (Ok (tree_msgpack tr)), c1)
          | (_, c1) =>
              match resolve_tree fuel w tas types start with
              | Done (Ok tr) =>
                  (Done (Ok tr), match t_entity tr with
                                 | Some _ => cache_set (t 2) tk (CTree tr) (until (t_exp tr) (t 2)) c1
                                 | None => c1
                                 end)
              | r => (r, c1)
              end
          end in
        match r with
        | OutOfFuel => (OutOfFuel, c2)
        | Done Panic => (Done Panic, c2)
        | Done Err => (Done Err, c2)
        | Done (Ok tr) =>
            match verify_sigs w tas tr with
            | Panic => (Done Panic, c2)
            | Err => (Done Err, c2)
            | Ok (_, tr') =>
                let c3 := cache_set (t 3) tk (CTree tr') (until (t_exp tr') (t 3)) c2 in
                match cache_get (t 4) ck c3 with
                | (Some (CChains cs), c4) => (Done (Ok (map (map stmt_msgpack) cs)), c4)
                | (_, c4) =>
                    match tree_chains tr' with
                    | [] => (Done (Ok []), c4)
                    | cs => (Done (Ok cs), cache_set (t 5) ck (CChains cs) (until (t_exp tr') (t 5)) c4)
                    end
                end
            end
        end
    end.
End Trees.
