(** The cache of resolved metadata: trustchain.go:18-25,60-65,98-103,114-138. *)
From Verif Require Import Base GoVal Policy Schema Metadata Chain Resolver TrustMark Refresher FloatTime Cache.
Local Open Scope nat_scope.
Local Open Scope string_scope.

(** What is stored under the keys of this cache is metadata; everything else that is stored
    in the same cache is opaque. Used at trustchain.go:114-137. *)
Inductive mcached := MMeta (m : metadata) | MElse.

(** The key: trustchain.go:124,136. The digest is TrustChain.hash (trustchain.go:18-25),
    SHA3-256 over the msgpack encoding of the statements: their payloads and their JWTs
    (entitystatement.go:43-53). The bookkeeping in the metadata is not encoded. msgpack
    encodes map entries in the order of iteration, which varies: one chain has several
    digests. *)
Definition meta_key (digest : string) : string := cache_key key_resolved_metadata digest.

(** cacheGetMetadata: trustchain.go:114-127. The value is encoded when it is stored and
    decoded here ([md_msgpack]). An entry that is no metadata is a decoding error, which
    Metadata logs and treats as a miss. *)
Definition meta_cache_get (now : time) (digest : string) (k : cache mcached) : option metadata * cache mcached :=
  match cache_get now (meta_key digest) k with
  | (Some (MMeta m), k') => (Some (md_msgpack m), k')
  | (_, k') => (None, k')
  end.

(** cacheSetMetadata: trustchain.go:129-138. The clock is read by unixtime.Until ([t1]) and
    again by the cache ([t2]). *)
Definition meta_cache_set (t1 t2 : time) (digest : string) (c : chain) (m : metadata) (k : cache mcached) : cache mcached :=
  cache_set t2 (meta_key digest) (MMeta m) (until (expires_at c) t1) k.

(** TrustChain.Metadata: trustchain.go:60-104. [d1] and [d2] are the digests computed for
    the lookup and for storing. Only the metadata of chains of two or more statements
    reaches line 98. *)
Definition metadata_cached (d1 d2 : string) (t0 t1 t2 : time) (c : chain) (k : cache mcached)
  : res (option metadata) * cache mcached :=
  match meta_cache_get t0 d1 k with
  | (Some m, k') => (Ok (Some m), k')
  | (None, k') =>
      let r := chain_metadata c in
      (r, match r, c with
          | Ok (Some m), _ :: _ :: _ => meta_cache_set t1 t2 d2 c m k'
          | _, _ => k'
          end)
  end.
