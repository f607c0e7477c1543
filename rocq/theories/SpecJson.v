(** Specification vocabulary for JSON. *)
From Verif Require Import Base GoVal Policy Schema Metadata Chain FloatTime Json.
Local Open Scope string_scope.

(** The value of a claim of an object; of repeated members the last one counts. *)
Definition claim (k : string) (j : json) : option json :=
  match j with JObj o => lookup k (rev o) | _ => None end.

(** No two fields of the struct have names that differ at most in case. *)
Definition distinct_names {V} (fs : list (jfield V)) : Prop := NoDup (map fold_name (tags fs)).

(** The value of one field survives encoding and decoding on its own; if the field is
    omitted when empty, its empty value is the zero value. *)
Definition survives {V} (f : jfield V) (v : V) : Prop :=
  c_dec (f_codec f) (c_zero (f_codec f)) (c_enc (f_codec f) v) = Ok v /\
  (f_omit f = true -> c_empty (f_codec f) v = true -> v = c_zero (f_codec f)).

(** Additional claims: a map, no name of which is that of a field, up to case. *)
Definition no_clash {V} (fs : list (jfield V)) (extra : smap json) : Prop :=
  NoDup (keys extra) /\ forall k, In k (keys extra) -> ~ In (fold_name k) (map fold_name (tags fs)).

(** The weaker condition that no name is exactly that of a field. *)
Definition no_exact_clash {V} (fs : list (jfield V)) (extra : smap json) : Prop :=
  NoDup (keys extra) /\ forall k, In k (keys extra) -> ~ In k (tags fs).

(** What Unmarshal into a fresh object of the struct type gives. *)
Definition decode {V} (fs : list (jfield V)) (j : json) : res (list V * smap json) :=
  unmarshal_with_extra fs j (zeros fs).

(** The struct types with additional claims. *)
Definition extra_types : list (list (jfield gval)) :=
  [entity_statement_fields; mark_info_fields; mark_fields; delegation_fields; resolve_payload_fields].

(** A policy as it comes out of a JSON document: entries of an attribute are a map. *)
Definition entry_ok (e : option (smap json)) : Prop :=
  match e with Some m => NoDup (keys m) | None => True end.
Definition policy_ok (p : jpolicy) : Prop :=
  match p with
  | None => True
  | Some m => m <> [] /\ NoDup (keys m) /\ Forall (fun kv => entry_ok (snd kv)) m
  end.
