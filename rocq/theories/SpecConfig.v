(** Specification vocabulary for configuration documents, obtained trust marks and key
    sets. *)
From Coq Require Import QArith.
From Verif Require Import Base GoVal Policy Schema Metadata Chain FloatTime Json TrustMark Refresher Config.
Local Open Scope nat_scope.
Local Open Scope string_scope.

(** The value of a member of a mapping. *)
Definition member (k : string) (y : yaml) : option yaml :=
  match y with YMap o => lookup k o | _ => None end.

(** The text of a scalar; an absent or null member has the empty text. *)
Definition text_of (y : option yaml) : option string :=
  match y with
  | None => Some ""
  | Some YNull => Some ""
  | Some (YBool _ t) => Some t
  | Some (YNum _ t) => Some t
  | Some (YStr s) => Some s
  | Some _ => None
  end.

(** The names TrustMarkSpec gives a meaning to. *)
Definition spec_names : list string :=
  ["trust_mark_type"; "lifetime"; "ref"; "logo_uri"; "include_extra_claims_in_info"; "delegation_jwt"].

(** Additional claims: a map of documents that can be decoded, no name of which is that of a
    field. *)
Definition additional (x : smap yaml) : Prop :=
  NoDup (keys x) /\ Forall (fun kv => unique (snd kv) = true) x /\ forall k, In k (keys x) -> ~ In k spec_names.

(** A spec read from a document. *)
Definition read_spec (doc : yaml) (s : yspec) : Prop := unmarshal_yspec doc zero_yspec = Ok s.

(** The configuration was verified, then used by calls of TrustMarkJWT, one after the other,
    with any answers and at any times. *)
Inductive used (c : mconfig) : mconfig -> Prop :=
| used_not : used c c
| used_once c' e ask now : used c c' -> used c (snd (mark_jwt e ask now c')).

(** The object a user fills in: nothing has been obtained yet. *)
Definition unused (c : mconfig) : Prop := mc_own c = None.

(** jwk.Set survives its own JSON, which is an object that can be written as YAML. *)
Definition keeps {K} (kc : keycodec K) (k : K) : Prop :=
  kc_dec kc (kc_enc kc k) = Some k /\
  exists o, kc_enc kc k = JObj o /\ forall show, unique (to_yaml show (JObj o)) = true.

(** Len of the wrapped set; calling it on a nil set panics. *)
Definition len_of {K} (kc : keycodec K) (s : option K) : res nat :=
  match s with None => Panic | Some k => Ok (kc_len kc k) end.
