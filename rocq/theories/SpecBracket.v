(** URLs with an IPv6 address, and URLs whose authority is malformed. *)
From Verif Require Import Base GoVal Policy Schema Metadata Chain Resolver TrustMark Json Leaf Web SpecWeb.
Local Open Scope nat_scope.
Local Open Scope string_scope.

(** The parts of a URL other than its host and port. *)
Definition ordinary_rest (scheme user path query fragment : string) : Prop :=
  ordinary_url scheme user "host" "" path query fragment.
(** An IPv6 address within brackets, without a zone, and an optional port. *)
Definition address_literal (addr port : string) : Prop :=
  only (decimals ++ "abcdefABCDEF:.") addr /\ (port = "" \/ exists p, port = ":" ++ p /\ only decimals p).
(** Something else than a port after the host: bytes of which one is not a decimal. *)
Definition not_decimal (s : string) : Prop :=
  only (alphabet ++ decimals ++ "-._~!$&'()*+,;=") s /\ ~ only decimals s.
