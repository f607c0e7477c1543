(** C159: federations that change their keys and statements while they are being resolved. *)
From Coq Require Import QArith.
From Verif Require Import Base GoVal Policy Schema Metadata Chain Resolver SpecResolver TrustMark Refresher FloatTime Cache SpecCache SpecFresh SpecExact SpecChange
  ChangeFacts WitnessResolver WitnessChange.
Local Open Scope nat_scope.
Local Open Scope string_scope.

(** ** C159 Keys and statements can be replaced without interruption *)

(** If all the documents that were served lately and those that were served earlier and have
    not expired fit together along a way from [start] to an anchor, a resolution finds a
    chain along this way, whichever of them it gets from servers and from the cache. *)
Theorem C159_chains : forall net c0 lag from upto w tas types start b rest fuel cs,
  c0 = Memory [] \/ c0 = Redis [] -> (0 <= lag)%Z -> served_alive (served_until upto net) ->
  sees (served_until upto net) c0 (stored_alive lag) from w -> (forall p k, (w_now w p k <= upto)%Z) ->
  start <> "" -> (forall e, in_circulation net lag from upto start start e -> st_metadata e <> None) ->
  all_answer w (start :: b :: rest) ->
  fit_together w tas from upto (in_circulation net lag from upto) (start :: b :: rest) ->
  resolve_chains fuel w tas types start = Done (Ok cs) ->
  exists c, In c cs /\ map st_iss c = (start :: b :: rest ++ [last (b :: rest) ""])%list.
Proof. exact way_found. Qed.
Print Assumptions C159_chains.

(** Also with the metadata check, if the policies of the chains along this way can be
    applied. *)
Theorem C159_valid : forall net c0 lag from upto w tas types start b rest fuel cs,
  c0 = Memory [] \/ c0 = Redis [] -> (0 <= lag)%Z -> served_alive (served_until upto net) ->
  sees (served_until upto net) c0 (stored_alive lag) from w -> (forall p k, (w_now w p k <= upto)%Z) ->
  start <> "" -> (forall e, in_circulation net lag from upto start start e -> st_metadata e <> None) ->
  all_answer w (start :: b :: rest) ->
  fit_together w tas from upto (in_circulation net lag from upto) (start :: b :: rest) ->
  (forall c, trust_chain w tas types start c -> map st_iss c = (start :: b :: rest ++ [last (b :: rest) ""])%list -> exists m, chain_metadata c = Ok m) ->
  resolve_valid fuel w tas types start = Done (Ok cs) ->
  exists c, In c cs /\ map st_iss c = (start :: b :: rest ++ [last (b :: rest) ""])%list.
Proof. exact way_found_valid. Qed.
Print Assumptions C159_valid.

(** The leaf has changed its key at 400; since 100 the intermediate lists both keys, in a
    statement that is in the cache. *)
Example C159_case : served_alive (served_until now500 (roll 200%Z)) /\
  sees (served_until now500 (roll 200%Z)) (Memory []) (stored_alive 1%Z) now500 (roll_world 200%Z im_both) /\
  (forall e, in_circulation (roll 200%Z) 1%Z now500 now500 LEAF LEAF e -> st_metadata e <> None) /\
  all_answer (roll_world 200%Z im_both) way /\
  fit_together (roll_world 200%Z im_both) tas0 now500 now500 (in_circulation (roll 200%Z) 1%Z now500 now500) way /\
  (forall c, trust_chain (roll_world 200%Z im_both) tas0 [] LEAF c -> c = rolled_chain) /\
  resolve_valid 5 (roll_world 200%Z im_both) tas0 [] LEAF = Done (Ok [rolled_chain]) /\
  st_jwks leaf_new <> st_jwks leaf_old.
Proof. exact c159_case. Qed.

(** If the statement with the old key alone has not yet expired and is in the cache, no chain
    is found: the documents must fit together as long as they are valid. *)
Example C159_abrupt_case : resolve_valid 5 (roll_world 600%Z (im_first 600)) tas0 [] LEAF = Done (Ok []) /\
  in_circulation (roll 600%Z) 1%Z now500 now500 LEAF IM (im_first 600).
Proof. exact c159_abrupt. Qed.
