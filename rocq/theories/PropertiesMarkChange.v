(** C162: trust marks whose issuers change their keys and statements. *)
From Coq Require Import QArith.
From Verif Require Import Base GoVal Policy Schema Metadata Chain Resolver SpecResolver SpecExact Refresher FloatTime Cache SpecCache SpecFresh SpecChange WitnessResolver WitnessChange.
From Verif Require Import Json TrustMark SpecTrustMark WitnessTrustMark SpecMarkChange MarkChangeFacts WitnessMarkChange.
Local Open Scope nat_scope.
Local Open Scope string_scope.

(** ** C162 A trust mark stays accepted while its issuer and its superiors replace keys and statements *)

(** If all the documents in circulation along a way from the issuer to the anchor fit
    together, and the mark verifies under the keys of each configuration of the issuer in
    circulation, the mark is accepted whichever of them the verifier gets. *)
Theorem C162_kept : forall net c0 lag from upto e p t m b rest ta fuel cs,
  c0 = Memory [] \/ c0 = Redis [] -> (0 <= lag)%Z -> served_alive (served_until upto net) ->
  sees (served_until upto net) c0 (stored_alive lag) from (te_world e p (issuer_request (mk_iss m) ta)) ->
  (forall q k, (w_now (te_world e p (issuer_request (mk_iss m) ta)) q k <= upto)%Z) ->
  mk_iss m <> "" -> (forall s, in_circulation net lag from upto (mk_iss m) (mk_iss m) s -> st_metadata s <> None) ->
  all_answer (te_world e p (issuer_request (mk_iss m) ta)) (mk_iss m :: b :: rest) ->
  fit_together (te_world e p (issuer_request (mk_iss m) ta)) [Anchor (st_sub ta) None] from upto (in_circulation net lag from upto) (mk_iss m :: b :: rest) ->
  (forall c, trust_chain (te_world e p (issuer_request (mk_iss m) ta)) [Anchor (st_sub ta) None] [] (mk_iss m) c ->
     map st_iss c = (mk_iss m :: b :: rest ++ [last (b :: rest) ""])%list -> exists md, chain_metadata c = Ok md) ->
  te_default e = LocalR -> reads e (in_circulation net lag from upto (mk_iss m) (mk_iss m)) ->
  in_sync e t -> (forall s, in_circulation net lag from upto (mk_iss m) (mk_iss m) s -> mark_valid e p t m (st_jwks s) (lookup (mk_type m) (st_mark_owners ta))) ->
  (forall l, lookup (mk_type m) (st_mark_issuers ta) = Some l -> In (mk_iss m) l) ->
  resolve_valid fuel (te_world e p (issuer_request (mk_iss m) ta)) [Anchor (st_sub ta) None] [] (mk_iss m) = Done (Ok cs) ->
  verify_mark (S fuel) e p t ta = Done (Ok tt).
Proof. exact mark_kept. Qed.
Print Assumptions C162_kept.

(** The issuer has changed its key at 400 and lists the old key further on; its superior lists
    both since 100, in a statement that is in the cache. The mark is signed with the old key. *)
Example C162_case :
  mk_iss turn_mark = LEAF /\ te_world turn_env [] (issuer_request LEAF turn_ta) = roll_world 200%Z im_both /\
  served_alive (served_until now500 (roll 200%Z)) /\
  sees (served_until now500 (roll 200%Z)) (Memory []) (stored_alive 1%Z) now500 (roll_world 200%Z im_both) /\
  (forall s, in_circulation (roll 200%Z) 1%Z now500 now500 LEAF LEAF s -> st_metadata s <> None) /\
  all_answer (roll_world 200%Z im_both) way /\
  fit_together (roll_world 200%Z im_both) [Anchor (st_sub turn_ta) None] now500 now500 (in_circulation (roll 200%Z) 1%Z now500 now500) way /\
  (forall c, trust_chain (roll_world 200%Z im_both) [Anchor (st_sub turn_ta) None] [] LEAF c -> exists md, chain_metadata c = Ok md) /\
  te_default turn_env = LocalR /\ reads turn_env (in_circulation (roll 200%Z) 1%Z now500 now500 LEAF LEAF) /\
  in_sync turn_env (info0 "tm1" "kl:m") /\
  (forall s, in_circulation (roll 200%Z) 1%Z now500 now500 LEAF LEAF s ->
     mark_valid turn_env [] (info0 "tm1" "kl:m") turn_mark (st_jwks s) (lookup (mk_type turn_mark) (st_mark_owners turn_ta))) /\
  (forall l, lookup (mk_type turn_mark) (st_mark_issuers turn_ta) = Some l -> In LEAF l) /\
  resolve_valid 5 (roll_world 200%Z im_both) [Anchor (st_sub turn_ta) None] [] LEAF = Done (Ok [rolled_chain]) /\
  verify_mark 6 turn_env [] (info0 "tm1" "kl:m") turn_ta = Done (Ok tt).
Proof. exact c162_case. Qed.

(** A mark signed with the new key is refused by those who have the issuer's previous
    configuration in their cache: a key must have been published long enough before marks are
    signed with it. *)
Example C162_early_case :
  in_circulation (roll 200%Z) 1%Z now500 now500 LEAF LEAF leaf_old /\
  in_circulation (roll 200%Z) 1%Z now500 now500 LEAF LEAF leaf_new /\
  verify_mark 6 turn_env [] (info0 "tm1" "kn:m") turn_ta = Done (Ok tt) /\
  verify_mark 6 (env_of LocalR early_world turn_jwts [leaf_old; leaf_new] [] no_remote) [] (info0 "tm1" "kn:m") turn_ta = Done Err /\
  verify_mark 6 (env_of LocalR early_world turn_jwts [leaf_old; leaf_new] [] no_remote) [] (info0 "tm1" "kl:m") turn_ta = Done (Ok tt).
Proof. exact c162_early. Qed.
