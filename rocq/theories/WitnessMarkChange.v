(** A trust mark whose issuer changes its key. *)
From Coq Require Import QArith Lia.
From Verif Require Import Base GoVal Policy Schema Metadata Chain Resolver SpecResolver ResolverFacts SpecExact ExactFacts Refresher FloatTime Cache SpecCache SpecFresh SpecChange WitnessResolver WitnessFresh WitnessChange.
From Verif Require Import Json SpecJson TrustMark SpecTrustMark TrustMarkFacts WitnessTrustMark SpecMarkChange.
Local Open Scope nat_scope.
Local Open Scope string_scope.

(** The leaf of WitnessChange.v issues trust marks: "kl:m" with its old key, "kn:m" with its
    new one. *)
Definition turn_jwts : smap (string * json) := [("kl:m", mark_jwt LEAF OTHER "tm1" ""); ("kn:m", mark_jwt LEAF OTHER "tm1" "")].
Definition turn_env : env := env_of LocalR (roll_world 200%Z im_both) turn_jwts [leaf_old; leaf_new] [] no_remote.
Definition turn_mark : mark := match parse_mark turn_env "kl:m" with Ok m => m | _ => Mark "" "" "" 0%Z "" None "" "" [] None end.
Definition turn_ta : stmt := ta_marks [("tm1", [LEAF])] [].
Definition turn_anchors : list anchor := [Anchor TA None].

Lemma turn_fits : fit_together (roll_world 200%Z im_both) turn_anchors now500 now500 (in_circulation (roll 200%Z) 1%Z now500 now500) way.
Proof.
  destruct roll_fits as [ONCE ANCHOR CONFIG STATEMENT HINT ENDPOINT KEYS KEYSB AKEYS CONSTR].
  constructor; auto.
  intros pre a b e s E C D. destruct pre as [|x [|y [|z pre]]]; cbn [app] in E; unfold way in E; try discriminate;
      [|injection E as _ _ _ E; destruct pre; discriminate].
  injection E as <- <- <-. apply circulating in C. apply circulating in D.
  destruct C as [(Y & _)|[(Y & _)|[(Y & _)|[(_ & _ & ->)|(Y & _)]]]]; try discriminate Y.
  destruct D as [(Y & _)|[(Y & _)|[(_ & Y & _)|[(Y & _)|(_ & _ & ->)]]]]; try discriminate Y.
  exists (Some ["kt"]). split; [exists [], (Anchor TA None), []; repeat split; intros x []|].
  split; eexists _, _; (split; [reflexivity|vm_compute; reflexivity]).
Qed.

Lemma c162_case :
  mk_iss turn_mark = LEAF /\ te_world turn_env [] (issuer_request LEAF turn_ta) = roll_world 200%Z im_both /\
  served_alive (served_until now500 (roll 200%Z)) /\
  sees (served_until now500 (roll 200%Z)) (Memory []) (stored_alive 1%Z) now500 (roll_world 200%Z im_both) /\
  (forall s, in_circulation (roll 200%Z) 1%Z now500 now500 LEAF LEAF s -> st_metadata s <> None) /\
  all_answer (roll_world 200%Z im_both) way /\
  fit_together (roll_world 200%Z im_both) [Anchor (st_sub turn_ta) None] now500 now500 (in_circulation (roll 200%Z) 1%Z now500 now500) way /\
  (forall c, trust_chain (roll_world 200%Z im_both) [Anchor (st_sub turn_ta) None] [] LEAF c -> exists md, chain_metadata c = Ok md) /\
  te_default turn_env = LocalR /\ reads turn_env (in_circulation (roll 200%Z) 1%Z now500 now500 LEAF LEAF) /\
  in_sync turn_env (info0 "tm1" "kl:m") /\
  (forall s, in_circulation (roll 200%Z) 1%Z now500 now500 LEAF LEAF s ->
     mark_valid turn_env [] (info0 "tm1" "kl:m") turn_mark (st_jwks s) (lookup (mk_type turn_mark) (st_mark_owners turn_ta))) /\
  (forall l, lookup (mk_type turn_mark) (st_mark_issuers turn_ta) = Some l -> In LEAF l) /\
  resolve_valid 5 (roll_world 200%Z im_both) [Anchor (st_sub turn_ta) None] [] LEAF = Done (Ok [rolled_chain]) /\
  verify_mark 6 turn_env [] (info0 "tm1" "kl:m") turn_ta = Done (Ok tt).
Proof.
  destruct c159_case as (A & B & M & AN & _).
  split; [vm_compute; reflexivity|]. split; [reflexivity|]. split; [exact A|]. split; [exact B|]. split; [exact M|]. split; [exact AN|].
  split; [exact turn_fits|]. split.
  { intros c T. assert (R : resolve_chains 5 (roll_world 200%Z im_both) [Anchor (st_sub turn_ta) None] [] LEAF = Done (Ok [rolled_chain])) by (vm_compute; reflexivity).
    apply (chains_exact _ _ _ _ _ _ R) in T. destruct T as [<-|[]]. eexists. vm_compute. reflexivity. }
  split; [reflexivity|]. split.
  { intros s C. apply circulating in C. destruct C as [(_ & _ & [-> | ->])|[(_ & X & _)|[(X & _)|[(X & _)|(X & _)]]]]; try discriminate X;
      eexists; (split; [vm_compute; reflexivity|reflexivity]). }
  split; [discriminate|]. split.
  { intros s C. assert (P : parse_mark turn_env "kl:m" = Ok turn_mark) by (vm_compute; reflexivity).
    constructor.
    - now apply parse_mark_spec.
    - vm_compute. reflexivity.
    - split; intros t H; vm_compute in H; injection H as <-; vm_compute; discriminate.
    - apply circulating in C. destruct C as [(_ & _ & [-> | ->])|[(_ & X & _)|[(X & _)|[(X & _)|(X & _)]]]]; try discriminate X;
        eexists _, _; (split; [reflexivity|vm_compute; reflexivity]).
    - intros o H. discriminate H. }
  split.
  { intros l H. vm_compute in H. injection H as <-. now left. }
  split; vm_compute; reflexivity.
Qed.

(** A mark signed with the new key, too early: the configuration with the old key alone has
    not expired and is in the cache. *)
Definition early_world : world :=
  World (fun q a => if String.eqb a LEAF then Some leaf_old else w_config (roll_world 200%Z im_both) q a)
        (w_fetch (roll_world 200%Z im_both)) (w_now (roll_world 200%Z im_both)) (w_verify net0) (w_host net0).
Lemma c162_early :
  in_circulation (roll 200%Z) 1%Z now500 now500 LEAF LEAF leaf_old /\
  in_circulation (roll 200%Z) 1%Z now500 now500 LEAF LEAF leaf_new /\
  verify_mark 6 turn_env [] (info0 "tm1" "kn:m") turn_ta = Done (Ok tt) /\
  verify_mark 6 (env_of LocalR early_world turn_jwts [leaf_old; leaf_new] [] no_remote) [] (info0 "tm1" "kn:m") turn_ta = Done Err /\
  verify_mark 6 (env_of LocalR early_world turn_jwts [leaf_old; leaf_new] [] no_remote) [] (info0 "tm1" "kl:m") turn_ta = Done (Ok tt).
Proof.
  split.
  { split; [|vm_compute; discriminate]. exists 0%Z. split; [vm_compute; discriminate|]. vm_compute. reflexivity. }
  split.
  { split; [|vm_compute; discriminate]. exists now500. split; [vm_compute; discriminate|]. vm_compute. reflexivity. }
  repeat split; vm_compute; reflexivity.
Qed.
