(** Cases for the theorems on the acceptance of trust marks with a remote resolver. *)
From Coq Require Import QArith.
From Verif Require Import Base BaseFacts GoVal Policy Schema Metadata Chain Resolver SpecResolver FloatTime SpecTime Json SpecJson TrustMark
  SpecTrustMark TrustMarkFacts WitnessResolver WitnessPolicy WitnessTrustMark Jwt SpecAuth SpecMarkAuth WitnessJwt SpecMarkDefault MarkDefaultFacts.
Local Open Scope nat_scope.
Local Open Scope string_scope.

(** The network of C40_case and a resolver that answers with a chain that starts with the
    statement [j]. *)
Definition told_env (d : resolver) (a : answer) (j : string) : env :=
  Env d (fun _ _ => net_iss) (fun _ a => if String.eqb a TA then Some ta_res else None) (fun _ _ _ => a) (fun _ _ => seconds 500)
      (fun x => lookup x (("told", (typ_resolve, JObj [])) :: ("kx:m", mark_jwt ISS LEAF "tm1" "") :: jwts0))
      (fun x => lookup x (map (fun s => (st_jwt s, s)) [iss_cfg [TA]; ta_cfg; fake_cfg])) (fun _ => Some (Payload None [] [j]))
      (fun jwt ks => existsb (fun k => has_prefix k jwt) ks) (fun _ => []).

Lemma told_decodes d a j iss : decodes (told_env d a j) (te_world (told_env d a j) [] (issuer_request iss ta0)).
Proof. apply decodes_tables. intros x s [[= <- <-]|[[= <- <-]|[]]]; vm_compute; reflexivity. Qed.
Lemma told_bears d a j : bears_none (told_env d a j) [] ta0.
Proof.
  intros iss s H. change (lookup iss [(ISS, iss_cfg [TA]); (TA, ta_cfg)] = Some s) in H. apply lookup_In in H.
  destruct H as [[= <- <-]|[[= <- <-]|[]]]; reflexivity.
Qed.

(** A resolver that tells the truth, and one that fails. *)
Lemma c40_remote_case : exists e e', te_default e = SimpleR RES /\ in_sync e (info0 "tm1" "kiss:m") /\
  verify_mark 9 e [] (info0 "tm1" "kiss:m") ta0 = Done (Ok tt) /\ verify_mark 9 e [] (info0 "tm1" "kx:m") ta0 = Done Err /\
  te_default e' = SimpleR RES /\ verify_mark 9 e' [] (info0 "tm1" "kiss:m") ta0 = Done Err.
Proof.
  exists (told_env (SimpleR RES) (ABody "told") (st_jwt (iss_cfg [TA]))), (told_env (SimpleR RES) ATransport "").
  split; [reflexivity|]. split; [discriminate|]. repeat split; vm_compute; reflexivity.
Qed.
Lemma c40_smart_case : exists e e' pl, te_default e = SmartR /\ te_default e' = SmartR /\
  in_sync e (info0 "tm1" "kiss:m") /\ in_sync e' (info0 "tm1" "kiss:m") /\
  (forall iss, decodes e (te_world e [] (issuer_request iss ta0))) /\ (forall iss, decodes e' (te_world e' [] (issuer_request iss ta0))) /\
  bears_none e [] ta0 /\ bears_none e' [] ta0 /\
  usable e [0] (issuer_request ISS ta0) TA pl /\ (forall pl', ~ usable e' [0] (issuer_request ISS ta0) TA pl') /\
  verify_mark 9 e [] (info0 "tm1" "kiss:m") ta0 = Done (Ok tt) /\ verify_mark 9 e' [] (info0 "tm1" "kiss:m") ta0 = Done (Ok tt).
Proof.
  exists (told_env SmartR (ABody "told") (st_jwt (iss_cfg [TA]))), (told_env SmartR ATransport ""), (Payload None [] [st_jwt (iss_cfg [TA])]).
  split; [reflexivity|]. split; [reflexivity|]. split; [discriminate|]. split; [discriminate|].
  split; [intros; apply told_decodes|]. split; [intros; apply told_decodes|]. split; [apply told_bears|]. split; [apply told_bears|].
  split. { exists ta_res, "told", (JObj []). repeat split; vm_compute; try reflexivity; discriminate. }
  split. { intros pl' (ec & b & j & _ & _ & A & _). discriminate A. }
  split; vm_compute; reflexivity.
Qed.

(** A resolver, or somebody answering in its place, that tells another key: a mark that
    nobody who owns a key has signed is accepted. *)
Lemma c94_told d : d = SimpleR RES \/ d = SmartR -> exists fuel e p t ta dec owns signed m,
  te_default e = d /\ in_sync e t /\ (forall iss, decodes e (te_world e p (issuer_request iss ta))) /\
  names_issuer e p t ta /\ has_superiors e p t ta /\ marks_ideal e p ta dec owns signed /\
  verify_mark fuel e p t ta = Done (Ok tt) /\ is_mark e (ti_jwt t) m /\ forall id, ~ signed id (ti_jwt t).
Proof.
  intros HD. set (e := told_env d (ABody "told") (st_jwt fake_cfg)).
  exists 9, e, [], (info0 "tm1" "kx:m"), ta_fake, dec_m, owns_m, signed_m.
  assert (PM : exists m, parse_mark e "kx:m" = Ok m) by (eexists; vm_compute; reflexivity).
  destruct PM as (m & PM). exists m.
  split; [reflexivity|]. split; [discriminate|].
  split; [intros iss; apply decodes_tables; intros x s [[= <- <-]|[[= <- <-]|[]]]; vm_compute; reflexivity|].
  assert (Q : forall m s, is_mark e "kx:m" m -> w_config net_iss [] (mk_iss m) = Some s -> st_hints s <> [] /\ st_iss s = mk_iss m /\ st_sub s = mk_iss m).
  { intros m' s M. assert (P : parse_mark e "kx:m" = Ok m') by (apply parse_mark_spec; exact M).
    vm_compute in P. injection P as <-. vm_compute. intros [= <-]. split; [discriminate|split; reflexivity]. }
  split; [intros m' s M W; now destruct (Q m' s M W) as (? & ? & ?)|].
  split; [intros m' s M W; now destruct (Q m' s M W) as (? & ? & ?)|].
  split.
  { split.
    - intros iss. exact ideal_m.
    - intros id jwt ks O V. change (existsb (fun k => has_prefix k jwt) ks = true) in V. apply existsb_exists in V. destruct V as (k & Hk & V). exists k. auto.
    - intros iss p s l k W E Hk. cbn [ta_id] in *.
      change (w_config net_iss p TA = Some s) in W. vm_compute in W. injection W as <-. injection E as <-. destruct Hk as [<-|[]]. reflexivity.
    - intros l k E Hk. injection E as <-. destruct Hk as [<-|[]]. reflexivity.
    - intros typ o l k E Hk. discriminate E.
    - intros iss s r x _ _ _ jwt s' l k _ D _ K Hk. apply List.find_some in D. destruct D as [D _].
      destruct D as [<-|[<-|[<-|[]]]]; injection K as <-; destruct Hk as [<-|[]]; reflexivity. }
  split; [destruct HD as [-> | ->]; vm_compute; reflexivity|]. split; [now apply parse_mark_spec|].
  intros id (k & O & P). unfold owns_m, lookup in O. cbn [ti_jwt info0] in P.
  repeat match type of O with (if ?b then _ else _) = _ => destruct b; [injection O as <-; discriminate P|] end. discriminate.
Qed.
