(** A federation in which the leaf changes its key. *)
From Coq Require Import QArith Lia.
From Verif Require Import Base GoVal Policy Schema Metadata Chain Resolver SpecResolver TrustMark Refresher FloatTime Cache SpecCache SpecFresh SpecExact ExactFacts SpecChange WitnessResolver WitnessFresh.
Local Open Scope nat_scope.
Local Open Scope string_scope.

Definition sec : Z := 1000000000.
Definition lasting (s : stmt) : stmt :=
  Stmt (st_jwt s) (st_iss s) (st_sub s) (st_iat s) (1000 * sec)%Z (st_jwks s) (st_hints s) (st_metadata s)
       (st_policy s) (st_constraints s) (st_crit s) (st_policy_crit s) (st_marks s) (st_mark_issuers s) (st_mark_owners s).
(** Until 400 the leaf signs with "kl", then with "kn"; it lists the old key further on. *)
Definition leaf_old : stmt := lasting leaf0.
Definition leaf_new : stmt := lasting (mk "kn" LEAF LEAF ["kn"; "kl"] ["https://down.example"; IM] md_rp_only None [] 0%Z).
(** Until 100 the intermediate lists "kl" only, in a statement that expires at [exp], then
    both. *)
Definition im_first (exp : Z) : stmt := mk "ki" IM LEAF ["kl"] [] None None [] (exp * sec)%Z.
Definition im_both : stmt := lasting (mk "ki" IM LEAF ["kl"; "kn"] [] None None [] 0%Z).
Definition rolled (exp : Z) (t : time) (sub iss : string) : option stmt :=
  let o := option_map lasting (pub None sub iss) in
  if (String.eqb sub LEAF && String.eqb iss LEAF)%bool then Some (if Z.leb t (400 * sec)%Z then leaf_old else leaf_new)
  else if (String.eqb sub LEAF && String.eqb iss IM)%bool then Some (if Z.leb t (100 * sec)%Z then im_first exp else im_both)
  else o.
Definition roll (exp : Z) : answers := fun t sub iss s => rolled exp t sub iss = Some s.
Lemma rolled_cases exp t sub iss s : rolled exp t sub iss = Some s ->
  (sub = LEAF /\ iss = LEAF /\ s = (if Z.leb t (400 * sec)%Z then leaf_old else leaf_new)) \/
  (sub = LEAF /\ iss = IM /\ s = (if Z.leb t (100 * sec)%Z then im_first exp else im_both)) \/
  (sub = IM /\ iss = IM /\ s = lasting im_cfg) \/ (sub = TA /\ iss = TA /\ s = lasting ta_cfg) \/ (sub = IM /\ iss = TA /\ s = lasting (ta_sub None)).
Proof.
  unfold rolled. destruct (String.eqb sub LEAF && String.eqb iss LEAF)%bool eqn:A.
  { apply andb_prop in A. destruct A as [A B]. apply String.eqb_eq in A, B. intros [= <-]. auto. }
  destruct (String.eqb sub LEAF && String.eqb iss IM)%bool eqn:B.
  { apply andb_prop in B. destruct B as [B C]. apply String.eqb_eq in B, C. intros [= <-]. auto. }
  destruct (pub None sub iss) as [s0|] eqn:P; [|discriminate]. intros [= <-].
  destruct (pub_cases _ _ _ _ P) as [(-> & -> & _)|[(-> & -> & ->)|[(-> & -> & ->)|[(_ & _ & X)|(-> & -> & ->)]]]]; auto 10; [discriminate A|discriminate X].
Qed.

(** At 500 the intermediate's statement is in the cache, since 300; the rest is obtained now. *)
Definition stored : list use := [UCall (300 * sec) (300 * sec) (300 * sec + 1) LEAF IM (Some im_both)]%Z.
Definition now500 : time := (500 * sec)%Z.
Definition roll_world (exp : Z) (o : stmt) : world :=
  World (fun _ a => rolled exp now500 a a) (fun _ _ sub iss => if (String.eqb sub LEAF && String.eqb iss IM)%bool then Some o else rolled exp now500 sub iss)
        (fun _ _ => now500) (w_verify net0) (w_host net0).
Definition way : list string := [LEAF; IM; TA].
Lemma next_cases a b : next_on way a b -> (a = LEAF /\ b = IM) \/ (a = IM /\ b = TA).
Proof.
  intros (pre & post & E). destruct pre as [|x [|y [|z pre]]]; cbn [app] in E; unfold way in E.
  - injection E as -> -> _. auto.
  - injection E as _ -> -> _. auto.
  - injection E as _ _ _ E. discriminate.
  - injection E as _ _ _ E. destruct pre; discriminate.
Qed.

Lemma circulating sub iss s : in_circulation (roll 200%Z) 1%Z now500 now500 sub iss s ->
  (sub = LEAF /\ iss = LEAF /\ (s = leaf_old \/ s = leaf_new)) \/ (sub = LEAF /\ iss = IM /\ s = im_both) \/
  (sub = IM /\ iss = IM /\ s = lasting im_cfg) \/ (sub = TA /\ iss = TA /\ s = lasting ta_cfg) \/ (sub = IM /\ iss = TA /\ s = lasting (ta_sub None)).
Proof.
  intros ((t & _ & R) & L). apply rolled_cases in R.
  destruct R as [(-> & -> & ->)|[(-> & -> & ->)|[R|[R|R]]]]; auto 10.
  - destruct (Z.leb t (400 * sec)%Z); auto 10.
  - destruct (Z.leb t (100 * sec)%Z); auto 10. exfalso. vm_compute in L. now apply L.
Qed.

Lemma roll_sees : sees (served_until now500 (roll 200%Z)) (Memory []) (stored_alive 1%Z) now500 (roll_world 200%Z im_both).
Proof.
  assert (OB : forall u sub iss s t1 t2, In u stored -> obtained u sub iss s t1 t2 -> sub = LEAF /\ iss = IM /\ s = im_both /\ t1 = (300 * sec)%Z /\ t2 = (300 * sec + 1)%Z).
  { intros u sub iss s t1 t2 [<-|[]] [(now & E)|E]; [|discriminate E]. injection E; intros; subst; auto. }
  assert (OK : stored_alive 1%Z stored).
  { split; [split; [split|]|].
    - intros u sub iss s t1 t2 I O. destruct (OB _ _ _ _ _ _ I O) as (_ & _ & -> & -> & ->). vm_compute. repeat split; discriminate || auto.
    - intros now ss sk v ttl [E|[]]. discriminate E.
    - intros u sub iss s t1 t2 I O. destruct (OB _ _ _ _ _ _ I O) as (_ & _ & -> & -> & ->). vm_compute. split; discriminate.
    - intros u sub iss s t1 t2 I O. destruct (OB _ _ _ _ _ _ I O) as (_ & _ & -> & -> & ->). vm_compute. reflexivity. }
  assert (TR : truthful (served_until now500 (roll 200%Z)) now500 stored).
  { intros u sub iss s t1 t2 I O. destruct (OB _ _ _ _ _ _ I O) as (-> & -> & -> & -> & ->). split; [vm_compute; discriminate|].
    exists (300 * sec)%Z. split; [lia|]. split; [vm_compute; discriminate|]. vm_compute. reflexivity. }
  assert (PR : forall u, In u stored -> proper u) by (intros u [<-|[]]; exact I).
  assert (G : forall sub iss s, rolled 200%Z now500 sub iss = Some s -> (sub = LEAF -> iss = IM -> False) ->
    gave (served_until now500 (roll 200%Z)) (Memory []) stored now500 sub iss s).
  { intros sub iss s H N. split; [exact PR|]. split; [exact TR|]. exists now500, (now500 + 1)%Z, (Some s), false. split.
    - intros s' [= <-]. exists now500. split; [lia|]. split; [lia|exact H].
    - apply rolled_cases in H. destruct H as [(-> & -> & _)|[(-> & -> & _)|[(-> & -> & _)|[(-> & -> & _)|(-> & -> & _)]]]]; try (vm_compute; reflexivity). destruct (N eq_refl eq_refl). }
  split; [|split].
  - intros p a s H. exists stored, now500. split; [exact OK|]. split; [lia|]. apply G; [exact H|]. intros ->. discriminate.
  - intros p ep sub iss s H. exists stored, now500. split; [exact OK|]. split; [lia|]. cbn [roll_world w_fetch] in H.
    destruct (String.eqb_spec sub LEAF) as [->|N]; [destruct (String.eqb_spec iss IM) as [->|N]|]; cbn [andb] in H.
    + injection H as <-. split; [exact PR|]. split; [exact TR|]. exists now500, (now500 + 1)%Z, None, true. split; [discriminate|]. vm_compute. reflexivity.
    + apply G; [exact H|]. intros _ E. now apply N.
    + apply G; [exact H|]. intros E. now destruct (N E).
  - intros p b. cbn. lia.
Qed.

Lemma roll_fits : fit_together (roll_world 200%Z im_both) tas0 now500 now500 (in_circulation (roll 200%Z) 1%Z now500 now500) way.
Proof.
  assert (TT : forall t s, (now500 <= t <= now500)%Z -> valid_at now500 s -> valid_at t s) by (intros t s L; now replace t with now500 by lia).
  constructor.
  - repeat constructor; cbn; intuition discriminate.
  - intros pre a E. destruct pre as [|x [|y [|z [|? ?]]]]; cbn [app] in E; unfold way in E; try discriminate.
    injection E as <- <- <-. split; [now left|]. intros x [<-|[<-|[]]] [H|[]]; discriminate.
  - intros a e _ C. apply circulating in C.
    destruct C as [(-> & _ & [-> | ->])|[(-> & X & _)|[(-> & _ & ->)|[(-> & _ & ->)|(-> & X & _)]]]]; try discriminate X;
      (split; [reflexivity|split; [reflexivity|intros t L; apply TT; [exact L|vm_compute; split; right; discriminate]]]).
  - intros a b s N C. apply next_cases in N. apply circulating in C. destruct N as [[-> ->]|[-> ->]];
      destruct C as [(X & Y & _)|[(X & Y & ->)|[(X & Y & _)|[(X & Y & _)|(X & Y & ->)]]]]; try discriminate X; try discriminate Y;
      (split; [reflexivity|split; [reflexivity|intros t L; apply TT; [exact L|vm_compute; split; right; discriminate]]]).
  - intros a b e N C. apply next_cases in N. apply circulating in C. destruct N as [[-> ->]|[-> ->]];
      destruct C as [(X & Y & [-> | ->])|[(X & Y & ->)|[(X & Y & ->)|[(X & Y & _)|(X & Y & ->)]]]]; try discriminate X; try discriminate Y; cbn; auto.
  - intros a b e N C. apply next_cases in N. apply circulating in C. destruct N as [[-> ->]|[-> ->]];
      destruct C as [(X & Y & [-> | ->])|[(X & Y & ->)|[(X & Y & ->)|[(X & Y & ->)|(X & Y & ->)]]]]; try discriminate X; try discriminate Y; vm_compute; discriminate.
  - intros a b e s N C D. apply next_cases in N. apply circulating in C. apply circulating in D. destruct N as [[-> ->]|[-> ->]];
      destruct C as [(X & Y & [-> | ->])|[(X & Y & ->)|[(X & Y & ->)|[(X & Y & ->)|(X & Y & ->)]]]]; try discriminate X; try discriminate Y;
      destruct D as [(X' & Y' & _)|[(X' & Y' & ->)|[(X' & Y' & _)|[(X' & Y' & _)|(X' & Y' & ->)]]]]; try discriminate X'; try discriminate Y';
      eexists _, _; (split; [reflexivity|vm_compute; reflexivity]).
  - intros a b c s' s N M C D. apply next_cases in N. apply next_cases in M.
    destruct N as [[-> ->]|[-> ->]], M as [[X ->]|[X ->]]; try discriminate X. apply circulating in C. apply circulating in D.
    destruct C as [(_ & Y & _)|[(_ & _ & ->)|[(X' & _)|[(X' & _)|(X' & _)]]]]; try discriminate Y; try discriminate X'.
    destruct D as [(Y & _)|[(Y & _)|[(_ & Y & _)|[(Y & _)|(_ & _ & ->)]]]]; try discriminate Y.
    eexists _, _; (split; [reflexivity|vm_compute; reflexivity]).
  - intros pre a b e s E C D. destruct pre as [|x [|y [|z pre]]]; cbn [app] in E; unfold way in E; try discriminate;
      [|injection E as _ _ _ E; destruct pre; discriminate].
    injection E as <- <- <-. apply circulating in C. apply circulating in D.
    destruct C as [(Y & _)|[(Y & _)|[(Y & _)|[(_ & _ & ->)|(Y & _)]]]]; try discriminate Y.
    destruct D as [(Y & _)|[(Y & _)|[(_ & Y & _)|[(Y & _)|(_ & _ & ->)]]]]; try discriminate Y.
    exists (Some ["kt"]). split; [exists [], (Anchor TA (Some ["kt"])), []; repeat split; intros x []|].
    split; eexists _, _; (split; [reflexivity|vm_compute; reflexivity]).
  - intros pre a b post s c below E C K. exfalso. apply circulating in C.
    destruct C as [(_ & _ & [-> | ->])|[(_ & _ & ->)|[(_ & _ & ->)|[(_ & _ & ->)|(_ & _ & ->)]]]]; discriminate K.
Qed.

Definition rolled_chain : chain := [leaf_new; im_both; lasting (ta_sub None); lasting ta_cfg].
Lemma c159_case : served_alive (served_until now500 (roll 200%Z)) /\
  sees (served_until now500 (roll 200%Z)) (Memory []) (stored_alive 1%Z) now500 (roll_world 200%Z im_both) /\
  (forall e, in_circulation (roll 200%Z) 1%Z now500 now500 LEAF LEAF e -> st_metadata e <> None) /\
  all_answer (roll_world 200%Z im_both) way /\
  fit_together (roll_world 200%Z im_both) tas0 now500 now500 (in_circulation (roll 200%Z) 1%Z now500 now500) way /\
  (forall c, trust_chain (roll_world 200%Z im_both) tas0 [] LEAF c -> c = rolled_chain) /\
  resolve_valid 5 (roll_world 200%Z im_both) tas0 [] LEAF = Done (Ok [rolled_chain]) /\
  st_jwks leaf_new <> st_jwks leaf_old.
Proof.
  split.
  { intros t sub iss s [U R]. apply rolled_cases in R. unfold now500 in U.
    destruct R as [(_ & _ & ->)|[(_ & _ & ->)|[(_ & _ & ->)|[(_ & _ & ->)|(_ & _ & ->)]]]].
    - destruct (Z.leb t (400 * sec)%Z); cbn [leaf_old leaf_new lasting st_exp]; unfold sec in *; lia.
    - destruct (Z.leb_spec t (100 * sec)%Z); cbn [im_first im_both lasting mk st_exp]; unfold sec in *; lia.
    - cbn [lasting st_exp]. unfold sec in *. lia.
    - cbn [lasting st_exp]. unfold sec in *. lia.
    - cbn [lasting st_exp]. unfold sec in *. lia. }
  split; [exact roll_sees|]. split.
  { intros e C. apply circulating in C. destruct C as [(_ & _ & [-> | ->])|[(_ & X & _)|[(X & _)|[(X & _)|(X & _)]]]]; try discriminate X; discriminate. }
  split.
  { split.
    - intros p a [<-|[<-|[<-|[]]]]; vm_compute; discriminate.
    - intros p ep a b N. apply next_cases in N. destruct N as [[-> ->]|[-> ->]]; vm_compute; discriminate. }
  split; [exact roll_fits|]. split.
  { intros c T. assert (R : resolve_chains 5 (roll_world 200%Z im_both) tas0 [] LEAF = Done (Ok [rolled_chain])) by (vm_compute; reflexivity).
    apply (chains_exact _ _ _ _ _ _ R) in T. destruct T as [<-|[]]. reflexivity. }
  split; [vm_compute; reflexivity|discriminate].
Qed.

(** Without the overlap: the statement with the old key alone is still in the cache. *)
Lemma c159_abrupt : resolve_valid 5 (roll_world 600%Z (im_first 600)) tas0 [] LEAF = Done (Ok []) /\
  in_circulation (roll 600%Z) 1%Z now500 now500 LEAF IM (im_first 600).
Proof.
  split; [vm_compute; reflexivity|]. split; [|vm_compute; discriminate]. exists 0%Z. split; [vm_compute; discriminate|]. vm_compute. reflexivity.
Qed.
