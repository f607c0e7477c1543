(** Exactly when a verified trust mark configuration crashes. *)
From Coq Require Import QArith Qround.
From Verif Require Import Base GoVal Policy Schema Metadata Chain FloatTime SpecUnits SpecTime Json SpecJson TrustMark SpecTrustMark
  Refresher BaseFacts.
From Verif Require Import Config SpecConfig ConfigFacts.
Local Open Scope nat_scope.
Local Open Scope string_scope.

Theorem verified_panics parse sub ep sign c c1 c2 e ask now :
  unused c -> verify_mconfig parse sub ep sign c = Ok c1 -> used c1 c2 ->
  (fst (mark_jwt e ask now c2) = Panic <->
   mc_self c = true /\ (mc_jwt c <> "" \/ sign = None) /\
   mc_refresh c2 = true /\ ~ (mc_jwt c2 <> "" /\ (mc_min c2 < until (mc_exp c2) now)%Z) /\
   (minute <= since (mc_tried c2) now)%Z).
Proof.
  intros N V U. destruct (used_same _ _ U) as (S1&S2&S3&S4&S5&S6&S7).
  assert (O : obtain e ask now c2 = Panic <-> mc_self c = true /\ (mc_jwt c <> "" \/ sign = None)).
  { split.
    - intros O. destruct (obtain_panics _ _ _ _ O) as [A B]. rewrite S1 in A. rewrite S2 in B.
      unfold verify_mconfig in V. destruct (String.eqb_spec (mc_jwt c) "") as [J|J]; cbn [negb] in V.
      + destruct (mc_self c) eqn:Se.
        * destruct (String.eqb (mc_type c) ""); [discriminate|]. injection V as <-. cbn in B.
          specialize (B _ eq_refl). cbn in B. auto.
        * destruct (String.eqb (mc_type c) "" || String.eqb (mc_issuer c) "")%bool; [discriminate|]. injection V as <-. discriminate.
      + destruct (parse (mc_jwt c)) as [[[ex is] [ty|]]|]; try discriminate. injection V as <-. cbn in A. auto.
    - intros (A & H). unfold obtain. rewrite S1, S2, S3.
      unfold verify_mconfig in V. destruct (String.eqb_spec (mc_jwt c) "") as [J|J]; cbn [negb] in V.
      + destruct H as [H|H]; [contradiction|]. subst sign. rewrite A in V.
        destruct (String.eqb (mc_type c) ""); [discriminate|]. injection V as <-. cbn. now rewrite String.eqb_refl.
      + destruct (parse (mc_jwt c)) as [[[ex is] [ty|]]|]; try discriminate. injection V as <-. cbn. rewrite A.
        unfold unused in N. rewrite N. reflexivity. }
  unfold mark_jwt. destruct (mc_refresh c2); cbn [negb].
  2:{ split; [discriminate|]. intros (_ & _ & H & _). discriminate. }
  destruct (String.eqb_spec (mc_jwt c2) "") as [J|J]; cbn [negb andb].
  - destruct (Z.ltb_spec (since (mc_tried c2) now) minute) as [L|L].
    + split; [discriminate|]. intros (_ & _ & _ & _ & H). exfalso. apply (Z.lt_irrefl minute). eapply Z.le_lt_trans; eauto.
    + rewrite <- (and_assoc (mc_self c = true)), <- O. destruct (obtain e ask now c2) as [[j x]| |]; cbn [fst].
      * split; [discriminate|]. intros (H & _). discriminate.
      * split; [discriminate|]. intros (H & _). discriminate.
      * split; [|reflexivity]. intros _. repeat split; auto. intros (H & _). contradiction.
  - destruct (Z.ltb_spec (mc_min c2) (until (mc_exp c2) now)) as [M|M].
    { split; [discriminate|]. intros (_ & _ & _ & H & _). exfalso. apply H. auto. }
    destruct (Z.ltb_spec (since (mc_tried c2) now) minute) as [L|L].
    + split; [discriminate|]. intros (_ & _ & _ & _ & H). exfalso. apply (Z.lt_irrefl minute). eapply Z.le_lt_trans; eauto.
    + rewrite <- (and_assoc (mc_self c = true)), <- O. destruct (obtain e ask now c2) as [[j x]| |]; cbn [fst].
      * split; [discriminate|]. intros (H & _). discriminate.
      * split; [discriminate|]. intros (H & _). discriminate.
      * split; [|reflexivity]. intros _. repeat split; auto. intros (_ & H). apply (Z.lt_irrefl (mc_min c2)). eapply Z.lt_le_trans; eauto.
Qed.

(** An issuer that does not know a type reports an error, with or without a signer. *)
Theorem unknown_type e ask now c o :
  mc_self c = true -> mc_own c = Some o -> lookup (mc_type c) (is_specs o) = None -> obtain e ask now c = Err.
Proof.
  intros S O L. unfold obtain. rewrite S, O. destruct (is_sign o); [|now rewrite L].
  unfold issue_mark. now rewrite L.
Qed.
