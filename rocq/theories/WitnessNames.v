(** Witnesses for name queries. *)
From Coq Require Import NArith.
From Verif Require Import Base BaseFacts GoVal Policy Schema Metadata Chain Resolver FloatTime Json TrustMark WitnessResolver WitnessTrustMark
  Discovery SpecDiscovery SpecSteady WitnessDiscovery NameQuery SpecNames NameFacts.
Local Open Scope nat_scope.
Local Open Scope string_scope.

(** The federation of [cenv0] with the library's comparison of names; I1 and I2 are called
    Org, OP1 is called University. *)
Definition cenv1 : cenv := CEnv (ce_env cenv0) (ce_list cenv0) (fuzzy_match ascii_fold).
Definition world1 (q : string) : dworld :=
  DWorld (fun p a => listing_answer cenv1 p a)
         (fun p b => match entity_answer 9 cenv1 (with_name rq0 q) p b with Done (Ok r) => r | _ => (None, false) end).

Lemma network1 q : In q [""; "R"; "rS"] -> network 9 cenv1 (with_name rq0 q) (world1 q).
Proof.
  intros I. split; [reflexivity|]. intros p b. cbn [dw_entity world1].
  assert (H : exists r, entity_answer 9 cenv1 (with_name rq0 q) p b = Done (Ok r)); [|destruct H as [r ->]; reflexivity].
  unfold entity_answer. change (ce_env cenv1) with (ce_env cenv0). rewrite te_config0.
  destruct (lookup b configs0) as [s|] eqn:L; [|eauto]. apply lookup_In in L.
  destruct I as [<- | [<- | [<- | []]]];
    destruct L as [[= <- <-] | [[= <- <-] | [[= <- <-] | [[= <- <-] | [[= <- <-] | []]]]]]; eexists; vm_compute; reflexivity.
Qed.
Lemma steady1 q : In q [""; "R"; "rS"] -> steady 9 cenv1 (with_name rq0 q).
Proof.
  intros I. split; [reflexivity|]. intros p p' b. unfold entity_answer. change (ce_env cenv1) with (ce_env cenv0). rewrite !te_config0.
  destruct (lookup b configs0) as [s|] eqn:L; [|reflexivity]. apply lookup_In in L.
  destruct I as [<- | [<- | [<- | []]]];
    destruct L as [[= <- <-] | [[= <- <-] | [[= <- <-] | [[= <- <-] | [[= <- <-] | []]]]]]; vm_compute; reflexivity.
Qed.
Definition found_for (q : string) : list collected :=
  match exec (world1 q) (drive (world1 q) 200 (start TA)) (start TA) with Some s => f_out (snd s) | None => [] end.
Lemma returns1 q : In q [""; "R"; "rS"] -> returns (world1 q) TA (found_for q).
Proof.
  intros I. unfold found_for.
  assert (K : match exec (world1 q) (drive (world1 q) 200 (start TA)) (start TA) with Some s => finished (snd s) = true | None => False end)
    by (destruct I as [<- | [<- | [<- | []]]]; vm_compute; exact eq_refl).
  destruct (exec (world1 q) (drive (world1 q) 200 (start TA)) (start TA)) as [s|] eqn:E; [|contradiction].
  exists s. split; [eexists; exact E|]. split; [exact K|reflexivity].
Qed.

Lemma c155_case : ce_fuzzy cenv1 = fuzzy_match ascii_fold /\ in_order (ascii_fold "R") (ascii_fold "rS") /\
  (forall q, In q [""; "R"; "rS"] -> network 9 cenv1 (with_name rq0 q) (world1 q) /\ steady 9 cenv1 (with_name rq0 q) /\
    returns (world1 q) (cr_anchor rq0) (found_for q)) /\
  map ce_id (found_for "") = [I1; OP1; I2] /\ map ce_id (found_for "R") = [I1; OP1; I2] /\ map ce_id (found_for "rS") = [OP1] /\
  called_like ascii_fold cenv1 "rS" OP1 /\ ~ called_like ascii_fold cenv1 "rS" I1.
Proof.
  split; [reflexivity|]. split; [vm_compute; repeat constructor|].
  split; [intros q I; split; [now apply network1|]; split; [now apply steady1|now apply returns1]|].
  split; [vm_compute; reflexivity|]. split; [vm_compute; reflexivity|]. split; [vm_compute; reflexivity|].
  assert (X : forall b, In b (map ce_id (found_for "rS")) <-> In b (map ce_id (found_for "")) /\ called_like ascii_fold cenv1 "rS" b).
  { apply (query_exact ascii_fold 9 cenv1 rq0 "rS" (world1 "rS") (world1 "")); try reflexivity; try discriminate;
      first [apply network1 | apply steady1 | apply returns1]; cbn; auto. }
  assert (E1 : map ce_id (found_for "rS") = [OP1]) by (vm_compute; reflexivity).
  assert (E0 : map ce_id (found_for "") = [I1; OP1; I2]) by (vm_compute; reflexivity).
  rewrite E1, E0 in X. split; [apply X; now left|]. intros H.
  assert (K : In I1 [OP1]) by (apply X; split; [now left|exact H]). destruct K as [K|[]]. vm_compute in K. discriminate.
Qed.
Lemma c155_part_case : "https://University of Oslo" = "https://" ++ "University" ++ " of Oslo" /\
  in_lower_case "uniVERsity" = in_lower_case "University" /\ in_lower_case "uniVERsity" <> [].
Proof. split; [reflexivity|]. split; [reflexivity|]. vm_compute. discriminate. Qed.
