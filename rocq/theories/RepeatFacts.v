(** Value and default operands that repeat elements. *)
From Coq Require Import Lia.
From Verif Require Import Base BaseFacts GoVal Policy SpecPolicy PolicyFacts MergeFacts SpecEncode SpecGeneral GeneralFacts.
From Verif Require Import GoVal.
Local Open Scope string_scope.

Lemma slice_equal_exact a b : a <> VNil -> b <> VNil -> proper a -> proper b ->
  slice_equal a b = Ok true /\ (List.length (elements a) = List.length (elements b) /\ within (elements a) (elements b)) \/
  slice_equal a b = Ok false /\ ~ (List.length (elements a) = List.length (elements b) /\ within (elements a) (elements b)).
Proof.
  intros Na Nb Pa Pb. unfold slice_equal. replace (is_nil a || is_nil b)%bool with false by (destruct a; try contradiction; destruct b; try contradiction; reflexivity).
  destruct (slicify_list a Na) as (ta & na & Ea). destruct (slicify_list b Nb) as (tb & nb & Eb). rewrite Ea, Eb. cbn [elems bind].
  destruct (Nat.eqb_spec (List.length (elements a)) (List.length (elements b))) as [L|L]; cbn [andb]; [|right; split; [reflexivity|tauto]].
  apply proper_elements in Pa, Pb. unfold all_proper in Pa. rewrite Forall_forall in Pa.
  match goal with |- context [forallb ?f ?l] => destruct (forallb f l) eqn:F end.
  - left. split; [reflexivity|]. split; [exact L|]. rewrite forallb_forall in F. intros x I. specialize (F x I). apply contains_among in F; auto.
  - right. split; [reflexivity|]. intros [_ W]. assert (T : forallb (fun v : gval => slice_contains v (VSlice tb nb (elements b))) (elements a) = true).
    { apply forallb_forall. intros x I. cbn [slice_contains]. apply contains_among; auto. }
    cbn [slice_contains] in T, F. congruence.
Qed.
Theorem any_exact o a b : eq_op o -> a <> VNil -> b <> VNil -> proper a -> proper b ->
  (merge_op o a b = Ok a /\ List.length (elements a) = List.length (elements b) /\ within (elements a) (elements b)) \/
  (merge_op o a b = Err /\ ~ (List.length (elements a) = List.length (elements b) /\ within (elements a) (elements b))).
Proof.
  intros S Na Nb Pa Pb. assert (Na' : is_nil a = false) by (destruct a; try reflexivity; contradiction). assert (Nb' : is_nil b = false) by (destruct b; try reflexivity; contradiction).
  destruct (slice_equal_exact a b Na Nb Pa Pb) as [[E C] | [E C]]; destruct S as [-> | ->]; cbn [merge_op]; rewrite ?Na', ?Nb', E; cbn [bind]; auto.
Qed.
Theorem any_both_ways o a b x y : eq_op o -> a <> VNil -> b <> VNil -> proper a -> proper b ->
  merge_op o a b = Ok x -> merge_op o b a = Ok y -> same_content a b /\ x = a /\ y = b.
Proof.
  intros S Na Nb Pa Pb H1 H2. destruct (any_exact o a b S Na Nb Pa Pb) as [(E1 & _ & W1)|(E1 & _)]; [|congruence].
  destruct (any_exact o b a S Nb Na Pb Pa) as [(E2 & _ & W2)|(E2 & _)]; [|congruence]. split; [split; assumption|split; congruence].
Qed.
Theorem any_null b : (merge_op OValue VNil b = if is_nil b then Ok VNil else Err) /\ (merge_op OValue b VNil = if is_nil b then Ok VNil else Err) /\
  merge_op ODefault VNil b = Ok b /\ merge_op ODefault b VNil = Ok b.
Proof. destruct b; repeat split; reflexivity. Qed.

(** A case: the superior's and the subordinate's lists, in both orders. *)
Lemma repeat_case : let l := map VStr in let a := VSlice TStr false (l ["a"; "a"]) in let b := VSlice TStr false (l ["a"; "b"]) in
  let c := VSlice TStr false (l ["b"; "a"]) in
  proper a /\ proper b /\ proper c /\ merge_op OValue a b = Ok a /\ merge_op OValue b a = Err /\ merge_op OValue b c = Ok b /\ merge_op OValue c b = Ok c.
Proof. repeat split; try (vm_compute; reflexivity); repeat constructor. Qed.
