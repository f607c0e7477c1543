(** Witnesses for resolving with several trust anchors. *)
From Verif Require Import Base GoVal Policy Schema Metadata Chain Resolver SpecResolver SpecExact SpecAnchors WitnessResolver.
From Coq Require Import Permutation.
Local Open Scope string_scope.

(** The anchor of [net0] with a second one, with and without the keys it really uses. *)
Definition OTHER := "https://other.example".
Definition tas_good : list anchor := [Anchor TA (Some ["kt"]); Anchor IM (Some ["ki"])].
Definition tas_wrong : list anchor := [Anchor TA (Some ["kt"]); Anchor IM (Some ["other"])].
Definition tas_far : list anchor := [Anchor OTHER (Some ["ko"]); Anchor TA (Some ["kt"])].
Definition long : chain := chain0 leaf0 None None [].

Lemma anchors_refuted : exists (w : world) (tas : list anchor) (extra : anchor) (types : list string) (start id : string) (c : chain),
  resolve_valid 5 w tas types start = Done (Ok [c]) /\ leads_to id c /\ pinned (tas ++ [extra])%list id = pinned tas id /\
  resolve_valid 5 w (tas ++ [extra])%list types start = Done (Ok []).
Proof.
  exists net0, tas0, (Anchor IM (Some ["other"])), [], LEAF, TA, long. split; [vm_compute; reflexivity|].
  split; [exists [leaf0; im_sub LEAF None []; ta_sub None], ta_cfg; split; reflexivity|].
  split; vm_compute; reflexivity.
Qed.

(** With the keys the second anchor really uses, only the chain to it remains. *)
Lemma anchors_nearest : resolve_valid 5 net0 tas_good [] LEAF = Done (Ok [[leaf0; im_sub LEAF None []; im_cfg]]).
Proof. vm_compute. reflexivity. Qed.

Lemma long_leads : leads_to TA long /\ 2 <= List.length long /\ below_top long = [LEAF; IM].
Proof.
  split; [exists [leaf0; im_sub LEAF None []; ta_sub None], ta_cfg; split; reflexivity|]. split; [cbn; lia|vm_compute; reflexivity].
Qed.

Lemma clear_far : clear_of tas_far long /\ ~ clear_of tas_good long.
Proof.
  unfold clear_of. destruct long_leads as (_ & _ & ->). split.
  - intros x [<-|[<-|[]]] [H|[H|[]]]; vm_compute in H; discriminate.
  - intros H. apply (H IM); [right; now left|right; now left].
Qed.

Lemma anchors_case : resolve_chains 5 net0 tas_far [] LEAF = Done (Ok [long]) /\
  resolve_valid 5 net0 tas_far [] LEAF = Done (Ok [long]) /\
  resolve_chains 5 net0 [Anchor TA (Some ["kt"])] [] LEAF = Done (Ok [long]) /\
  resolve_valid 5 net0 [Anchor TA (Some ["kt"])] [] LEAF = Done (Ok [long]) /\
  pinned tas_far TA = Some (Some ["kt"]).
Proof. repeat split; vm_compute; reflexivity. Qed.

Lemma order_case : Permutation tas_far [Anchor TA (Some ["kt"]); Anchor OTHER (Some ["ko"])] /\ NoDup (anchor_ids tas_far).
Proof.
  split; [apply perm_swap|]. repeat constructor; cbn; intros H; repeat destruct H as [H|H]; try discriminate; auto.
Qed.

(** The second entry for the same anchor does not count. *)
Lemma shadowed_case : forall id, pinned [Anchor TA (Some ["kt"]); Anchor TA (Some ["old"])] id = pinned tas0 id.
Proof. intros id. unfold pinned, tas0. cbn [find ta_id]. now destruct (String.eqb TA id). Qed.
