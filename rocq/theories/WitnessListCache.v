(** Counterexamples and cases for the theorems in PropertiesMetaCache.v about listings. *)
From Verif Require Import Base BaseFacts GoVal Policy Schema Metadata Chain Resolver TrustMark Refresher FloatTime Cache ListCache SpecListCache ListCacheFacts.
Local Open Scope nat_scope.
Local Open Scope string_scope.
Local Open Scope list_scope.

Definition EP : string := "https://ta.example/list".
Definition lhist : list luse :=
  [LFetch 1000 2000 EP (RListing (Some ["https://rp.example"; "https://op.example"]));
   LOther 2500 "entity_statement" "x" 50; LFetch 3000 3500 EP RFailed]%Z.

Lemma lhist_ok : Forall luse_ok lhist /\ Forall luse_in_range lhist.
Proof. split; repeat constructor; try (intros H; discriminate H); cbn; tauto. Qed.

Lemma c88_case : Forall luse_ok lhist /\ Forall luse_in_range lhist /\
  fst (fetch_list 4000 4000 EP RFailed (after_luses lhist (Memory [])))%Z = Ok ["https://rp.example"; "https://op.example"] /\
  fst (fetch_list 4000 4000 EP RFailed (after_luses lhist (Redis [])))%Z = Ok ["https://rp.example"; "https://op.example"] /\
  fst (fetch_list 3600000002001 3600000002001 EP RFailed (after_luses lhist (Memory [])))%Z = Err /\
  (forall t0 t1 ep, ~ In (LFetch t0 t1 ep ROther) lhist).
Proof.
  split; [apply lhist_ok|]. split; [apply lhist_ok|]. split; [vm_compute; reflexivity|]. split; [vm_compute; reflexivity|].
  split; [vm_compute; reflexivity|]. intros t0 t1 ep H. cbn in H. repeat destruct H as [H|H]; try discriminate H. exact H.
Qed.

(** A bad gateway page is taken for an empty listing; a later call gets it although the
    endpoint answers again. *)
Lemma c89_witness : exists h, Forall luse_ok h /\ Forall luse_in_range h /\
  h = [LFetch 1000 1000 EP ROther]%Z /\
  fst (fetch_list 1000 1000 EP ROther (Memory []))%Z = Ok [] /\
  fst (fetch_list 2000 2000 EP (RListing (Some ["https://rp.example"])) (after_luses h (Memory [])))%Z = Ok [].
Proof.
  exists [LFetch 1000 1000 EP ROther]%Z. split; [repeat constructor|]. split; [repeat constructor|]. split; [reflexivity|].
  split; vm_compute; reflexivity.
Qed.
