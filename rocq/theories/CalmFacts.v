(** Registered operators and collected entities: panics come from nowhere else. *)
From Coq Require Import QArith.
From Verif Require Import Base BaseFacts GoVal Policy OpFacts Custom SpecCalm.
From Verif Require Import Metadata Chain Resolver FloatTime Json TrustMark Leaf Config Discovery Statement Collection NoPanicFacts.
Local Open Scope nat_scope.
Local Open Scope string_scope.

Lemma r_apply_ops_calm r e ess names : operators_calm r -> forall v s, r_apply_ops r names e ess v s <> Panic.
Proof.
  intros [C _]. induction names as [|n names IH]; intros v s; cbn [r_apply_ops]; [discriminate|].
  destruct (lookup n e) as [pv|]; [|apply IH]. destruct (lookup n (rg_ops r)) as [o|] eqn:E; [|discriminate].
  apply bind_no_panic; [now apply (C n o E)|]. intros [v' s'] _. apply IH.
Qed.
Lemma r_merge_loop_calm r a b : operators_calm r -> forall out, r_merge_loop r a b out <> Panic.
Proof.
  intros [C _]. induction a as [|[n x] a IH]; intros out; cbn [r_merge_loop]; [discriminate|].
  destruct (lookup n b) as [y|]; [|apply IH]. destruct (lookup n (rg_ops r)) as [o|] eqn:E; [|discriminate].
  apply bind_no_panic; [now apply (C n o E)|]. intros c _. apply IH.
Qed.
Lemma r_combinations_calm r active l : r_check_combinations r active l <> Panic.
Proof.
  induction l as [|n l IH]; cbn [r_check_combinations]; [discriminate|]. apply bind_no_panic; [|intros _ _; exact IH].
  unfold r_check_combination. destruct (lookup n (rg_ops r)) as [o|]; [|discriminate].
  destruct (on_combine o); [|discriminate]. destruct (subtract _ _); discriminate.
Qed.
Lemma run_verifiers_calm l e : (forall v, In v l -> v e <> Panic) -> run_verifiers l e <> Panic.
Proof.
  induction l as [|v l IH]; intros K; cbn [run_verifiers]; [discriminate|].
  apply bind_no_panic; [apply K; now left|]. intros _ _. apply IH. intros w I. apply K. now right.
Qed.
Theorem r_calm r : operators_calm r -> forall a b v set,
  r_apply_to r a v set <> Panic /\ r_merge_entries r a b <> Panic /\ r_verify_entry r a <> Panic.
Proof.
  intros C a b v set. split; [|split].
  - unfold r_apply_to. apply bind_no_panic; [now apply r_apply_ops_calm|]. intros [x y] _. discriminate.
  - unfold r_merge_entries. apply bind_no_panic; [now apply r_merge_loop_calm|]. intros [x|] _; discriminate.
  - unfold r_verify_entry. apply bind_no_panic; [apply r_combinations_calm|]. intros _ _. apply run_verifiers_calm.
    intros w I. apply C, I.
Qed.

Lemma map_res_calm {A B} (f : A -> res B) l : (forall x, f x <> Panic) -> map_res f l <> Panic.
Proof.
  intros K. induction l as [|x l IH]; cbn [map_res]; [discriminate|]. apply bind_no_panic; [apply K|].
  intros y _. apply bind_no_panic; [exact IH|discriminate].
Qed.
Lemma names_calm j : dec_names j <> Panic.
Proof.
  destruct j as [| | | |l|]; try discriminate. cbn [dec_names]. apply bind_no_panic; [|discriminate].
  induction l as [|j l IH]; cbn [dec_strs]; [discriminate|]. apply bind_no_panic; [destruct j; discriminate|].
  intros s _. apply bind_no_panic; [exact IH|discriminate].
Qed.
Lemma messages_calm jws j : dec_messages jws j <> Panic.
Proof. unfold dec_messages. apply bind_no_panic; [apply names_calm|]. intros l _. destruct (forallb _ _); discriminate. Qed.
Lemma ui_calm j : dec_ui j <> Panic.
Proof. unfold dec_ui. apply bind_no_panic; [apply decode_calm; calm_fields|]. intros [vs x] _. discriminate. Qed.
Lemma dec_map_calm {A} (d : json -> res A) j : (forall j, d j <> Panic) -> dec_map d j <> Panic.
Proof.
  intros K. destruct j; try discriminate. cbn [dec_map]. apply bind_no_panic; [|discriminate].
  apply map_res_calm. intros x. apply bind_no_panic; [apply K|discriminate].
Qed.
Lemma dec_ptr_calm {A} (d : json -> res A) j : (forall j, d j <> Panic) -> dec_ptr d j <> Panic.
Proof. intros K. unfold dec_ptr. destruct j; try discriminate; apply bind_no_panic; try discriminate; apply K. Qed.
Lemma dec_infos_calm j : dec_infos j <> Panic.
Proof. unfold dec_infos, dec_slice. destruct j; try discriminate. apply map_res_calm. intros x. apply infos_calm. Qed.
Lemma cfield_calm {A} tag om (wrap : A -> cval) zero enc dec : (forall j, dec j <> Panic) -> calm (f_codec (cfield tag om wrap zero enc dec)).
Proof. intros K v j. cbn. apply bind_no_panic; [apply K|discriminate]. Qed.
Lemma collected_calm jws j : dec_collected jws j <> Panic.
Proof.
  unfold dec_collected. apply bind_no_panic; [|intros [vs x] _; discriminate]. apply decode_calm. intros f I.
  repeat (destruct I as [<- |I]; [apply cfield_calm; intros k|]); [| | | | |destruct I].
  - destruct k; discriminate.
  - apply dec_infos_calm.
  - apply messages_calm.
  - apply names_calm.
  - apply dec_map_calm, ui_calm.
Qed.
Theorem collection_calm jws j : dec_collected jws j <> Panic /\ unmarshal (collection_fields jws) j <> Panic.
Proof.
  split; [apply collected_calm|]. destruct j; try discriminate. cbn [unmarshal]. apply fields_calm. intros f I.
  repeat (destruct I as [<- |I]; [apply cfield_calm; intros k|]); [| | |destruct I].
  - unfold dec_entities. destruct k; try discriminate. apply bind_no_panic; [|discriminate].
    apply map_res_calm. intros x. apply dec_ptr_calm, collected_calm.
  - destruct k; discriminate.
  - destruct k; discriminate.
Qed.
