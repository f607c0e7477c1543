(** Counterexamples and cases for PropertiesNumbers.v. *)
From Coq Require Import QArith Qabs Lia Lqa.
From Verif Require Import Base GoVal Policy Schema Metadata Chain FloatTime FloatFacts Numbers SpecNumbers NumberFacts.
Local Open Scope Q_scope.

(** 1.0, 1e2, 2^53+1, 0.1, 1e400 and 1e19 *)
Definition one_point_zero : literal := Literal false 1 (Some (1%positive, 0%N)) None.
Definition hundred_exp : literal := Literal false 1 None (Some 2%Z).
Definition odd_large : literal := Literal false 9007199254740993 None None.
Definition tenth : literal := Literal false 0 (Some (1%positive, 1%N)) None.
Definition huge : literal := Literal false 1 None (Some 400%Z).
Definition far_stamp : literal := Literal false 1 None (Some 19%Z).

Lemma c133_int_refuted : exists l z, lit_value l == inject_Z z /\ int64_range z /\ read_int l = Err.
Proof. exists one_point_zero, 1%Z. split; [reflexivity|]. split; [split; reflexivity || discriminate|reflexivity]. Qed.
Lemma c133_int_case : read_int (int_literal (-9223372036854775808)) = Ok (-9223372036854775808)%Z /\ read_int (int_literal 9223372036854775808) = Err /\ read_int hundred_exp = Err.
Proof. repeat split. Qed.
Lemma c133_claim_refuted : exists l x, lit_value l == inject_Z 9007199254740993 /\ read_float l = Ok x /\ x == inject_Z 9007199254740992.
Proof. exists odd_large. eexists. split; [reflexivity|]. split; [vm_compute; reflexivity|reflexivity]. Qed.
Lemma c133_claim_case : short (lit_value hundred_exp) /\ (exists x, read_float hundred_exp = Ok x /\ x == 100) /\ writes_float 100 (int_literal 100).
Proof.
  split; [|split; (eexists; split; [vm_compute; reflexivity|reflexivity])]. exists 100%Z, 0%Z. split; [reflexivity|]. repeat split; try reflexivity; discriminate.
Qed.
Lemma c133_close_case : exists x, read_float tenth = Ok x /\ ~ x == lit_value tenth /\ close x (lit_value tenth).
Proof. eexists. split; [vm_compute; reflexivity|]. split; vm_compute; discriminate. Qed.
Lemma c133_fails_case : read_float huge = Err.
Proof. vm_compute. reflexivity. Qed.

Definition year_2026 : literal := int_literal 1763337600.
Definition tomorrow : literal := Literal false 1763424000 (Some (1%positive, 5%N)) None.
Lemma c134_case : 0 <= lit_value year_2026 < Qpower 2 62 /\ 0 <= lit_value tomorrow < Qpower 2 62 /\
  window_of Amd64 1763337600000000000%Z year_2026 tomorrow = Ok tt /\ window_of Amd64 1763424000600000000%Z year_2026 tomorrow = Err.
Proof. repeat split; vm_compute; reflexivity || discriminate. Qed.
Lemma c134_refuted : exists iat exp, forall p now, (0 <= now <= 1763424000 * 1000000000)%Z -> inject_Z now < instant (lit_value iat) /\ window_of p now iat exp = Ok tt.
Proof.
  exists far_stamp, (int_literal 1763424000). intros p now H. split.
  - assert (K : inject_Z (1763424000 * 1000000000) < instant (lit_value far_stamp)) by reflexivity. eapply Qle_lt_trans; [|exact K]. rewrite <- Zle_Qle. lia.
  - apply (far_iat p now far_stamp _ 1763424000); [split; vm_compute; [discriminate|reflexivity]|apply int_literal_value|lia|lia|lia].
Qed.
Lemma c134_exp_refuted : exists iat exp, forall p now, (0 <= now <= 2 ^ 63)%Z ->
  instant (lit_value iat) <= inject_Z now <= instant (lit_value exp) /\ window_of p now iat exp <> Ok tt.
Proof.
  exists (int_literal 0), far_stamp. intros p now H. split; [split|].
  - assert (K : instant (lit_value (int_literal 0)) == inject_Z 0) by reflexivity. rewrite K, <- Zle_Qle. lia.
  - apply Qle_trans with (inject_Z (2 ^ 63)); [rewrite <- Zle_Qle; lia|vm_compute; discriminate].
  - apply far_exp; [vm_compute; discriminate|lia].
Qed.
