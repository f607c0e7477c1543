(** Counterexamples and cases for PropertiesTime.v. *)
From Coq Require Import Lia.
From Verif Require Import Base GoVal Policy Schema Metadata Chain FloatTime FloatFacts SpecTime TimeFacts.
Local Open Scope string_scope.

Lemma c48_case : verify_time_ptr (seconds 50) (Some (seconds 50)) (Some (seconds 50)) = Ok tt /\
  verify_time_ptr (seconds 50 + 1)%Z (Some (seconds 50)) (Some (seconds 50)) = Err /\
  verify_time_ptr (seconds 50 - 1)%Z (Some (seconds 50)) None = Err.
Proof. vm_compute. auto. Qed.

Lemma c48_witness : exists now exp, verify_time_ptr now None exp = Ok tt /\ ~ in_window now None exp.
Proof.
  exists 0%Z, (Some zero_time). split; [reflexivity|]. intros [_ H]. specialize (H _ eq_refl).
  unfold zero_time in H. lia.
Qed.

Definition no_exp : stmt := Stmt "jwt" "https://a" "https://a" (seconds 100) zero_time None [] None None None [] [] [] [] [].
Lemma c49_witness : exists s, st_exp s = zero_time /\ forall now, (st_iat s <= now)%Z -> time_valid now s = true.
Proof.
  exists no_exp. split; [reflexivity|]. intros now H. apply time_valid_window. cbn [st_iat st_exp no_exp] in *.
  split; unfold present.
  - destruct (Z.eqb_spec (seconds 100) zero_time); intros t [= <-]; exact H.
  - rewrite Z.eqb_refl. intros ? [=].
Qed.

Definition with_exp : stmt := Stmt "jwt" "https://a" "https://a" (seconds 100) (seconds 200) None [] None None None [] [] [] [] [].
Lemma c49_case : st_exp with_exp <> zero_time /\ time_valid (seconds 150) with_exp = true /\ time_valid (seconds 201) with_exp = false.
Proof. split; [discriminate|]. vm_compute. auto. Qed.

Lemma c50_case : (Z.abs 1763337600 <= 4611686018)%Z /\ json_time (seconds 1763337600) = seconds 1763337600.
Proof. split; [lia|vm_compute; reflexivity]. Qed.
Lemma c50_zero : json_time zero_time = 0%Z /\ zero_time <> 0%Z /\ exists s, zero_time = seconds s.
Proof. split; [vm_compute; reflexivity|]. split; [discriminate|]. exists (-62135596800)%Z. reflexivity. Qed.
Lemma c50_late : json_time (seconds 4611686019) = (seconds 4611686019 + 953)%Z.
Proof. vm_compute. reflexivity. Qed.
Lemma c50_overflow : (json_time (seconds 9223372037) < 0)%Z.
Proof. vm_compute. reflexivity. Qed.

Lemma c51_witness : exists d, (0 < d)%Z /\ json_duration d = 0%Z.
Proof. exists 999999999%Z. split; [lia|vm_compute; reflexivity]. Qed.
Lemma c51_late : exists s, (s < 2 ^ 63 / 1000000000)%Z /\ json_duration (seconds s) <> seconds s.
Proof. exists 5000000001%Z. split; [reflexivity|vm_compute; discriminate]. Qed.
Lemma c51_case : json_duration (seconds 86400) = seconds 86400.
Proof. vm_compute. reflexivity. Qed.
