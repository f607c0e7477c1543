From Coq Require Import Lia.
From Verif Require Import Base GoVal Policy Schema Metadata Chain FloatTime SpecTime.

Lemma verify_time_present now iat exp :
  verify_time_ptr now iat exp = Ok tt <-> in_window now (present iat) (present exp).
Proof.
  unfold verify_time_ptr, in_window, present, is_zero_time, after, before.
  destruct iat as [i|], exp as [e|];
    repeat match goal with
           | |- context [Z.eqb ?a ?b] => destruct (Z.eqb_spec a b)
           | |- context [Z.ltb ?a ?b] => destruct (Z.ltb_spec a b)
           end; cbn [negb andb]; split; intros; try discriminate; try reflexivity;
    try (split; intros ? [= <-]; lia); try (split; intros ? E; try discriminate E; injection E as <-; lia);
    match goal with H : _ /\ _ |- _ => destruct H as [A B] end;
    try (specialize (A _ eq_refl)); try (specialize (B _ eq_refl)); lia.
Qed.

Lemma verify_time_nonzero now iat exp :
  iat <> Some zero_time -> exp <> Some zero_time ->
  (verify_time_ptr now iat exp = Ok tt <-> in_window now iat exp).
Proof.
  intros A B. rewrite verify_time_present.
  assert (P : forall t, t <> Some zero_time -> present t = t).
  { intros [t|] N; [|reflexivity]. unfold present. destruct (Z.eqb_spec t zero_time); [subst; contradiction|reflexivity]. }
  now rewrite !P.
Qed.

Lemma verify_time_some now iat exp : verify_time now iat exp = verify_time_ptr now (Some iat) (Some exp).
Proof. reflexivity. Qed.

Lemma verify_time_values now iat exp :
  verify_time now iat exp = Ok tt <-> in_window now (present (Some iat)) (present (Some exp)).
Proof. rewrite verify_time_some. apply verify_time_present. Qed.

Lemma time_valid_window now s :
  time_valid now s = true <-> in_window now (present (Some (st_iat s))) (present (Some (st_exp s))).
Proof.
  rewrite <- verify_time_present. unfold time_valid. rewrite verify_time_some.
  destruct (verify_time_ptr now (Some (st_iat s)) (Some (st_exp s))) as [[]| |]; cbn; split; auto; discriminate.
Qed.
