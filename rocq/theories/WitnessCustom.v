(** Concrete entries, registries and operators: counterexamples for statements that are false
    of the code, and cases that meet the hypotheses of the theorems in PropertiesCustom.v. *)
From Verif Require Import Base GoVal Policy BaseFacts SpecPolicy PolicyFacts WitnessPolicy Custom SpecCustom CustomFacts.
Local Open Scope string_scope.

(** ** C105 *)
Definition c105_entry : entry :=
  [("subset_of", jarr ["a"; "b"; "c"]); ("value", jarr ["a"; "b"]); ("add", jarr ["a"]); ("superset_of", jarr ["b"]);
   ("essential", VBool true)].
Definition c105_sentry : sentry :=
  SEntry (Some (Some ["a"; "b"])) (Some ["a"]) None None (Some ["a"; "b"; "c"]) (Some ["b"]) (Some true).
Lemma c105_denotes : denotes c105_entry c105_sentry.
Proof. constructor; try reflexivity; [nodup|known_keys| | | | ]; simpl; op_str. Qed.

Definition c105_bad : entry := [("one_of", jarr ["b"]); ("value", jarr ["a"])].
Definition c105_bad_s : sentry := SEntry (Some (Some ["a"])) None None (Some ["b"]) None None None.
Lemma c105_bad_denotes : denotes c105_bad c105_bad_s.
Proof. constructor; try reflexivity; [nodup|known_keys| | ]; simpl; op_str. Qed.

Lemma c105_fits : value_fits c105_sentry.
Proof.
  constructor; simpl; try discriminate; auto. intros l H. injection H as <-. left. intros x [<- |[]]. simpl; auto.
Qed.

Lemma c105_case : denotes c105_entry c105_sentry /\ verify_entry c105_entry = Ok tt /\ value_fits c105_sentry /\
  verify_entry [("value", jarr ["z"]); ("subset_of", jarr ["a"])] = Err.
Proof. split; [apply c105_denotes|]. split; [reflexivity|]. split; [apply c105_fits|reflexivity]. Qed.

Lemma c105_witness : exists e s, denotes e s /\ verify_entry e = Ok tt /\ ~ satisfiable s.
Proof.
  exists c105_bad, c105_bad_s. split; [apply c105_bad_denotes|]. split; [reflexivity|].
  intros H. apply satisfiable_fits in H. pose proof (fits_one_of _ H ["a"] eq_refl) as F. cbn [c105_bad_s se_one_of opt] in F.
  destruct F as [(x & [<- |[]] & S)|(_ & [E|S])].
  - destruct (proj1 (S "a")) as [X|[]]; [simpl; auto|discriminate X].
  - discriminate.
  - destruct (proj1 (S "a")) as [X|[]]; [simpl; auto|discriminate X].
Qed.

Lemma c105_super_witness : exists e s, denotes e s /\ verify_entry e = Ok tt /\ ~ satisfiable s /\ se_one_of s = None.
Proof.
  exists [("superset_of", jarr ["b"]); ("value", jarr ["a"])], (SEntry (Some (Some ["a"])) None None None None (Some ["b"]) None).
  split; [constructor; try reflexivity; [nodup|known_keys| | ]; simpl; op_str|]. split; [reflexivity|]. split; [|reflexivity].
  intros H. apply satisfiable_fits in H. pose proof (fits_superset _ H ["a"] eq_refl) as F. cbn [se_superset_of opt] in F.
  destruct F as [I|(_ & [E|S])].
  - destruct (I "b") as [X|[]]; [simpl; auto|discriminate X].
  - discriminate.
  - destruct (proj1 (S "a")) as [X|[]]; [simpl; auto|discriminate X].
Qed.

Definition c105_null : entry := [("value", VNil); ("subset_of", jarr ["a"])].
Definition c105_null_s : sentry := SEntry (Some None) None None None (Some ["a"]) None None.
Lemma c105_panic_case : denotes c105_null c105_null_s /\ verify_entry c105_null = Panic.
Proof. split; [|reflexivity]. constructor; try reflexivity; [nodup|known_keys|]; simpl; op_str. Qed.

(** ** Custom operators *)

(** "forbidden": the attribute must not be the operand. *)
Definition op_forbidden : operator := Operator "forbidden"
  (fun a b => if deep_eq a b then Ok a else Err)
  (fun v set pv _ => if deep_eq v pv then Err else Ok (v, set))
  (Some ["value"; "default"; "essential"]).
Definition reg : registry := with_operator builtin op_forbidden ["value"; "add"] ["default"; "one_of"; "subset_of"; "superset_of"; "essential"].

Definition e_forbidden : entry := [("essential", VBool true); ("forbidden", VStr "none")].

Lemma c106_case :
  r_verify_entry reg e_forbidden = Ok tt /\
  r_apply_to reg e_forbidden (VStr "none") true = Err /\
  r_apply_to reg e_forbidden (VStr "RS256") true = Ok (VStr "RS256") /\
  In "forbidden" (rg_order reg) /\
  effective reg e_forbidden = [("forbidden", VStr "none"); ("essential", VBool true)] /\
  r_merge_entries reg e_forbidden [("forbidden", VStr "none"); ("default", VStr "ES256")] =
    Ok (e_forbidden ++ [("default", VStr "ES256")])%list /\
  r_merge_entries reg e_forbidden [("forbidden", VStr "ES256")] = Err /\
  shared_registered reg e_forbidden [("forbidden", VStr "ES256")].
Proof.
  do 3 (split; [reflexivity|]). split; [simpl; tauto|]. do 3 (split; [reflexivity|]).
  intros k _ [<- |[]]. discriminate.
Qed.

(** Registered, but not added to OperatorOrder. *)
Lemma c106_unordered : exists r o e v,
  lookup (on_name o) (rg_ops r) = Some o /\ In (on_name o) (keys e) /\ r_verify_entry r e = Ok tt /\
  (forall pv set ess, lookup (on_name o) e = Some pv -> on_apply o v set pv ess = Err) /\ r_apply_to r e v true = Ok v.
Proof.
  exists (register_operator op_forbidden builtin), op_forbidden, e_forbidden, (VStr "none").
  split; [reflexivity|]. split; [simpl; auto|]. split; [reflexivity|]. split; [|reflexivity].
  intros pv set ess H. injection H as <-. reflexivity.
Qed.

(** Added to OperatorOrder, but not registered: the critical check accepts the operator, and
    merging drops the restrictions of both entries. *)
Lemma c106_unregistered : exists r n a b,
  r_understood r n = true /\ In n (keys a) /\ In n (keys b) /\
  lookup "subset_of" a = Some (jarr ["a"]) /\ lookup "subset_of" b = Some (jarr ["a"]) /\ r_merge_entries r a b = Ok [].
Proof.
  exists (Registry (rg_ops builtin) (rg_order builtin ++ ["x"])%list (rg_verifiers builtin)), "x",
    [("x", VStr "1"); ("subset_of", jarr ["a"])], [("x", VStr "1"); ("subset_of", jarr ["a"])].
  repeat split; simpl; auto.
Qed.

(** ** C107 *)
Definition no_default : verifier := fun p => if has "default" p then Err else Ok tt.
Lemma c107_case :
  r_verify_entry (register_verifier no_default reg) e_forbidden = Ok tt /\
  r_verify_entry (register_verifier no_default reg) [("default", VStr "a")] = Err /\
  r_verify_entry reg [("default", VStr "a")] = Ok tt /\ mutually_listed reg e_forbidden.
Proof.
  split; [reflexivity|]. split; [reflexivity|]. split; [reflexivity|]. apply combinations_listed. reflexivity.
Qed.

Lemma c107_witness : exists r o e,
  lookup (on_name o) (rg_ops r) = Some o /\ In (on_name o) (rg_order r) /\
  (forall k, In k (keys e) -> k = on_name o \/ exists mc, on_combine o = Some mc /\ In k mc) /\
  (forall v, In v (rg_verifiers r) -> v e = Ok tt) /\ r_verify_entry r e = Err.
Proof.
  exists reg, op_forbidden, [("forbidden", VStr "none"); ("value", VStr "a")].
  split; [reflexivity|]. split; [simpl; tauto|]. split; [|split; [|reflexivity]].
  - intros k [<- |[<- |[]]]; [auto|right]. eexists. split; [reflexivity|simpl; auto].
  - intros v Hv. cbn [reg with_operator rg_verifiers] in Hv. rewrite builtin_verifiers in Hv.
    repeat destruct Hv as [<- |Hv]; try reflexivity. destruct Hv.
Qed.

Lemma c107_combines_case :
  (["value"; "add"] ++ ["default"; "one_of"; "subset_of"; "superset_of"; "essential"])%list = rg_order builtin /\
  operator_of (on_name op_forbidden) = None /\
  In (on_name op_forbidden) (keys [("forbidden", VStr "none"); ("value", VStr "a")]) /\
  In (op_name OValue) (keys [("forbidden", VStr "none"); ("value", VStr "a")]) /\ on_combine op_forbidden = Some ["value"; "default"; "essential"].
Proof. repeat split; simpl; auto. Qed.
