(** Property theorems on accepted policy entries and on registered operators and verifiers. *)
From Verif Require Import Base GoVal Policy SpecPolicy Custom SpecCustom SpecCalm CalmFacts CustomFacts WitnessCustom.
From Coq Require Import Permutation.
Local Open Scope string_scope.

(** ** C105 Accepted policy entries can be met *)

(** Exactly which entries Verify accepts, *)
Theorem C105_exact : forall e s, denotes e s -> (verify_entry e = Ok tt <-> consistent s).
Proof. exact verify_exact. Qed.
Print Assumptions C105_exact.

(** ... on which it panics, *)
Theorem C105_panics : forall e s, denotes e s -> (verify_entry e = Panic <-> null_beside_subset s).
Proof. exact verify_panics_exact. Qed.
Print Assumptions C105_panics.

Example C105_panics_case : denotes c105_null c105_null_s /\ verify_entry c105_null = Panic.
Proof. exact c105_panic_case. Qed.

(** ... and which accepted entries some attribute value meets. Missing: that all of them do. *)
Theorem C105_met_partial : forall e s, denotes e s -> verify_entry e = Ok tt -> (satisfiable s <-> value_fits s).
Proof. exact accepted_exact. Qed.
Print Assumptions C105_met_partial.

Example C105_case : denotes c105_entry c105_sentry /\ verify_entry c105_entry = Ok tt /\ value_fits c105_sentry /\
  verify_entry [("value", jarr ["z"]); ("subset_of", jarr ["a"])] = Err.
Proof. exact c105_case. Qed.

(** A value that is not one of one_of is accepted, *)
Theorem C105_refuted : exists e s, denotes e s /\ verify_entry e = Ok tt /\ ~ satisfiable s.
Proof. exact c105_witness. Qed.
Print Assumptions C105_refuted.

(** ... and so is one that lacks elements of superset_of. *)
Theorem C105_refuted_superset : exists e s, denotes e s /\ verify_entry e = Ok tt /\ ~ satisfiable s /\ se_one_of s = None.
Proof. exact c105_super_witness. Qed.
Print Assumptions C105_refuted_superset.

(** ** C106 Registered operators are enforced *)

(** Without registrations the functions are those of Policy.v. *)
Theorem C106_builtin : forall a b v set,
  r_verify_entry builtin a = verify_entry a /\ r_apply_to builtin a v set = apply_to a v set /\
  r_merge_entries builtin a b = merge_entries a b.
Proof. exact builtin_all. Qed.
Print Assumptions C106_builtin.

(** Applying an entry is applying its operators one after the other in OperatorOrder. *)
Theorem C106_apply : forall r e v set v',
  r_apply_to r e v set = Ok v' <-> exists set', in_turn r (entry_essential e) (effective r e) v set v' set'.
Proof. exact r_apply_exact. Qed.
Print Assumptions C106_apply.

(** An ordered operator of the entry is registered and its Apply succeeded. Missing: operators
    not in OperatorOrder. *)
Theorem C106_enforced_partial : forall r e v set v' n pv,
  In n (rg_order r) -> lookup n e = Some pv -> r_apply_to r e v set = Ok v' ->
  exists o v1 s1 v2 s2, lookup n (rg_ops r) = Some o /\ on_apply o v1 s1 pv (entry_essential e) = Ok (v2, s2).
Proof. exact r_enforced. Qed.
Print Assumptions C106_enforced_partial.

(** The last operator of the order has the last word. *)
Theorem C106_last : forall r e v set v' n pv l,
  rg_order r = (l ++ [n])%list -> lookup n e = Some pv -> r_apply_to r e v set = Ok v' ->
  exists o v1 s1 s2, lookup n (rg_ops r) = Some o /\ on_apply o v1 s1 pv (entry_essential e) = Ok (v', s2).
Proof. exact r_last_word. Qed.
Print Assumptions C106_last.

(** Merging uses the operator's Merge, keeps what only one entry has, *)
Theorem C106_merge_partial : forall r a b m,
  NoDup (keys a) -> NoDup (keys b) -> shared_registered r a b ->
  r_merge_entries r a b = Ok m -> forall k, r_merged_at r a b m k.
Proof. exact r_merge_lookup. Qed.
Print Assumptions C106_merge_partial.

(** ... and fails if it fails. *)
Theorem C106_merge_fails_partial : forall r a b k o x y,
  NoDup (keys a) -> NoDup (keys b) -> shared_registered r a b ->
  lookup k a = Some x -> lookup k b = Some y -> lookup k (rg_ops r) = Some o -> (forall c, on_merge o x y <> Ok c) ->
  forall m, r_merge_entries r a b <> Ok m.
Proof. exact r_merge_err. Qed.
Print Assumptions C106_merge_fails_partial.

(** Entries that do not name a newly registered operator are treated as before. *)
Theorem C106_conservative : forall r o l1 l2 e v set, rg_order r = (l1 ++ l2)%list -> ~ In (on_name o) (keys e) ->
  r_verify_entry (with_operator r o l1 l2) e = r_verify_entry r e /\
  r_apply_to (with_operator r o l1 l2) e v set = r_apply_to r e v set /\
  (forall b, r_merge_entries (with_operator r o l1 l2) e b = r_merge_entries r e b) /\
  (forall b, r_merge_entries (with_operator r o l1 l2) b e = r_merge_entries r b e).
Proof. exact conservative. Qed.
Print Assumptions C106_conservative.

Example C106_case :
  r_verify_entry reg e_forbidden = Ok tt /\
  r_apply_to reg e_forbidden (VStr "none") true = Err /\
  r_apply_to reg e_forbidden (VStr "RS256") true = Ok (VStr "RS256") /\
  In "forbidden" (rg_order reg) /\
  effective reg e_forbidden = [("forbidden", VStr "none"); ("essential", VBool true)] /\
  r_merge_entries reg e_forbidden [("forbidden", VStr "none"); ("default", VStr "ES256")] =
    Ok (e_forbidden ++ [("default", VStr "ES256")])%list /\
  r_merge_entries reg e_forbidden [("forbidden", VStr "ES256")] = Err /\
  shared_registered reg e_forbidden [("forbidden", VStr "ES256")].
Proof. exact c106_case. Qed.

(** Panics come from the registered operators and verifiers alone. *)
Theorem C106_calm : forall r, operators_calm r -> forall a b v set,
  r_apply_to r a v set <> Panic /\ r_merge_entries r a b <> Panic /\ r_verify_entry r a <> Panic.
Proof. exact r_calm. Qed.
Print Assumptions C106_calm.

Example C106_calm_case :
  operators_calm (Registry [("forbidden", op_forbidden)] ["forbidden"; "required"] []) /\
  r_apply_to (Registry [("forbidden", op_forbidden)] ["forbidden"; "required"] []) [("required", VStr "x")] (VStr "y") true = Err /\
  ~ operators_calm builtin.
Proof.
  split; [|split; [reflexivity|]].
  - split; [|intros w []]. intros n o L. unfold lookup, rg_ops in L. destruct (String.eqb _ _); [|discriminate L].
    injection L as <-. split; intros; cbn; destruct (deep_eq _ _); discriminate.
  - intros C. exact (proj2 (proj2 (r_calm builtin C c105_null [] VNil false)) eq_refl).
Qed.

(** A registered operator that is not in OperatorOrder is accepted and does nothing, *)
Theorem C106_refuted : exists r o e v,
  lookup (on_name o) (rg_ops r) = Some o /\ In (on_name o) (keys e) /\ r_verify_entry r e = Ok tt /\
  (forall pv set ess, lookup (on_name o) e = Some pv -> on_apply o v set pv ess = Err) /\ r_apply_to r e v true = Ok v.
Proof. exact c106_unordered. Qed.
Print Assumptions C106_refuted.

Theorem C106_unordered_refuted : forall r e v set n, ~ In n (rg_order r) -> n <> "essential" ->
  r_apply_to r (filter (fun kv => negb (String.eqb (fst kv) n)) e) v set = r_apply_to r e v set.
Proof. exact r_unordered. Qed.
Print Assumptions C106_unordered_refuted.

(** ... and one that is in OperatorOrder but not registered counts as understood and erases the
    restrictions of the merged entry. *)
Theorem C106_refuted_merge : exists r n a b,
  r_understood r n = true /\ In n (keys a) /\ In n (keys b) /\
  lookup "subset_of" a = Some (jarr ["a"]) /\ lookup "subset_of" b = Some (jarr ["a"]) /\ r_merge_entries r a b = Ok [].
Proof. exact c106_unregistered. Qed.
Print Assumptions C106_refuted_merge.

(** ** C107 Registered verifiers and combination lists decide what is accepted *)

(** A further verifier makes Verify stricter by exactly what it rejects. *)
Theorem C107_stricter : forall r v e,
  r_verify_entry (register_verifier v r) e = Ok tt <-> r_verify_entry r e = Ok tt /\ v e = Ok tt.
Proof. exact stricter. Qed.
Print Assumptions C107_stricter.

(** Accepted are the entries all verifiers accept whose operators list each other. *)
Theorem C107_exact : forall r e, r_verify_entry r e = Ok tt <->
  mutually_listed r e /\ forall v, In v (rg_verifiers r) -> v e = Ok tt.
Proof. exact r_verify_exact. Qed.
Print Assumptions C107_exact.

Example C107_case :
  r_verify_entry (register_verifier no_default reg) e_forbidden = Ok tt /\
  r_verify_entry (register_verifier no_default reg) [("default", VStr "a")] = Err /\
  r_verify_entry reg [("default", VStr "a")] = Ok tt /\ mutually_listed reg e_forbidden.
Proof. exact c107_case. Qed.

(** So an operator that lists the others of the entry is rejected, *)
Theorem C107_refuted : exists r o e,
  lookup (on_name o) (rg_ops r) = Some o /\ In (on_name o) (rg_order r) /\
  (forall k, In k (keys e) -> k = on_name o \/ exists mc, on_combine o = Some mc /\ In k mc) /\
  (forall v, In v (rg_verifiers r) -> v e = Ok tt) /\ r_verify_entry r e = Err.
Proof. exact c107_witness. Qed.
Print Assumptions C107_refuted.

(** ... as is any registered operator beside any built-in one but essential. *)
Theorem C107_never_combines_refuted : forall o l1 l2 e b, (l1 ++ l2)%list = rg_order builtin ->
  operator_of (on_name o) = None -> In (on_name o) (keys e) -> In (op_name b) (keys e) -> b <> OEssential ->
  r_verify_entry (with_operator builtin o l1 l2) e = Err.
Proof. exact custom_never_combines. Qed.
Print Assumptions C107_never_combines_refuted.

Example C107_never_combines_case :
  (["value"; "add"] ++ ["default"; "one_of"; "subset_of"; "superset_of"; "essential"])%list = rg_order builtin /\
  operator_of (on_name op_forbidden) = None /\
  In (on_name op_forbidden) (keys [("forbidden", VStr "none"); ("value", VStr "a")]) /\
  In (op_name OValue) (keys [("forbidden", VStr "none"); ("value", VStr "a")]) /\ on_combine op_forbidden = Some ["value"; "default"; "essential"].
Proof. exact c107_combines_case. Qed.
