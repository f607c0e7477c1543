(** The exact effect of a policy entry on list attributes. *)
From Verif Require Import Base GoVal Policy Schema Metadata Chain SpecPolicy SpecMetadata SpecChain SpecResolver Resolver SpecExact
  SpecExactList SpecNull ExactListFacts NullFacts SpecListSet ListSetFacts WitnessPolicy WitnessResolver WitnessExact WitnessNull
  WitnessListSet.
From Verif Require Import GoVal.
Local Open Scope nat_scope.
Local Open Scope string_scope.

(** ** C02 Each operator has its specified effect on list attributes *)

(** Every entry that passes verification has the effect the operator table gives it, with two
    exceptions. An entry that consists of essential alone is accepted for an absent list, where
    the table rejects it. And {"value": null, "add": []} gives an untyped list, which applying
    the policy then fails to assign (C03_exact). Missing: operands of add that repeat elements
    (C02_list_exact_sets). *)
Theorem C02_list_exact : forall e s n cur set,
  denotes e s -> list_operands e -> opt (se_add s) (@NoDup string) ->
  verify_entry e = Ok tt -> (set = false -> n = true /\ cur = []) ->
  (list_outcome (apply_to e (VSlice TStr n (map VStr cur)) set) (spec_apply s (if set then Some cur else None)) <->
   ~ (set = false /\ only_essential s) /\ ~ null_and_nothing e).
Proof. exact list_exact_all. Qed.
Print Assumptions C02_list_exact.

(** With operands of add that repeat elements, the same for the elements of the list. *)
Theorem C02_list_exact_sets : forall e s n cur set,
  denotes e s -> list_operands e -> verify_entry e = Ok tt -> (set = false -> n = true /\ cur = []) ->
  (set_outcome (apply_to e (VSlice TStr n (map VStr cur)) set) (spec_apply s (if set then Some cur else None)) <->
   ~ (set = false /\ only_essential s) /\ ~ null_and_nothing e).
Proof. exact set_exact_all. Qed.
Print Assumptions C02_list_exact_sets.

Example C02_exact_case :
  denotes x_sup xs_sup /\ list_operands x_sup /\ opt (se_add xs_sup) (@NoDup string) /\
  verify_entry x_sup = Ok tt /\ ~ null_and_nothing x_sup /\ ~ only_essential xs_sup /\
  spec_apply xs_sup (Some ["d"; "a"]) = Ok (Some ["a"; "b"]).
Proof.
  destruct c02_case as (D & L & N & E). repeat split; auto; try (apply D).
  - intros (H & _). discriminate H.
  - intros H. now destruct H.
Qed.

(** An operand of add that repeats an element. *)
Example C02_exact_sets_case :
  let e := [("add", VSlice TAny false [VStr "b"; VStr "b"; VStr "a"])] in
  let s := SEntry None (Some ["b"; "b"; "a"]) None None None None None in
  denotes e s /\ verify_entry e = Ok tt /\
  apply_to e (VSlice TStr false [VStr "a"]) true = Ok (VSlice TStr false [VStr "a"; VStr "b"]) /\
  spec_apply s (Some ["a"]) = Ok (Some ["a"; "b"; "b"]).
Proof.
  cbv zeta. split; [|split; [|split]]; try reflexivity.
  constructor; simpl; auto.
  - constructor; [tauto|constructor].
  - intros k [<-|[]]. simpl. auto.
  - eexists. split; [reflexivity|]. right. exists TAny, false. auto.
Qed.

(** A null value beside an empty operand of add. *)
Example C02_exact_null_case :
  denotes n_nothing sn_nothing /\ list_operands n_nothing /\ verify_entry n_nothing = Ok tt /\ null_and_nothing n_nothing /\
  spec_apply sn_nothing (Some ["admin@rp.example"]) = Ok (Some []) /\
  apply_to n_nothing (VSlice TStr false [VStr "admin@rp.example"]) true = Ok (VSlice TAny false []).
Proof.
  destruct c02_null_case as (D & L & S & A), n_typed as (_ & V & N & _). auto 7.
Qed.

(** ** C111 A list attribute resolves to what the operator table makes of it *)

(** The only list attributes that do not resolve to what the table makes of them are those the
    subject lacks and for which the superiors say nothing but essential: they stay absent.
    Missing: operands with repeated elements (C111_list_sets), and a null value beside add and
    one_of, which verification rejects. *)
Theorem C111_list_exact : forall c md t k ss em r n cur,
  2 <= List.length c -> chain_metadata c = Ok (Some md) -> In t entity_types ->
  Forall2 (list_entry k) (policies_of (snd t) c) ss ->
  fst t (leaf_metadata c) = Some em ->
  find (fun fv : frow * gval => String.eqb k (fr_tag (fst fv))) (em_fields em) = Some (r, VSlice TStr n (map VStr cur)) ->
  fr_ty r = TSlice TStr -> fr_name r <> "Scope" ->
  let set := mem (fr_name r) (em_set em) in
  (set = false -> n = true /\ cur = []) ->
  (forall s, all_merged ss = Some s -> se_value s = Some None -> se_add s = None \/ se_one_of s = None) ->
  exists out em' n',
    (table_result (all_merged ss) (if set then Some cur else None) = Ok out \/
     out = None /\ set = false /\ exists s, all_merged ss = Some s /\ only_essential s) /\
    fst t md = Some em' /\
    em_tag k em' = Some (VSlice TStr n' (map VStr (match out with Some l => l | None => [] end))).
Proof. exact chain_list_all. Qed.
Print Assumptions C111_list_exact.

Example C111_exact_case : exists md em, chain_metadata chain3 = Ok (Some md) /\
  Forall2 (list_entry "contacts") (policies_of mp_rp chain3) [Some s_contacts; Some xs_emails] /\
  md_rp (leaf_metadata chain3) = Some em /\ mem "Contacts" (em_set em) = true /\
  (forall s, all_merged [Some s_contacts; Some xs_emails] = Some s ->
     se_value s = Some None -> (se_add s = None \/ se_one_of s = None)) /\
  table_result (all_merged [Some s_contacts; Some xs_emails]) (Some ["admin@rp.example"])
    = Ok (Some ["admin@rp.example"; "ops@ta.example"; "noc@ta.example"]).
Proof.
  destruct chain3_list as (md & em & H1 & H2 & H3 & H4 & _ & H6 & H7). exists md, em. repeat split; auto.
  intros s E V. unfold table_form in H6. rewrite E in H6. left. now apply H6.
Qed.

(** A null value beside add. *)
Example C111_exact_null_case : exists md em', chain_metadata chain_taken = Ok (Some md) /\ md_rp md = Some em' /\
  Forall2 (list_entry "contacts") (policies_of mp_rp chain_taken) [None; Some s_taken] /\
  all_merged [None; Some s_taken] = Some s_taken /\ se_value s_taken = Some None /\ se_one_of s_taken = None /\
  spec_apply s_taken (Some ["admin@rp.example"]) = Ok (Some ["x"]) /\
  em_tag "contacts" em' = Some (VSlice TStr false [VStr "x"]).
Proof. exact chain_taken_case. Qed.

(** With operands that repeat elements, the same for the elements of the list. *)
Theorem C111_list_sets : forall c md t k ss em r n cur,
  2 <= List.length c -> chain_metadata c = Ok (Some md) -> In t entity_types ->
  Forall2 (any_list_entry k) (policies_of (snd t) c) ss ->
  fst t (leaf_metadata c) = Some em ->
  find (fun fv : frow * gval => String.eqb k (fr_tag (fst fv))) (em_fields em) = Some (r, VSlice TStr n (map VStr cur)) ->
  fr_ty r = TSlice TStr -> fr_name r <> "Scope" ->
  let set := mem (fr_name r) (em_set em) in
  (set = false -> n = true /\ cur = []) ->
  (forall s, all_merged ss = Some s -> se_value s = Some None -> se_add s = None \/ se_one_of s = None) ->
  exists out em' n' l',
    (table_result (all_merged ss) (if set then Some cur else None) = Ok out \/
     out = None /\ set = false /\ exists s, all_merged ss = Some s /\ only_essential s) /\
    fst t md = Some em' /\
    em_tag k em' = Some (VSlice TStr n' (map VStr l')) /\
    same_elements l' (match out with Some l => l | None => [] end).
Proof. exact chain_list_sets. Qed.
Print Assumptions C111_list_sets.

Example C111_list_sets_case : exists md em', chain_metadata chain_rep = Ok (Some md) /\ md_rp md = Some em' /\
  Forall2 (any_list_entry "contacts") (policies_of mp_rp chain_rep) [Some s_rep1; Some s_rep2] /\
  table_result (all_merged [Some s_rep1; Some s_rep2]) (Some ["admin@rp.example"]) =
    Ok (Some ["admin@rp.example"; "ops"; "noc"; "ops"; "abuse"; "abuse"]) /\
  em_tag "contacts" em' = Some (VSlice TStr false (map VStr ["admin@rp.example"; "ops"; "noc"; "abuse"])).
Proof. exact chain_rep_case. Qed.
