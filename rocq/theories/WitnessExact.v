(** Concrete cases for the theorems in PropertiesExact.v. *)
From Verif Require Import Base GoVal Policy Schema Metadata Chain BaseFacts SpecPolicy SpecMetadata Resolver SpecResolver SpecChain
  PolicyFacts MetadataFacts ChainFacts ResolverLaws WitnessResolver WitnessPolicy Custom SpecCustom WitnessCustom SpecExact ExactFacts.
From Verif Require Import FloatTime SpecTime Json SpecJson TrustMark SpecTrustMark TrustMarkFacts TrustMarkLaws PossibleFacts WitnessTrustMark.
From Verif Require Import GoVal.
Local Open Scope nat_scope.
Local Open Scope string_scope.

Lemma net0_trust_chain : trust_chain net0 tas0 [] LEAF (chain0 leaf0 None None []).
Proof.
  destruct c27_case as (S & P & G & E & _). exists leaf0. split; auto. right.
  exists (Hop 1 im_cfg (im_sub LEAF None [])), [Hop 0 ta_cfg (ta_sub None)]. auto.
Qed.

Lemma net0_chains : exists cs, resolve_chains 5 net0 tas0 [] LEAF = Done (Ok cs) /\ In (chain0 leaf0 None None []) cs /\ List.length cs = 1.
Proof. eexists. split; [vm_compute; reflexivity|]. split; [vm_compute; auto|reflexivity]. Qed.

Lemma chain3_metadata : exists md, chain_metadata chain3 = Ok (Some md) /\ 2 <= List.length chain3 /\ additional_types_ok chain3 /\
  crit_supported chain3.
Proof.
  eexists. assert (L : 2 <= List.length chain3) by (cbn; auto with arith).
  assert (E : chain_metadata chain3 = Ok (Some ltac:(let x := eval vm_compute in (chain_metadata chain3) in
    match x with Ok (Some ?m) => exact m end))) by (vm_compute; reflexivity).
  split; [exact E|]. split; [exact L|]. apply chain_metadata_exact in E as (C & _ & A & _); auto.
Qed.

Lemma chain3_list : exists md em, chain_metadata chain3 = Ok (Some md) /\
  Forall2 (list_entry "contacts") (policies_of mp_rp chain3) [Some s_contacts; Some xs_emails] /\
  md_rp (leaf_metadata chain3) = Some em /\ mem "Contacts" (em_set em) = true /\
  find (fun fv : frow * gval => String.eqb "contacts" (fr_tag (fst fv))) (em_fields em)
    = Some (FRow "Contacts" "contacts" true (TSlice TStr), VSlice TStr false (map VStr ["admin@rp.example"])) /\
  table_form (all_merged [Some s_contacts; Some xs_emails]) true /\
  table_result (all_merged [Some s_contacts; Some xs_emails]) (Some ["admin@rp.example"])
    = Ok (Some ["admin@rp.example"; "ops@ta.example"; "noc@ta.example"]).
Proof.
  destruct c01_chain_case as (md & em & A & _ & B & _ & C & D).
  exists md, em. split; [exact A|]. split; [|split; [exact C|split; [|split; [exact D|split; [|reflexivity]]]]].
  - change (policies_of mp_rp chain3) with [Some contacts_policy; Some emails_policy] in *.
    inversion B as [|? ? ? ? B1 B']; subst. inversion B' as [|? ? ? ? B2 B'']; subst.
    constructor; [|constructor; [|constructor]]; (split; [assumption|split]).
    + intros e He k v Hk. vm_compute in He. injection He as <-. destruct Hk; subst k; discriminate.
    + intros x [= <-]. split; [repeat constructor; intros []|exact I].
    + intros e He k v Hk. vm_compute in He. injection He as <-. destruct Hk; subst k; discriminate.
    + intros x [= <-]. split; repeat constructor; intros [].
  - vm_compute in C. injection C as <-. reflexivity.
  - split; discriminate.
Qed.

(** Two superiors that fix different values for the same attribute. *)
Definition fix_policy (l : list string) : policy := [("contacts", [("value", jarr l)])].
Definition chain_conflict : chain :=
  [leaf_st; with_policy (bare "ia" "rp") (fix_policy ["a"]) []; with_policy (bare "ta" "ia") (fix_policy ["b"]) []; bare "ta" "ta"].
Definition chain_agree : chain :=
  [leaf_st; with_policy (bare "ia" "rp") (fix_policy ["a"; "b"]) []; with_policy (bare "ta" "ia") (fix_policy ["b"; "a"]) []; bare "ta" "ta"].
Definition s_fix (l : list string) : sentry := SEntry (Some (Some l)) None None None None None None.

Lemma values_case : exists md, chain_metadata chain_agree = Ok (Some md) /\ chain_metadata chain_conflict = Err /\
  Forall2 (policy_denotes "contacts") (policies_of mp_rp chain_agree) [Some (s_fix ["a"; "b"]); Some (s_fix ["b"; "a"])].
Proof.
  eexists. split; [vm_compute; reflexivity|]. split; [vm_compute; reflexivity|].
  change (policies_of mp_rp chain_agree) with [Some (fix_policy ["a"; "b"]); Some (fix_policy ["b"; "a"])].
  assert (D : forall l, denotes [("value", jarr l)] (s_fix l)).
  { intros l. constructor; try reflexivity; [nodup|known_keys|]. cbn. eexists. split; [reflexivity|]. right. exists TAny, false. auto. }
  constructor; [|constructor; [|constructor]]; (split; [nodup|]); simpl; split; auto; nodup.
Qed.

Lemma policy_case : verify_policy [("a", c105_entry); ("b", c105_entry)] = Ok tt /\
  verify_policy [("a", c105_entry); ("b", [("value", jarr ["z"]); ("subset_of", jarr ["a"])])] = Err /\
  (forall k e, In (k, e) [("a", c105_entry); ("b", c105_entry)] -> exists s, denotes e s).
Proof.
  split; [reflexivity|]. split; [reflexivity|].
  intros k e [[= <- <-]|[[= <- <-]|[]]]; eexists; exact (proj1 c105_case).
Qed.

Lemma external_case : in_sync env0 (info0 "tm1" "kiss:m") /\
  fst (info_verify_external env0 [] (info0 "tm1" "kiss:m") (Some ["kiss"]) [(OWNER, Some ["ko"])]) = Ok tt /\
  fst (info_verify_external env0 [] (info0 "tm1" "kiss:m") (Some ["kx"]) []) = Err.
Proof. split; [discriminate|]. split; vm_compute; reflexivity. Qed.

Lemma possible_case :
  resolve_possible 9 (env_res ATransport) LocalR [] (Req LEAF [TA] []) = Done (Ok (true, false)) /\
  resolve_possible 9 (env_res ATransport) LocalR [] (Req OTHER [TA] []) = Done (Ok (false, true)) /\
  resolve_possible 9 (env_res (ABody "forged")) (SimpleR RES) [] (Req LEAF [TA] []) = Done (Ok (true, false)) /\
  resolve_possible 9 (env_res (AError "invalid_metadata")) (SimpleR RES) [] (Req LEAF [TA] []) = Done (Ok (true, false)) /\
  resolve_possible 9 (env_res (AError "invalid_trust_chain")) (SimpleR RES) [] (Req LEAF [TA] []) = Done (Ok (false, true)) /\
  resolve_possible 9 (env_res (AError "invalid_subject")) (SimpleR RES) [] (Req LEAF [TA] []) = Done (Ok (false, false)).
Proof. repeat split; vm_compute; reflexivity. Qed.

Lemma smart_denies : exists fuel e p rq m,
  resolve_metadata fuel e SmartR p rq = Done (Ok m) /\ resolve_possible fuel e SmartR p rq = Done (Ok (false, true)).
Proof. exists 9, (env_res ATransport), [], (Req LEAF [TA] []). eexists. split; vm_compute; reflexivity. Qed.

(** *** C111 *)
Definition chain_essential : chain :=
  [leaf_st; with_policy (bare "ta" "rp") [("redirect_uris", [("essential", VBool true)])] []; bare "ta" "ta"].
Lemma c111_witness : exists c md t k ss em r,
  2 <= List.length c /\ chain_metadata c = Ok (Some md) /\ In t entity_types /\
  Forall2 (list_entry k) (policies_of (snd t) c) ss /\ fst t (leaf_metadata c) = Some em /\
  find (fun fv : frow * gval => String.eqb k (fr_tag (fst fv))) (em_fields em) = Some (r, VSlice TStr true []) /\
  fr_ty r = TSlice TStr /\ fr_name r <> "Scope" /\ mem (fr_name r) (em_set em) = false /\
  table_result (all_merged ss) None = Err.
Proof.
  exists chain_essential. eexists _, (md_rp, mp_rp), "redirect_uris", [Some (SEntry None None None None None None (Some true))], _, _.
  split; [cbn; auto with arith|]. split; [vm_compute; reflexivity|]. split; [cbn; tauto|]. split.
  - change (policies_of (snd (md_rp, mp_rp)) chain_essential) with [Some [("redirect_uris", [("essential", VBool true)])]].
    constructor; [|constructor]. split; [|split].
    + split; [cbn; nodup|]. cbn. split; [constructor; try reflexivity; [nodup|known_keys]|exact I].
    + intros e He k v Hk. vm_compute in He. injection He as <-. destruct Hk; subst k; discriminate.
    + intros x [= <-]. split; exact I.
  - split; [vm_compute; reflexivity|]. split; [vm_compute; reflexivity|]. split; [reflexivity|]. split; [discriminate|]. split; vm_compute; reflexivity.
Qed.
