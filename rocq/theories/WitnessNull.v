(** Concrete cases for the theorems about null operands of policies. *)
From Verif Require Import Base GoVal Policy Schema Metadata Chain SpecPolicy SpecMetadata SpecChain SpecResolver Resolver SpecExact
  SpecExactList SpecNull WitnessPolicy.
Local Open Scope nat_scope.
Local Open Scope string_scope.

(** {"value": null, "add": []} and {"default": null, "subset_of": ["a"]}. *)
Definition n_nothing : entry := [("value", VNil); ("add", VSlice TAny false [])].
Definition n_default : entry := [("default", VNil); ("subset_of", jarr ["admin@rp.example"])].
Definition sn_nothing : sentry := SEntry (Some None) (Some []) None None None None None.
Definition contacts_row : frow := FRow "Contacts" "contacts" true (TSlice TStr).

Lemma n_typed : typed contacts_row n_nothing /\ verify_entry n_nothing = Ok tt /\ null_and_nothing n_nothing /\
  typed contacts_row n_default /\ verify_entry n_default = Ok tt /\ null_default_subset n_default.
Proof.
  split; [|split; [|split; [|split; [|split]]]]; try reflexivity.
  - constructor.
    + intros v E. injection E as <-. now left.
    + intros v E. discriminate.
    + right. split; [now left|]. exists (VSlice TAny false []), []. split; [reflexivity|]. right. exists TAny, false. auto.
    + left. now left.
  - split; [reflexivity|]. split; [exists false; reflexivity|]. left. now left.
  - constructor.
    + intros v E. discriminate.
    + intros v E. injection E as <-. now left.
    + left. now left.
    + right. split; [now left|]. exists (jarr ["admin@rp.example"]), ["admin@rp.example"]. split; [reflexivity|].
      right. exists TAny, false. auto.
  - split; [reflexivity|]. split; [now left|]. split; [reflexivity|]. exists (jarr ["admin@rp.example"]). split; [reflexivity|discriminate].
Qed.

(** A subject with contacts and one without. *)
Definition rp_plain : smap gval := [("client_name", VStr "RP")].

Lemma c03_null_case : exists m m0,
  decode_meta rp_schema rp_contacts = Ok m /\ decode_meta rp_schema rp_plain = Ok m0 /\
  In contacts_row rp_schema /\ attr_set "contacts" m = true /\ attr_set "contacts" m0 = false /\
  apply_policy m [("contacts", n_nothing)] = Panic /\
  apply_policy m0 [("contacts", n_default)] = Panic /\
  exists m', apply_policy m [("contacts", n_default)] = Ok m'.
Proof.
  do 2 eexists. split; [vm_compute; reflexivity|]. split; [vm_compute; reflexivity|].
  split; [|split; [vm_compute; reflexivity|split; [vm_compute; reflexivity|split; [vm_compute; reflexivity|split; [vm_compute; reflexivity|]]]]].
  - cbv [rp_schema]. repeat (first [left; reflexivity|right]).
  - eexists. vm_compute. reflexivity.
Qed.

Lemma c02_null_case : denotes n_nothing sn_nothing /\ list_operands n_nothing /\
  spec_apply sn_nothing (Some ["admin@rp.example"]) = Ok (Some []) /\
  apply_to n_nothing (VSlice TStr false [VStr "admin@rp.example"]) true = Ok (VSlice TAny false []).
Proof.
  split; [|split; [|split; reflexivity]].
  - constructor; try reflexivity; [nodup|known_keys|]. simpl. exists (VSlice TAny false []). split; [reflexivity|]. right. exists TAny, false. auto.
  - intros k v [-> | ->] E; [injection E as <-; now left|discriminate].
Qed.

(** A chain whose one policy passes verification and whose resolution crashes. *)
Definition chain_null : chain :=
  [leaf_st; with_policy (bare "ta" "rp") [("contacts", n_nothing)] []; bare "ta" "ta"].

Lemma chain_null_crashes :
  Forall (fun p => verify_policy (pol p) = Ok tt) (policies_of mp_rp chain_null) /\
  md_rp (leaf_metadata chain_null) <> None /\ chain_metadata chain_null = Panic.
Proof.
  split; [|split; [vm_compute; discriminate|vm_compute; reflexivity]].
  change (policies_of mp_rp chain_null) with [Some [("contacts", n_nothing)]]. repeat constructor.
Qed.

(** A superior that removes what the subject states and adds a string. It is not verified, because
    the policies below it are empty. *)
Definition e_taken : entry := [("value", VNil); ("add", VStr "x"); ("subset_of", jarr ["x"; "y"])].
Definition chain_taken : chain :=
  [leaf_st; with_policy (bare "ia" "rp") [] []; with_policy (bare "ta" "ia") [("contacts", e_taken)] []; bare "ta" "ta"].
Definition s_taken : sentry := SEntry (Some None) (Some ["x"]) None None (Some ["x"; "y"]) None None.

Lemma chain_taken_case : exists md em', chain_metadata chain_taken = Ok (Some md) /\ md_rp md = Some em' /\
  Forall2 (list_entry "contacts") (policies_of mp_rp chain_taken) [None; Some s_taken] /\
  all_merged [None; Some s_taken] = Some s_taken /\ se_value s_taken = Some None /\ se_one_of s_taken = None /\
  spec_apply s_taken (Some ["admin@rp.example"]) = Ok (Some ["x"]) /\
  em_tag "contacts" em' = Some (VSlice TStr false [VStr "x"]).
Proof.
  do 2 eexists. split; [vm_compute; reflexivity|]. split; [reflexivity|].
  split; [|repeat split; reflexivity].
  change (policies_of mp_rp chain_taken) with [Some []; Some [("contacts", e_taken)]].
  assert (D : denotes e_taken s_taken).
  { constructor; try reflexivity; [nodup|known_keys| |]; simpl; [|op_str]. exists (VStr "x"). split; [reflexivity|]. left. eauto. }
  constructor; [|constructor; [|constructor]]; split.
  - split; [nodup|]. exact I.
  - split; [intros e He; discriminate|intros x E; discriminate].
  - split; [nodup|]. simpl. split; auto; exact I.
  - split; [|intros x E; injection E as <-; split; [repeat constructor; intros []|exact I]].
    intros e He. injection He as <-. intros k v [-> | ->] E; [injection E as <-; now left|discriminate].
Qed.
