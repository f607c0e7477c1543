(** Concrete policies and metadata: counterexamples for statements that are false of the
    code, and cases that meet the hypotheses of the theorems in PropertiesPolicy.v. *)
From Verif Require Import Base GoVal Policy Schema Metadata Chain SpecPolicy SpecMetadata SpecChain.
Local Open Scope string_scope.

(** ** Entries *)
Definition e_value (l : list string) : entry := [("value", jarr l)].
Definition s_value (l : list string) : sentry := SEntry (Some (Some l)) None None None None None None.

Ltac nodup := repeat constructor; simpl; intuition discriminate.
Ltac op_str := eexists; split; [reflexivity|]; right; exists TAny, false; split; [now left|reflexivity].
Ltac known_keys := simpl; intros k H; intuition (subst; simpl; tauto).

Lemma d_value l : denotes (e_value l) (s_value l).
Proof.
  constructor; try reflexivity.
  - repeat constructor. simpl; tauto.
  - known_keys.
  - simpl. op_str.
Qed.

(** *** C01 *)
Lemma strs_inj v l l' : strs v l -> strs v l' -> is_slice v = true -> l = l'.
Proof.
  intros [(s & -> & _)|(t & n & _ & ->)] [(s' & E & _)|(t' & n' & _ & E)]; simpl; try discriminate; intros _.
  injection E as _ _ E. revert l' E. induction l as [|x l IH]; intros [|y l'] E; try discriminate; auto.
  injection E as -> E. f_equal. now apply IH.
Qed.

Lemma c01_duplicates :
  exists a b sa sb m v v',
    denotes a sa /\ denotes b sb /\ merge_entries a b = Ok m /\ verify_entry m = Ok tt /\
    apply_to m v true = Ok v' /\ (exists l, strs v l) /\ ~ respects sb v'.
Proof.
  exists (e_value ["a"; "a"]), (e_value ["a"; "b"]), (s_value ["a"; "a"]), (s_value ["a"; "b"]),
    (e_value ["a"; "a"]), (VSlice TStr false [VStr "x"]), (VSlice TStr false [VStr "a"; VStr "a"]).
  split; [apply d_value|]. split; [apply d_value|].
  split; [reflexivity|]. split; [reflexivity|]. split; [reflexivity|]. split.
  - exists ["x"]. right. exists TStr, false. auto.
  - intros [R _ _ _ _]. simpl in R. destruct R as (l' & H & S).
    assert (E : l' = ["a"; "a"]).
    { apply (strs_inj (VSlice TStr false [VStr "a"; VStr "a"])); auto. right. exists TStr, false. auto. }
    subst. destruct (proj2 (S "b")) as [K|[K|[]]]; [simpl; auto|discriminate|discriminate].
Qed.

Lemma c01_essential :
  exists a sa m v',
    denotes a sa /\ merge_entries a [] = Ok m /\ verify_entry m = Ok tt /\
    apply_to m (VSlice TStr true []) false = Ok v' /\ ~ respects_essential sa v'.
Proof.
  exists [("essential", VBool true)], (SEntry None None None None None None (Some true)),
    [("essential", VBool true)], (VSlice TStr true []).
  split; [constructor; try reflexivity; [nodup|known_keys]|].
  split; [reflexivity|]. split; [reflexivity|]. split; [reflexivity|].
  intros H. apply (H eq_refl). right. right. eauto.
Qed.

Definition x_sub : entry := [("subset_of", jarr ["a"; "b"; "c"]); ("essential", VBool true)].
Definition x_sup : entry := [("superset_of", jarr ["a"]); ("subset_of", jarr ["a"; "b"]); ("add", jarr ["b"])].
Definition xs_sub : sentry := SEntry None None None None (Some ["a"; "b"; "c"]) None (Some true).
Definition xs_sup : sentry := SEntry None (Some ["b"]) None None (Some ["a"; "b"]) (Some ["a"]) None.
Definition x_val : gval := VSlice TStr false [VStr "d"; VStr "a"].

Lemma d_sub : denotes x_sub xs_sub.
Proof.
  constructor; try reflexivity.
  - nodup.
  - known_keys.
  - simpl. op_str.
Qed.
Lemma d_sup : denotes x_sup xs_sup.
Proof.
  constructor; try reflexivity.
  - nodup.
  - known_keys.
  - simpl. op_str.
  - simpl. op_str.
  - simpl. op_str.
Qed.

Lemma c01_case :
  denotes x_sub xs_sub /\ denotes x_sup xs_sup /\ value_nodup xs_sub /\ (exists l, strs x_val l) /\
  exists m, merge_entries x_sub x_sup = Ok m /\ verify_entry m = Ok tt /\
            apply_to m x_val true = Ok (VSlice TStr false [VStr "a"; VStr "b"]).
Proof.
  split; [apply d_sub|]. split; [apply d_sup|]. split; [exact I|]. split.
  - exists ["d"; "a"]. right. exists TStr, false. auto.
  - eexists. split; [vm_compute; reflexivity|]. split; vm_compute; reflexivity.
Qed.

(** *** C02 *)
Lemma c02_essential :
  exists e s, denotes e s /\ list_operands e /\
    ~ list_outcome (apply_to e (VSlice TStr true []) false) (spec_apply s None).
Proof.
  exists [("essential", VBool true)], (SEntry None None None None None None (Some true)).
  split; [constructor; try reflexivity; [nodup|known_keys]|]. split.
  - intros k v [-> | ->]; discriminate.
  - vm_compute. tauto.
Qed.

Lemma c02_case :
  denotes x_sup xs_sup /\ list_operands x_sup /\ opt (se_add xs_sup) (@NoDup string) /\
  spec_apply xs_sup (Some ["d"; "a"]) = Ok (Some ["a"; "b"]).
Proof.
  split; [apply d_sup|]. split; [intros k v [-> | ->]; discriminate|]. split; [simpl; nodup|reflexivity].
Qed.

(** *** C03 *)
Definition rp_doc : smap gval := [("default_max_age", VFloat 60)].

Lemma c03_witness :
  exists m p, decode_meta rp_schema rp_doc = Ok m /\ verify_policy p = Ok tt /\ apply_policy m p = Panic.
Proof.
  eexists. exists [("default_max_age", [("value", VFloat 3600)])].
  split; [vm_compute; reflexivity|]. split; vm_compute; reflexivity.
Qed.

Definition contacts_policy : policy := [("contacts", [("add", jarr ["ops@ta.example"])])].
Definition rp_contacts : smap gval := [("contacts", jarr ["admin@rp.example"]); ("client_name", VStr "RP")].

Lemma rows_zero : Forall (fun r => fr_ty r <> TAny) rp_schema.
Proof. repeat constructor; discriminate. Qed.

Lemma c03_case :
  exists m m', decode_meta rp_schema rp_contacts = Ok m /\ known_entity m /\ well_typed m /\
    (forall r e, In r (map fst (em_fields m)) -> lookup (fr_tag r) contacts_policy = Some e -> fits r e) /\
    apply_policy m contacts_policy = Ok m' /\
    em_tag "contacts" m' = Some (VSlice TStr false [VStr "admin@rp.example"; VStr "ops@ta.example"]).
Proof.
  destruct (decode_meta rp_schema rp_contacts) as [m| |] eqn:E; [|vm_compute in E; discriminate..].
  exists m. vm_compute in E. injection E as <-. eexists. split; [reflexivity|].
  split; [right; left; reflexivity|]. split.
  { unfold well_typed. repeat (constructor; [cbn; first [reflexivity|do 2 eexists; reflexivity|
      exists false, ["admin@rp.example"]; reflexivity|exists true, []; reflexivity]|]). constructor. }
  split; [|split; [vm_compute; reflexivity|reflexivity]].
  intros r e Hr Hl.
  assert (Hc : fr_tag r = "contacts").
  { unfold contacts_policy in Hl. cbn [lookup] in Hl. destruct (String.eqb_spec (fr_tag r) "contacts"); [auto|discriminate]. }
  rewrite Hc in Hl. injection Hl as <-.
  assert (Ht : fr_ty r = TSlice TStr).
  { revert Hc. clear -Hr. cbn [map fst em_fields In] in Hr.
    repeat (destruct Hr as [<-|Hr]; [cbn; intros; first [reflexivity|discriminate]|]). destruct Hr. }
  constructor.
  - intros v Hv. discriminate.
  - intros v Hv. discriminate.
  - right. split; [now left|]. exists (jarr ["ops@ta.example"]), ["ops@ta.example"]. split; [reflexivity|].
    right. exists TAny, false. auto.
  - left. now left.
  - discriminate.
  - discriminate.
Qed.

(** *** C04, C05 *)
Lemma c04_witness : exists e, verify_entry e = Panic.
Proof. exists [("value", VNil); ("subset_of", jarr ["a"])]. reflexivity. Qed.

Lemma c04_case : exists p : policy,
  p <> [] /\ (forall k e o v, In (k, e) p -> In (o, v) e -> v <> VNil) /\ verify_policy p = Err.
Proof.
  exists [("contacts", [("value", jarr ["a"]); ("subset_of", jarr ["b"])])]. split; [discriminate|].
  split; [|reflexivity].
  intros k e o v [H|[]] Hv. injection H as <- <-. destruct Hv as [H|[H|[]]]; injection H as <- <-; discriminate.
Qed.

Definition bad_policy : policy := [("contacts", [("one_of", jarr []); ("subset_of", jarr ["b"])])].
Lemma c05_witness : exists ps o, combine_policies ps = Ok o /\ verify_policy (pol o) = Err.
Proof. exists [Some []; Some bad_policy], (Some bad_policy). split; reflexivity. Qed.

Lemma c05_case :
  Forall (fun p => NoDup (keys (pol p)))
    [Some contacts_policy; Some [("contacts", [("superset_of", jarr ["a"])])]] /\
  pol (Some contacts_policy) <> [] /\
  exists o, combine_policies [Some contacts_policy; Some [("contacts", [("superset_of", jarr ["a"])])]] = Ok o.
Proof. split; [nodup|]. split; [discriminate|]. eexists. vm_compute. reflexivity. Qed.

(** *** C06 *)
Lemma c06_merge_drops :
  exists a b : entry, NoDup (keys a) /\ NoDup (keys b) /\
    merge_entries a b = Ok [] /\
    merge_entries (strip a) (strip b) = Ok [("value", VStr "x")].
Proof.
  exists [("foo", VBool true); ("value", VStr "x")], [("foo", VBool true); ("value", VStr "x")].
  split; [nodup|]. split; [nodup|]. split; reflexivity.
Qed.

Lemma c06_verify_rejects :
  exists a : entry, verify_entry a = Err /\ verify_entry (strip a) = Ok tt.
Proof. exists [("foo", VBool true); ("value", VStr "x")]. split; reflexivity. Qed.

Lemma c06_case :
  exists a b m : entry, NoDup (keys a) /\ NoDup (keys b) /\ shared_known a b /\ merge_entries a b = Ok m /\
    strip a <> a /\ strip m = [("subset_of", jarr ["b"])].
Proof.
  exists [("foo", VBool true); ("subset_of", jarr ["a"; "b"])], [("bar", VNil); ("subset_of", jarr ["b"])]. eexists.
  split; [nodup|]. split; [nodup|]. split.
  - intros k [<-|[<-|[]]] [H|[H|[]]]; try discriminate; reflexivity.
  - split; [reflexivity|]. split; [discriminate|reflexivity].
Qed.

(** *** C07 *)
Definition ord1 : entry := [("value", VStr "x"); ("foo", VBool true)].
Definition ord2 : entry := [("foo", VBool true); ("value", VStr "x")].
Definition ord3 : entry := [("value", VStr "y"); ("foo", VBool true)].

Lemma variant_single k e e' : order_variant e e' -> gpolicy_variant (Some [(k, e)]) (Some [(k, e')]).
Proof.
  intros H. split; [repeat constructor; simpl; tauto|]. exists [(k, e)]. split; [auto|].
  constructor; [split; auto|constructor].
Qed.

Lemma c07_witness :
  exists ps ps', Forall2 gpolicy_variant ps ps' /\ Forall (fun p => clean (pol p)) ps /\
    combine_policies ps = Err /\ exists o, combine_policies ps' = Ok o.
Proof.
  exists [Some []; Some [("k", ord1)]; Some [("k", ord3)]], [Some []; Some [("k", ord2)]; Some [("k", ord3)]].
  split; [|split; [|split; [reflexivity|eexists; vm_compute; reflexivity]]].
  - constructor; [|constructor; [|constructor; [|constructor]]].
    + split; [constructor|]. exists []. split; auto.
    + apply variant_single. split; [nodup|]. apply perm_swap.
    + apply variant_single. split; [nodup|]. auto.
  - repeat constructor; simpl; try tauto; intros k e H; try discriminate;
      destruct (String.eqb k "k"); try discriminate; injection H as <-; nodup.
Qed.

Lemma c07_case :
  exists ps ps' o, Forall (fun p => all_known (pol p)) ps /\ Forall2 gpolicy_variant ps ps' /\ ps <> ps' /\
    combine_policies ps = Ok o.
Proof.
  exists [Some [("k", [("add", jarr ["a"]); ("essential", VBool true)])]; Some [("k", [("add", jarr ["b"])])]],
         [Some [("k", [("essential", VBool true); ("add", jarr ["a"])])]; Some [("k", [("add", jarr ["b"])])]].
  eexists. split; [|split; [|split; [discriminate|vm_compute; reflexivity]]].
  - constructor; [|constructor; [|constructor]]; (split; [split; [nodup|]|]);
      intros k e H; simpl in H; destruct (String.eqb k "k"); try discriminate; injection H as <-;
      try nodup; intros o Ho; simpl in Ho; intuition (subst; reflexivity).
  - constructor; [|constructor; [|constructor]]; apply variant_single; (split; [nodup|first [reflexivity|apply perm_swap]]).
Qed.

(** *** C08, C09 *)
Lemma c08_witness :
  exists a b la lb, strs a la /\ strs b lb /\
    merge_op OValue a b = Ok a /\ merge_op OValue b a = Err.
Proof.
  exists (jarr ["a"; "a"]), (jarr ["a"; "b"]), ["a"; "a"], ["a"; "b"].
  split; [right; exists TAny, false; auto|]. split; [right; exists TAny, false; auto|]. split; reflexivity.
Qed.

Lemma c09_witness :
  exists a b la lb, strs a la /\ strs b lb /\ ~ same_elements la lb /\
    merge_op OValue a b = Ok a /\ merge_op ODefault a b = Ok a.
Proof.
  exists (jarr ["a"; "a"]), (jarr ["a"; "b"]), ["a"; "a"], ["a"; "b"].
  split; [right; exists TAny, false; auto|]. split; [right; exists TAny, false; auto|]. split; [|split; reflexivity].
  intros H. destruct (proj2 (H "b")) as [K|[K|[]]]; [simpl; auto|discriminate|discriminate].
Qed.

Lemma c08_case :
  set_op OSubsetOf /\ strs (jarr ["a"; "b"]) ["a"; "b"] /\ strs (VStr "b") ["b"] /\
  merge_op OSubsetOf (jarr ["a"; "b"]) (VStr "b") = Ok (VSlice TAny false [VStr "b"]) /\
  eq_op OValue /\ NoDup ["a"; "b"] /\ NoDup ["b"; "a"] /\
  merge_op OValue (jarr ["a"; "b"]) (jarr ["b"; "a"]) = Ok (jarr ["a"; "b"]).
Proof.
  split; [right; right; now left|]. split; [right; exists TAny, false; auto|]. split; [left; eauto|].
  split; [reflexivity|]. split; [now left|]. split; [nodup|]. split; [nodup|reflexivity].
Qed.

(** *** C10 *)
Definition essential_on (k : string) : policy := [(k, [("essential", VBool true)])].

Lemma c10_absent_passes :
  exists m m', decode_meta rp_schema [] = Ok m /\ attr_set "contacts" m = false /\
    apply_policy m (essential_on "contacts") = Ok m' /\ em_tag "contacts" m' = Some (VSlice TStr true []).
Proof. do 2 eexists. split; [vm_compute; reflexivity|]. split; [|split]; vm_compute; reflexivity. Qed.

Lemma c10_present_fails :
  exists m, decode_meta rp_schema [("require_auth_time", VBool false)] = Ok m /\
    attr_set "require_auth_time" m = true /\ apply_policy m (essential_on "require_auth_time") = Err.
Proof. eexists. split; [vm_compute; reflexivity|]. split; vm_compute; reflexivity. Qed.

Lemma c10_case :
  lookup "essential" [("default", VStr "x"); ("essential", VBool true)] = Some (VBool true) /\
  apply_to [("default", VStr "x"); ("essential", VBool true)] (VStr "") false = Ok (VStr "x") /\ there (VStr "x").
Proof. split; [reflexivity|]. split; [reflexivity|]. split; [discriminate|now right]. Qed.

(** *** C11 *)
Definition twice : policy :=
  [("contacts", [("default", jarr ["a"]); ("subset_of", jarr ["a"]); ("essential", VBool true)])].

Lemma c11_witness :
  exists m m1, decode_meta rp_schema [] = Ok m /\ apply_policy m twice = Ok m1 /\ apply_policy m1 twice = Err.
Proof. do 2 eexists. split; [vm_compute; reflexivity|]. split; vm_compute; reflexivity. Qed.

(** *** C12, C13 *)
Lemma c12_witness :
  exists m p m', decode_meta rp_schema [("my_claim", VStr "1")] = Ok m /\ lookup "my_claim" p = None /\
    extra_value m = [("my_claim", VStr "1")] /\ apply_policy m p = Ok m' /\ extra_value m' = [].
Proof.
  eexists. exists [("-", [("value", VNil)])]. eexists. split; [vm_compute; reflexivity|].
  split; [reflexivity|]. split; [vm_compute; reflexivity|]. split; vm_compute; reflexivity.
Qed.

Lemma c12_case :
  exists m m', decode_meta rp_schema rp_contacts = Ok m /\ apply_policy m contacts_policy = Ok m' /\
    lookup "client_name" contacts_policy = None /\ em_tag "client_name" m' = Some (VStr "RP") /\
    em_tag "contacts" m' <> em_tag "contacts" m.
Proof.
  do 2 eexists. split; [vm_compute; reflexivity|]. split; [vm_compute; reflexivity|].
  split; [reflexivity|]. split; [vm_compute; reflexivity|vm_compute; discriminate].
Qed.

Lemma c13_case :
  exists m, decode_meta rp_schema [] = Ok m /\
    ~ In "my_claim" (map (fun fv : frow * gval => fr_tag (fst fv)) (em_fields m)).
Proof. eexists. split; [vm_compute; reflexivity|]. cbn. intuition discriminate. Qed.

(** *** C14 *)
Lemma c14_witness :
  exists m p m', decode_meta rp_schema [("scope", VStr "openid profile email")] = Ok m /\
    p = [("scope", [("subset_of", jarr ["openid"; "profile"])])] /\
    apply_policy m p = Ok m' /\ em_tag "scope" m' = Some (VStr "").
Proof.
  do 3 eexists. split; [vm_compute; reflexivity|]. split; [reflexivity|]. split; vm_compute; reflexivity.
Qed.

(** *** C18 *)
Definition logo_default : policy := [("logo_uri", [("default", VStr "https://ta.example/logo.png")])].

Lemma c18_witness :
  exists m m1 m2, decode_meta rp_schema [] = Ok m /\
    apply_policy m logo_default = Ok m1 /\ apply_policy (msgpack_roundtrip m) logo_default = Ok m2 /\
    em_tag "logo_uri" m1 = Some (VStr "https://ta.example/logo.png") /\ em_tag "logo_uri" m2 = Some (VStr "").
Proof.
  do 3 eexists. split; [vm_compute; reflexivity|]. split; [vm_compute; reflexivity|].
  split; [vm_compute; reflexivity|]. split; vm_compute; reflexivity.
Qed.

(** *** Chains: C15, C16, C32-C34 *)
Definition bare (iss sub : string) : stmt :=
  Stmt (iss ++ ">" ++ sub) iss sub 0%Z 1000%Z None [] None None None [] [] [] [] [].
Definition with_rp (s : stmt) (m : emeta) : stmt :=
  Stmt (st_jwt s) (st_iss s) (st_sub s) (st_iat s) (st_exp s) (st_jwks s) (st_hints s)
       (Some (Metadata None (Some m) None None None None []))
       (st_policy s) (st_constraints s) (st_crit s) (st_policy_crit s) (st_marks s) (st_mark_issuers s) (st_mark_owners s).
Definition with_policy (s : stmt) (p : policy) (crit : list string) : stmt :=
  Stmt (st_jwt s) (st_iss s) (st_sub s) (st_iat s) (st_exp s) (st_jwks s) (st_hints s) (st_metadata s)
       (Some (Policies None (Some p) None None None None []))
       (st_constraints s) (st_crit s) crit (st_marks s) (st_mark_issuers s) (st_mark_owners s).
Definition rp_meta : emeta := match decode_meta rp_schema rp_contacts with Ok m => m | _ => zero_meta rp_schema end.
Definition leaf_st : stmt := with_rp (bare "rp" "rp") rp_meta.
Definition sup_policy (crit : list string) : stmt := with_policy (bare "ta" "rp") contacts_policy crit.

Lemma c15_witness :
  exists c md, chain_metadata c = Ok md /\ ~ crit_supported c.
Proof.
  exists [with_policy leaf_st contacts_policy ["regexp"]]. eexists. split; [reflexivity|].
  intros H. specialize (H _ "regexp" (or_introl eq_refl) (or_introl eq_refl)). discriminate.
Qed.

Lemma c15_case :
  2 <= List.length [leaf_st; sup_policy ["regexp"]] /\ ~ crit_supported [leaf_st; sup_policy ["regexp"]] /\
  crit_supported [leaf_st; sup_policy ["subset_of"]] /\
  exists md, chain_metadata [leaf_st; sup_policy ["subset_of"]] = Ok md.
Proof.
  split; [simpl; lia|]. split; [|split].
  - intros H. specialize (H _ "regexp" (or_intror (or_introl eq_refl)) (or_introl eq_refl)). discriminate.
  - intros s o [<-|[<-|[]]]; cbn; [intros []|intros [<-|[]]; reflexivity].
  - eexists. vm_compute. reflexivity.
Qed.

Lemma c16_case :
  exists m em, chain_metadata [leaf_st; sup_policy []; bare "ta" "ta"] = Ok (Some m) /\ md_rp m = Some em /\
    em_tag "contacts" em = Some (VSlice TStr false [VStr "admin@rp.example"; VStr "ops@ta.example"]).
Proof. do 2 eexists. split; [vm_compute; reflexivity|]. split; vm_compute; reflexivity. Qed.

Definition scored (n : nat) : chain := repeat (bare "a" "b") n.
Definition score_len (c : chain) : Z := Z.of_nat (List.length c).

Lemma c34_witness : exists cs, ~ sorted_by score_len (sort_asc score_len cs).
Proof.
  exists [scored 2; scored 3; scored 1]. intros H. specialize (H 0 1 [] ltac:(lia)).
  vm_compute in H. specialize (H ltac:(lia)). congruence.
Qed.

Lemma c34_witness_desc : exists cs, ~ sorted_by (fun c => (- score_len c)%Z) (sort_desc score_len cs).
Proof.
  exists [scored 2; scored 1; scored 3]. intros H. specialize (H 0 1 [] ltac:(lia)).
  vm_compute in H. specialize (H ltac:(lia)). congruence.
Qed.

Lemma c34_witnesses :
  (exists cs, ~ sorted_by score_len (sort_asc score_len cs)) /\
  (exists cs, ~ sorted_by (fun c => (- score_len c)%Z) (sort_desc score_len cs)).
Proof. split; [exact c34_witness|exact c34_witness_desc]. Qed.

Lemma c34_case : sort_asc score_len [scored 3; scored 1] = [scored 1; scored 3] /\
  sorted_by score_len [scored 1; scored 2; scored 3].
Proof.
  split; [reflexivity|]. intros i j d Hi Hj. simpl in Hj.
  destruct i as [|[|i]], j as [|[|[|j]]]; try lia; vm_compute; discriminate.
Qed.

Lemma c33_case :
  filter_min_path_len [scored 5; scored 4; scored 6; scored 4] = [scored 4; scored 4] /\
  filter_max_path_len 2 [scored 5; scored 4; scored 6] = [scored 5; scored 4] /\
  (forall f, In f [filter_min_path_len; filter_anchor "a"] -> f [] = []).
Proof. split; [reflexivity|]. split; [reflexivity|]. intros f [<-|[<-|[]]]; reflexivity. Qed.

Lemma c32_case : [bare "a" "b"] <> [] /\ expires_at [bare "a" "b"] = 1000%Z.
Proof. split; [discriminate|reflexivity]. Qed.

Lemma c09_case :
  eq_op OValue /\ NoDup ["a"; "b"] /\ NoDup ["b"; "a"] /\
  merge_op OValue (jarr ["a"; "b"]) (jarr ["b"; "a"]) = Ok (jarr ["a"; "b"]) /\
  merge_op OValue (jarr ["a"; "b"]) (jarr ["b"; "c"]) = Err.
Proof. split; [now left|]. split; [nodup|]. split; [nodup|]. split; reflexivity. Qed.

Lemma c11_case :
  denotes x_sup xs_sup /\ list_operands x_sup /\ opt (se_add xs_sup) (@NoDup string) /\
  apply_to x_sup x_val true = Ok (VSlice TStr false [VStr "a"; VStr "b"]).
Proof. destruct c02_case as (A & B & C & _). repeat (split; auto). Qed.

Lemma c14_case :
  denotes x_sup xs_sup /\ list_operands x_sup /\ se_one_of xs_sup = None /\
  spec_apply xs_sup (Some ["a"]) = Ok (Some ["a"; "b"]).
Proof. destruct c02_case as (A & B & C & _). repeat (split; auto). Qed.

Lemma c18_case :
  exists m, decode_meta rp_schema rp_contacts = Ok m /\
    (forall r, In r rp_schema -> scalar (fr_ty r) = true -> lookup (fr_tag r) contacts_policy <> None ->
       exists j, lookup (fr_tag r) rp_contacts = Some j /\ j <> VNil).
Proof.
  eexists. split; [vm_compute; reflexivity|]. intros r Hr Hs Hl. exfalso.
  unfold contacts_policy in Hl. cbn [lookup] in Hl.
  destruct (String.eqb_spec (fr_tag r) "contacts") as [E|E]; [|congruence].
  unfold rp_schema in Hr. cbn [In] in Hr.
  repeat (destruct Hr as [<-|Hr]; [cbn in *; discriminate|]). destruct Hr.
Qed.

Lemma c18_alias : exists m p m1 m2,
  decode_meta op_schema [("scopes_supported", jarr ["openid"; "email"])] = Ok m /\
  apply_policy m p = Ok m1 /\ apply_policy (msgpack_roundtrip_alias m) p = Ok m2 /\
  em_tag "scopes_supported" m1 = Some (VSlice TStr false [VStr "openid"]) /\
  em_tag "scopes_supported" m2 = Some (VSlice TStr false [VStr "openid"; VStr "email"]).
Proof.
  eexists. exists [("scopes_supported", [("subset_of", jarr ["openid"])])]. do 2 eexists.
  split; [vm_compute; reflexivity|]. split; [vm_compute; reflexivity|]. split; [vm_compute; reflexivity|].
  split; vm_compute; reflexivity.
Qed.

(** A chain with two superiors' policies on the same attribute. *)
Definition emails_policy : policy :=
  [("contacts", [("superset_of", jarr ["admin@rp.example"]); ("add", jarr ["noc@ta.example"])])].
Definition chain3 : chain :=
  [leaf_st; with_policy (bare "ia" "rp") contacts_policy []; with_policy (bare "ta" "ia") emails_policy []; bare "ta" "ta"].
Definition s_contacts : sentry := SEntry None (Some ["ops@ta.example"]) None None None None None.
Definition xs_emails : sentry :=
  SEntry None (Some ["noc@ta.example"]) None None None (Some ["admin@rp.example"]) None.

Lemma c01_chain_case :
  exists md em, chain_metadata chain3 = Ok (Some md) /\ In (md_rp, mp_rp) entity_types /\
    Forall2 (policy_denotes "contacts") (policies_of mp_rp chain3) [Some s_contacts; Some xs_emails] /\
    Forall (fun p => verify_policy (pol p) = Ok tt) (policies_of mp_rp chain3) /\
    md_rp (leaf_metadata chain3) = Some em /\
    find (fun fv : frow * gval => String.eqb "contacts" (fr_tag (fst fv))) (em_fields em)
      = Some (FRow "Contacts" "contacts" true (TSlice TStr), VSlice TStr false [VStr "admin@rp.example"]).
Proof.
  do 2 eexists. split; [vm_compute; reflexivity|]. split; [right; now left|]. split; [|split].
  - assert (D1 : denotes [("add", jarr ["ops@ta.example"])] s_contacts).
    { constructor; try reflexivity; [nodup|known_keys|]. simpl. op_str. }
    assert (D2 : denotes [("superset_of", jarr ["admin@rp.example"]); ("add", jarr ["noc@ta.example"])] xs_emails).
    { constructor; try reflexivity; [nodup|known_keys| |]; simpl; op_str. }
    change (policies_of mp_rp chain3) with [Some contacts_policy; Some emails_policy].
    constructor; [|constructor; [|constructor]]; (split; [nodup|]); simpl; split; auto; exact I.
  - change (policies_of mp_rp chain3) with [Some contacts_policy; Some emails_policy]. repeat constructor.
  - split; [reflexivity|]. vm_compute. reflexivity.
Qed.
